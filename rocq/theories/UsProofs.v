(** Proofs for the UltraScale descriptor codecs. *)
From Coq Require Import ZifyBool ZifyNat.
From Verif Require Import PyBase BitLemmas TlpModel TlpSpec TlpProofs UsModel UsSpec.
Ltac Zify.zify_post_hook ::= Z.div_mod_to_equations.

Lemma lor_sum a b n m : m = 2^n -> 0 <= n -> 0 <= a < m -> Z.lor a (Z.shiftl b n) = a + b * m.
Proof. intros -> Hn Ha. now apply lor_add_disjoint. Qed.
Lemma land_div x k m n : n = 2^m - 1 -> 0 <= m -> 0 <= k -> Z.land (Z.shiftr x k) n = x / 2^k mod 2^m.
Proof. intros -> Hm Hk. rewrite land_low_mod by lia. now rewrite Z.shiftr_div_pow2 by lia. Qed.
Lemma land_lo x m n : n = 2^m - 1 -> 0 <= m -> Z.land x n = x mod 2^m.
Proof. intros -> Hm. now rewrite land_low_mod. Qed.
Lemma land_small x m n : n = 2^m - 1 -> 0 <= m -> 0 <= x < 2^m -> Z.land x n = x.
Proof. intros -> Hm Hx. rewrite land_low_mod by lia. apply Z.mod_small. lia. Qed.

Lemma zlist_eqb_refl l : zlist_eqb l l = true.
Proof. induction l; cbn; [reflexivity|]. now rewrite Z.eqb_refl. Qed.
Lemma zlist_eqb_eq a : forall b, zlist_eqb a b = true <-> a = b.
Proof.
  induction a as [|x a IH]; intros [|y b]; cbn; try (split; [discriminate|discriminate]); try tauto.
  rewrite andb_true_iff, Z.eqb_eq, IH. split; [intros [-> ->]; reflexivity|intros [= -> ->]; auto].
Qed.
Lemma parity_ok data be fb lb dis sq : check_parity (mkFrame data be (parity_of data) fb lb dis sq) = true.
Proof. unfold check_parity. cbn. apply zlist_eqb_refl. Qed.

Lemma idv_range i : id_ok i -> 0 <= idv i < 65536.
Proof. unfold id_ok, idv. lia. Qed.
Lemma id_int_idv i : id_ok i -> id_to_int i = idv i.
Proof. intros H. now rewrite id_to_int_eq. Qed.
Lemma id_from_idv v i : id_ok i -> v mod 65536 = idv i -> id_from_int v = i.
Proof.
  intros (H1 & H2 & H3) H. rewrite id_from_int_eq. destruct i as [b d f]. unfold idv in H. cbn in *. f_equal; lia.
Qed.

Lemma addr_lo a : a mod 4 = 0 -> Z.land a 0xfffffffc = a mod 2^32.
Proof.
  intros H. change 0xfffffffc with (Z.ldiff (2^32 - 1) 3). rewrite Z.ldiff_land, Z.land_assoc, land_low_mod by lia.
  change (Z.lnot 3) with (Z.lnot (2^2 - 1)). rewrite land_lnot_low by lia. change (2^2) with 4. change (2^32) with 4294967296. lia.
Qed.
Lemma addr_lo' a : Z.land a 0xfffffffc = a mod 2^32 - a mod 4.
Proof.
  change 0xfffffffc with (Z.ldiff (2^32 - 1) 3). rewrite Z.ldiff_land, Z.land_assoc, land_low_mod by lia.
  change (Z.lnot 3) with (Z.lnot (2^2 - 1)). rewrite land_lnot_low by lia. change (2^2) with 4. change (2^32) with 4294967296. lia.
Qed.
Lemma addr_hi a : 0 <= a < 2^64 -> Z.shiftr (Z.land a 0xffffffff00000000) 32 = a / 2^32.
Proof.
  intros H. rewrite Z.shiftr_land. change (Z.shiftr 0xffffffff00000000 32) with (2^32 - 1).
  rewrite land_low_mod by lia. rewrite Z.shiftr_div_pow2 by lia. apply Z.mod_small.
  change (2^64) with 18446744073709551616 in H. change (2^32) with 4294967296. lia.
Qed.
Lemma lor_at at_ a : 0 <= at_ < 4 -> a mod 4 = 0 -> 0 <= a -> Z.lor at_ a = at_ + a.
Proof.
  intros H1 H2 H3. replace a with (Z.shiftl (a / 4) 2) by (rewrite Z.shiftl_mul_pow2 by lia; change (2^2) with 4; lia).
  rewrite (lor_sum _ _ 2 4) by lia. rewrite Z.shiftl_mul_pow2 by lia. reflexivity.
Qed.
Lemma addr_join w1 w0 : 0 <= w0 < 2^32 -> 0 <= w1 -> Z.lor (Z.shiftl w1 32) w0 = w1 * 2^32 + w0.
Proof. intros. rewrite Z.lor_comm, (lor_sum _ _ 32 (2^32)) by lia. lia. Qed.

(** Request descriptors. *)
Definition req_w2 (t : tlp) : Z := t_length t + us_req_code (t_fmt_type t) * 2^11 + idv (t_requester_id t) * 2^16.

Lemma in_mem_types t : In (t_fmt_type t) us_mem_types ->
  ft_in (t_fmt_type t) ft_mem_io = true /\ req_type_of (t_fmt_type t) = us_req_code (t_fmt_type t) /\
  0 <= us_req_code (t_fmt_type t) < 4 /\ 0 <= t_fmt t < 4 /\ (t_type t = 0 \/ t_type t = 2) /\
  ft_of_req (us_req_code (t_fmt_type t)) = Some (t_fmt t / 2 * 2, t_type t) /\ (t_type t = 2 -> t_fmt t = 0 \/ t_fmt t = 2).
Proof.
  unfold t_fmt_type. intros H. set (f := t_fmt t) in *. set (y := t_type t) in *. clearbody f y. cbn [In us_mem_types] in H.
  repeat (destruct H as [H|H]; [injection H as <- <-; vm_compute; repeat split; try reflexivity; try discriminate; auto|]). contradiction.
Qed.
Lemma in_cfg_types t : In (t_fmt_type t) us_cfg_types ->
  ft_in (t_fmt_type t) ft_mem_io = false /\ ft_in (t_fmt_type t) (ft_mem_io ++ ft_cfg_us) = true /\
  req_type_of (t_fmt_type t) = us_req_code (t_fmt_type t) /\
  8 <= us_req_code (t_fmt_type t) < 12 /\ ((t_type t =? 4) || (t_type t =? 5)) = true /\
  ft_of_req_rq (us_req_code (t_fmt_type t)) = Some (t_fmt_type t).
Proof.
  unfold t_fmt_type. intros H. set (f := t_fmt t) in *. set (y := t_type t) in *. clearbody f y. cbn [In us_cfg_types] in H.
  repeat (destruct H as [H|H]; [injection H as <- <-; vm_compute; repeat split; try reflexivity; try discriminate; auto|]). contradiction.
Qed.

Lemma w2_eq t : us_common t -> 0 <= us_req_code (t_fmt_type t) < 16 -> req_type_of (t_fmt_type t) = us_req_code (t_fmt_type t) ->
  Z.lor (Z.lor (Z.land (t_length t) 0x7ff) (Z.shiftl (req_type_of (t_fmt_type t)) 11)) (Z.shiftl (id_to_int (t_requester_id t)) 16) = req_w2 t.
Proof.
  intros (_ & _ & _ & Hid & HL) HC HR. rewrite HR, (id_int_idv _ Hid). rewrite (land_small _ 11) by lia.
  rewrite (lor_sum _ _ 11 2048) by lia. rewrite (lor_sum _ _ 16 65536) by lia. unfold req_w2. lia.
Qed.
Lemma w2_fields t : us_common t -> 0 <= us_req_code (t_fmt_type t) < 16 ->
  Z.land (Z.shiftr (req_w2 t) 11) 15 = us_req_code (t_fmt_type t) /\ Z.land (req_w2 t) 0x7ff = t_length t /\
  id_from_int (Z.shiftr (req_w2 t) 16) = t_requester_id t.
Proof.
  intros (_ & _ & _ & Hid & HL) HC. pose proof (idv_range _ Hid). unfold req_w2.
  rewrite (land_div _ 11 4), (land_lo _ 11) by lia. pow_norm. repeat split; try lia.
  apply id_from_idv; [assumption|]. rewrite Z.shiftr_div_pow2 by lia. pow_norm. lia.
Qed.

(** Parity. *)
Lemma xor_bit_val a b c d e f g h :
  (bit a + (bit b + (bit c + (bit d + (bit e + (bit f + (bit g + bit h)))))) +
   bit (xorb (xorb (xorb (xorb a e) (xorb c g)) (xorb (xorb b f) (xorb d h))) true)) mod 2 = 1.
Proof. destruct a, b, c, d, e, f, g, h; reflexivity. Qed.

Lemma parity_bit d i : 0 <= i < 4 -> Z.testbit (dword_parity d) i =
  xorb (xorb (xorb (Z.testbit d (8*i)) (Z.testbit d (8*i+4))) (xorb (Z.testbit d (8*i+2)) (Z.testbit d (8*i+6))))
       (xorb (xorb (Z.testbit d (8*i+1)) (Z.testbit d (8*i+5))) (xorb (Z.testbit d (8*i+3)) (Z.testbit d (8*i+7)))).
Proof.
  intros Hi. unfold dword_parity. cbv zeta.
  change 0x100 with (2^8). change 0x10000 with (2^16). change 0x1000000 with (2^24). change 0x1 with (2^0).
  rewrite !Z.lor_spec, !Z.shiftr_spec, !Z.land_spec, !Z.pow2_bits_eqb by lia.
  rewrite !Z.lxor_spec, !Z.shiftr_spec, !Z.lxor_spec, !Z.shiftr_spec, !Z.lxor_spec, !Z.shiftr_spec by lia.
  sweep4 i; cbn [Z.add Z.mul Z.eqb Pos.add Pos.mul Pos.eqb Pos.succ]; rewrite ?andb_false_r, ?andb_true_r, ?orb_false_r; cbn [orb]; reflexivity.
Qed.
Lemma dword_parity_range d : 0 <= dword_parity d < 16.
Proof.
  unfold dword_parity. cbv zeta. set (x := Z.lxor _ (Z.shiftr _ 1)). clearbody x.
  assert (H : forall k q, 0 <= q <= k -> k - q < 4 -> 0 <= Z.shiftr (Z.land x (2^k)) q < 16).
  { intros k q Hq Hk. rewrite Z.shiftr_land, (Z.shiftr_div_pow2 (2^k)) by lia. rewrite <- Z.pow_sub_r by lia.
    assert (E : Z.land (Z.shiftr x q) (2 ^ (k - q)) = if Z.testbit (Z.shiftr x q) (k - q) then 2^(k-q) else 0).
    { apply Z.bits_inj'. intros n Hn. rewrite Z.land_spec, Z.pow2_bits_eqb by lia.
      destruct (Z.testbit (Z.shiftr x q) (k - q)) eqn:E; rewrite ?Z.pow2_bits_eqb, ?Z.bits_0 by lia.
      - destruct (k - q =? n) eqn:E2; [|now rewrite andb_false_r]. replace n with (k - q) by lia. now rewrite E.
      - destruct (k - q =? n) eqn:E2; [|now rewrite andb_false_r]. replace n with (k - q) by lia. now rewrite E. }
    rewrite E. pose proof (Z.pow_lt_mono_r 2 (k-q) 4 ltac:(lia) ltac:(lia) ltac:(lia)). pose proof (Z.pow_nonneg 2 (k-q) ltac:(lia)).
    change (2^4) with 16 in *. destruct (Z.testbit _ _); lia. }
  apply (lor_range _ _ 4); [lia| |apply (H 24 21); lia]. apply (lor_range _ _ 4); [lia| |apply (H 16 14); lia].
  apply (lor_range _ _ 4); [lia| |apply (H 8 7); lia]. specialize (H 0 0 ltac:(lia) ltac:(lia)). now rewrite Z.shiftr_0_r in H.
Qed.
Lemma odd_parity_ok d : odd_parity d (Z.lxor (dword_parity d) 0xf).
Proof.
  pose proof (dword_parity_range d) as HR. split.
  - set (p := dword_parity d) in *. clearbody p.
    assert (E : Z.lxor p 15 = Z.land (Z.lxor p 15) (Z.ones 4)).
    { apply Z.bits_inj'. intros n Hn. rewrite Z.land_spec, Z.testbit_ones_nonneg by lia.
      destruct (n <? 4) eqn:E; [now rewrite andb_true_r|]. rewrite andb_false_r, Z.lxor_spec.
      change 15 with (Z.ones 4). rewrite Z.testbit_ones_nonneg, E by lia. rewrite (testbit_high p 4 n) by lia. reflexivity. }
    rewrite E. pose proof (land_ones_range (Z.lxor p 15) 4). cbn in *. lia.
  - intros i Hi. rewrite Z.lxor_spec, parity_bit by assumption.
    replace (Z.testbit 15 i) with true by (sweep4 i; reflexivity).
    unfold byte_ones. cbn [seq fold_right Z.of_nat Pos.of_succ_nat Pos.succ]. rewrite !Z.add_0_r. apply xor_bit_val.
Qed.
Lemma parity_list_ok l : Forall2 odd_parity l (parity_of l).
Proof. unfold parity_of. induction l; cbn [map]; constructor; [apply odd_parity_ok|assumption]. Qed.

(** Byte enable lists. *)
Lemma map_seq_ext {A} (f g : nat -> A) a n : (forall i, (a <= i < a + n)%nat -> f i = g i) -> map f (seq a n) = map g (seq a n).
Proof. intros H. apply map_ext_in. intros i Hi. apply in_seq in Hi. apply H. lia. Qed.
Lemma map_const_seq {A} (x : A) a n : map (fun _ => x) (seq a n) = repeat x n.
Proof. revert a. induction n; intros; cbn; [reflexivity|]. now rewrite IHn. Qed.
Lemma be_list_eq lead first last n : 0 <= lead -> be_list lead first last (Z.of_nat n) = zeros lead ++ req_be first last n.
Proof.
  intros Hl. unfold be_list, req_be. f_equal. destruct n as [|[|m]]; [reflexivity|reflexivity|].
  replace (Z.of_nat (S (S m)) >=? 1) with true by lia. replace (Z.of_nat (S (S m)) >? 1) with true by lia.
  assert (ES : seq 0 (S (S m)) = 0%nat :: seq 1 m ++ [S m]).
  { replace (S (S m)) with (1 + (m + 1))%nat at 1 by lia. rewrite seq_app, seq_app. reflexivity. }
  rewrite ES. cbn [map app]. rewrite map_app. cbn [map app Nat.eqb]. f_equal.
  f_equal.
  - rewrite (map_seq_ext _ (fun _ => 15)), map_const_seq.
    + replace (Z.to_nat (Z.of_nat (S (S m)) - 2)) with m by lia. destruct m; [reflexivity|]. replace (Z.of_nat (S (S (S m))) >? 2) with true by lia. reflexivity.
    + intros i Hi. replace (i =? 0)%nat with false by lia. replace (i =? S (S m) - 1)%nat with false by lia. reflexivity.
  - replace (m =? m - 0)%nat with true by lia. f_equal. cbn [Nat.sub]. now rewrite Nat.eqb_refl.
Qed.

(** CQ. *)
Ltac norm_words := cbn [word fold_right fst snd]; pow_norm.

Lemma cq_pack u : us_cq_ok u ->
  pack_us_cq u = Ok (mkFrame (cq_words u ++ t_data (u_tlp u))
    (zeros 4 ++ req_be (t_first_be (u_tlp u)) (t_last_be (u_tlp u)) (length (t_data (u_tlp u))))
    (parity_of (cq_words u ++ t_data (u_tlp u))) (t_first_be (u_tlp u)) (t_last_be (u_tlp u)) (u_discontinue u) 0).
Proof.
  destruct u as [t bi ba ce re ds sn ec]. unfold us_cq_ok, us_mem_ok. cbn [u_tlp u_bar_id u_bar_aperture].
  intros ((HC & Hin & Hat & Ha & Ham & _) & Hf & Hb & Hba). unfold pack_us_cq. cbn [u_tlp u_bar_id u_bar_aperture u_discontinue].
  destruct (in_mem_types t Hin) as (-> & HR & HRC & _). cbv zeta. rewrite w2_eq by (try assumption; lia).
  pose proof HC as (Hattr & Htc & Htag & Hid & HL).
  unfold zlen. rewrite be_list_eq by lia.
  assert (E : [Z.lor (Z.land (t_at t) 3) (Z.land (t_address t) 4294967292); Z.shiftr (Z.land (t_address t) 18446744069414584320) 32; req_w2 t;
    Z.lor (Z.lor (Z.lor (Z.lor (Z.lor (Z.land (t_tag t) 255) (Z.shiftl (Z.land (id_function (t_completer_id t)) 255) 8))
      (Z.shiftl (Z.land bi 7) 16)) (Z.shiftl (Z.land ba 63) 19)) (Z.shiftl (Z.land (t_tc t) 7) 25)) (Z.shiftl (Z.land (t_attr t) 7) 28)] =
    cq_words (mkUs t bi ba ce re ds sn ec)).
  { unfold cq_words. cbn [u_tlp u_bar_id u_bar_aperture]. rewrite addr_hi by assumption. rewrite addr_lo by assumption.
    rewrite (land_small (t_at t) 2), (land_small (t_tag t) 8), (land_small (id_function (t_completer_id t)) 8), (land_small bi 3),
      (land_small ba 6), (land_small (t_tc t) 3), (land_small (t_attr t) 3) by (pow_norm; lia).
    rewrite (lor_sum _ _ 8 256), (lor_sum _ _ 16 65536), (lor_sum _ _ 19 524288), (lor_sum _ _ 25 33554432), (lor_sum _ _ 28 268435456) by lia.
    rewrite lor_at by (pow_norm; lia). unfold req_w2. norm_words. f_equal; [lia|]. f_equal; [lia|]. f_equal; [lia|]. f_equal; lia. }
  rewrite E. reflexivity.
Qed.

Lemma cq_word_fields u : us_cq_ok u -> let t := u_tlp u in
  match cq_words u with
  | [w0; w1; w2; w3] =>
    w2 = req_w2 t /\ Z.land w0 3 = t_at t /\ Z.lor (Z.shiftl w1 32) (Z.land w0 0xfffffffc) = t_address t /\
    Z.land w3 255 = t_tag t /\ Z.land (Z.shiftr w3 25) 7 = t_tc t /\ Z.land (Z.shiftr w3 28) 7 = t_attr t /\
    Z.land (Z.shiftr w3 8) 255 = id_function (t_completer_id t) /\ Z.land (Z.shiftr w3 16) 7 = u_bar_id u /\
    Z.land (Z.shiftr w3 19) 63 = u_bar_aperture u
  | _ => False
  end.
Proof.
  destruct u as [t bi ba ce re ds sn ec]. unfold us_cq_ok, us_mem_ok. cbn [u_tlp u_bar_id u_bar_aperture].
  intros ((HC & Hin & Hat & Ha & Ham & _) & Hf & Hb & Hba). unfold cq_words. cbn [u_tlp u_bar_id u_bar_aperture]. cbv zeta iota.
  destruct HC as (Hattr & Htc & Htag & Hid & HL).
  rewrite !(land_div _ 25 3), !(land_div _ 28 3), !(land_div _ 8 8), !(land_div _ 16 3), !(land_div _ 19 6), !(land_lo _ 2 3), !(land_lo _ 8 255) by lia.
  rewrite addr_lo'. unfold req_w2. norm_words. change (2^64) with 18446744073709551616 in Ha. change (2^32) with 4294967296 in *.
  rewrite addr_join; change (2^32) with 4294967296; [repeat split; lia|lia|lia].
Qed.

Lemma fix_fmt_eq f y tc th td ep at_ ttr len cid st bcm bc rid did tag fb lb la a reg d : f = 0 \/ f = 2 ->
  fix_fmt (mkTlp f y tc th td ep ttr at_ len cid st bcm bc rid did tag fb lb la a reg d) =
  mkTlp (if 2^32 <=? a then f + 1 else f) y tc th td ep ttr at_ len cid st bcm bc rid did tag fb lb la a reg d.
Proof.
  intros H. unfold fix_fmt. tlp_simp. change (2^32) with 4294967296.
  destruct (a >? 4294967295) eqn:E.
  - replace (4294967296 <=? a) with true by lia. destruct H as [->| ->]; reflexivity.
  - replace (4294967296 <=? a) with false by lia. reflexivity.
Qed.

Lemma wide_eq t : 0 <= t_fmt t < 4 -> (if 2^32 <=? t_address t then t_fmt t / 2 * 2 + 1 else t_fmt t / 2 * 2) = wide_fmt t.
Proof. reflexivity. Qed.

Ltac idx := unfold py_index; cbn [Z.ltb Z.compare Z.to_nat]; change (Pos.to_nat 1) with 1%nat; change (Pos.to_nat 2) with 2%nat;
  change (Pos.to_nat 3) with 3%nat; cbn [nth_error app].

Ltac abs_tlp t := set (x_fmt := t_fmt t) in *; set (x_type := t_type t) in *; set (x_tc := t_tc t) in *; set (x_attr := t_attr t) in *;
  set (x_at := t_at t) in *; set (x_len := t_length t) in *; set (x_cid := t_completer_id t) in *; set (x_st := t_status t) in *;
  set (x_bc := t_byte_count t) in *; set (x_rid := t_requester_id t) in *; set (x_tag := t_tag t) in *; set (x_fb := t_first_be t) in *;
  set (x_lb := t_last_be t) in *; set (x_la := t_lower_address t) in *; set (x_a := t_address t) in *; set (x_reg := t_register_number t) in *;
  set (x_d := t_data t) in *.
Ltac tlp_cbv := unfold us0; tlp_simp; cbv beta iota delta [u_tlp u_completer_id_enable u_requester_id_enable u_seq_num u_error_code u_bar_id u_bar_aperture]; tlp_simp.

Lemma cq_unpack u f check : us_cq_ok u ->
  f_data f = cq_words u ++ t_data (u_tlp u) ->
  f_byte_en f = zeros 4 ++ req_be (t_first_be (u_tlp u)) (t_last_be (u_tlp u)) (length (t_data (u_tlp u))) ->
  f_first_be f = t_first_be (u_tlp u) -> f_last_be f = t_last_be (u_tlp u) -> f_discontinue f = u_discontinue u ->
  (check = true -> check_parity f = true) ->
  unpack_us_cq us0 f check = Ok (carried_cq u).
Proof.
  intros Hok Hd Hb Hfb Hlb Hds Hp. pose proof (cq_word_fields u Hok) as HF. cbv zeta in HF.
  destruct Hok as ((HC & Hin & Hat & Ha & Ham & _) & _).
  destruct (in_mem_types _ Hin) as (_ & HR & HRC & HFM & _ & HFT & _).
  pose proof (w2_fields _ HC ltac:(lia)) as (F1 & F2 & F3).
  set (ws := cq_words u) in *. assert (EW : exists w0 w1 w2 w3, ws = [w0; w1; w2; w3]) by (repeat eexists).
  destruct EW as (w0 & w1 & w2 & w3 & EW). rewrite EW in *. clearbody ws. clear ws EW.
  destruct HF as (-> & G1 & G2 & G3 & G4 & G5 & G6 & G7 & G8).
  unfold unpack_us_cq. rewrite Hd. idx. cbn [bind]. rewrite F1, HFT. idx. cbn [bind].
  rewrite F2, F3, G1, G2, G3, G4, G5, G6, G7, G8, Hfb, Hlb, Hds. abs_tlp (u_tlp u).
  set (x_bi := u_bar_id u) in *. set (x_ba := u_bar_aperture u) in *. tlp_cbv.
  rewrite fix_fmt_eq by (clear - HFM; lia).
  tlp_cbv. cbn [skipn]. unfold zlen. rewrite be_list_eq, Hb, zlist_eqb_refl by lia. cbn [negb].
  replace (check && negb (check_parity f)) with false by (destruct check; [now rewrite Hp|reflexivity]).
  cbn [u_completer_id_enable u_requester_id_enable u_seq_num u_error_code]. reflexivity.
Qed.

(** RQ. *)
Lemma bit_range b : 0 <= bit b <= 1.
Proof. destruct b; cbn; lia. Qed.
Lemma bit_flag b k : (if b : bool then Z.shiftl 1 k else 0) = Z.shiftl (bit b) k.
Proof. destruct b; cbn [bit]; [reflexivity|now rewrite Z.shiftl_0_l]. Qed.
Lemma bit_nz b : negb (bit b =? 0) = b.
Proof. destruct b; reflexivity. Qed.

Lemma w3_eq tag i (en : bool) tc attr : 0 <= tag < 256 -> id_ok i -> 0 <= tc < 8 -> 0 <= attr < 8 ->
  Z.lor (Z.lor (Z.lor (Z.lor (Z.land tag 255) (Z.shiftl (id_to_int i) 8)) (if en then Z.shiftl 1 24 else 0))
     (Z.shiftl (Z.land tc 7) 25)) (Z.shiftl (Z.land attr 7) 28) =
  word [(0, tag); (8, idv i); (24, bit en); (25, tc); (28, attr)].
Proof.
  intros H1 Hi H2 H3. rewrite (id_int_idv _ Hi), bit_flag. pose proof (idv_range _ Hi). pose proof (bit_range en).
  rewrite (land_small tag 8), (land_small tc 3), (land_small attr 3) by (pow_norm; lia).
  rewrite (lor_sum _ _ 8 256), (lor_sum _ _ 24 16777216), (lor_sum _ _ 25 33554432), (lor_sum _ _ 28 268435456) by lia.
  norm_words. lia.
Qed.
Lemma w3_fields tag i (en : bool) tc attr : 0 <= tag < 256 -> id_ok i -> 0 <= tc < 8 -> 0 <= attr < 8 ->
  let w := word [(0, tag); (8, idv i); (24, bit en); (25, tc); (28, attr)] in
  Z.land w 255 = tag /\ Z.land (Z.shiftr w 25) 7 = tc /\ Z.land (Z.shiftr w 28) 7 = attr /\ id_from_int (Z.shiftr w 8) = i /\
  negb (Z.land (Z.shiftr w 24) 1 =? 0) = en.
Proof.
  intros H1 Hi H2 H3. pose proof (idv_range _ Hi). pose proof (bit_range en). cbv zeta.
  rewrite (land_div _ 25 3), (land_div _ 28 3), (land_div _ 24 1), (land_lo _ 8 255) by lia.
  assert (E : word [(0, tag); (8, idv i); (24, bit en); (25, tc); (28, attr)] / 2 ^ 24 mod 2 ^ 1 = bit en) by (norm_words; lia).
  rewrite E, bit_nz. norm_words. repeat split; try lia.
  apply id_from_idv; [assumption|]. rewrite Z.shiftr_div_pow2 by lia. pow_norm. lia.
Qed.

Lemma rq_pack u : us_rq_ok u ->
  pack_us_rq u = Ok (mkFrame (rq_words u ++ t_data (u_tlp u)) [] (parity_of (rq_words u ++ t_data (u_tlp u)))
    (t_first_be (u_tlp u)) (t_last_be (u_tlp u)) (u_discontinue u) (u_seq_num u)).
Proof.
  destruct u as [t bi ba ce re ds sn ec]. unfold us_rq_ok. cbn [u_tlp]. intros (Hcid & HM). unfold pack_us_rq.
  cbn [u_tlp u_discontinue u_seq_num u_requester_id_enable].
  assert (E : ft_in (t_fmt_type t) (ft_mem_io ++ ft_cfg_us) = true /\
    (let '(w0, w1) := if ft_in (t_fmt_type t) ft_mem_io
       then (Z.lor (Z.land (t_at t) 3) (Z.land (t_address t) 4294967292), Z.shiftr (Z.land (t_address t) 18446744069414584320) 32)
       else (Z.shiftl (Z.land (t_register_number t) 1023) 2, 0) in [w0; w1]) =
    (let cfg := (t_type t =? 4) || (t_type t =? 5) in
     [if cfg then word [(2, t_register_number t)] else word [(0, t_at t); (2, t_address t mod 2^32 / 4)];
      if cfg then 0 else word [(0, t_address t / 2^32)]]) /\
    us_common t /\ 0 <= us_req_code (t_fmt_type t) < 16 /\ req_type_of (t_fmt_type t) = us_req_code (t_fmt_type t)).
  { destruct HM as [(HC & Hin & Hat & Ha & Ham & _)|(HC & Hin & Hr)].
    - destruct (in_mem_types t Hin) as (H1 & HR & HRC & _ & HT & _). unfold ft_in in *. rewrite existsb_app, H1. cbn [orb].
      split; [reflexivity|]. split; [|split; [assumption|split; [lia|assumption]]]. cbv zeta.
      replace ((t_type t =? 4) || (t_type t =? 5)) with false by lia. rewrite addr_hi, addr_lo by assumption.
      rewrite (land_small (t_at t) 2) by (pow_norm; lia). rewrite lor_at by (pow_norm; lia). norm_words. f_equal; [lia|]. f_equal; lia.
    - destruct (in_cfg_types t Hin) as (H1 & H2 & HR & HRC & HT & _). rewrite H1, H2. split; [reflexivity|].
      split; [|split; [assumption|split; [lia|assumption]]]. cbv zeta. rewrite HT. rewrite (land_small _ 10) by (pow_norm; lia).
      rewrite Z.shiftl_mul_pow2 by lia. norm_words. f_equal. lia. }
  destruct E as (E1 & E2 & HC & HRC & HR). rewrite E1. clear HM E1.
  destruct (if ft_in (t_fmt_type t) ft_mem_io then _ else _) as [w0 w1] in *. cbv zeta. rewrite w2_eq by assumption.
  pose proof HC as (Hattr & Htc & Htag & Hid & HL). rewrite w3_eq by assumption.
  assert (EW : [w0; w1; req_w2 t; word [(0, t_tag t); (8, idv (t_completer_id t)); (24, bit re); (25, t_tc t); (28, t_attr t)]] =
    rq_words (mkUs t bi ba ce re ds sn ec)).
  { unfold rq_words. cbn [u_tlp u_requester_id_enable]. cbv zeta in *. injection E2 as -> ->. unfold req_w2. norm_words.
    f_equal. f_equal. f_equal. lia. }
  rewrite EW. reflexivity.
Qed.

Lemma rq_unpack u f check : us_rq_ok u ->
  f_data f = rq_words u ++ t_data (u_tlp u) ->
  f_first_be f = t_first_be (u_tlp u) -> f_last_be f = t_last_be (u_tlp u) -> f_discontinue f = u_discontinue u ->
  f_seq_num f = u_seq_num u -> (check = true -> check_parity f = true) ->
  unpack_us_rq us0 f check = Ok (carried_rq u).
Proof.
  intros (Hcid & HM) Hd Hfb Hlb Hds Hsq Hp.
  assert (HC : us_common (u_tlp u)) by (destruct HM as [(HC & _)|(HC & _)]; exact HC).
  pose proof HC as (Hattr & Htc & Htag & Hid & HL).
  pose proof (w3_fields _ _ (u_requester_id_enable u) _ _ Htag Hcid Htc Hattr) as HW3. cbv zeta in HW3.
  unfold rq_words in Hd. cbv zeta in Hd.
  set (w3 := word [(0, t_tag (u_tlp u)); _; _; _; _]) in *.
  destruct HW3 as (G3 & G4 & G5 & G6 & G7). clearbody w3.
  assert (E2 : word [(0, t_length (u_tlp u)); (11, us_req_code (t_fmt_type (u_tlp u))); (16, idv (t_requester_id (u_tlp u)))] = req_w2 (u_tlp u)).
  { unfold req_w2. norm_words. lia. }
  rewrite E2 in Hd. clear E2.
  destruct HM as [(_ & Hin & Hat & Ha & Ham & _)|(_ & Hin & Hr)].
  - destruct (in_mem_types _ Hin) as (_ & HR & HRC & HFM & HT & HFT & _).
    pose proof (w2_fields _ HC ltac:(lia)) as (F1 & F2 & F3). set (w2 := req_w2 (u_tlp u)) in *. clearbody w2.
    assert (EC : (t_type (u_tlp u) =? 4) || (t_type (u_tlp u) =? 5) = false) by lia. rewrite EC in Hd.
    set (w0 := word [(0, t_at _); _]) in *. set (w1 := word [_]) in *.
    assert (G1 : Z.land w0 3 = t_at (u_tlp u)) by (subst w0; rewrite (land_lo _ 2 3) by lia; norm_words; lia).
    assert (G2 : Z.lor (Z.shiftl w1 32) (Z.land w0 0xfffffffc) = t_address (u_tlp u)).
    { subst w0 w1. rewrite addr_lo'. norm_words. change (2^64) with 18446744073709551616 in Ha. change (2^32) with 4294967296 in *.
      rewrite addr_join; change (2^32) with 4294967296; lia. }
    clearbody w0 w1. unfold unpack_us_rq. rewrite Hd. idx. cbn [bind]. rewrite F1.
    unfold ft_of_req_rq. replace (us_req_code (t_fmt_type (u_tlp u)) <? 8) with true by lia. rewrite HFT. idx. cbn [bind].
    rewrite F2, F3, G1, G2, G3, G4, G5, G6, G7, Hfb, Hlb, Hds, Hsq. unfold carried_rq. cbv zeta. rewrite EC.
    abs_tlp (u_tlp u). set (x_ri := u_requester_id_enable u). tlp_cbv.
    rewrite fix_fmt_eq by (clear - HFM; lia). tlp_cbv. cbn [skipn].
    replace (check && negb (check_parity f)) with false by (destruct check; [now rewrite Hp|reflexivity]). reflexivity.
  - destruct (in_cfg_types _ Hin) as (_ & _ & HR & HRC & HT & HFT).
    pose proof (w2_fields _ HC ltac:(lia)) as (F1 & F2 & F3). set (w2 := req_w2 (u_tlp u)) in *. clearbody w2.
    rewrite HT in Hd. set (w0 := word [_]) in *.
    assert (G1 : Z.land (Z.shiftr w0 2) 0x3ff = t_register_number (u_tlp u)) by (subst w0; rewrite (land_div _ 2 10) by lia; norm_words; lia).
    clearbody w0. unfold unpack_us_rq. rewrite Hd. idx. cbn [bind]. rewrite F1, HFT. idx. cbn [bind].
    replace (us_req_code (t_fmt_type (u_tlp u)) <? 8) with false by lia.
    rewrite F2, F3, G1, G3, G4, G5, G6, G7, Hfb, Hlb, Hds, Hsq. unfold carried_rq. cbv zeta. rewrite HT.
    abs_tlp (u_tlp u). set (x_ri := u_requester_id_enable u). tlp_cbv. cbn [skipn].
    replace (check && negb (check_parity f)) with false by (destruct check; [now rewrite Hp|reflexivity]). reflexivity.
Qed.

(** CC and RC. *)
Lemma in_cpl t (P : Prop) (Q : Prop) : (In (t_fmt_type t) [(0,10);(0,11)] /\ P \/ In (t_fmt_type t) [(2,10);(2,11)] /\ Q) ->
  ft_in (t_fmt_type t) ft_cpl_us = true /\ (t_type t = 10 \/ t_type t = 11) /\ locked_bit t = Z.shiftl (t_type t - 10) 29.
Proof.
  unfold locked_bit, t_fmt_type.
  intros [([H|[H|[]]] & _)|([H|[H|[]]] & _)]; injection H as H1 H2; rewrite <- H1, <- H2; vm_compute; repeat split; auto.
Qed.

Lemma cw1_eq l s i : 0 <= l <= 1024 -> 0 <= s < 8 -> id_ok i ->
  Z.lor (Z.lor (Z.land l 2047) (Z.shiftl (Z.land s 7) 11)) (Z.shiftl (id_to_int i) 16) = word [(0, l); (11, s); (16, idv i)].
Proof.
  intros Hl Hs Hi. rewrite (id_int_idv _ Hi). pose proof (idv_range _ Hi).
  rewrite (land_small l 11), (land_small s 3) by (pow_norm; lia).
  rewrite (lor_sum _ _ 11 2048), (lor_sum _ _ 16 65536) by lia. norm_words. lia.
Qed.
Lemma cw1_fields l s i : 0 <= l <= 1024 -> 0 <= s < 8 -> id_ok i ->
  let w := word [(0, l); (11, s); (16, idv i)] in
  Z.land w 2047 = l /\ Z.land (Z.shiftr w 11) 7 = s /\ id_from_int (Z.shiftr w 16) = i.
Proof.
  intros Hl Hs Hi. pose proof (idv_range _ Hi). cbv zeta.
  rewrite (land_div _ 11 3), (land_lo _ 11 2047) by lia. norm_words. repeat split; try lia.
  apply id_from_idv; [assumption|]. rewrite Z.shiftr_div_pow2 by lia. pow_norm. lia.
Qed.

Lemma cw2_rc tag i tc attr : 0 <= tag < 256 -> id_ok i -> 0 <= tc < 8 -> 0 <= attr < 8 ->
  Z.lor (Z.lor (Z.lor (Z.land tag 255) (Z.shiftl (id_to_int i) 8))
     (Z.shiftl (Z.land tc 7) 25)) (Z.shiftl (Z.land attr 7) 28) =
  word [(0, tag); (8, idv i); (25, tc); (28, attr)].
Proof.
  intros H1 Hi H2 H3. rewrite (id_int_idv _ Hi). pose proof (idv_range _ Hi).
  rewrite (land_small tag 8), (land_small tc 3), (land_small attr 3) by (pow_norm; lia).
  rewrite (lor_sum _ _ 8 256), (lor_sum _ _ 25 33554432), (lor_sum _ _ 28 268435456) by lia.
  norm_words. lia.
Qed.

Lemma cw0_cc la a bc l : 0 <= la < 128 -> 0 <= a < 4 -> 0 <= bc <= 4096 -> 0 <= l <= 1 ->
  Z.lor (Z.lor (Z.lor (Z.land la 127) (Z.shiftl (Z.land a 3) 8)) (Z.shiftl (Z.land bc 8191) 16)) (Z.shiftl l 29) =
  word [(0, la); (8, a); (16, bc); (29, l)].
Proof.
  intros H1 H2 H3 H4. rewrite (land_small la 7), (land_small a 2), (land_small bc 13) by (pow_norm; lia).
  rewrite (lor_sum _ _ 8 256), (lor_sum _ _ 16 65536), (lor_sum _ _ 29 536870912) by lia. norm_words. lia.
Qed.
Lemma cw0_rc la a bc l : 0 <= la < 4096 -> 0 <= a < 16 -> 0 <= bc <= 4096 -> 0 <= l <= 1 ->
  Z.lor (Z.lor (Z.lor (Z.land la 4095) (Z.shiftl (Z.land a 15) 12)) (Z.shiftl (Z.land bc 8191) 16)) (Z.shiftl l 29) =
  word [(0, la); (12, a); (16, bc); (29, l)].
Proof.
  intros H1 H2 H3 H4. rewrite (land_small la 12), (land_small a 4), (land_small bc 13) by (pow_norm; lia).
  rewrite (lor_sum _ _ 12 4096), (lor_sum _ _ 16 65536), (lor_sum _ _ 29 536870912) by lia. norm_words. lia.
Qed.
Lemma bit29 w : 0 <= w < 2^30 -> negb (Z.land w (Z.shiftl 1 29) =? 0) = (2^29 <=? w).
Proof.
  intros Hw. assert (E : Z.land w (Z.shiftl 1 29) = w / 2^29 * 2^29).
  { rewrite <- Z.shiftr_div_pow2, <- Z.shiftl_mul_pow2 by lia. apply Z.bits_inj'. intros n Hn.
    rewrite Z.land_spec, Z.shiftl_spec by lia. rewrite !Z.shiftl_spec by lia.
    destruct (Z.eq_dec n 29) as [->|Hne].
    - rewrite Z.shiftr_spec by lia. now rewrite andb_true_r.
    - destruct (Z.lt_ge_cases n 29).
      + rewrite (Z.testbit_neg_r 1), (Z.testbit_neg_r (Z.shiftr w 29)) by lia. now rewrite andb_false_r.
      + rewrite Z.shiftr_spec by lia. rewrite Z.sub_add, (testbit_high w 30 n) by (pow_norm; lia). reflexivity. }
  rewrite E. pow_norm. lia.
Qed.

Lemma cw0_cc_fields la a bc l : 0 <= la < 128 -> 0 <= a < 4 -> 0 <= bc <= 4096 -> 0 <= l <= 1 ->
  let w := word [(0, la); (8, a); (16, bc); (29, l)] in
  Z.land w 127 = la /\ Z.land (Z.shiftr w 8) 3 = a /\ Z.land (Z.shiftr w 16) 8191 = bc /\ negb (Z.land w (Z.shiftl 1 29) =? 0) = (l =? 1).
Proof.
  intros H1 H2 H3 H4. cbv zeta. rewrite bit29 by (norm_words; lia).
  rewrite (land_div _ 8 2), (land_div _ 16 13), (land_lo _ 7 127) by lia. norm_words. repeat split; lia.
Qed.
Lemma cw0_rc_fields la a bc l : 0 <= la < 4096 -> 0 <= a < 16 -> 0 <= bc <= 4096 -> 0 <= l <= 1 ->
  let w := word [(0, la); (12, a); (16, bc); (29, l)] in
  Z.land w 4095 = la /\ Z.land (Z.shiftr w 12) 15 = a /\ Z.land (Z.shiftr w 16) 8191 = bc /\ negb (Z.land w (Z.shiftl 1 29) =? 0) = (l =? 1).
Proof.
  intros H1 H2 H3 H4. cbv zeta. rewrite bit29 by (norm_words; lia).
  rewrite (land_div _ 12 4), (land_div _ 16 13), (land_lo _ 12 4095) by lia. norm_words. repeat split; lia.
Qed.

Lemma cc_pack u : us_cpl_ok 128 u ->
  pack_us_cc u = Ok (mkFrame (cc_words u ++ t_data (u_tlp u)) [] (parity_of (cc_words u ++ t_data (u_tlp u)))
    0 0 (u_discontinue u) 0).
Proof.
  intros ((Hattr & Htc & Htag & Hid & HL) & Hc & Hs & Hbc & Hat & _ & Hla & HT).
  apply in_cpl in HT. destruct HT as (HT1 & HT2 & HT3). unfold pack_us_cc. rewrite HT1, HT3. cbv zeta.
  rewrite w3_eq, cw1_eq, cw0_cc by (assumption || lia). reflexivity.
Qed.

Lemma rc_pack u : us_cpl_ok 4096 u ->
  pack_us_rc u = Ok (mkFrame (rc_words u ++ t_data (u_tlp u))
    (rc_byte_en (t_lower_address (u_tlp u)) (t_byte_count (u_tlp u)) (t_length (u_tlp u)) (zlen (t_data (u_tlp u))))
    (parity_of (rc_words u ++ t_data (u_tlp u))) 0 0 (u_discontinue u) 0).
Proof.
  intros ((Hattr & Htc & Htag & Hid & HL) & Hc & Hs & Hbc & Hat & He & Hla & HT).
  apply in_cpl in HT. destruct HT as (HT1 & HT2 & HT3). unfold pack_us_rc. rewrite HT1, HT3. cbv zeta.
  rewrite cw2_rc, cw1_eq, cw0_rc by (assumption || lia). reflexivity.
Qed.

Lemma cpl_kinds t : In (t_fmt_type t) [(0,10);(0,11)] /\ t_length t = 0 /\ t_data t = [] \/
   In (t_fmt_type t) [(2,10);(2,11)] /\ 1 <= t_length t /\ zlen (t_data t) = t_length t ->
  t_fmt t = (if t_length t >? 0 then 2 else 0) /\ (t_type t = 10 \/ t_type t = 11) /\ zlen (t_data t) = t_length t.
Proof.
  unfold t_fmt_type. intros [([H|[H|[]]] & HL & HD)|([H|[H|[]]] & HL & HD)];
    injection H as Hf Ht; rewrite <- Hf, <- Ht; rewrite ?HL, ?HD; (split; [|split; auto]); try reflexivity;
    destruct (t_length t >? 0) eqn:E; lia.
Qed.

Lemma slice3 (a b c : Z) d n : zlen d = n -> slice ([a; b; c] ++ d) 3 (3 + n) = d.
Proof.
  intros <-. unfold slice, zlen. cbn [app].
  replace (Z.to_nat (3 + Z.of_nat (length d) - 3)) with (length d) by lia.
  change (Z.to_nat 3) with 3%nat. cbn [skipn]. apply firstn_all.
Qed.

Lemma nz_type t : t = 10 \/ t = 11 -> (t - 10 =? 1) = (t =? 11).
Proof. intros [->| ->]; reflexivity. Qed.

Lemma cc_unpack u f check : us_cpl_ok 128 u ->
  f_data f = cc_words u ++ t_data (u_tlp u) -> f_discontinue f = u_discontinue u -> (check = true -> check_parity f = true) ->
  unpack_us_cc us0 f check = Ok (carried_cc u).
Proof.
  intros ((Hattr & Htc & Htag & Hid & HL) & Hc & Hs & Hbc & Hat & _ & Hla & HT) Hd Hds Hp.
  apply cpl_kinds in HT. destruct HT as (HF & HTT & HD).
  unfold cc_words in Hd. cbv zeta in Hd.
  pose proof (w3_fields _ _ (u_completer_id_enable u) _ _ Htag Hc Htc Hattr) as HW3. cbv zeta in HW3.
  pose proof (cw1_fields _ _ _ HL Hs Hid) as HW1. cbv zeta in HW1.
  pose proof (cw0_cc_fields _ _ _ (t_type (u_tlp u) - 10) Hla Hat Hbc ltac:(lia)) as HW0. cbv zeta in HW0.
  set (w2 := word [(0, t_tag _); _; _; _; _]) in *. set (w1 := word [(0, t_length _); _; _]) in *. set (w0 := word [(0, t_lower_address _); _; _; _]) in *.
  destruct HW3 as (G3 & G4 & G5 & G6 & G7). destruct HW1 as (G8 & G9 & G10). destruct HW0 as (G11 & G12 & G13 & G14).
  clearbody w0 w1 w2. rewrite nz_type in G14 by assumption. unfold unpack_us_cc. rewrite Hd. idx. cbn [bind].
  rewrite G3, G4, G5, G6, G7, G8, G9, G10, G11, G12, G13, G14, Hds. unfold carried_cc. cbv zeta.
  replace (check && negb (check_parity f)) with false by (destruct check; [now rewrite Hp|reflexivity]).
  assert (HSL : slice (w0 :: w1 :: w2 :: t_data (u_tlp u)) 3 (3 + t_length (u_tlp u)) = t_data (u_tlp u)) by (now apply (slice3 w0 w1 w2)).
  rewrite HF. assert (HN : (t_length (u_tlp u) >? 0) = false -> t_data (u_tlp u) = []).
  { intros HG. unfold zlen in HD. destruct (t_data (u_tlp u)); [reflexivity|]. cbn in HD. lia. }
  abs_tlp (u_tlp u). set (x_ci := u_completer_id_enable u).
  set (SL := slice (w0 :: w1 :: w2 :: x_d) 3) in *. clearbody SL.
  destruct HTT as [HTT|HTT]; rewrite HTT; change (10 =? 11) with false; change (11 =? 11) with true; cbv iota;
  tlp_cbv; destruct (x_len >? 0) eqn:EL; tlp_cbv; rewrite ?HSL, ?EL; tlp_cbv; rewrite ?HSL; try rewrite (HN eq_refl); reflexivity.
Qed.

Lemma rc_unpack u f check : us_cpl_ok 4096 u ->
  f_data f = rc_words u ++ t_data (u_tlp u) ->
  f_byte_en f = rc_byte_en (t_lower_address (u_tlp u)) (t_byte_count (u_tlp u)) (t_length (u_tlp u)) (zlen (t_data (u_tlp u))) ->
  f_discontinue f = u_discontinue u -> (check = true -> check_parity f = true) ->
  unpack_us_rc us0 f check = Ok (carried_rc u).
Proof.
  intros ((Hattr & Htc & Htag & Hid & HL) & Hc & Hs & Hbc & Hat & He & Hla & HT) Hd Hbe Hds Hp.
  apply cpl_kinds in HT. destruct HT as (HF & HTT & HD).
  unfold rc_words in Hd. cbv zeta in Hd.
  pose proof (w3_fields _ _ false _ _ Htag Hc Htc Hattr) as HW3. cbv zeta in HW3.
  assert (EW : word [(0, t_tag (u_tlp u)); (8, idv (t_completer_id (u_tlp u))); (24, bit false); (25, t_tc (u_tlp u)); (28, t_attr (u_tlp u))] =
    word [(0, t_tag (u_tlp u)); (8, idv (t_completer_id (u_tlp u))); (25, t_tc (u_tlp u)); (28, t_attr (u_tlp u))]) by (norm_words; cbn [bit]; lia).
  rewrite EW in HW3. clear EW.
  pose proof (cw1_fields _ _ _ HL Hs Hid) as HW1. cbv zeta in HW1.
  pose proof (cw0_rc_fields _ _ _ (t_type (u_tlp u) - 10) Hla He Hbc ltac:(lia)) as HW0. cbv zeta in HW0.
  set (w2 := word [(0, t_tag _); _; _; _]) in *. set (w1 := word [(0, t_length _); _; _]) in *. set (w0 := word [(0, t_lower_address _); _; _; _]) in *.
  destruct HW3 as (G3 & G4 & G5 & G6 & _). destruct HW1 as (G8 & G9 & G10). destruct HW0 as (G11 & G12 & G13 & G14).
  clearbody w0 w1 w2. rewrite nz_type in G14 by assumption. unfold unpack_us_rc. rewrite Hd. idx. cbn [bind].
  rewrite G3, G4, G5, G6, G8, G9, G10, G11, G12, G13, G14, Hds, Hbe. unfold carried_rc. cbv zeta.
  replace (check && negb (check_parity f)) with false by (destruct check; [now rewrite Hp|reflexivity]).
  assert (HSL : slice (w0 :: w1 :: w2 :: t_data (u_tlp u)) 3 (3 + t_length (u_tlp u)) = t_data (u_tlp u)) by (now apply (slice3 w0 w1 w2)).
  rewrite HF. assert (HN : (t_length (u_tlp u) >? 0) = false -> t_data (u_tlp u) = []).
  { intros HG. unfold zlen in HD. destruct (t_data (u_tlp u)); [reflexivity|]. cbn in HD. lia. }
  abs_tlp (u_tlp u). set (x_ec := u_error_code u) in *.
  set (SL := slice (w0 :: w1 :: w2 :: x_d) 3) in *. clearbody SL.
  set (RB := rc_byte_en) in *. clearbody RB. set (ZL := @zlen Z) in *. clearbody ZL. set (ZE := zlist_eqb) in *.
  assert (HZ : forall l, ZE l l = true) by exact zlist_eqb_refl. clearbody ZE.
  destruct HTT as [HTT|HTT]; rewrite HTT; change (10 =? 11) with false; change (11 =? 11) with true; cbv iota;
  tlp_cbv; destruct (x_len >? 0) eqn:EL; tlp_cbv; rewrite ?HSL, ?EL; tlp_cbv; rewrite ?HSL; try rewrite (HN eq_refl); rewrite HZ; reflexivity.
Qed.

(** Byte lanes of requester completions. *)
Lemma req_be_nth first last n i : (i < n)%nat ->
  nth i (req_be first last n) 0 = if (i =? 0)%nat then first else if (i =? n - 1)%nat then last else 15.
Proof.
  intros Hi. unfold req_be.
  set (g := fun j => if (j =? 0)%nat then first else if (j =? n - 1)%nat then last else 15).
  change (nth i (map g (seq 0 n)) 0 = g i). rewrite (nth_indep _ 0 (g 0%nat)) by (rewrite map_length, seq_length; lia). rewrite map_nth.
  now rewrite seq_nth by lia.
Qed.

Lemma first_be_bit o j : 0 <= o < 4 -> 0 <= j < 4 -> Z.testbit (Z.land (Z.shiftl 15 o) 15) j = (o <=? j).
Proof.
  intros Ho Hj. assert (o = 0 \/ o = 1 \/ o = 2 \/ o = 3) as C by lia. assert (j = 0 \/ j = 1 \/ j = 2 \/ j = 3) as D by lia.
  destruct C as [->|[->|[->| ->]]]; destruct D as [->|[->|[->| ->]]]; reflexivity.
Qed.
Lemma last_be_bit o j : 0 <= o < 4 -> 0 <= j < 4 -> Z.testbit (Z.shiftr 15 o) j = (j <? 4 - o).
Proof.
  intros Ho Hj. assert (o = 0 \/ o = 1 \/ o = 2 \/ o = 3) as C by lia. assert (j = 0 \/ j = 1 \/ j = 2 \/ j = 3) as D by lia.
  destruct C as [->|[->|[->| ->]]]; destruct D as [->|[->|[->| ->]]]; reflexivity.
Qed.
Lemma f_bit j : 0 <= j < 4 -> Z.testbit 15 j = true.
Proof. intros Hj. assert (j = 0 \/ j = 1 \/ j = 2 \/ j = 3) as D by lia. destruct D as [->|[->|[->| ->]]]; reflexivity. Qed.

Lemma rc_lanes la bc n b : 0 <= la -> 1 <= n -> 4 * (n - 1) < la mod 4 + bc -> 1 <= bc -> 0 <= b < 4 * n ->
  lane_on (rc_byte_en la bc n n) 3 b = (la mod 4 <=? b) && (b <? Z.min (la mod 4 + bc) (4 * n)).
Proof.
  intros Hla Hn Hc Hbc Hb. unfold lane_on, rc_byte_en.
  assert (Ho : 0 <= la mod 4 < 4) by (apply Z.mod_pos_bound; lia).
  rewrite !(land_lo _ 2 3) by lia. pow_norm.
  set (k := (4 - bc - la) mod 4). assert (Hk : 0 <= k < 4) by (apply Z.mod_pos_bound; lia).
  set (fb := Z.land (Z.shiftl 15 (la mod 4)) 15).
  set (lb := if _ >? _ then 15 else Z.shiftr 15 k).
  assert (HF : forall j, 0 <= j < 4 -> Z.testbit fb j = (la mod 4 <=? j)) by (intros; apply first_be_bit; lia).
  assert (HL : forall j, 0 <= j < 4 -> Z.testbit lb j = (4 * (n - 1) + j <? la mod 4 + bc)).
  { intros j Hj. subst lb. destruct (bc + la mod 4 >? n * 4) eqn:E.
    - rewrite f_bit by lia. lia.
    - rewrite last_be_bit by lia. subst k. lia. }
  clearbody fb lb. set (j := b mod 4). set (i := b / 4).
  assert (Hj : 0 <= j < 4) by (apply Z.mod_pos_bound; lia). assert (Hbb : b = 4 * i + j) by (subst i j; lia).
  assert (Hi : 0 <= i < n) by lia. clearbody i j.
  destruct (n =? 1) eqn:E1.
  - assert (n = 1) by lia. subst n. change 1 with (Z.of_nat 1). rewrite be_list_eq by lia.
    assert (i = 0) by lia. subst i. cbn [Z.of_nat zeros repeat app req_be seq map]. change (zeros 3) with [0; 0; 0].
    change (Z.to_nat (3 + 0)) with 3%nat. cbn [app nth Nat.eqb].
    rewrite Z.land_spec, HF, HL by lia. lia.
  - replace n with (Z.of_nat (Z.to_nat n)) at 1 by lia. rewrite be_list_eq by lia. change (zeros 3) with [0; 0; 0].
    replace (Z.to_nat (3 + i)) with (3 + Z.to_nat i)%nat by lia. cbn [app nth Nat.add].
    rewrite req_be_nth by lia.
    destruct (Z.to_nat i =? 0)%nat eqn:E2; [rewrite HF by lia; lia|].
    destruct (Z.to_nat i =? Z.to_nat n - 1)%nat eqn:E3; [rewrite HL by lia; lia|]. rewrite f_bit by lia. lia.
Qed.

(** Parity checking accepts exactly the frames with odd byte parity. *)
Lemma odd_parity_unique d p q : odd_parity d p -> odd_parity d q -> p = q.
Proof.
  intros (Hp & Hp') (Hq & Hq'). apply Z.bits_inj'. intros n Hn. destruct (Z.lt_ge_cases n 4).
  - specialize (Hp' n ltac:(lia)). specialize (Hq' n ltac:(lia)).
    destruct (Z.testbit p n), (Z.testbit q n); cbn [bit] in *; try reflexivity; lia.
  - rewrite (testbit_high p 4 n), (testbit_high q 4 n) by (pow_norm; lia). reflexivity.
Qed.
Lemma check_parity_iff f : check_parity f = true <-> Forall2 odd_parity (f_data f) (f_parity f).
Proof.
  unfold check_parity. generalize (f_parity f) as p. generalize (f_data f) as d. clear f. intros d p. split.
  - intros H. apply zlist_eqb_eq in H. subst p. apply parity_list_ok.
  - intros H. assert (E : p = parity_of d); [|subst; apply zlist_eqb_refl].
    unfold parity_of. induction H; [reflexivity|]. cbn [map]. f_equal; [|assumption]. apply (odd_parity_unique x); [assumption|apply odd_parity_ok].
Qed.

Lemma unpack_parity f r : unpack_us_cq us0 f true = Ok r \/ unpack_us_cc us0 f true = Ok r \/ unpack_us_rq us0 f true = Ok r \/
  unpack_us_rc us0 f true = Ok r -> check_parity f = true.
Proof.
  destruct (check_parity f) eqn:E; [reflexivity|]. unfold unpack_us_cq, unpack_us_cc, unpack_us_rq, unpack_us_rc. rewrite E. cbn [andb negb].
  intros [H|[H|[H|H]]]; exfalso; revert H;
  repeat (unfold bind; match goal with |- context [py_index ?a ?b] => destruct (py_index a b); try discriminate end);
  repeat (match goal with |- context [match ?x with Some _ => _ | None => _ end] => destruct x; try discriminate end);
  repeat (unfold bind; match goal with |- context [py_index ?a ?b] => destruct (py_index a b); try discriminate end);
  cbv zeta; try discriminate;
  match goal with |- (if ?b then _ else _) = _ -> _ => destruct b; discriminate end.
Qed.
