From Verif Require Import PyBase BitLemmas TlpModel TlpSpec.
From Coq Require Import ZifyBool ZifyNat.
Ltac Zify.zify_post_hook ::= Z.div_mod_to_equations.

(* ---------- small tactics ---------- *)
Ltac pow_norm := repeat match goal with
  | |- context [2 ^ ?e] => let v := eval vm_compute in (2^e) in change (2^e) with v end.
Ltac mask_to_ones := repeat match goal with
  | |- context [Z.land ?x 1] => change (Z.land x 1) with (Z.land x (Z.ones 1))
  | |- context [Z.land ?x 3] => change (Z.land x 3) with (Z.land x (Z.ones 2))
  | |- context [Z.land ?x 7] => change (Z.land x 7) with (Z.land x (Z.ones 3))
  | |- context [Z.land ?x 15] => change (Z.land x 15) with (Z.land x (Z.ones 4))
  | |- context [Z.land ?x 31] => change (Z.land x 31) with (Z.land x (Z.ones 5))
  | |- context [Z.land ?x 63] => change (Z.land x 63) with (Z.land x (Z.ones 6))
  | |- context [Z.land ?x 127] => change (Z.land x 127) with (Z.land x (Z.ones 7))
  | |- context [Z.land ?x 255] => change (Z.land x 255) with (Z.land x (Z.ones 8))
  | |- context [Z.land ?x 1023] => change (Z.land x 1023) with (Z.land x (Z.ones 10))
  | |- context [Z.land ?x 2047] => change (Z.land x 2047) with (Z.land x (Z.ones 11))
  | |- context [Z.land ?x 4095] => change (Z.land x 4095) with (Z.land x (Z.ones 12))
  | |- context [Z.land ?x 8191] => change (Z.land x 8191) with (Z.land x (Z.ones 13))
  | |- context [Z.land ?x 65535] => change (Z.land x 65535) with (Z.land x (Z.ones 16))
  | |- context [Z.land ?x 4294967295] => change (Z.land x 4294967295) with (Z.land x (Z.ones 32))
  end.

Ltac tlp_simp := cbv beta iota zeta delta [set_fmt_type t_fmt_type fst snd tlp0 bind set_fmt t_fmt set_type t_type set_tc t_tc set_th t_th set_td t_td set_ep t_ep set_attr t_attr set_at t_at set_length t_length set_completer_id t_completer_id set_status t_status set_bcm t_bcm set_byte_count t_byte_count set_requester_id t_requester_id set_dest_id t_dest_id set_tag t_tag set_first_be t_first_be set_last_be t_last_be set_lower_address t_lower_address set_address t_address set_register_number t_register_number set_data t_data].
Tactic Notation "tlp_simp" "in" "all" := cbv beta iota zeta delta [set_fmt_type t_fmt_type fst snd tlp0 bind set_fmt t_fmt set_type t_type set_tc t_tc set_th t_th set_td t_td set_ep t_ep set_attr t_attr set_at t_at set_length t_length set_completer_id t_completer_id set_status t_status set_bcm t_bcm set_byte_count t_byte_count set_requester_id t_requester_id set_dest_id t_dest_id set_tag t_tag set_first_be t_first_be set_last_be t_last_be set_lower_address t_lower_address set_address t_address set_register_number t_register_number set_data t_data] in *.

Lemma getf_fold x p w : Z.land (Z.shiftr x p) (Z.ones w) = getf p w x.
Proof. reflexivity. Qed.
Lemma getf_fold0 x w : Z.land x (Z.ones w) = getf 0 w x.
Proof. unfold getf. now rewrite Z.shiftr_0_r. Qed.
Lemma getf_below' p w f q : 0 <= p -> 0 <= w -> 0 <= q <= p -> 0 <= f < 2^(p-q) -> getf p w (Z.shiftl f q) = 0.
Proof. intros. apply (getf_below p w f q (p-q)); lia. Qed.
Lemma getf_below0' p w f : 0 <= p -> 0 <= w -> 0 <= f < 2^p -> getf p w f = 0.
Proof. intros. apply (getf_below0 p w f p); lia. Qed.
Lemma getf_shiftr p w x q : 0 <= p -> 0 <= q -> getf p w (Z.shiftr x q) = getf (q + p) w x.
Proof. intros. unfold getf. now rewrite Z.shiftr_shiftr by assumption. Qed.

Ltac side := cbn [Z.sub Z.add]; repeat split; pow_norm; lia.
Ltac getf_leaf := repeat match goal with
  | |- context [getf ?p ?w (Z.shiftl ?f ?p)] => rewrite (getf_hit p w f) by (pow_norm; lia)
  | |- context [getf ?p ?w (Z.shiftl ?f ?q)] =>
      first [ rewrite (getf_above p w f q) by lia
            | rewrite (getf_below' p w f q) by (pow_norm; lia) ]
  | |- context [getf 0 ?w ?f] => rewrite (getf_hit0 w f) by (pow_norm; lia)
  | |- context [getf ?p ?w ?f] => rewrite (getf_below0' p w f) by (pow_norm; lia)
  end.

Ltac sweep4 x := let H := fresh in assert (x = 0 \/ x = 1 \/ x = 2 \/ x = 3) as H by lia;
  destruct H as [H|[H|[H|H]]]; subst x.

(* ---------- C02 ---------- *)
Lemma id_to_int_range i : 0 <= id_to_int i < 65536.
Proof.
  unfold id_to_int. mask_to_ones.
  pose proof (land_ones_range (id_bus i) 8 ltac:(lia)).
  pose proof (land_ones_range (id_device i) 5 ltac:(lia)).
  pose proof (land_ones_range (id_function i) 3 ltac:(lia)).
  change 65536 with (2^16).
  apply lor_range; [lia| |cbn in *; lia].
  apply lor_range; [lia| |]; [apply (shiftl_range _ 8 8)|apply (shiftl_range _ 3 5)]; lia.
Qed.

Lemma id_to_int_eq i : id_ok i -> id_to_int i = id_bus i * 256 + id_device i * 8 + id_function i.
Proof.
  intros (Hb & Hd & Hf). unfold id_to_int. mask_to_ones.
  rewrite !land_ones_small by (cbn; lia).
  rewrite (Z.lor_comm _ (id_function i)), (Z.lor_comm (Z.shiftl (id_bus i) 8)), Z.lor_assoc.
  rewrite (lor_add_disjoint _ _ 3) by (cbn; lia).
  rewrite (lor_add_disjoint _ _ 8) by (cbn; lia). cbn [Z.pow Z.pow_pos Pos.iter Z.mul]. lia.
Qed.

Lemma id_from_int_eq v : id_from_int v = mkId ((v / 256) mod 256) ((v / 8) mod 32) (v mod 8).
Proof.
  unfold id_from_int. f_equal; rewrite ?Z.shiftr_div_pow2 by lia; cbn [Z.pow Z.pow_pos Pos.iter].
  - change 0xff with (Z.ones 8). now rewrite Z.land_ones by lia.
  - change 0x1f with (Z.ones 5). now rewrite Z.land_ones by lia.
  - change 7 with (Z.ones 3). now rewrite Z.land_ones by lia.
Qed.

Lemma id_roundtrip i : id_ok i -> id_from_int (id_to_int i) = i.
Proof.
  intros H. rewrite id_to_int_eq, id_from_int_eq by assumption.
  destruct H as (Hb & Hd & Hf), i as [b d f]; cbn [id_bus id_device id_function] in *.
  f_equal; lia.
Qed.

Lemma id_from_int_ok v : id_ok (id_from_int v).
Proof. rewrite id_from_int_eq. unfold id_ok; cbn [id_bus id_device id_function]. lia. Qed.

Lemma id_roundtrip_int v : 0 <= v < 65536 -> id_to_int (id_from_int v) = v.
Proof.
  intros H. rewrite id_to_int_eq by apply id_from_int_ok.
  rewrite id_from_int_eq; cbn [id_bus id_device id_function]. lia.
Qed.

(* fields extracted from a word that contains an ID at bit 16 *)
Lemma id_from_shift w v : (forall i, 0 <= i < 16 -> Z.testbit w (16 + i) = Z.testbit v i) ->
  0 <= v < 65536 -> id_from_int (Z.shiftr w 16) = id_from_int v.
Proof.
  intros H Hv. unfold id_from_int.
  f_equal; apply Z.bits_inj'; intros i Hi; rewrite !Z.land_spec, ?Z.shiftr_spec by lia.
  - destruct (Z.ltb_spec i 8).
    + replace (i + 8 + 16) with (16 + (i + 8)) by lia. rewrite H by lia. reflexivity.
    + change 0xff with (Z.ones 8). rewrite Z.ones_spec_high by lia. now rewrite !andb_false_r.
  - destruct (Z.ltb_spec i 5).
    + replace (i + 3 + 16) with (16 + (i + 3)) by lia. rewrite H by lia. reflexivity.
    + change 0x1f with (Z.ones 5). rewrite Z.ones_spec_high by lia. now rewrite !andb_false_r.
  - destruct (Z.ltb_spec i 3).
    + replace (i + 16) with (16 + i) by lia. rewrite H by lia. reflexivity.
    + change 7 with (Z.ones 3). rewrite Z.ones_spec_high by lia. now rewrite !andb_false_r.
Qed.

Lemma id_from_int_getf w : id_from_int (Z.shiftr w 16) = id_from_int (getf 16 16 w).
Proof.
  apply id_from_shift.
  - intros i Hi. rewrite getf_testbit by lia. replace (i <? 16) with true by lia.
    cbn [andb]. f_equal; lia.
  - pose proof (land_ones_range (Z.shiftr w 16) 16 ltac:(lia)) as HH. exact HH.
Qed.

(* ---------- C01 ---------- *)
Lemma testbit_255_shift k i : 0 <= k -> 0 <= i ->
  Z.testbit (Z.shiftl 255 (8 * k)) i = (i / 8 =? k).
Proof.
  intros Hk Hi. rewrite Z.shiftl_spec by lia.
  destruct (i / 8 =? k) eqn:E.
  - change 255 with (Z.ones 8). apply Z.ones_spec_low. lia.
  - destruct (Z.ltb_spec (i - 8*k) 0); [apply Z.testbit_neg_r; lia|].
    change 255 with (Z.ones 8). apply Z.ones_spec_high. lia.
Qed.

Lemma land_pow2_testbit mask k : 0 <= k -> negb (Z.land mask (2^k) =? 0) = Z.testbit mask k.
Proof.
  intros Hk. destruct (Z.testbit mask k) eqn:E.
  - apply negb_true_iff, Z.eqb_neq. intros H.
    assert (Z.testbit (Z.land mask (2^k)) k = false) as HB by (rewrite H; apply Z.bits_0).
    rewrite Z.land_spec, E, Z.pow2_bits_true in HB by assumption. discriminate.
  - apply negb_false_iff, Z.eqb_eq. apply Z.bits_inj'. intros i Hi.
    rewrite Z.land_spec, Z.bits_0. destruct (Z.eq_dec i k) as [->|Hne].
    + now rewrite E. + rewrite Z.pow2_bits_false by lia. apply andb_false_r.
Qed.

Lemma byte_mask_loop_spec fuel : forall old mask new k,
  0 <= k -> 0 <= mask < 2^(k + Z.of_nat fuel) ->
  exists r, byte_mask_loop fuel old mask new (2^k) (Z.shiftl 255 (8*k)) = Ok r /\
  forall i, 0 <= i -> Z.testbit r i =
    if (k <=? i / 8) && Z.testbit mask (i / 8) then Z.testbit new i else Z.testbit old i.
Proof.
  induction fuel as [|f IH]; intros old mask new k Hk Hm; cbn [byte_mask_loop].
  - assert (mask >=? 2^k = false) as -> by (rewrite Z.add_0_r in Hm; lia).
    exists old. split; [reflexivity|]. intros i Hi.
    rewrite Z.add_0_r in Hm.
    destruct (k <=? i/8) eqn:E; [|reflexivity]. cbn [andb].
    rewrite (testbit_high mask k) by lia. reflexivity.
  - destruct (mask >=? 2^k) eqn:E.
    + rewrite land_pow2_testbit by assumption.
      replace (Z.shiftl (2^k) 1) with (2^(k+1))
        by (rewrite Z.shiftl_mul_pow2, Z.pow_add_r by lia; lia).
      replace (Z.shiftl (Z.shiftl 255 (8*k)) 8) with (Z.shiftl 255 (8*(k+1)))
        by (rewrite Z.shiftl_shiftl by lia; f_equal; lia).
      edestruct (IH (if Z.testbit mask k
          then Z.lor (Z.land old (Z.lnot (Z.shiftl 255 (8*k)))) (Z.land new (Z.shiftl 255 (8*k)))
          else old) mask new (k+1)) as (r & Hr & Hb); [lia|split;[lia|]|].
      { replace (k + 1 + Z.of_nat f) with (k + Z.of_nat (S f)) by lia. lia. }
      exists r. split; [exact Hr|]. intros i Hi. rewrite Hb by assumption.
      destruct (Z.testbit mask k) eqn:Ek.
      * rewrite Z.lor_spec, !Z.land_spec, Z.lnot_spec, testbit_255_shift by lia.
        destruct (Z.eqb_spec (i/8) k) as [Heq|Hne].
        { rewrite Heq. replace (k + 1 <=? k) with false by lia. replace (k <=? k) with true by lia.
          rewrite Ek. cbn [negb andb]. rewrite andb_true_r, andb_false_r. reflexivity. }
        { replace (k + 1 <=? i/8) with (k <=? i/8) by lia. cbn [negb].
          rewrite andb_false_r, orb_false_r, andb_true_r. reflexivity. }
      * destruct (Z.eqb_spec (i/8) k) as [Heq|Hne].
        { rewrite Heq, Ek, !andb_false_r. reflexivity. }
        { replace (k + 1 <=? i/8) with (k <=? i/8) by lia. reflexivity. }
    + exists old. split; [reflexivity|]. intros i Hi.
      destruct (k <=? i/8) eqn:Eki; [|reflexivity]. cbn [andb].
      rewrite (testbit_high mask k) by lia. reflexivity.
Qed.

Lemma byte_mask_update_spec old mask new bitmask : 0 <= mask ->
  exists r, byte_mask_update old mask new bitmask = Ok r /\
  forall i, 0 <= i -> Z.testbit r i =
    if Z.testbit mask (i / 8)
    then (if Z.testbit bitmask i then Z.testbit new i else Z.testbit old i)
    else Z.testbit old i.
Proof.
  intros Hm. unfold byte_mask_update.
  destruct (byte_mask_loop_spec (S (Z.to_nat (Z.log2 mask))) old mask
    (Z.lor (Z.land new bitmask) (Z.land old (Z.lnot bitmask))) 0) as (r & Hr & Hb).
  - lia.
  - split; [lia|]. rewrite Z.add_0_l, Nat2Z.inj_succ, Z2Nat.id by apply Z.log2_nonneg.
    destruct (Z.eq_dec mask 0) as [->|]; [cbn; lia|]. apply Z.log2_spec; lia.
  - change (2^0) with 1 in Hr. change (Z.shiftl 255 (8*0)) with 255 in Hr.
    exists r. split; [exact Hr|]. intros i Hi. rewrite Hb by assumption.
    replace (0 <=? i/8) with true by lia. cbn [andb].
    destruct (Z.testbit mask (i/8)); [|reflexivity].
    rewrite Z.lor_spec, !Z.land_spec, Z.lnot_spec by assumption.
    destruct (Z.testbit bitmask i), (Z.testbit new i), (Z.testbit old i); reflexivity.
Qed.

(* ---------- C03 ---------- *)
Lemma zcase4 (P : Z -> Prop) : P 0 -> P 1 -> P 2 -> P 3 -> forall x, 0 <= x < 4 -> P x.
Proof.
  intros H0 H1 H2 H3 x Hx.
  assert (x = 0 \/ x = 1 \/ x = 2 \/ x = 3) as [->|[->|[->| ->]]] by lia; assumption.
Qed.

Lemma first_be_bit o : 0 <= o < 4 -> forall lane, 0 <= lane < 4 ->
  Z.testbit (Z.land (Z.shiftl 15 o) 15) lane = (o <=? lane).
Proof. intros Ho lane Hl. sweep4 o; sweep4 lane; reflexivity. Qed.
Lemma last_be_bit p : 0 <= p < 4 -> forall lane, 0 <= lane < 4 ->
  Z.testbit (Z.shiftr 15 p) lane = (lane <=? 3 - p).
Proof. intros Ho lane Hl. sweep4 p; sweep4 lane; reflexivity. Qed.
Lemma both_be_bit o : 0 <= o < 4 -> forall p, 0 <= p < 4 -> forall lane, 0 <= lane < 4 ->
  Z.testbit (Z.land (Z.land (Z.shiftl 15 o) 15) (Z.shiftr 15 p)) lane = (o <=? lane) && (lane <=? 3 - p).
Proof. intros. now rewrite Z.land_spec, first_be_bit, last_be_bit by assumption. Qed.

Definition be_len (addr len : Z) : Z := (addr + len - 1) / 4 - addr / 4 + 1.

Lemma land_lnot3 a : Z.land a (Z.lnot 3) = 4 * (a / 4).
Proof. change 3 with (2^2 - 1). rewrite land_lnot_low by lia. change (2^2) with 4. lia. Qed.

Lemma be_len_eq addr len :
  - (- (len + addr mod 4 + (3 - (addr + len - 1) mod 4)) / 4) = be_len addr len.
Proof. unfold be_len. lia. Qed.

(** Closed form of [set_be]. *)
Lemma set_be_eq addr len t :
  set_be addr len t =
  (let L := be_len addr len in
   let fb := Z.land (Z.shiftl 15 (addr mod 4)) 15 in
   let lb := Z.shiftr 15 (3 - (addr + len - 1) mod 4) in
   set_last_be (if L =? 1 then 0 else lb)
    (set_first_be (if L =? 1 then Z.land fb lb else fb)
      (set_length L (set_address (4 * (addr / 4)) t))),
   (addr mod 4, 3 - (addr + len - 1) mod 4)).
Proof.
  unfold set_be. rewrite land_lnot3, be_len_eq. cbn zeta.
  cbn [t_length set_last_be set_first_be set_length set_address t_first_be t_last_be].
  destruct (be_len addr len =? 1); reflexivity.
Qed.

Lemma set_be_selects addr len t a : 1 <= len ->
  tlp_selects (fst (set_be addr len t)) a = (addr <=? a) && (a <? addr + len).
Proof.
  intros Hl. rewrite set_be_eq. unfold tlp_selects, selects, lane_enabled.
  cbn [fst set_last_be set_first_be set_length set_address
       t_address t_length t_first_be t_last_be].
  set (o := addr mod 4). set (p := 3 - (addr + len - 1) mod 4).
  set (L := be_len addr len). set (i := (a - 4 * (addr/4)) / 4). set (lane := (a - 4*(addr/4)) mod 4).
  assert (0 <= o < 4) by (subst o; lia). assert (0 <= p < 4) by (subst p; lia).
  assert (0 <= lane < 4) by (subst lane; lia).
  destruct (4 * (addr/4) <=? a) eqn:E1; [|subst o; lia].
  destruct (a <? 4 * (addr/4) + 4 * L) eqn:E2;
    [|cbn [andb]; subst L; unfold be_len in *; lia].
  cbn [andb]. destruct (i =? 0) eqn:Ei.
  - destruct (L =? 1) eqn:EL.
    + rewrite both_be_bit by assumption. subst o p L i lane; unfold be_len in *. lia.
    + rewrite first_be_bit by assumption. subst o p L i lane; unfold be_len in *. lia.
  - destruct (i =? L - 1) eqn:EiL.
    + destruct (L =? 1) eqn:EL; [lia|].
      rewrite last_be_bit by assumption. subst o p L i lane; unfold be_len in *. lia.
    + subst o p L i lane; unfold be_len in *. lia.
Qed.

Lemma first_off_case o : 0 <= o < 4 -> forall p, 0 <= p < 4 ->
  let fb := Z.land (Z.shiftl 15 o) 15 in
  (if Z.land fb 7 =? 0 then 3 else if Z.land fb 3 =? 0 then 2 else if Z.land fb 1 =? 0 then 1 else 0) = o.
Proof. intros Ho p Hp. sweep4 o; reflexivity. Qed.
Lemma first_off_case1 o : 0 <= o < 4 -> forall p, 0 <= p < 4 -> o + p <= 3 ->
  let fb := Z.land (Z.land (Z.shiftl 15 o) 15) (Z.shiftr 15 p) in
  (if Z.land fb 7 =? 0 then 3 else if Z.land fb 3 =? 0 then 2 else if Z.land fb 1 =? 0 then 1 else 0) = o.
Proof. intros Ho p Hp Hop. sweep4 o; sweep4 p; try reflexivity; lia. Qed.
Lemma last_off_case p : 0 <= p < 4 ->
  let be := Z.shiftr 15 p in
  (if Z.land be 15 =? 1 then 3 else if Z.land be 14 =? 2 then 2 else if Z.land be 12 =? 4 then 1 else 0) = p.
Proof. intros Hp. sweep4 p; reflexivity. Qed.
Lemma last_off_case1 o : 0 <= o < 4 -> forall p, 0 <= p < 4 -> o + p <= 3 ->
  let be := Z.land (Z.land (Z.shiftl 15 o) 15) (Z.shiftr 15 p) in
  (if Z.land be 15 =? 1 then 3 else if Z.land be 14 =? 2 then 2 else if Z.land be 12 =? 4 then 1 else 0) = p.
Proof. intros Ho p Hp Hop. sweep4 o; sweep4 p; try reflexivity; lia. Qed.

Lemma set_be_first_off addr len t : 1 <= len ->
  get_first_be_offset (fst (set_be addr len t)) = addr mod 4.
Proof.
  intros Hl. rewrite set_be_eq. unfold get_first_be_offset.
  cbn [fst set_last_be set_first_be set_length set_address t_first_be].
  destruct (be_len addr len =? 1) eqn:E.
  - apply first_off_case1; unfold be_len in E; lia.
  - apply (first_off_case (addr mod 4) ltac:(lia) 0 ltac:(lia)).
Qed.

Lemma set_be_last_off addr len t : 1 <= len ->
  get_last_be_offset (fst (set_be addr len t)) = 3 - (addr + len - 1) mod 4.
Proof.
  intros Hl. rewrite set_be_eq. unfold get_last_be_offset.
  cbn [fst set_last_be set_first_be set_length set_address t_first_be t_last_be t_length].
  destruct (be_len addr len =? 1) eqn:E.
  - apply last_off_case1; unfold be_len in E; lia.
  - apply last_off_case. lia.
Qed.

Lemma set_be_count addr len t : 1 <= len ->
  get_be_byte_count (fst (set_be addr len t)) = len.
Proof.
  intros Hl. unfold get_be_byte_count.
  rewrite set_be_first_off, set_be_last_off by assumption.
  rewrite set_be_eq. cbn [fst set_last_be set_first_be set_length set_address t_length].
  unfold be_len. lia.
Qed.

Lemma set_be_same addr len t : same_except_be (fst (set_be addr len t)) t.
Proof. rewrite set_be_eq. unfold same_except_be. cbn. repeat split. Qed.

Lemma set_be_address addr len t : t_address (fst (set_be addr len t)) = addr - addr mod 4.
Proof. rewrite set_be_eq. cbn [fst set_last_be set_first_be set_length set_address t_address]. lia. Qed.

Lemma set_be_length addr len t : t_length (fst (set_be addr len t)) = be_len addr len.
Proof. rewrite set_be_eq. reflexivity. Qed.

(* ---------- C04 ---------- *)
Lemma le_val_range l : Forall is_byte l -> 0 <= le_val l < 256 ^ zlen l.
Proof.
  induction 1 as [|b l Hb Hl IH]; cbn [le_val]; [cbn; lia|].
  unfold zlen in *. cbn [length]. rewrite Nat2Z.inj_succ, Z.pow_succ_r by lia.
  unfold is_byte in Hb. lia.
Qed.

Lemma le_bytes_val l : Forall is_byte l -> le_bytes (length l) (le_val l) = l.
Proof.
  induction 1 as [|b l Hb Hl IH]; cbn [le_val length le_bytes]; [reflexivity|].
  unfold is_byte in Hb. replace ((b + 256 * le_val l) mod 256) with b by lia.
  replace ((b + 256 * le_val l) / 256) with (le_val l) by lia. now rewrite IH.
Qed.

Lemma list_ind4 {A} (P : list A -> Prop) : P [] ->
  (forall a b c d l, P l -> P (a :: b :: c :: d :: l)) ->
  forall l, (length l mod 4 = 0)%nat -> P l.
Proof.
  intros H0 H4. refine (fix F l := match l with
    | [] => fun _ => H0 | a :: b :: c :: d :: r => fun H => H4 a b c d r (F r _)
    | _ => fun H => _ end); cbn [length] in *; try discriminate.
  clear F. assert (length r mod 4 = (4 + length r) mod 4)%nat as ->; [|exact H].
  replace (4 + length r)%nat with (length r + 1 * 4)%nat by lia. now rewrite Nat.mod_add by lia.
Qed.

(** The payload DWORDs and back. *)
Lemma dwords_bytes_ok l : (length l mod 4 = 0)%nat -> Forall is_byte l ->
  forall fuel, (length l <= fuel)%nat ->
  exists ws, dwords_of_bytes fuel l = Ok ws /\ bytes_of_dwords ws = Ok l /\
    4 * zlen ws = zlen l /\ Forall (fun w => 0 <= w < 2^32) ws.
Proof.
  intros Hm. revert l Hm. refine (list_ind4 _ _ _).
  - intros _ fuel _. exists []. destruct fuel; repeat split; constructor.
  - intros a b c d l IH HF fuel Hf. cbn [length] in Hf.
    inversion HF as [|? ? Ha HF1]; subst. inversion HF1 as [|? ? Hb HF2]; subst.
    inversion HF2 as [|? ? Hc HF3]; subst. inversion HF3 as [|? ? Hd HF4]; subst.
    destruct fuel as [|fuel]; [lia|].
    destruct (IH HF4 fuel) as (ws & H1 & H2 & H3 & H4); [lia|].
    cbn [dwords_of_bytes firstn skipn]. unfold unpack_u32. cbn [length Nat.eqb bind].
    rewrite H1. cbn [bind]. eexists; split; [reflexivity|].
    assert (HR: 0 <= le_val [a;b;c;d] < 2^32).
    { pose proof (le_val_range [a;b;c;d]) as HR. apply HR. repeat constructor; apply Ha || apply Hb || apply Hc || apply Hd. }
    repeat split.
    + cbn [bytes_of_dwords]. unfold pack_u32.
      replace ((0 <=? le_val [a;b;c;d]) && (le_val [a;b;c;d] <? 2^32)) with true by lia.
      cbn [bind]. rewrite H2. cbn [bind]. f_equal.
      change 4%nat with (length [a;b;c;d]). rewrite le_bytes_val; [reflexivity|].
      repeat constructor; apply Ha || apply Hb || apply Hc || apply Hd.
    + unfold zlen in *. cbn [length]. lia.
    + constructor; assumption.
Qed.

Lemma zlen_zeros n : 0 <= n -> zlen (zeros n) = n.
Proof. intros. unfold zlen, zeros. rewrite repeat_length. lia. Qed.
Lemma zlen_app {A} (a b : list A) : zlen (a ++ b) = zlen a + zlen b.
Proof. unfold zlen. rewrite app_length. lia. Qed.
Lemma zeros_bytes n : Forall is_byte (zeros n).
Proof. apply Forall_forall. intros x Hx. apply repeat_spec in Hx. subst; unfold is_byte; lia. Qed.

Lemma set_be_data_ok addr data t : data <> [] -> Forall is_byte data ->
  exists t', set_be_data addr data t = Ok t' /\
    get_data t' = Ok (zeros (addr mod 4) ++ data ++ zeros (3 - (addr + zlen data - 1) mod 4)) /\
    t' = set_length (be_len addr (zlen data)) (set_data (t_data t') (fst (set_be addr (zlen data) t))) /\
    zlen (t_data t') = be_len addr (zlen data) /\ Forall (fun w => 0 <= w < 2^32) (t_data t').
Proof.
  intros Hne HB. unfold set_be_data.
  rewrite set_be_eq. cbn zeta. cbn [fst snd].
  set (L := be_len addr (zlen data)).
  set (pay := zeros (addr mod 4) ++ data ++ zeros (3 - (addr + zlen data - 1) mod 4)).
  assert (Hlen: 0 < zlen data) by (destruct data; [congruence|unfold zlen; cbn [length]; lia]).
  assert (Hz: zlen pay = 4 * L).
  { unfold pay. rewrite !zlen_app, !zlen_zeros by lia. subst L; unfold be_len. lia. }
  assert (Hmod: (length pay mod 4 = 0)%nat).
  { assert (Z.of_nat (length pay) = 4 * L) by exact Hz. lia. }
  assert (HP: Forall is_byte pay).
  { unfold pay. rewrite !Forall_app. repeat split; auto using zeros_bytes. }
  destruct (dwords_bytes_ok pay Hmod HP (length pay) (le_n _)) as (ws & H1 & H2 & H3 & H4).
  unfold set_data_bytes. rewrite H1. cbn [bind].
  assert (HL : zlen ws = L) by lia.
  eexists; split; [reflexivity|]. cbn [set_length set_data t_data get_data].
  repeat split.
  - exact H2.
  - rewrite HL, set_be_eq. reflexivity.
  - exact HL.
  - exact H4.
Qed.

(** lane-by-lane reading of the padded payload *)
Lemma nth_zeros n i : nth i (zeros n) 0 = 0.
Proof. unfold zeros. destruct (Nat.ltb_spec i (Z.to_nat n)); [apply nth_repeat|]. apply nth_overflow. rewrite repeat_length. lia. Qed.

Lemma padded_nth f l data i : 0 <= f -> 0 <= i ->
  nth (Z.to_nat i) (zeros f ++ data ++ zeros l) 0 =
  if (f <=? i) && (i <? f + zlen data) then nth (Z.to_nat (i - f)) data 0 else 0.
Proof.
  intros Hf Hi. destruct (f <=? i) eqn:E1; cbn [andb].
  - rewrite app_nth2 by (unfold zeros; rewrite repeat_length; lia).
    unfold zeros at 1. rewrite repeat_length.
    replace (Z.to_nat i - Z.to_nat f)%nat with (Z.to_nat (i - f)) by lia.
    destruct (i <? f + zlen data) eqn:E2.
    + apply app_nth1. unfold zlen in E2. lia.
    + rewrite app_nth2 by (unfold zlen in E2; lia). apply nth_zeros.
  - rewrite app_nth1 by (unfold zeros; rewrite repeat_length; lia). apply nth_zeros.
Qed.

(* ---------- C05 ---------- *)
Lemma get_lower_address_eq t : t_address t mod 4 = 0 ->
  get_lower_address t = Z.land (t_address t) 0x7c.
Proof.
  intros Ha. unfold get_lower_address, get_first_be_offset.
  assert (HL: forall k, 0 <= k < 4 -> Z.land (t_address t) (0x7c + k) = Z.land (t_address t) 0x7c).
  { intros k Hk. apply Z.bits_inj'. intros i Hi. rewrite !Z.land_spec.
    destruct (Z.ltb_spec i 2).
    - assert (Z.testbit (t_address t) i = false) as ->; [|reflexivity].
      replace (t_address t) with (t_address t / 4 * 2^2) by (change (2^2) with 4; lia).
      apply Z.mul_pow2_bits_low. lia.
    - f_equal. revert k Hk. apply zcase4; [reflexivity| | |];
      (assert (i = 2 \/ i = 3 \/ i = 4 \/ i = 5 \/ i = 6 \/ 7 <= i) as [->|[->|[->|[->|[->|H7]]]]] by lia;
        try reflexivity; rewrite !(testbit_high _ 7) by (try (cbn; lia); lia); reflexivity). }
  repeat match goal with |- context [if ?b then _ else _] => destruct b end; apply HL; lia.
Qed.

(* ---------- C06 ---------- *)
Lemma attr_case (P : Z -> Prop) : P 0 -> P 1 -> P 2 -> P 3 -> P 4 -> P 5 -> P 6 -> P 7 ->
  forall x, 0 <= x < 8 -> P x.
Proof.
  intros. assert (x = 0 \/ x = 1 \/ x = 2 \/ x = 3 \/ x = 4 \/ x = 5 \/ x = 6 \/ x = 7) as
   [->|[->|[->|[->|[->|[->|[->| ->]]]]]]] by lia; assumption.
Qed.

Lemma attr_hi a : 0 <= a < 8 -> Z.shiftl (Z.land a 4) 16 = Z.shiftl (Z.shiftr a 2) 18 /\
  0 <= Z.shiftr a 2 < 2 /\ Z.lor (Z.land a 3) (Z.shiftl (Z.shiftr a 2) 2) = a /\ 0 <= Z.land a 3 < 4.
Proof. revert a. apply attr_case; cbn; repeat split; lia. Qed.

Lemma land_4_shift x : Z.land (Z.shiftr x 16) 4 = Z.shiftl (getf 18 1 x) 2.
Proof.
  apply Z.bits_inj'. intros i Hi. rewrite Z.land_spec, Z.shiftr_spec, Z.shiftl_spec by lia.
  destruct (Z.eq_dec i 2) as [->|Hne].
  - rewrite getf_testbit by lia. cbn [Z.sub Z.add Z.opp Z.ltb andb]. now rewrite andb_true_r.
  - change 4 with (2^2). rewrite Z.pow2_bits_false by lia. rewrite andb_false_r.
    destruct (Z.ltb_spec i 2); [now rewrite Z.testbit_neg_r by lia|].
    rewrite getf_testbit by lia. replace (i - 2 <? 1) with false by lia. reflexivity.
Qed.

Record dw0_fields (w : Z) (t : tlp) : Prop := {
  d_len : Z.land w 0x3ff = t_length t mod 1024;
  d_at : Z.land (Z.shiftr w 10) 3 = t_at t;
  d_attr : Z.lor (Z.land (Z.shiftr w 12) 3) (Z.land (Z.shiftr w 16) 4) = t_attr t;
  d_ep : Z.land (Z.shiftr w 14) 1 = t_ep t;
  d_td : Z.land (Z.shiftr w 15) 1 = t_td t;
  d_th : Z.land (Z.shiftr w 16) 1 = t_th t;
  d_tc : Z.land (Z.shiftr w 20) 7 = t_tc t;
  d_type : Z.land (Z.shiftr w 24) 31 = t_type t;
  d_fmt : Z.land (Z.shiftr w 29) 7 = t_fmt t }.

Lemma pack_dw0_ok t : hdr_ok t -> 0 <= t_type t < 32 -> 0 <= t_fmt t < 8 ->
  dw0_fields (pack_dw0 t) t.
Proof.
  intros (Hat & Hattr & Hep & Htd & Hth & Htc & Htag & Hid) Hty Hfmt.
  unfold pack_dw0. destruct (attr_hi _ Hattr) as (Eh & Hh & Er & H3).
  rewrite Eh. set (ah := Z.shiftr (t_attr t) 2) in *. set (al := Z.land (t_attr t) 3) in *.
  mask_to_ones. rewrite (Z.land_ones (t_length t) 10) by lia. change (2^10) with 1024.
  set (len := t_length t mod 1024). assert (0 <= len < 1024) by (subst len; lia).
  rewrite !(land_ones_small) by (cbn; lia).
  constructor; rewrite ?land_4_shift; mask_to_ones; rewrite ?getf_fold, ?getf_fold0;
    repeat rewrite getf_lor; getf_leaf; rewrite ?Z.lor_0_l, ?Z.lor_0_r; auto.
Qed.

Lemma id_getf w : id_from_int (Z.shiftr w 16) = id_from_int (getf 16 16 w).
Proof. apply id_from_int_getf. Qed.


Lemma id_lt i : id_ok i -> 0 <= id_to_int i < 65536.
Proof. intros _. apply id_to_int_range. Qed.

(** Completions round-trip through [pack] and [unpack]. *)
Lemma cpl_roundtrip t : cpl_ok t ->
  exists p t', pack t = Ok p /\ unpack p = Ok t' /\ same_completion t t'.
Proof.
  intros (Hh & Hcid & Hst & Hbcm & Hbc & Hla & Hft).
  assert (HR : 0 <= t_type t < 32 /\ 0 <= t_fmt t < 8 /\ ft_in (t_fmt_type t) ft_req = false /\
    ft_in (t_fmt_type t) ft_cpl = true /\
    ((t_fmt t = 0 /\ 0 <= t_length t < 1024 /\ t_data t = []) \/ (t_fmt t = 2 /\ 1 <= t_length t <= 1024))).
  { unfold t_fmt_type in *.
    destruct Hft as [[[E|[E|[]]] HL]|[[E|[E|[]]] HL]]; injection E as E1 E2; rewrite <- E1, <- E2;
      vm_compute ft_in; repeat split; try lia; auto. }
  destruct HR as (Hty & Hfm & Hreq & Hcpl & HL).
  pose proof (pack_dw0_ok t Hh Hty Hfm) as [Dlen Dat Dattr Dep Dtd Dth Dtc Dtype Dfmt].
  destruct Hh as (Hat & Hattr & Hep & Htd & Hth & Htc & Htag & Hid).
  unfold pack. rewrite Hreq, Hcpl. cbn [bind].
  change (t_fmt_type t) with (t_fmt t, t_type t) in Hreq, Hcpl.
  set (w0 := pack_dw0 t) in *.
  match goal with |- context [ ([w0] ++ [?a]) ++ [?b] ] => set (w1 := a); set (w2 := b) end.
  cbn [app].
  set (cid := id_to_int (t_completer_id t)) in *. set (rid := id_to_int (t_requester_id t)) in *.
  assert (0 <= cid < 65536) by (apply id_lt; assumption).
  assert (0 <= rid < 65536) by (apply id_lt; assumption).
  assert (W1 : Z.land w1 0xfff = t_byte_count t mod 4096 /\ Z.land (Z.shiftr w1 12) 1 = t_bcm t /\
     Z.land (Z.shiftr w1 13) 7 = t_status t /\ id_from_int (Z.shiftr w1 16) = t_completer_id t).
  { unfold w1. mask_to_ones. rewrite (Z.land_ones (t_byte_count t)) by lia. pow_norm.
    set (bc := t_byte_count t mod 4096). assert (0 <= bc < 4096) by (subst bc; lia).
    rewrite (land_ones_small (t_bcm t) 1), (land_ones_small (t_status t) 3) by (cbn; lia). rewrite id_getf.
    rewrite ?getf_fold, ?getf_fold0. repeat rewrite getf_lor. getf_leaf.
    rewrite ?Z.lor_0_l, ?Z.lor_0_r. repeat split. unfold cid. now apply id_roundtrip. }
  assert (W2 : Z.land w2 0x7f = t_lower_address t /\ Z.land (Z.shiftr w2 8) 0xff = t_tag t /\
     id_from_int (Z.shiftr w2 16) = t_requester_id t).
  { unfold w2. mask_to_ones. rewrite (land_ones_small (t_lower_address t) 7), (land_ones_small (t_tag t) 8) by (cbn; lia). rewrite id_getf.
    rewrite ?getf_fold, ?getf_fold0. repeat rewrite getf_lor. getf_leaf.
    rewrite ?Z.lor_0_l, ?Z.lor_0_r. repeat split. unfold rid. now apply id_roundtrip. }
  destruct W1 as (W11 & W12 & W13 & W14). destruct W2 as (W21 & W22 & W23).
  assert (HU : forall d, (t_fmt t = 0 -> d = t_data t /\ d = []) -> (t_fmt t = 2 -> d = t_data t) ->
     exists t', unpack (w0 :: w1 :: w2 :: d) = Ok t' /\ same_completion t t').
  { clearbody w0 w1 w2 rid cid. intros d Hd0 Hd2. unfold same_completion.
    destruct t as [fmt ty tc th td ep attr at_ len cid' st bcm bc rid' did tag fb lb la addr reg data].
    tlp_simp in all. unfold unpack.
    unfold py_index. cbn [Z.ltb Z.compare Z.to_nat].
    change (Pos.to_nat 1) with 1%nat. change (Pos.to_nat 2) with 2%nat. cbn [nth_error].
    tlp_simp. rewrite Dlen, Dat, Dattr, Dep, Dtd, Dth, Dtc, Dtype, Dfmt.
    assert (EB : (if bc mod 4096 =? 0 then 4096 else bc mod 4096) = bc) by (destruct (bc mod 4096 =? 0) eqn:?; lia).
    assert (EL : fmt = 2 -> (if len mod 1024 =? 0 then 1024 else len mod 1024) = len) by (destruct (len mod 1024 =? 0) eqn:?; lia).
    destruct HL as [(HF & HLen & HD)|(HF & HLen)]; subst fmt.
    - destruct (Hd0 eq_refl) as (Hd & Hdn).
      change (0 =? FMT_3DW_DATA) with false. change (0 =? FMT_4DW_DATA) with false. cbn [orb].
      tlp_simp. rewrite Hreq, Hcpl. tlp_simp. rewrite W11, W12, W13, W14, W21, W22, W23.
      destruct (bc mod 4096 =? 0) eqn:EBB; tlp_simp;
      change (0 =? FMT_3DW_DATA) with false; change (0 =? FMT_4DW_DATA) with false; cbv iota;
      (eexists; split; [reflexivity|]); tlp_simp; repeat split; lia || auto.
    - specialize (Hd2 eq_refl). specialize (EL eq_refl).
      change (2 =? FMT_3DW_DATA) with true. cbn [orb].
      destruct (len mod 1024 =? 0) eqn:ELL; tlp_simp; rewrite Hreq, Hcpl; tlp_simp;
      rewrite W11, W12, W13, W14, W21, W22, W23;
      (destruct (bc mod 4096 =? 0) eqn:EBB; tlp_simp;
      change (2 =? FMT_3DW_DATA) with true; cbv iota; cbn [skipn];
      (eexists; split; [reflexivity|]); tlp_simp; repeat split; lia || auto). }
  destruct HL as [(HF & HLen & HD)|(HF & HLen)]; rewrite HF in *.
  - change (0 =? FMT_3DW_DATA) with false. change (0 =? FMT_4DW_DATA) with false. cbn [orb].
    destruct (HU []) as (t' & H1 & H2); [intros _; split; auto|discriminate|].
    exists [w0; w1; w2], t'. auto.
  - change (2 =? FMT_3DW_DATA) with true. cbn [orb].
    destruct (HU (t_data t)) as (t' & H1 & H2); [discriminate|auto|].
    exists (w0 :: w1 :: w2 :: t_data t), t'. auto.
Qed.

Lemma land_7c a : a mod 4 = 0 -> Z.land a 0x7c = a mod 128.
Proof.
  intros Ha. change 128 with (2^7). rewrite <- Z.land_ones by lia.
  apply Z.bits_inj'. intros i Hi. rewrite !Z.land_spec.
  destruct (Z.ltb_spec i 2).
  - assert (Z.testbit a i = false) as ->; [|reflexivity].
    replace a with (a / 4 * 2^2) by (change (2^2) with 4; lia). apply Z.mul_pow2_bits_low. lia.
  - f_equal. destruct (Z.ltb_spec i 7).
    + rewrite Z.ones_spec_low by lia.
      assert (i = 2 \/ i = 3 \/ i = 4 \/ i = 5 \/ i = 6) as [->|[->|[->|[->| ->]]]] by lia; reflexivity.
    + rewrite Z.ones_spec_high by lia. apply (testbit_high _ 7); [cbn; lia|lia].
Qed.

Lemma set_be_lower_address addr len t : 1 <= len ->
  get_lower_address (fst (set_be addr len t)) = addr mod 128 - addr mod 4.
Proof.
  intros Hl. rewrite get_lower_address_eq by (rewrite set_be_address; lia).
  rewrite land_7c; rewrite set_be_address; lia.
Qed.

Lemma ft_req_read t : In (t_fmt_type t) [(0,0);(1,0);(0,1);(1,1);(0,2)] ->
  ft_in (t_fmt_type t) ft_req = true /\ ft_in (t_fmt_type t) ft_cfg = false /\
  0 <= t_type t < 32 /\ (t_fmt t = 0 \/ t_fmt t = 1).
Proof.
  unfold t_fmt_type. intros H. cbn [In] in H.
  repeat (destruct H as [E|H]; [injection E as E1 E2; rewrite <- E1, <- E2; vm_compute ft_in;
    repeat split; auto; lia|]). destruct H.
Qed.

(** Every memory or I/O read packs to a packet that [unpack] cannot read. *)
Lemma read_unpack_fails t : hdr_ok t ->
  In (t_fmt_type t) [(0,0);(1,0);(0,1);(1,1);(0,2)] ->
  exists p, pack t = Ok p /\ unpack p = Err IndexError.
Proof.
  intros Hh Hft. destruct (ft_req_read t Hft) as (Hreq & Hcfg & Hty & Hfm).
  pose proof (pack_dw0_ok t Hh Hty ltac:(lia)) as [Dlen Dat Dattr Dep Dtd Dth Dtc Dtype Dfmt].
  unfold pack. rewrite Hreq, Hcfg. set (w0 := pack_dw0 t) in *. clearbody w0.
  destruct t as [fmt ty tc th td ep attr at_ len cid' st bcm bc rid' did tag fb lb la addr reg data].
  tlp_simp in all.
  destruct Hfm; subst fmt.
  - change (0 =? FMT_4DW) with false. change (0 =? FMT_4DW_DATA) with false.
    change (0 =? FMT_3DW_DATA) with false. cbn [orb app]. eexists; split; [reflexivity|].
    unfold unpack, py_index. cbn [Z.ltb Z.compare Z.to_nat].
    change (Pos.to_nat 1) with 1%nat. change (Pos.to_nat 2) with 2%nat. change (Pos.to_nat 3) with 3%nat.
    cbn [nth_error]. tlp_simp. rewrite Dfmt, Dtype.
    change (0 =? FMT_4DW_DATA) with false. change (0 =? FMT_3DW_DATA) with false. cbn [orb].
    tlp_simp. rewrite Hreq, Hcfg. tlp_simp. change (0 =? FMT_3DW) with true. cbn [orb]. reflexivity.
  - change (1 =? FMT_4DW) with true. change (1 =? FMT_4DW_DATA) with false.
    change (1 =? FMT_3DW_DATA) with false. cbn [orb app]. eexists; split; [reflexivity|].
    unfold unpack, py_index. cbn [Z.ltb Z.compare Z.to_nat].
    change (Pos.to_nat 1) with 1%nat. change (Pos.to_nat 2) with 2%nat.
    change (Pos.to_nat 3) with 3%nat. change (Pos.to_nat 4) with 4%nat.
    cbn [nth_error]. tlp_simp. rewrite Dfmt, Dtype.
    change (1 =? FMT_4DW_DATA) with false. change (1 =? FMT_3DW_DATA) with false. cbn [orb].
    tlp_simp. rewrite Hreq, Hcfg. tlp_simp. change (1 =? FMT_3DW) with false.
    change (1 =? FMT_3DW_DATA) with false. change (1 =? FMT_4DW) with true. cbn [orb]. reflexivity.
Qed.

Lemma ft_req_cfg t : In (t_fmt_type t) [(0,4);(2,4);(0,5);(2,5)] ->
  ft_in (t_fmt_type t) ft_req = true /\ ft_in (t_fmt_type t) ft_cfg = true /\
  0 <= t_type t < 32 /\ (t_fmt t = 0 \/ t_fmt t = 2).
Proof.
  unfold t_fmt_type. intros H. cbn [In] in H.
  repeat (destruct H as [E|H]; [injection E as E1 E2; rewrite <- E1, <- E2; vm_compute ft_in;
    repeat split; auto; lia|]). destruct H.
Qed.

(** Configuration requests: everything but the register number survives. *)
Lemma cfg_roundtrip_but_register t : req_ok t -> t_length t = 1 ->
  In (t_fmt_type t) [(0,4);(2,4);(0,5);(2,5)] -> (t_fmt t = 0 -> t_data t = []) ->
  exists p t', pack t = Ok p /\ unpack p = Ok t' /\ t_register_number t' = 0 /\
    same_request (set_register_number 0 t) t'.
Proof.
  intros (Hh & Hfb & Hlb & Hdid & Hrn & Ha & Ha4 & Ha32 & Hl & Hd & _) Hl1 Hft Hd0.
  destruct (ft_req_cfg t Hft) as (Hreq & Hcfg & Hty & Hfm).
  pose proof (pack_dw0_ok t Hh Hty ltac:(lia)) as [Dlen Dat Dattr Dep Dtd Dth Dtc Dtype Dfmt].
  destruct Hh as (Hat & Hattr & Hep & Htd & Hth & Htc & Htag & Hid).
  unfold pack. rewrite Hreq, Hcfg. cbn [bind].
  set (w0 := pack_dw0 t) in *.
  match goal with |- context [ ([w0] ++ [?a]) ++ [?b] ] => set (w1 := a); set (w2 := b) end.
  set (rid := id_to_int (t_requester_id t)) in *. set (did := id_to_int (t_dest_id t)) in *.
  assert (0 <= did < 65536) by (apply id_lt; assumption).
  assert (0 <= rid < 65536) by (apply id_lt; assumption).
  assert (W1 : Z.land w1 0xf = t_first_be t /\ Z.land (Z.shiftr w1 4) 15 = t_last_be t /\
     Z.land (Z.shiftr w1 8) 255 = t_tag t /\ id_from_int (Z.shiftr w1 16) = t_requester_id t).
  { unfold w1. mask_to_ones.
    rewrite (land_ones_small (t_first_be t) 4), (land_ones_small (t_last_be t) 4),
      (land_ones_small (t_tag t) 8) by (cbn; lia). rewrite id_getf.
    rewrite ?getf_fold, ?getf_fold0. repeat rewrite getf_lor. getf_leaf.
    rewrite ?Z.lor_0_l, ?Z.lor_0_r. repeat split. unfold rid. now apply id_roundtrip. }
  assert (W2 : Z.shiftr (Z.shiftr w2 2) 1023 = 0 /\ id_from_int (Z.shiftr w2 16) = t_dest_id t).
  { split.
    - assert (0 <= w2 < 2^32).
      { unfold w2. mask_to_ones. rewrite (land_ones_small (t_register_number t)) by (cbn; lia).
        apply lor_range; [lia|apply (shiftl_range _ 2 10)|apply (shiftl_range _ 16 16)]; pow_norm; lia. }
      rewrite Z.shiftr_shiftr by lia. apply Z.shiftr_eq_0; [lia|].
      apply Z.le_lt_trans with 31; [|lia].
      destruct (Z.eq_dec w2 0) as [->|]; [cbn; lia|]. apply Z.lt_succ_r.
      apply Z.log2_lt_pow2; lia.
    - unfold w2. mask_to_ones. rewrite (land_ones_small (t_register_number t)) by (cbn; lia).
      rewrite id_getf, getf_lor. getf_leaf. rewrite Z.lor_0_l. unfold did. now apply id_roundtrip. }
  destruct W1 as (W11 & W12 & W13 & W14). destruct W2 as (W21 & W22).
  clearbody w0 w1 w2 rid did.
  destruct t as [fmt ty tc th td ep attr at_ len cid' st bcm bc rid' did' tag fb lb la addr reg data].
  unfold same_request. tlp_simp in all. subst len. change (1 mod 1024) with 1 in Dlen.
  assert (HU : forall d, (fmt = 0 -> d = [] /\ data = []) -> (fmt = 2 -> d = data) ->
    unpack (w0 :: w1 :: w2 :: d) = Ok (mkTlp fmt ty tc th td ep attr at_ 1 (mkId 0 0 0) 0 0 0 rid' did' tag fb lb 0 0 0 data)).
  { intros d E0 E2. unfold unpack, py_index. cbn [Z.ltb Z.compare Z.to_nat].
    change (Pos.to_nat 1) with 1%nat. change (Pos.to_nat 2) with 2%nat. cbn [nth_error].
    tlp_simp. rewrite Dlen, Dat, Dattr, Dep, Dtd, Dth, Dtc, Dtype, Dfmt.
    change (1 =? 0) with false.
    destruct Hfm; subst fmt.
    - destruct (E0 eq_refl) as (-> & ->).
      change (0 =? FMT_4DW_DATA) with false. change (0 =? FMT_3DW_DATA) with false. cbn [orb].
      tlp_simp. rewrite Hreq, Hcfg. tlp_simp. rewrite W11, W12, W13, W14, W21, W22.
      change (0 =? FMT_4DW_DATA) with false. change (0 =? FMT_3DW_DATA) with false. reflexivity.
    - rewrite (E2 eq_refl). change (2 =? FMT_3DW_DATA) with true. cbn [orb].
      tlp_simp. rewrite Hreq, Hcfg. tlp_simp. rewrite W11, W12, W13, W14, W21, W22.
      change (2 =? FMT_3DW_DATA) with true. reflexivity. }
  assert (Hty45 : ty = 4 \/ ty = 5) by (cbn [In] in Hft; intuition congruence).
  destruct Hfm; subst fmt.
  - change (0 =? FMT_4DW_DATA) with false. change (0 =? FMT_3DW_DATA) with false. cbn [orb app].
    exists [w0; w1; w2]. eexists. split; [reflexivity|]. split; [apply HU; [auto|discriminate]|].
    tlp_simp. repeat split; auto; intros; exfalso; lia.
  - change (2 =? FMT_3DW_DATA) with true. cbn [orb app].
    exists (w0 :: w1 :: w2 :: data). eexists. split; [reflexivity|]. split; [apply HU; [discriminate|auto]|].
    tlp_simp. repeat split; auto; intros; exfalso; lia.
Qed.

Lemma set_be_spec addr len t : 1 <= len ->
  (forall a, tlp_selects (fst (set_be addr len t)) a = true <-> addr <= a < addr + len) /\
  t_address (fst (set_be addr len t)) mod 4 = 0 /\
  get_be_byte_count (fst (set_be addr len t)) = len /\
  same_except_be (fst (set_be addr len t)) t.
Proof.
  intros Hl. repeat split; try (intros; apply set_be_same).
  - rewrite set_be_selects in H by assumption. lia.
  - rewrite set_be_selects in H by assumption. lia.
  - intros H. rewrite set_be_selects by assumption. lia.
  - rewrite set_be_address. lia.
  - now apply set_be_count.
Qed.

Lemma set_be_data_spec addr data t :
  data <> [] -> Forall is_byte data ->
  exists t' pay, set_be_data addr data t = Ok t' /\ get_data t' = Ok pay /\
    zlen pay = 4 * t_length t' /\ zlen (t_data t') = t_length t' /\
    t_address t' = 4 * (addr / 4) /\ same_except_be t' t /\
    (forall a, tlp_selects t' a = true <-> addr <= a < addr + zlen data) /\
    (forall a, addr <= a < addr + zlen data ->
       nth (Z.to_nat (a - t_address t')) pay 0 = nth (Z.to_nat (a - addr)) data 0) /\
    (forall a, t_address t' <= a -> ~ addr <= a < addr + zlen data ->
       nth (Z.to_nat (a - t_address t')) pay 0 = 0).
Proof.
  intros Hne HB. destruct (set_be_data_ok addr data t Hne HB) as (t' & H1 & H2 & H3 & H4 & _).
  assert (Hlen: 0 < zlen data) by (destruct data; [congruence|unfold zlen; cbn [length]; lia]).
  assert (HA : t_address t' = addr - addr mod 4)
    by (rewrite H3; cbn [set_length set_data t_address]; apply set_be_address).
  assert (HLn : t_length t' = be_len addr (zlen data)) by (rewrite H3; reflexivity).
  exists t'. eexists. split; [exact H1|]. split; [exact H2|].
  split; [|split; [|split; [|split; [|split; [|split]]]]].
  - rewrite !zlen_app, !zlen_zeros, HLn by lia. unfold be_len. lia.
  - lia.
  - lia.
  - rewrite H3. pose proof (set_be_same addr (zlen data) t) as HS.
    destruct (fst (set_be addr (zlen data) t)). exact HS.
  - intros a. pose proof (set_be_selects addr (zlen data) t a ltac:(lia)) as HS.
    assert (tlp_selects t' a = tlp_selects (fst (set_be addr (zlen data) t)) a) as ->; [|rewrite HS; lia].
    rewrite H3. unfold tlp_selects. cbn [set_length set_data t_address t_length t_first_be t_last_be].
    rewrite set_be_length. reflexivity.
  - intros a Ha. rewrite padded_nth by lia.
    replace ((addr mod 4 <=? a - t_address t') && (a - t_address t' <? addr mod 4 + zlen data)) with true by lia.
    f_equal. lia.
  - intros a Ha Hn. rewrite padded_nth by lia.
    replace ((addr mod 4 <=? a - t_address t') && (a - t_address t' <? addr mod 4 + zlen data)) with false by lia.
    reflexivity.
Qed.

Lemma lower_address_witness : exists addr len,
  1 <= len /\ get_lower_address (fst (set_be addr len tlp0)) <> addr mod 128.
Proof. exists 0x1043, 5. split; [lia|]. vm_compute. discriminate. Qed.

Lemma lower_address_exact addr len t : 1 <= len ->
  get_lower_address (fst (set_be addr len t)) = addr mod 128 - addr mod 4 /\
  (get_lower_address (fst (set_be addr len t)) = addr mod 128 <-> addr mod 4 = 0).
Proof. intros Hl. rewrite set_be_lower_address by assumption. lia. Qed.

Lemma request_witness : exists t, req_ok t /\
  forall p t', pack t = Ok p -> unpack p = Ok t' -> ~ same_request t t'.
Proof.
  exists (mkTlp 2 0 0 0 0 0 0 0 1 (mkId 0 0 0) 0 0 0 (mkId 1 2 3) (mkId 0 0 0) 7 15 0 0 0x1000 0 [0x55aa55aa]).
  split.
  - unfold req_ok, hdr_ok, id_ok, t_fmt_type; tlp_simp. cbn [id_bus id_device id_function]. pow_norm.
    repeat split; try lia. cbn. tauto.
  - intros p t' Hp Hu. vm_compute in Hp. injection Hp as <-. vm_compute in Hu. injection Hu as <-.
    unfold same_request. tlp_simp. intros (_ & _ & _ & _ & _ & _ & _ & _ & _ & _ & _ & _ & _ & _ & H).
    specialize (H ltac:(lia)). discriminate.
Qed.
