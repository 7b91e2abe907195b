(** Lemmas for the UltraScale stream link: runs, and descriptors carried by it. *)
From Verif Require Import PyBase BitLemmas TlpModel TlpSpec TlpProofs UsModel UsSpec UsProofs UsStreamModel UsStreamSpec UsStreamProofs UsStreamProofs2.
From Coq Require Import ZifyBool ZifyNat.
Ltac Zify.zify_post_hook ::= Z.div_mod_to_equations.

Lemma step_ok b snt st i : bus_ok b = true -> inv b snt st -> Forall (frame_ok (b_if b)) (i_send i) ->
  exists st', us_link_step b st i = Ok st' /\ inv b (snt ++ i_send i) st' /\ meas b st' <= meas b st + 2 * all_transfers b (i_send i) /\
    (i_send i = [] -> i_pause_src i = false -> i_pause_snk i = false -> meas b st' <= Z.max 0 (meas b st - 1)).
Proof.
  intros HB HI HF. destruct st as [s k]. apply (inv_send b snt s k (i_send i)) in HI; [|assumption].
  destruct (edge_ok b _ _ k (i_pause_src i) (i_pause_snk i) HB HI) as (s' & k' & H1 & H2 & H3 & H4 & H5).
  unfold us_link_step. cbn [fst snd]. rewrite H1. cbn [bind]. rewrite H2. cbn [bind]. exists (s', k'). split; [reflexivity|]. split; [assumption|].
  rewrite meas_send in H4, H5. split; [assumption|]. intros E. rewrite E in *. cbn [all_transfers fold_right] in *. intros. specialize (H5 H H0). lia.
Qed.

Lemma run_ok b l : bus_ok b = true -> forall snt st, inv b snt st -> Forall (frame_ok (b_if b)) (sent l) ->
  exists st', us_link_run b st l = Ok st' /\ inv b (snt ++ sent l) st' /\ meas b st' <= meas b st + 2 * all_transfers b (sent l).
Proof.
  intros HB. induction l as [|i l IH]; intros snt st HI HF.
  - exists st. split; [reflexivity|]. unfold sent. cbn [flat_map all_transfers fold_right]. rewrite app_nil_r. split; [assumption|lia].
  - change (sent (i :: l)) with (i_send i ++ sent l) in *. apply Forall_app in HF as (HF1 & HF2).
    destruct (step_ok b snt st i HB HI HF1) as (st1 & E1 & I1 & M1 & _).
    destruct (IH _ st1 I1 HF2) as (st2 & E2 & I2 & M2).
    exists st2. cbn [us_link_run]. rewrite E1. cbn [bind]. split; [assumption|]. rewrite app_assoc. split; [assumption|].
    rewrite all_transfers_app. lia.
Qed.

Lemma drain_ok b l : bus_ok b = true -> sent l = [] -> forall snt st, inv b snt st ->
  exists st', us_link_run b st l = Ok st' /\ inv b snt st' /\ meas b st' <= Z.max 0 (meas b st - unpaused l).
Proof.
  intros HB. induction l as [|i l IH]; intros HS snt st HI.
  - exists st. split; [reflexivity|]. split; [assumption|]. unfold unpaused. cbn. lia.
  - change (sent (i :: l)) with (i_send i ++ sent l) in HS. apply app_eq_nil in HS as (HS1 & HS2).
    destruct (step_ok b snt st i HB HI ltac:(rewrite HS1; constructor)) as (st1 & E1 & I1 & M1 & M1').
    rewrite HS1, app_nil_r in I1. rewrite HS1 in M1. cbn [all_transfers fold_right] in M1.
    destruct (IH HS2 _ st1 I1) as (st2 & E2 & I2 & M2).
    exists st2. cbn [us_link_run]. rewrite E1. cbn [bind]. split; [assumption|]. split; [assumption|].
    unfold unpaused in *. cbn [filter]. specialize (M1' HS1).
    destruct (i_pause_src i), (i_pause_snk i); cbn [negb andb]; try lia. specialize (M1' eq_refl eq_refl). unfold zlen in *. cbn [length]. lia.
Qed.

Lemma inv_prefix b snt s k : inv b snt (s, k) -> exists n, k_queue k = map (delivered b) (firstn n snt).
Proof.
  intros (_ & _ & don & rest & -> & HQ & _). exists (length don). rewrite HQ, firstn_app, firstn_all, Nat.sub_diag, firstn_O, app_nil_r. reflexivity.
Qed.

Lemma inv_idle b snt s k : inv b snt (s, k) -> src_idle s -> k_queue k = map (delivered b) snt.
Proof.
  intros (_ & _ & don & rest & -> & HQ & HP) (I1 & I2 & I3). destruct HP; try congruence. subst rest. rewrite I1, app_nil_r. assumption.
Qed.

Lemma inv_meas0 b snt s k : bus_ok b = true -> inv b snt (s, k) -> meas b (s, k) <= 0 -> src_idle s.
Proof.
  intros HB (_ & HF & don & rest & -> & HQ & HP) HM. unfold meas, pending in HM. cbn [fst] in HM.
  pose proof (ceil_nonneg b (length (s_data s)) HB) as HC. pose proof (transfers_nonneg b (s_queue s) HB) as HT.
  assert (s_active s = false) as HA by (destruct (s_active s), (s_tvalid s); try reflexivity; lia).
  destruct HP as [Ha Hd Hv HR ? ?| | |]; try congruence. rewrite Ha, Hd, Hv in HM. cbn [length] in HM. rewrite ceil_0 in HM by assumption.
  split; [|split; assumption]. subst rest. destruct (s_queue s) as [|f q] eqn:EQ; [reflexivity|]. exfalso.
  apply Forall_app in HF as (_ & HF). inversion HF as [|? ? HF1 HF2]; subst. pose proof (frame_ne _ _ HF1).
  cbn [all_transfers fold_right] in HM. fold (all_transfers b q) in HM. pose proof (transfers_nonneg b q HB). rewrite transfers_ceil in HM.
  assert (1 <= ceil b (length (f_data f))); [|lia].
  pose proof (lanes_pos b HB). unfold ceil. apply Z.div_le_lower_bound; lia.
Qed.

Lemma Ok_inj {A} (x y : A) : Ok x = Ok y -> x = y.
Proof. intros H. injection H as H. exact H. Qed.

(** Packed descriptors are frames the link carries. *)
Lemma parity_nib l : Forall nib (parity_of l) /\ length (parity_of l) = length l.
Proof.
  unfold parity_of. rewrite map_length. split; [|reflexivity]. apply Forall_map. apply Forall_forall. intros x _.
  destruct (odd_parity_ok x) as (H & _). exact H.
Qed.
Lemma idv_range i : id_ok i -> 0 <= idv i < 65536.
Proof. unfold id_ok, idv. lia. Qed.
Lemma req_code_range ft : 0 <= us_req_code ft < 16.
Proof. unfold us_req_code. destruct ft as [a b]. repeat match goal with |- context [match ?x with _ => _ end] => destruct x; try lia end. Qed.
Lemma bit_01 (b : bool) : 0 <= bit b <= 1.
Proof. destruct b; cbn; lia. Qed.

Lemma cq_words_range u : us_cq_ok u -> Forall dword (cq_words u).
Proof.
  intros ((HC & Hin & Hat & Ha & Ham & _) & Hf & Hb & Hba). destruct HC as (Hattr & Htc & Htag & Hid & HL).
  pose proof (idv_range _ Hid). pose proof (req_code_range (t_fmt_type (u_tlp u))).
  unfold cq_words. cbv zeta. unfold dword. norm_words. change (2^64) with 18446744073709551616 in Ha. 
  repeat (apply Forall_cons || apply Forall_nil); lia.
Qed.
Lemma rq_words_range u : us_rq_ok u -> Forall dword (rq_words u).
Proof.
  intros (Hcid & HM). assert (HC : us_common (u_tlp u)) by (destruct HM as [(HC & _)|(HC & _)]; exact HC).
  destruct HC as (Hattr & Htc & Htag & Hid & HL).
  pose proof (idv_range _ Hid). pose proof (idv_range _ Hcid). pose proof (req_code_range (t_fmt_type (u_tlp u))). pose proof (bit_01 (u_requester_id_enable u)).
  unfold rq_words. cbv zeta. unfold dword.
  apply Forall_cons; [|apply Forall_cons; [|norm_words; repeat (apply Forall_cons || apply Forall_nil); lia]].
  - destruct HM as [(_ & Hin & Hat & Ha & _)|(_ & Hin & Hr)].
    + assert (E : (t_type (u_tlp u) =? 4) || (t_type (u_tlp u) =? 5) = false).
      { unfold t_fmt_type, us_mem_types in Hin. cbn in Hin. repeat destruct Hin as [Hin|Hin]; try contradiction; injection Hin as _ Ht; rewrite <- Ht; reflexivity. }
      rewrite E. norm_words. change (2^64) with 18446744073709551616 in Ha. lia.
    + assert (E : (t_type (u_tlp u) =? 4) || (t_type (u_tlp u) =? 5) = true).
      { unfold t_fmt_type, us_cfg_types in Hin. cbn in Hin. repeat destruct Hin as [Hin|Hin]; try contradiction; injection Hin as _ Ht; rewrite <- Ht; reflexivity. }
      rewrite E. norm_words. lia.
  - destruct HM as [(_ & Hin & Hat & Ha & _)|(_ & Hin & Hr)].
    + destruct (_ || _); norm_words; change (2^64) with 18446744073709551616 in Ha; lia.
    + assert (E : (t_type (u_tlp u) =? 4) || (t_type (u_tlp u) =? 5) = true).
      { unfold t_fmt_type, us_cfg_types in Hin. cbn in Hin. repeat destruct Hin as [Hin|Hin]; try contradiction; injection Hin as _ Ht; rewrite <- Ht; reflexivity. }
      rewrite E. lia.
Qed.
Lemma cc_words_range u : us_cpl_ok 128 u -> Forall dword (cc_words u).
Proof.
  intros ((Hattr & Htc & Htag & Hid & HL) & Hc & Hs & Hbc & Hat & He & Hla & HT). apply cpl_kinds in HT. destruct HT as (_ & HT & _).
  pose proof (idv_range _ Hid). pose proof (idv_range _ Hc). pose proof (bit_01 (u_completer_id_enable u)).
  unfold cc_words. cbv zeta. unfold dword. norm_words. repeat (apply Forall_cons || apply Forall_nil); lia.
Qed.
Lemma rc_words_range u : us_cpl_ok 4096 u -> Forall dword (rc_words u).
Proof.
  intros ((Hattr & Htc & Htag & Hid & HL) & Hc & Hs & Hbc & Hat & He & Hla & HT). apply cpl_kinds in HT. destruct HT as (_ & HT & _).
  pose proof (idv_range _ Hid). pose proof (idv_range _ Hc).
  unfold rc_words. cbv zeta. unfold dword. norm_words. repeat (apply Forall_cons || apply Forall_nil); lia.
Qed.

Lemma be_list_nib lead first last n : nib first -> nib last -> Forall nib (be_list lead first last n).
Proof.
  intros H1 H2. unfold be_list, zeros. assert (HR : forall x k, nib x -> Forall nib (repeat x k)) by (intros x k Hx; induction k; cbn; constructor; auto).
  repeat (apply Forall_app; split).
  - apply HR. unfold nib. lia.
  - destruct (_ >=? _); repeat constructor; apply H1.
  - destruct (_ >? _); [|constructor]. apply HR. unfold nib. lia.
  - destruct (_ >? _); repeat constructor; apply H2.
Qed.
Lemma be_list_length lead first last (n : nat) : length (be_list (Z.of_nat lead) first last (Z.of_nat n)) = (lead + n)%nat.
Proof.
  unfold be_list, zeros. rewrite !app_length, repeat_length.
  destruct (Z.of_nat n >=? 1) eqn:E1, (Z.of_nat n >? 2) eqn:E2, (Z.of_nat n >? 1) eqn:E3; cbn [length]; rewrite ?repeat_length; lia.
Qed.
Lemma rc_byte_en_ok la bc len (n : nat) : Forall nib (rc_byte_en la bc len (Z.of_nat n)) /\ length (rc_byte_en la bc len (Z.of_nat n)) = (3 + n)%nat.
Proof.
  unfold rc_byte_en. set (fb := Z.land (Z.shiftl 15 _) 15).
  assert (HF : nib fb) by (unfold nib; subst fb; rewrite (land_lo _ 4 15) by lia; lia).
  set (lb := if _ >? _ then 15 else _).
  assert (HL : nib lb).
  { unfold nib. subst lb. destruct (_ >? _); [lia|]. rewrite (land_lo _ 2 3) by lia. set (k := _ mod 2 ^ 2).
    assert (Hk : k = 0 \/ k = 1 \/ k = 2 \/ k = 3) by (subst k; pow_norm; lia). destruct Hk as [->|[->|[->| ->]]]; cbn; lia. }
  clearbody fb lb.
  change 3 with (Z.of_nat 3). destruct (Z.of_nat n =? 1).
  - split; [|apply be_list_length]. apply be_list_nib; [|unfold nib; lia]. unfold nib.
    assert (HR : 0 <= Z.land fb lb /\ Z.land fb lb <= fb); [|unfold nib in *; lia].
    split; [apply Z.land_nonneg; left; apply HF|]. apply Z.ldiff_le; [apply HF|]. rewrite Z.ldiff_land.
    apply Z.bits_inj'. intros i Hi. rewrite !Z.land_spec, Z.lnot_spec, Z.bits_0 by assumption. destruct (Z.testbit fb i), (Z.testbit lb i); reflexivity.
  - split; [|apply be_list_length]. now apply be_list_nib.
Qed.

Lemma frame_cq u f : us_cq_ok u -> Forall dword (t_data (u_tlp u)) -> nib (t_first_be (u_tlp u)) -> nib (t_last_be (u_tlp u)) ->
  pack_us_cq u = Ok f -> frame_ok CQ f.
Proof.
  intros H HD H1 H2. rewrite (cq_pack u H). intros E. apply Ok_inj in E. subst f.
  destruct (parity_nib (cq_words u ++ t_data (u_tlp u))) as (P1 & P2).
  split; [discriminate|]. cbn [f_data f_parity f_byte_en f_first_be f_last_be]. split; [apply Forall_app; split; [now apply cq_words_range|assumption]|].
  split; [assumption|]. split; [assumption|]. split; [|split; assumption].
  rewrite !app_length. unfold req_be. rewrite map_length, seq_length. split; [reflexivity|]. apply Forall_app. split.
  - repeat (apply Forall_cons || apply Forall_nil); unfold nib; lia.
  - apply Forall_map, Forall_forall. intros i _. destruct (_ =? _)%nat; [assumption|]. destruct (_ =? _)%nat; [assumption|]. unfold nib. lia.
Qed.
Lemma frame_rq u f : us_rq_ok u -> Forall dword (t_data (u_tlp u)) -> nib (t_first_be (u_tlp u)) -> nib (t_last_be (u_tlp u)) ->
  pack_us_rq u = Ok f -> frame_ok RQ f.
Proof.
  intros H HD H1 H2. rewrite (rq_pack u H). intros E. apply Ok_inj in E. subst f.
  destruct (parity_nib (rq_words u ++ t_data (u_tlp u))) as (P1 & P2).
  split; [discriminate|]. cbn [f_data f_parity f_byte_en f_first_be f_last_be]. split; [apply Forall_app; split; [now apply rq_words_range|assumption]|].
  repeat split; try assumption; try apply H1; try apply H2.
Qed.
Lemma frame_cc u f : us_cpl_ok 128 u -> Forall dword (t_data (u_tlp u)) -> pack_us_cc u = Ok f -> frame_ok CC f.
Proof.
  intros H HD. rewrite (cc_pack u H). intros E. apply Ok_inj in E. subst f.
  destruct (parity_nib (cc_words u ++ t_data (u_tlp u))) as (P1 & P2).
  split; [discriminate|]. cbn [f_data f_parity f_byte_en f_first_be f_last_be]. split; [apply Forall_app; split; [now apply cc_words_range|assumption]|].
  repeat split; assumption.
Qed.
Lemma frame_rc u f : us_cpl_ok 4096 u -> Forall dword (t_data (u_tlp u)) -> pack_us_rc u = Ok f -> frame_ok RC f.
Proof.
  intros H HD. rewrite (rc_pack u H). intros E. apply Ok_inj in E. subst f.
  destruct (parity_nib (rc_words u ++ t_data (u_tlp u))) as (P1 & P2).
  split; [discriminate|]. cbn [f_data f_parity f_byte_en f_first_be f_last_be]. split; [apply Forall_app; split; [now apply rc_words_range|assumption]|].
  unfold zlen. destruct (rc_byte_en_ok (t_lower_address (u_tlp u)) (t_byte_count (u_tlp u)) (t_length (u_tlp u)) (length (t_data (u_tlp u)))) as (B1 & B2).
  repeat split; try assumption.
Qed.

Lemma delivered_parity b f : check_parity (delivered b f) = check_parity f.
Proof. reflexivity. Qed.

Lemma deliver_cq b u f : b_if b = CQ -> us_cq_ok u -> pack_us_cq u = Ok f -> unpack_us_cq us0 (delivered b f) true = Ok (carried_cq u).
Proof.
  intros HB H. rewrite (cq_pack u H). intros E. apply Ok_inj in E. subst f. unfold delivered. rewrite HB. cbn [f_data f_byte_en f_parity f_first_be f_last_be f_discontinue].
  apply cq_unpack; try reflexivity; [assumption|]. intros _. apply parity_ok.
Qed.
Lemma deliver_rq b u f : b_if b = RQ -> us_rq_ok u -> 0 <= u_seq_num u < (if b_user b =? 60 then 16 else 64) ->
  pack_us_rq u = Ok f -> unpack_us_rq us0 (delivered b f) true = Ok (carried_rq u).
Proof.
  intros HB H HS. rewrite (rq_pack u H). intros E. apply Ok_inj in E. subst f. unfold delivered. rewrite HB. cbn [f_data f_byte_en f_parity f_first_be f_last_be f_discontinue f_seq_num].
  rewrite Z.mod_small by assumption.
  apply rq_unpack; try reflexivity; [assumption|]. intros _. apply parity_ok.
Qed.
Lemma deliver_cc b u f : b_if b = CC -> us_cpl_ok 128 u -> pack_us_cc u = Ok f -> unpack_us_cc us0 (delivered b f) true = Ok (carried_cc u).
Proof.
  intros HB H. rewrite (cc_pack u H). intros E. apply Ok_inj in E. subst f. unfold delivered. rewrite HB. cbn [f_data f_byte_en f_parity f_first_be f_last_be f_discontinue].
  apply cc_unpack; try reflexivity; [assumption|]. intros _. apply parity_ok.
Qed.
Lemma deliver_rc b u f : b_if b = RC -> us_cpl_ok 4096 u -> pack_us_rc u = Ok f -> unpack_us_rc us0 (delivered b f) true = Ok (carried_rc u).
Proof.
  intros HB H. rewrite (rc_pack u H). intros E. apply Ok_inj in E. subst f. unfold delivered. rewrite HB. cbn [f_data f_byte_en f_parity f_first_be f_last_be f_discontinue].
  apply rc_unpack; try reflexivity; [assumption|]. intros _. apply parity_ok.
Qed.

(** A list of TLPs packed, sent, received and unpacked. *)
Lemma e2e b (P : tlp_us -> Prop) pack unpack (carried : tlp_us -> tlp_us) us frames l s k :
  (forall u f, P u -> pack u = Ok f -> frame_ok (b_if b) f /\ unpack (delivered b f) = Ok (carried u)) ->
  bus_ok b = true -> Forall P us -> map pack us = map Ok frames -> sent l = frames ->
  us_link_run b (src0, snk0) l = Ok (s, k) -> src_idle s -> map unpack (k_queue k) = map (fun u => Ok (carried u)) us.
Proof.
  intros HP HB HU HM HS HR HI.
  assert (HF : Forall (frame_ok (b_if b)) frames /\ map (fun f => unpack (delivered b f)) frames = map (fun u => Ok (carried u)) us).
  { clear HS HR. revert frames HM. induction HU as [|u us Hu HU IH]; intros frames HM; destruct frames as [|f fs]; try discriminate; [split; [constructor|reflexivity]|].
    cbn [map] in HM. injection HM as HM1 HM2. destruct (IH fs HM2) as (I1 & I2). destruct (HP u f Hu HM1) as (Q1 & Q2).
    split; [now constructor|]. cbn [map]. now rewrite I2, Q2. }
  destruct HF as (HF1 & HF2). destruct (run_ok b l HB [] (src0, snk0) (inv0 b)) as ((s' & k') & E & HIv & _); [now rewrite HS|].
  rewrite HR in E. injection E as <- <-. rewrite app_nil_l, HS in HIv. rewrite (inv_idle b frames s k HIv HI), map_map. exact HF2.
Qed.
