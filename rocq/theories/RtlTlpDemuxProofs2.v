(** Lemmas on the TLP demultiplexer (C91): traces, liveness, BAR numbers. *)
From Verif Require Import PyBase RtlModel RtlProofs RtlFcProofs RtlRamModel RtlRamProofs RtlDemuxModel RtlDemuxProofs RtlTlpDemuxModel RtlTlpDemuxSpec RtlRamDemuxSpec RtlRamDemuxProofs RtlRamDemuxProofs3 RtlTlpDemuxProofs.
From Coq Require Import Lia.

Section demux.
Context {D : Type}.
Variable p : td_param.
Hypothesis OKP : td_ok p.
Notation w := (tp_segs p).
Notation n := (tp_ports p).

Lemma all_ready : forall r q, psel r 0 n = 2 ^ n - 1 -> 0 <= q < n -> Z.testbit r q = true.
Proof.
  intros r q E Q. assert (B : Z.testbit (psel r 0 n) q = true). { rewrite E. replace (2 ^ n - 1) with (Z.ones n) by (rewrite Z.ones_equiv; lia). apply Z.ones_spec_low. lia. }
  rewrite psel_bits in B by lia. apply andb_true_iff in B. apply B.
Qed.
Lemma all_ready_conv : forall r, (forall q, 0 <= q < n -> Z.testbit r q = true) -> psel r 0 n = 2 ^ n - 1.
Proof.
  intros r H. destruct OKP. replace (2 ^ n - 1) with (Z.ones n) by (rewrite Z.ones_equiv; lia). apply Z.bits_inj'. intros j J. rewrite psel_bits by lia. rewrite Z.testbit_ones_nonneg by lia.
  destruct (j <? n) eqn:E; [|reflexivity]. apply Z.ltb_lt in E. cbn. apply H. lia.
Qed.

Notation heldq s q := (held p (tds_valid s) (tds_sop s) (tds_eop s) (tds_data s) q w).
Record tinv (tr : list (td_ev D)) (s : td_state D) : Prop := {
  ti_dst : dst (tds_sel s) (tds_drop s) (tds_frame s) = under_way None (t_taken p tr);
  ti_rng : forall q, dst (tds_sel s) (tds_drop s) (tds_frame s) = Some q -> 0 <= q < n;
  ti_bits : forall j, Z.testbit (tds_valid s) j = true -> 0 <= j < w * n;
  ti_route : forall q, 0 <= q < n -> to_port q None (t_taken p tr) = t_given p q tr ++ heldq s q }.

Lemma held_nil : forall v sop eop (data : Z -> D) q, held p v sop eop data q w = [] <-> forall g, 0 <= g < w -> Z.testbit v (w * q + g) = false.
Proof.
  intros v sop eop data q. unfold held. split.
  - intros E g G. apply map_eq_nil in E. destruct (Z.testbit v (w * q + g)) eqn:X; [|reflexivity].
    assert (I : In g (filter (fun g => Z.testbit v (w * q + g)) (upto w))) by (apply filter_In; split; [now apply zseq_in|assumption]). now rewrite E in I.
  - intros H. rewrite filter_none; [reflexivity|]. intros g G. apply zseq_in in G. now apply H.
Qed.
Lemma held_len : forall v sop eop (data : Z -> D) q, Z.of_nat (length (held p v sop eop data q w)) <= w.
Proof.
  intros. unfold held. rewrite map_length. destruct OKP. 
  assert (L : forall A (f : A -> bool) l, (length (filter f l) <= length l)%nat). { induction l as [|x l IH]; cbn; [lia|]. destruct (f x); cbn; lia. }
  specialize (L _ (fun g => Z.testbit v (w * q + g)) (upto w)). unfold upto in *. rewrite map_length, seq_length in L. lia.
Qed.
Lemma valid0 : forall s tr, tinv tr s -> (forall q, 0 <= q < n -> heldq s q = []) -> tds_valid s = 0.
Proof.
  intros s tr I H. apply Z.bits_inj'. intros j J. rewrite Z.bits_0. destruct (Z.testbit (tds_valid s) j) eqn:E; [|reflexivity]. pose proof (ti_bits _ _ I j E) as B.
  destruct OKP. assert (Q : 0 <= j / w < n). { split; [apply Z.div_pos; lia | apply Z.div_lt_upper_bound; lia]. }
  specialize (H _ Q). rewrite held_nil in H. specialize (H (j mod w) ltac:(apply Z.mod_pos_bound; lia)). rewrite <- Z.div_mod in H by lia. congruence.
Qed.
Lemma held_zero : forall sop eop (data : Z -> D) q, held p 0 sop eop data q w = [].
Proof. intros. apply held_nil. intros. apply Z.bits_0. Qed.

Lemma seg_list : forall (i : td_in D), segs_of p i w = map (fun g => ((Z.testbit (tdi_sop i) g, Z.testbit (tdi_eop i) g, tdi_data i g), choice p i g)) (filter (fun g => Z.testbit (tdi_valid i) g) (upto w)).
Proof. reflexivity. Qed.

Lemma tinv_step : forall tr s i, tinv tr s -> tinv (tr ++ [td_event p s i]) (td_step p s i).
Proof.
  intros tr s i I. destruct I as [I1 I2 I3 I4].
  assert (R0 : tdi_rst i = true -> tinv (tr ++ [td_event p s i]) (td_step p s i)).
  { intros R. assert (V : tds_valid (td_step p s i) = 0 /\ dst (tds_sel (td_step p s i)) (tds_drop (td_step p s i)) (tds_frame (td_step p s i)) = None).
    { unfold td_step. rewrite R. destruct (if td_in_ready p s i then _ else _) as [[[? ?] ?] ?]. split; reflexivity. }
    destruct V as [V1 V2]. assert (T : t_taken p (tr ++ [td_event p s i]) = []). { unfold t_taken. rewrite since_snoc. unfold t_rst at 1. cbn [td_event tde_in]. now rewrite R. }
    assert (GN : forall q, t_given p q (tr ++ [td_event p s i]) = []). { intros q. unfold t_given. rewrite since_snoc. unfold t_rst at 1. cbn [td_event tde_in]. now rewrite R. }
    constructor.
    - now rewrite V2, T.
    - rewrite V2. discriminate.
    - rewrite V1. intros j. rewrite Z.bits_0. discriminate.
    - intros q Q. rewrite T, GN, V1. cbn. symmetry. apply held_zero. }
  destruct (tdi_rst i) eqn:R; [now apply R0|]. clear R0.
  set (e := td_event p s i).
  assert (GN : forall q, t_given p q (tr ++ [e]) = t_given p q tr ++ if Z.testbit (tdi_ready i) q then heldq s q else []).
  { intros q. unfold t_given. rewrite since_snoc. unfold t_rst at 1. cbn [e td_event tde_in]. rewrite R. reflexivity. }
  assert (TK : t_taken p (tr ++ [e]) = t_taken p tr ++ if td_in_ready p s i then segs_of p i w else []).
  { unfold t_taken. rewrite since_snoc. unfold t_rst at 1. cbn [e td_event tde_in]. rewrite R. reflexivity. }
  unfold td_step. rewrite R. destruct OKP as [P1 P2].
  set (v0 := td_clear p (tds_valid s) (tdi_ready i)).
  assert (B0 : forall j, Z.testbit v0 j = true -> 0 <= j < w * n) by (intros j J; apply I3; eapply clear_sub; exact J).
  destruct (td_in_ready p s i) eqn:RD.
  - assert (AL : tds_valid s = 0 \/ forall q, 0 <= q < n -> Z.testbit (tdi_ready i) q = true).
    { unfold td_in_ready in RD. apply andb_true_iff in RD. destruct RD as [RD _]. apply orb_prop in RD. destruct RD as [RD|RD]; apply Z.eqb_eq in RD; [now left|right]. intros q Q. now apply all_ready. }
    pose proof (loop_ok p i (Z.to_nat w) (tds_sel s) (tds_drop s) (tds_frame s) v0) as L. rewrite Z2Nat.id in L by lia. specialize (L ltac:(lia) I2).
    fold (upto w).
    destruct (fold_left (td_seg p i) (upto w) (tds_sel s, tds_drop s, tds_frame s, v0)) as [[[sel' drop'] frame'] v'].
    destruct L as (L1 & L2 & _ & L4 & L5).
    { intros q g Q G. unfold v0. rewrite clear_bit by assumption. destruct AL as [->|AL]; [now rewrite Z.bits_0|]. rewrite AL by assumption. apply andb_false_r. }
    { exact B0. }
    constructor; cbn [tds_sel tds_drop tds_frame tds_valid tds_sop tds_eop tds_data].
    + rewrite TK, under_way_app, <- I1. exact L1.
    + exact L2.
    + exact L4.
    + intros q Q. rewrite TK, GN, to_port_app, I4, <- I1, L5, <- !app_assoc by assumption. f_equal. f_equal. destruct AL as [Z0|AL]; [|now rewrite AL].
      rewrite Z0, held_zero. now destruct (Z.testbit (tdi_ready i) q).
  - constructor; cbn [tds_sel tds_drop tds_frame tds_valid tds_sop tds_eop tds_data].
    + rewrite TK, app_nil_r. exact I1.
    + exact I2.
    + exact B0.
    + intros q Q. rewrite TK, GN, app_nil_r, I4, <- app_assoc by assumption. f_equal. destruct (Z.testbit (tdi_ready i) q) eqn:E.
      * rewrite <- (app_nil_r (heldq s q)) at 1. f_equal. symmetry. apply held_nil. intros g G. unfold v0. rewrite clear_bit, E by assumption. apply andb_false_r.
      * cbn [app]. apply held_ext. intros g G. unfold v0. rewrite clear_bit, E by assumption. now rewrite andb_true_r.
Qed.

Lemma td_trace_app : forall (l l' : list (td_in D)) s, td_trace p s (l ++ l') = td_trace p s l ++ td_trace p (td_run p s l) l'.
Proof. induction l as [|i l IH]; intros l' s; [reflexivity|]. cbn [app td_trace]. rewrite IH. reflexivity. Qed.
Lemma td_run_snoc : forall (l : list (td_in D)) s i, td_run p s (l ++ [i]) = td_step p (td_run p s l) i.
Proof. intros. unfold td_run. now rewrite fold_left_app. Qed.
Lemma tinv0 : forall d, tinv [] (td0 d).
Proof. intros d. constructor; cbn. - reflexivity. - discriminate. - intros j. rewrite Z.bits_0. discriminate. - intros q Q. symmetry. apply held_zero. Qed.
Lemma tinv_run : forall (l : list (td_in D)) d, tinv (td_trace p (td0 d) l) (td_run p (td0 d) l).
Proof. intros l d. induction l as [|i l IH] using rev_ind; [apply tinv0|]. rewrite td_trace_app, td_run_snoc. now apply tinv_step. Qed.

Lemma td_routed : forall (l : list (td_in D)) d, t_routed p (td_trace p (td0 d) l).
Proof. intros l d q Q. exists (heldq (td_run p (td0 d) l) q). split; [now apply tinv_run|apply held_len]. Qed.

(** Whole packets. *)
Lemma to_port_rest : forall q r c, Forall (fun y : @segment D * option Z => is_sop y = false) r -> (forall a y, r = a ++ [y] -> Forall (fun z => is_eop z = false) a) ->
  to_port q c r = match c with Some y => if y =? q then map fst r else [] | None => [] end.
Proof.
  induction r as [|x r IH]; intros c S E; [destruct c as [y|]; [destruct (y =? q)|]; reflexivity|]. inversion S as [|? ? S1 S2]; subst. cbn [to_port]. cbn zeta. rewrite S1.
  destruct r as [|x' r'].
  - cbn. destruct c as [y|]; [destruct (y =? q)|]; reflexivity.
  - assert (X : is_eop x = false). { destruct (exists_last (l := x' :: r') ltac:(discriminate)) as (a & y & A). specialize (E (x :: a) y). rewrite A in E. specialize (E eq_refl). now inversion E. }
    rewrite X. rewrite IH; [|assumption|]. { destruct c as [y|]; [destruct (y =? q)|]; reflexivity. }
    intros a y A. specialize (E (x :: a) y). rewrite A in E. specialize (E eq_refl). now inversion E.
Qed.
Lemma packet_port : forall q (l : list (@segment D * option Z)), packet l -> to_port q None l = (if goes_to q l then map fst l else []) /\ under_way None l = None.
Proof.
  intros q l (x & r & -> & S1 & S2 & a & y & A & E1 & E2). split.
  - cbn [to_port]. cbn zeta. rewrite S1. destruct r as [|x' r'].
    + cbn. destruct x as [x [c|]]; cbn; [destruct (c =? q)|]; reflexivity.
    + assert (X : is_eop x = false). { destruct a as [|a0 a]; [discriminate|]. injection A as <- A. now inversion E2. }
      rewrite X, to_port_rest; [|assumption|].
      * destruct x as [x [c|]]; cbn; [destruct (c =? q)|]; reflexivity.
      * intros b z B. destruct a as [|a0 a]; [discriminate|]. injection A as <- A. rewrite B in A. apply app_inj_tail in A. destruct A as [-> _]. now inversion E2.
  - rewrite A, under_way_app. cbn. now rewrite E1.
Qed.
Lemma packets_port : forall q (ps : list (list (@segment D * option Z))), Forall packet ps -> to_port q None (concat ps) = concat (map (map fst) (filter (goes_to q) ps)).
Proof.
  intros q ps H. induction H as [|l ps H1 H2 IH]; [reflexivity|]. cbn [concat filter]. destruct (packet_port q l H1) as [E1 E2]. rewrite to_port_app, E1, E2, IH. destruct (goes_to q l); reflexivity.
Qed.
Lemma td_packets : forall (l : list (td_in D)) d, t_packets p (td_trace p (td0 d) l).
Proof. intros l d ps q Q F T. destruct (td_routed l d q Q) as (rest & E & L). exists rest. split; [|exact L]. rewrite <- E, T. symmetry. now apply packets_port. Qed.

(** What is not taken stays. *)
Lemma step_keeps : forall s (i : td_in D) q, 0 <= q < n -> tdi_rst i = false -> heldq s q <> [] -> Z.testbit (tdi_ready i) q = false -> heldq (td_step p s i) q = heldq s q.
Proof.
  intros s i q Q R H E. unfold td_step. rewrite R.
  assert (RD : td_in_ready p s i = false).
  { destruct (td_in_ready p s i) eqn:RD; [|reflexivity]. exfalso. unfold td_in_ready in RD. apply andb_true_iff in RD. destruct RD as [RD _]. apply orb_prop in RD. destruct RD as [RD|RD]; apply Z.eqb_eq in RD.
    - apply H. rewrite RD. apply held_zero.
    - rewrite (all_ready _ q RD Q) in E. discriminate. }
  rewrite RD. cbn [tds_valid tds_sop tds_eop tds_data]. apply held_ext. intros g G. rewrite clear_bit, E by assumption. now rewrite andb_true_r.
Qed.
Lemma td_kept : forall (l : list (td_in D)) d, t_kept p (td_trace p (td0 d) l).
Proof.
  intros l d a e1 e2 b E R q Q S RQ.
  assert (X : exists l1 i1 i2 l2, l = l1 ++ i1 :: i2 :: l2 /\ e1 = td_event p (td_run p (td0 d) l1) i1 /\ e2 = td_event p (td_step p (td_run p (td0 d) l1) i1) i2).
  { revert E. generalize (td0 d). clear S RQ R. revert a. induction l as [|i l IH]; intros a s E; [destruct a; discriminate|]. cbn [td_trace] in E. destruct a as [|a0 a].
    - cbn in E. injection E as E1 E2. destruct l as [|i2 l]; [discriminate|]. cbn [td_trace] in E2. injection E2 as E2 E3. exists [], i, i2, l. repeat split; auto.
    - injection E as _ E. apply IH in E. destruct E as (l1 & i1 & i2 & l2 & -> & E1 & E2). exists (i :: l1), i1, i2, l2. repeat split; assumption. }
  destruct X as (l1 & i1 & i2 & l2 & -> & -> & ->). apply (step_keeps (td_run p (td0 d) l1) i1 q Q R S RQ).
Qed.

Lemma in_trace : forall (l : list (td_in D)) s e, In e (td_trace p s l) -> exists l1 i l2, l = l1 ++ i :: l2 /\ e = td_event p (td_run p s l1) i.
Proof.
  induction l as [|i l IH]; intros s e H; [destruct H|]. cbn [td_trace] in H. destruct H as [<-|H]; [exists [], i, l; split; reflexivity|].
  apply IH in H. destruct H as (l1 & i' & l2 & -> & ->). exists (i :: l1), i', l2. split; reflexivity.
Qed.
Lemma td_ready : forall (l : list (td_in D)) d, t_ready p (td_trace p (td0 d) l).
Proof.
  intros l d e H. apply in_trace in H. destruct H as (l1 & i & l2 & _ & ->). cbn [tde_ready tde_in td_event]. unfold td_in_ready. rewrite andb_true_iff, orb_true_iff, !Z.eqb_eq. split.
  - intros [[H|H] E]; (split; [exact E|]).
    + left. intros q Q. change (shown p q _) with (heldq (td_run p (td0 d) l1) q). rewrite H. apply held_zero.
    + right. intros q Q. now apply all_ready.
  - intros [E [H|H]]; (split; [|exact E]).
    + left. eapply valid0; [apply tinv_run|exact H].
    + right. now apply all_ready_conv.
Qed.

Section live.
Variables (d : D) (l : list (td_in D)) (f : nat -> td_in D).
Let st (k : nat) : td_state D := td_run p (td0 d) (t_inputs l f k).
Let tr (k : nat) : list (td_ev D) := td_trace p (td0 d) (t_inputs l f k).
Hypothesis FAIR : t_fair p f.

Lemma t_inputs_S : forall k, t_inputs l f (S k) = t_inputs l f k ++ [f k].
Proof. intros k. unfold t_inputs. rewrite seq_S, map_app, app_assoc. reflexivity. Qed.
Lemma st_S : forall k, st (S k) = td_step p (st k) (f k).
Proof. intros. unfold st. now rewrite t_inputs_S, td_run_snoc. Qed.
Lemma tr_S : forall k, tr (S k) = tr k ++ [td_event p (st k) (f k)].
Proof. intros. unfold tr. rewrite t_inputs_S, td_trace_app. reflexivity. Qed.
Lemma inv_at : forall k, tinv (tr k) (st k).
Proof. intros. apply tinv_run. Qed.
Lemma given_S : forall q k, t_given p q (tr (S k)) = t_given p q (tr k) ++ if Z.testbit (tdi_ready (f k)) q then heldq (st k) q else [].
Proof. intros q k. rewrite tr_S. unfold t_given. rewrite since_snoc. unfold t_rst at 1. cbn [td_event tde_in]. rewrite (proj1 FAIR). reflexivity. Qed.
Lemma taken_S : forall k, exists x, t_taken p (tr (S k)) = t_taken p (tr k) ++ x.
Proof. intros k. rewrite tr_S. unfold t_taken. rewrite since_snoc. unfold t_rst at 1. cbn [td_event tde_in]. rewrite (proj1 FAIR). eauto. Qed.
Lemma taken_add : forall k m, exists x, t_taken p (tr (k + m)) = t_taken p (tr k) ++ x.
Proof.
  intros k m. induction m as [|m [x IH]]; [rewrite Nat.add_0_r; exists []; now rewrite app_nil_r|]. rewrite Nat.add_succ_r. destruct (taken_S (k + m)) as [y E]. exists (x ++ y). now rewrite E, IH, app_assoc.
Qed.
Lemma td_served : forall q k, 0 <= q < n -> exists m rest, t_given p q (tr (k + m)) = to_port q None (t_taken p (tr k)) ++ rest.
Proof.
  intros q k Q. set (c := fun j => length (t_given p q (tr j))).
  assert (MO : forall j, (c j <= c (S j))%nat). { intros j. unfold c. rewrite given_S, app_length. lia. }
  set (N := length (to_port q None (t_taken p (tr k)))).
  assert (PR : forall x j, j = (k + x)%nat -> (c j < N)%nat -> exists m, (c j < c (j + m))%nat).
  { intros x j J H. assert (HE : heldq (st j) q <> []).
    { intros E. pose proof (ti_route _ _ (inv_at j) q Q) as T. rewrite E, app_nil_r in T. subst j. destruct (taken_add k x) as [y Y]. rewrite Y, to_port_app in T. unfold c in H. rewrite <- T, app_length in H. unfold N in H. lia. }
    destruct (proj2 FAIR q j Q) as [m M].
    destruct (until c (fun j => heldq (st j) q <> []) MO) with (k := j) (m := m) as [G|[G1 G2]].
    - intros j' H' E'. rewrite st_S. destruct (Z.testbit (tdi_ready (f j')) q) eqn:B.
      + unfold c in E'. rewrite given_S, B, app_length in E'. destruct (heldq (st j') q); [now elim H'|]. cbn in E'. lia.
      + rewrite step_keeps; try assumption. apply FAIR.
    - exact HE.
    - exists m. exact G.
    - exists (S m). rewrite Nat.add_succ_r. rewrite <- G2. unfold c. rewrite given_S, M, app_length. destruct (heldq (st (j + m)) q); [now elim G1|]. cbn. lia. }
  assert (RE : exists m, (N <= c (k + m))%nat).
  { assert (G : forall g x, (N - c (k + x)%nat <= g)%nat -> exists m, (N <= c (k + m))%nat).
    { induction g as [|g IH]; intros x H; [exists x; lia|]. destruct (Nat.le_gt_cases N (c (k + x)%nat)) as [L|L]; [exists x; lia|]. destruct (PR x _ eq_refl L) as [m M]. apply (IH (x + m)%nat). rewrite Nat.add_assoc. lia. }
    apply (G N O). lia. }
  destruct RE as [m M]. exists m. pose proof (ti_route _ _ (inv_at (k + m)) q Q) as T. destruct (taken_add k m) as [y Y]. rewrite Y, to_port_app in T.
  exists (skipn N (t_given p q (tr (k + m)))). rewrite <- (firstn_skipn N (t_given p q (tr (k + m)))) at 1. f_equal.
  transitivity (firstn N (to_port q None (t_taken p (tr k)) ++ to_port q (under_way None (t_taken p (tr k))) y)).
  - rewrite T, firstn_app. unfold c in M. replace (N - length (t_given p q (tr (k + m))))%nat with O by lia. cbn. now rewrite app_nil_r.
  - rewrite firstn_app. unfold N at 2. rewrite Nat.sub_diag. cbn. rewrite app_nil_r. apply firstn_all.
Qed.

Lemma empties : forall k q, 0 <= q < n -> td_in_ready p (st k) (f k) = false -> (heldq (st k) q = [] \/ Z.testbit (tdi_ready (f k)) q = true) -> heldq (st (S k)) q = [].
Proof.
  intros k q Q R H. rewrite st_S. unfold td_step. rewrite R, (proj1 FAIR). cbn [tds_valid tds_sop tds_eop tds_data]. apply held_nil. intros g G. rewrite clear_bit by assumption.
  destruct H as [H|H]; [|rewrite H; apply andb_false_r]. rewrite held_nil in H. now rewrite H.
Qed.
Lemma td_ready_again : (forall k, tdi_enable (f k) = true) -> forall k, exists m, td_in_ready p (st (k + m)) (f (k + m)%nat) = true.
Proof.
  intros EN.
  assert (ST : forall k m, (exists j, td_in_ready p (st (k + j)) (f (k + j)%nat) = true) \/ forall q, 0 <= q < n -> heldq (st k) q = [] -> heldq (st (k + m)) q = []).
  { intros k m. induction m as [|m [IH|IH]]; [right; intros; now rewrite Nat.add_0_r|now left|]. destruct (td_in_ready p (st (k + m)) (f (k + m)%nat)) eqn:R; [left; eauto|]. right. intros q Q H. rewrite Nat.add_succ_r. apply empties; auto. }
  assert (G : forall ps, (forall q, In q ps -> 0 <= q < n) -> forall k, (exists j, td_in_ready p (st (k + j)) (f (k + j)%nat) = true) \/ exists m, forall q, In q ps -> heldq (st (k + m)) q = []).
  { induction ps as [|q ps IH]; intros P k; [right; exists O; intros q []|]. destruct (IH ltac:(intros; apply P; now right) k) as [L|[m M]]; [now left|].
    destruct (proj2 FAIR q (k + m)%nat (P q ltac:(now left))) as [m' M']. destruct (ST (k + m)%nat m') as [[j J]|S1]; [left; exists (m + j)%nat; rewrite Nat.add_assoc; exact J|].
    destruct (td_in_ready p (st (k + m + m')) (f (k + m + m')%nat)) eqn:R; [left; exists (m + m')%nat; rewrite Nat.add_assoc; exact R|].
    right. exists (S (m + m')). rewrite Nat.add_succ_r, Nat.add_assoc. intros q' [<-|Q']; (apply empties; [apply P; cbn; auto|exact R|]); [now right|left]. apply S1; [apply P; now right|now apply M]. }
  intros k. destruct (G (upto n) ltac:(intros q I; now apply zseq_in in I) k) as [L|[m M]]; [exact L|]. exists m. unfold td_in_ready. rewrite EN, andb_true_r, orb_true_iff. left. apply Z.eqb_eq.
  eapply valid0; [apply inv_at|]. intros q Q. apply M. now apply zseq_in.
Qed.
End live.

(** BAR numbers. *)
Lemma psel3 : forall v m, 0 <= m -> psel v (m * 3) 3 = bar3 v m.
Proof. intros v m H. unfold psel, bar3. rewrite Z.mul_comm, Z.pow_mul_r by lia. reflexivity. Qed.
Lemma bar_bit : forall ids bar q g, 0 <= q < n -> 0 <= g < w -> Z.testbit (bar_select p ids bar) (w * q + g) = (bar3 bar g =? bar3 ids q).
Proof.
  intros ids bar q g Q G. unfold bar_select. fold (upto n). fold (upto w).
  set (F := fun (v n0 : Z) => fold_left (fun v m => if psel bar (n0 * 3) 3 =? psel ids (m * 3) 3 then Z.setbit v (m * w + n0) else v) (upto n) v).
  assert (F1 : forall x v, 0 <= x < w -> Z.testbit (F v x) (w * q + g) = Z.testbit v (w * q + g) || ((x =? g) && (bar3 bar g =? bar3 ids q))).
  { intros x v X. unfold F.
    assert (K : forall l v, (forall m, In m l -> 0 <= m) -> Z.testbit (fold_left (fun v m => if psel bar (x * 3) 3 =? psel ids (m * 3) 3 then Z.setbit v (m * w + x) else v) l v) (w * q + g) =
      Z.testbit v (w * q + g) || ((x =? g) && (existsb (Z.eqb q) l && (bar3 bar g =? bar3 ids q)))).
    { induction l as [|m l IH]; intros u P; [cbn; now rewrite andb_false_r, orb_false_r|]. cbn [fold_left existsb]. rewrite IH by (intros; apply P; now right). assert (M : 0 <= m) by (apply P; now left).
      rewrite !psel3 by lia. assert (B : Z.testbit (if bar3 bar x =? bar3 ids m then Z.setbit u (m * w + x) else u) (w * q + g) = Z.testbit u (w * q + g) || ((x =? g) && ((q =? m) && (bar3 bar g =? bar3 ids q)))).
      { destruct (bar3 bar x =? bar3 ids m) eqn:E.
        - rewrite Z.setbit_eqb by nia. rewrite orb_comm. f_equal. destruct (m * w + x =? w * q + g) eqn:Y.
          + apply Z.eqb_eq in Y. rewrite (Z.mul_comm m) in Y. apply block_eq in Y; try assumption. destruct Y as [-> ->]. now rewrite E, !Z.eqb_refl.
          + symmetry. apply andb_false_iff. destruct (x =? g) eqn:XG; [right|now left]. apply Z.eqb_eq in XG. subst x. apply Z.eqb_neq in Y. replace (q =? m) with false; [reflexivity|]. symmetry. apply Z.eqb_neq. intro. subst. apply Y. ring.
        - destruct (x =? g) eqn:XG; [|now rewrite orb_false_r]. apply Z.eqb_eq in XG. subst x. destruct (q =? m) eqn:QM; [|now rewrite orb_false_r]. apply Z.eqb_eq in QM. subst m. rewrite E. now rewrite orb_false_r. }
      rewrite B. destruct (Z.testbit u (w * q + g)), (x =? g), (q =? m), (existsb (Z.eqb q) l), (bar3 bar g =? bar3 ids q); reflexivity. }
    rewrite K by (intros m M; apply zseq_in in M; lia). replace (existsb (Z.eqb q) (upto n)) with true; [reflexivity|]. symmetry. apply existsb_exists. exists q. split; [now apply zseq_in|apply Z.eqb_refl]. }
  assert (K : forall l v, (forall x, In x l -> 0 <= x < w) -> Z.testbit (fold_left F l v) (w * q + g) = Z.testbit v (w * q + g) || (existsb (fun x => x =? g) l && (bar3 bar g =? bar3 ids q))).
  { induction l as [|x l IH]; intros u P; [cbn; now rewrite orb_false_r|]. cbn [fold_left existsb]. rewrite IH by (intros; apply P; now right). rewrite F1 by (apply P; now left).
    destruct (Z.testbit u (w * q + g)), (x =? g), (existsb (fun x => x =? g) l), (bar3 bar g =? bar3 ids q); reflexivity. }
  change (fold_left _ (upto w) 0) with (fold_left F (upto w) 0). rewrite K by (intros x X; now apply zseq_in in X). rewrite Z.bits_0. cbn [orb].
  replace (existsb (fun x => x =? g) (upto w)) with true; [reflexivity|]. symmetry. apply existsb_exists. exists g. split; [now apply zseq_in|apply Z.eqb_refl].
Qed.
Lemma bar_choice : forall (i : td_in D) ids bar g q, bars_distinct p ids -> tdi_drop i = 0 -> tdi_select i = bar_select p ids bar -> 0 <= g < w ->
  (choice p i g = Some q <-> 0 <= q < n /\ bar3 ids q = bar3 bar g).
Proof.
  intros i ids bar g q DI DR SE G.
  assert (E : choice p i g = last (map Some (filter (fun q => bar3 bar g =? bar3 ids q) (upto n))) None).
  { unfold choice. rewrite DR, Z.bits_0, SE. f_equal. f_equal. apply filter_ext_in. intros x X. apply zseq_in in X. now apply bar_bit. }
  split.
  - intros H. pose proof (choice_range _ _ _ _ H) as R. split; [exact R|]. rewrite E in H. set (F := filter _ _) in H.
    assert (I : In q F). { destruct F as [|a F'] using rev_ind; [discriminate|]. rewrite map_app in H. cbn in H. rewrite last_last in H. injection H as ->. apply in_or_app. right. now left. }
    apply filter_In in I. destruct I as [_ I]. apply Z.eqb_eq in I. now symmetry.
  - intros [Q B]. rewrite E, (filter_one _ _ _ q); [rewrite B, Z.eqb_refl; reflexivity|apply zseq_nodup|now apply zseq_in|].
    intros x X NE. apply zseq_in in X. apply Z.eqb_neq. intros H. apply NE. apply DI; [assumption|assumption|congruence].
Qed.
End demux.

Lemma psel_put_w : forall W v k j x, 0 < W -> 0 <= v -> 0 <= k -> 0 <= j -> psel (put v (k * W) W x) (j * W) W = if j =? k then x mod 2 ^ W else psel v (j * W) W.
Proof.
  intros W v k j x HW Hv Hk Hj. unfold put.
  assert (HB : 0 < 2 ^ W) by (apply Z.pow_pos_nonneg; nia).
  set (P := 2 ^ (k * W)). assert (HP : 0 < P) by (apply Z.pow_pos_nonneg; nia).
  pose proof (Z.div_mod v P ltac:(lia)) as E1. pose proof (Z.mod_pos_bound v P ltac:(lia)) as B1.
  pose proof (Z.div_mod (v / P) (2 ^ W) ltac:(lia)) as E2. pose proof (Z.mod_pos_bound (v / P) (2 ^ W) ltac:(lia)) as B2.
  pose proof (Z.mod_pos_bound x (2 ^ W) ltac:(lia)) as B3.
  unfold psel. fold P.
  assert (NEW : forall y, 0 <= y < 2 ^ W -> v + (y - (v / P) mod 2 ^ W) * P = P * (2 ^ W * (v / P / 2 ^ W) + y) + v mod P) by (intros; nia).
  rewrite NEW by exact B3. set (h := v / P / 2 ^ W) in *. set (y := x mod 2 ^ W) in *. set (lw := v mod P) in *.
  destruct (Z.eqb_spec j k) as [->|N].
  - fold P. replace (P * (2 ^ W * h + y) + lw) with (lw + (2 ^ W * h + y) * P) by ring. rewrite Z.div_add by lia. rewrite (Z.div_small lw) by lia.
    rewrite Z.add_0_l. replace (2 ^ W * h + y) with (y + h * 2 ^ W) by ring. rewrite Z.mod_add by lia. apply Z.mod_small. lia.
  - destruct (Z.lt_ge_cases j k) as [Lt|Ge].
    + assert (EP : P = 2 ^ (j * W) * (2 ^ W * 2 ^ ((k - j - 1) * W))). { unfold P. rewrite <- !Z.pow_add_r by nia. f_equal. nia. }
      set (Q := 2 ^ (j * W)) in *. assert (0 < Q) by (apply Z.pow_pos_nonneg; nia). set (R := 2 ^ ((k - j - 1) * W)) in *.
      assert (HE : forall z, (P * z + lw) / Q mod 2 ^ W = (lw / Q) mod 2 ^ W).
      { intros z. replace (P * z + lw) with (lw + (2 ^ W * R * z) * Q) by (rewrite EP; ring). rewrite Z.div_add by lia.
        replace (lw / Q + 2 ^ W * R * z) with (lw / Q + (R * z) * 2 ^ W) by ring. apply Z.mod_add. lia. }
      rewrite HE. rewrite E1. symmetry. apply HE.
    + assert (EQ : 2 ^ (j * W) = P * 2 ^ W * 2 ^ ((j - k - 1) * W)). { unfold P. rewrite <- !Z.pow_add_r by nia. f_equal. nia. }
      rewrite EQ. set (R := 2 ^ ((j - k - 1) * W)). assert (0 < R) by (apply Z.pow_pos_nonneg; nia).
      assert (HE : forall z, 0 <= z < 2 ^ W -> (P * (2 ^ W * h + z) + lw) / (P * 2 ^ W * R) = h / R).
      { intros z Z1. rewrite <- !Z.div_div by lia. replace (P * (2 ^ W * h + z) + lw) with (lw + (2 ^ W * h + z) * P) by ring. rewrite Z.div_add by lia.
        rewrite (Z.div_small lw) by lia. rewrite Z.add_0_l. replace (2 ^ W * h + z) with (z + h * 2 ^ W) by ring. rewrite Z.div_add by lia. now rewrite (Z.div_small z) by lia. }
      f_equal. rewrite HE by exact B3. rewrite E1, E2. fold h. symmetry. apply HE. lia.
Qed.
Lemma calc_bars : forall ports base stride m, 0 <= ports -> 0 <= m < ports -> bar3 (calc_bar_ids ports base stride) m = (base + m * stride) mod 8.
Proof.
  intros ports base stride m P M. unfold calc_bar_ids. fold (upto ports).
  assert (K : forall k : nat, let r := fold_left (fun '(v, bar) i => (put v (i * 3) 3 bar, (bar + stride) mod 8)) (upto (Z.of_nat k)) (0, base mod 8) in
    0 <= fst r /\ snd r = (base + Z.of_nat k * stride) mod 8 /\ forall j, 0 <= j < Z.of_nat k -> bar3 (fst r) j = (base + j * stride) mod 8).
  { induction k as [|k IH]; [cbn; repeat split; [lia|f_equal; lia|intros; lia]|]. rewrite upto_S, fold_left_app. cbn [fold_left].
    destruct (fold_left _ (upto (Z.of_nat k)) (0, base mod 8)) as [v bar]. cbn [fst snd] in *. destruct IH as (I1 & I2 & I3). subst bar.
    assert (NN : 0 <= put v (Z.of_nat k * 3) 3 ((base + Z.of_nat k * stride) mod 8)).
    { unfold put. set (lo := Z.of_nat k * 3). set (x := (base + Z.of_nat k * stride) mod 8). pose proof (Z.mod_pos_bound x (2 ^ 3) ltac:(lia)). assert (PL : 0 < 2 ^ lo) by (apply Z.pow_pos_nonneg; lia).
      assert (psel v lo 3 * 2 ^ lo <= v). { unfold psel. pose proof (Z.mul_div_le v (2 ^ lo) PL). pose proof (Z.mod_le (v / 2 ^ lo) (2 ^ 3) ltac:(apply Z.div_pos; lia) ltac:(lia)). nia. } nia. }
    split; [exact NN|split].
    - rewrite Zplus_mod_idemp_l. f_equal. lia.
    - intros j J. rewrite <- psel3, psel_put_w by lia. destruct (Z.eqb_spec j (Z.of_nat k)) as [->|N].
      + apply Z.mod_small. apply Z.mod_pos_bound. lia.
      + rewrite psel3 by lia. apply I3. lia. }
  specialize (K (Z.to_nat ports)). cbn zeta in K. rewrite Z2Nat.id in K by lia. now apply K.
Qed.
