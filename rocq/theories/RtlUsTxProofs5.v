(** The adapters for UltraScale completion and request streams (C113 to C115): progress, credits, sequence numbers, the end pointer; witnesses. *)
From Verif Require Import PyBase RtlModel RtlAxmModel RtlAxmSpec RtlAxmProofs RtlUsIfSpec RtlUsIfProofs RtlUsIfProofs4 RtlUsTxModel RtlUsTxSpec RtlUsTxProofs RtlUsTxProofs2 RtlUsTxProofs3 RtlUsTxProofs4.
From Coq Require Import Lia.

(** * Progress *)
Definition ql (m : tx_pm) : Z := Z.of_nat (length (pm_q m)).
Definition qlen (m : tx_mon) : Z := ql (tm_rd m) + ql (tm_wr m).
Definition cg (p : tx_param) (s : tx_state) : bool := negb (tp_rq p) || ts_pc s && ts_npc s.
Definition mu (p : tx_param) (s : tx_state) (m : tx_mon) : Z := if qlen m =? 0 then 0 else qlen m + (if ts_valid s then 0 else 1) + (if cg p s then 0 else 1).
Definition QI (p : tx_param) (s : tx_state) (m : tx_mon) : Prop := Inv p s m /\ (tp_rq p = false -> pm_cur (tm_rd m) = None) /\ ts_mps s <= 256.
Definition Quiet1 (m : tx_mon) (i : tx_in) : Prop := ti_rst i = false /\ (forall o, pm_quiet (tm_port m o) (bport i o)) /\ 8 < ti_ph i /\ 8 < ti_nph i /\ 512 < ti_pd i.

Lemma mps_le i : tx_mps i <= 256.
Proof.
  unfold tx_mps. assert (X : (if 5 <? ti_mps i then 5 else ti_mps i) <= 5) by (destruct (Z.ltb_spec 5 (ti_mps i)); lia). set (x := if 5 <? ti_mps i then 5 else ti_mps i) in *. destruct (Z.ltb_spec x 0); [rewrite Z.pow_neg_r by lia; lia|].
  pose proof (Z.pow_le_mono_r 2 x 5 ltac:(lia) X). change (2 ^ 5) with 32 in *. lia.
Qed.
Lemma step_regs p s i : ts_mps (tx_step p s i) = tx_mps i /\ ts_pc (tx_step p s i) = tx_pc s i /\ ts_npc (tx_step p s i) = tx_npc i.
Proof.
  assert (X : ts_mps (tx_next p s i) = tx_mps i /\ ts_pc (tx_next p s i) = tx_pc s i /\ ts_npc (tx_next p s i) = tx_npc i).
  { unfold tx_next. cbn zeta. destruct (tx_commit p s i); [destruct (tx_shift _ _ _); auto|]. destruct (negb (ts_valid s) || ti_ready i); auto. }
  unfold tx_step. cbn zeta. destruct (ti_rst i); exact X.
Qed.
Lemma qi_step p s m i : tp_ok p -> QI p s m -> tx_assume1 p m (tx_event p s i) -> tx_assume2 p m (tx_event p s i) -> QI p (tx_step p s i) (tm_next p m (tx_event p s i)).
Proof.
  intros O [I [C M]] A1 A2. split; [now apply inv_step|]. split; [|rewrite (proj1 (step_regs p s i)); apply mps_le]. intros R. unfold tm_next. cbn zeta. cbn [tx_event tv_in]. destruct (ti_rst i) eqn:E; [reflexivity|].
  destruct (A1 E) as [_ [_ A3]]. specialize (A3 R). cbn [tx_event tv_in] in A3. cbn [tm_rd]. unfold pm_next. cbn zeta. rewrite A3. destruct (tv_rd _); reflexivity.
Qed.
Lemma qi0 p : QI p ts0 tm0.
Proof. split; [apply inv0; reflexivity|]. split; [reflexivity|cbn; lia]. Qed.
Lemma qi_run p l : tp_ok p -> forall s m, QI p s m -> tx_assume p m (tx_trace p s l) -> QI p (tx_run p s l) (fold_left (tm_next p) (tx_trace p s l) m).
Proof.
  intros O. induction l as [|i l IH]; intros s m I A; cbn [tx_trace tx_run fold_left tx_assume] in *; [exact I|]. destruct A as [A1 [A2 A3]]. apply IH; [|exact A3]. apply qi_step; assumption.
Qed.
Lemma cur_bok p s o m b : PM p s o m -> pm_cur m = Some b -> BOK p o m b /\ tb_valid b = true.
Proof. intros [[_ I] [C _]] E. unfold cv in C. rewrite E in *. split; [|exact C]. destruct (act s o); [exact (proj1 (proj2 (proj2 I)))|exact (proj2 I)]. Qed.
Lemma quiet_assume p s m i : QI p s m -> Quiet1 m i -> tx_assume1 p m (tx_event p s i) /\ tx_assume2 p m (tx_event p s i).
Proof.
  intros [I [C _]] [R [Q _]]. pose proof (Q false) as Q0. pose proof (Q true) as Q1. cbn [tm_port bport] in Q0, Q1. unfold pm_quiet in *.
  assert (PA1 : forall o, port_assume p o (tm_port m o) (bport i o)).
  { intros o. specialize (Q o). unfold port_assume. destruct (pm_cur (tm_port m o)); [exact Q|]. intros V. congruence. }
  assert (PA2 : forall o, tb_valid (bport i o) = true -> pm_open (tm_port m o) = false -> thdr_ok p (tb_hdr (bport i o))).
  { intros o V OP. specialize (Q o). destruct (pm_cur (tm_port m o)) as [b|] eqn:E; [|congruence]. rewrite Q. exact (bk_hdr _ _ _ _ (proj1 (cur_bok p s o _ _ (iv_pm _ _ _ I o) E)) OP). }
  split.
  - intros _. split; [exact (PA1 false)|]. split; [exact (PA1 true)|]. intros RQ. cbn [tx_event tv_in]. rewrite (C RQ) in Q0. exact Q0.
  - intros _. split; [exact (PA2 false)|exact (PA2 true)].
Qed.
Lemma next_q p s m i o : ti_rst i = false -> pm_q (tm_port (tm_next p m (tx_event p s i)) o) = (if t_taken (tx_event p s i) && Bool.eqb (t_who p m (tx_event p s i)) o then tl (pm_q (tm_port m o)) else pm_q (tm_port m o)) ++ addq p o (tm_port m o) (bport i o).
Proof.
  intros R. rewrite tm_next_port by exact R. cbn [tx_event tv_in]. change (mkTv _ _ _ _ _ _ _ _) with (tx_event p s i). rewrite pm_next_arr; [|destruct o; apply (read_valid p s i)]. cbn zeta. destruct (tb_valid (bport i o)); [|reflexivity]. unfold afterrd. destruct (if o then _ else _); reflexivity.
Qed.
Lemma quiet_add p m i o : Quiet1 m i -> addq p o (tm_port m o) (bport i o) = [].
Proof. intros [_ [Q _]]. specialize (Q o). unfold pm_quiet, addq in *. destruct (pm_cur (tm_port m o)); [now rewrite andb_false_r|]. rewrite Q. reflexivity. Qed.
Lemma quiet_qlen p s m i : Inv p s m -> Quiet1 m i -> qlen (tm_next p m (tx_event p s i)) = qlen m - (if ts_valid s && ti_ready i then 1 else 0).
Proof.
  intros I Q. pose proof (next_q p s m i false (proj1 Q)) as Q0. pose proof (next_q p s m i true (proj1 Q)) as Q1. rewrite quiet_add, app_nil_r in Q0, Q1 by exact Q. unfold qlen, ql. cbn [tm_port] in *. rewrite Q0, Q1. unfold t_taken. cbn [tx_event tv_valid tv_in]. change (mkTv _ _ _ _ _ _ _ _) with (tx_event p s i).
  destruct (ts_valid s && ti_ready i) eqn:T; cbn [andb]; [|lia]. apply andb_prop in T. destruct T as [V _]. rewrite (who p s m i I V). pose proof (iv_out _ _ _ I) as X. rewrite V in X. destruct X as [c [_ [_ [X _]]]]. destruct (ts_port s); cbn [tm_port Bool.eqb] in *; rewrite X; cbn [tl length]; lia.
Qed.
Lemma quiet_whole p s m i : Inv p s m -> Quiet1 m i -> (forall o, pm_whole (tm_port m o)) -> forall o, pm_whole (tm_port (tm_next p m (tx_event p s i)) o).
Proof.
  intros I Q W o. rewrite tm_next_port by exact (proj1 Q). rewrite pm_next_arr; [|destruct o; apply (read_valid p s i)]. cbn zeta. cbn [tx_event tv_in]. destruct Q as [_ [Q _]]. specialize (Q o). specialize (W o). unfold pm_quiet, pm_whole in *. pose proof (proj1 (proj2 (iv_pm _ _ _ I o))) as CV. unfold cv in CV.
  destruct (pm_cur (tm_port m o)) as [b|].
  - rewrite Q, CV. unfold afterrd. destruct (if o then _ else _); cbn [pm_cur pm_open]; [now rewrite W|exact W].
  - rewrite Q. unfold arr. cbn [pm_cur pm_open]. rewrite Q. exact W.
Qed.
Lemma quiet_valid p s m i : tp_ok p -> QI p s m -> Quiet1 m i -> (forall o, pm_whole (tm_port m o)) -> (ts_valid s = true -> ti_ready i = false -> ts_valid (tx_step p s i) = true) /\
  (cg p s = true -> qlen (tm_next p m (tx_event p s i)) <> 0 -> ts_valid (tx_step p s i) = true) /\ cg p (tx_step p s i) = true.
Proof.
  intros O [I [CR MP]] Q W. pose proof Q as [R [QQ [C1 [C2 C3]]]]. assert (SN : tx_step p s i = tx_next p s i) by (unfold tx_step; cbn zeta; now rewrite R). split; [|split].
  - intros V Y. rewrite SN. unfold tx_next. cbn zeta. rewrite V, Y. destruct (tx_commit p s i); [destruct (tx_shift _ _ _); reflexivity|reflexivity].
  - intros G NZ. rewrite SN. unfold tx_next. cbn zeta. destruct (tx_commit p s i) eqn:CM; [destruct (tx_shift _ _ _); reflexivity|]. destruct (negb (ts_valid s) || ti_ready i) eqn:VR; [|reflexivity]. exfalso.
    assert (CC : exists o b, pm_cur (tm_port m o) = Some b).
    { destruct (popped p s m i I) as [c [_ PQ]]. cbn zeta in PQ. assert (P0 : forall o', pre s i o' c = []) by (intros o'; unfold pre; destruct (ts_valid s), (ti_ready i); cbn in *; try reflexivity; discriminate).
      pose proof (next_q p s m i false R) as Q0. pose proof (next_q p s m i true R) as Q1. rewrite quiet_add, app_nil_r, PQ, P0 in Q0, Q1 by exact Q. cbn [app tm_port] in Q0, Q1. unfold Rest in Q0, Q1.
      destruct (pm_cur (tm_rd m)) as [b|] eqn:E0; [exists false; exists b; exact E0|]. destruct (pm_cur (tm_wr m)) as [b|] eqn:E1; [exists true; exists b; exact E1|]. exfalso. apply NZ. unfold qlen, ql. rewrite Q0, Q1. reflexivity. }
    assert (BV : forall o b, pm_cur (tm_port m o) = Some b -> tb_valid (bport i o) = true).
    { intros o b E. pose proof (QQ o) as X. unfold pm_quiet in X. rewrite E in X. rewrite X. exact (proj2 (cur_bok p s o _ _ (iv_pm _ _ _ I o) E)). }
    unfold tx_commit in CM. cbn zeta in CM. rewrite VR, andb_true_r in CM. unfold tx_sel in CM. destruct (ts_frame s) eqn:F.
    + cbn [tc_frame tc_port andb] in CM. assert (E : exists b, pm_cur (tm_port m (ts_port s)) = Some b).
      { destruct (iv_pm _ _ _ I (ts_port s)) as [[_ PI] _]. rewrite (act_of s true) in PI by (try assumption; reflexivity). specialize (W (ts_port s)). unfold pm_whole in W. destruct (pm_cur (tm_port m (ts_port s))) as [b|]; [exists b; reflexivity|]. destruct PI as [_ [_ [PI _]]]. congruence. }
      destruct E as [b E]. specialize (BV _ _ E). rewrite tx_port_bport in CM. destruct (ts_port s); cbn in CM, BV; congruence.
    + unfold cg in G. destruct (tp_rq p) eqn:RQ; cbn [negb orb] in G, CM.
      * apply andb_prop in G. destruct G as [G1 G2]. rewrite G1, G2, !andb_true_r in CM. destruct (tb_valid (ti_rd i)) eqn:V0; cbn [tc_frame tc_port andb tx_port tb_valid] in CM; [congruence|]. destruct (tb_valid (ti_wr i)) eqn:V1; cbn [tc_frame tc_port andb tx_port tb_valid] in CM; [congruence|].
        destruct CC as [o [b E]]. specialize (BV _ _ E). destruct o; cbn in BV; congruence.
      * cbn [tc_frame tc_port andb tx_port] in CM. destruct CC as [o [b E]]. pose proof (BV _ _ E) as B. destruct o; [cbn in B; rewrite B in CM; discriminate|]. cbn [tm_port] in E. rewrite (CR eq_refl) in E. discriminate.
  - destruct (step_regs p s i) as [_ [E1 E2]]. unfold cg. rewrite E1, E2. unfold tx_pc, tx_npc. rewrite (proj2 (Z.ltb_lt 8 (ti_ph i)) C1), (proj2 (Z.ltb_lt 8 (ti_nph i)) C2). rewrite (proj2 (Z.ltb_lt _ _)) by lia. apply orb_true_r.
Qed.
Lemma ql_nn m : 0 <= qlen m.
Proof. unfold qlen, ql. lia. Qed.
Lemma mu_step p s m i : tp_ok p -> QI p s m -> Quiet1 m i -> (forall o, pm_whole (tm_port m o)) -> mu p (tx_step p s i) (tm_next p m (tx_event p s i)) <= Z.max 0 (mu p s m - Z.b2z (ti_ready i)).
Proof.
  intros O I Q W. pose proof (quiet_qlen p s m i (proj1 I) Q) as L. destruct (quiet_valid p s m i O I Q W) as [V1 [V2 V3]]. pose proof (ql_nn m) as N. set (m' := tm_next p m (tx_event p s i)) in *. set (s' := tx_step p s i) in *. pose proof (ql_nn m') as N'.
  unfold mu. rewrite V3. destruct (Z.eqb_spec (qlen m') 0) as [Z0|Z0]; [lia|]. specialize (fun G => V2 G Z0). destruct (Z.eqb_spec (qlen m) 0) as [Z1|Z1]; [destruct (ts_valid s && ti_ready i); lia|].
  destruct (cg p s); [rewrite V2 by reflexivity|]; destruct (ts_valid s), (ti_ready i); cbn [andb Z.b2z] in *; try (rewrite V1 by reflexivity); destruct (ts_valid s'); lia.
Qed.
Lemma mu_zero p s m : tp_ok p -> Inv p s m -> mu p s m = 0 -> pm_q (tm_rd m) = [] /\ pm_q (tm_wr m) = [] /\ pm_cur (tm_rd m) = None /\ pm_cur (tm_wr m) = None /\ ts_valid s = false.
Proof.
  intros O I M. unfold mu in M. pose proof (ql_nn m) as N. destruct (Z.eqb_spec (qlen m) 0) as [Z0|]; [|exfalso; destruct (ts_valid s), (cg p s); lia]. unfold qlen, ql in Z0.
  assert (E0 : pm_q (tm_rd m) = []) by (destruct (pm_q (tm_rd m)); [reflexivity|cbn [length] in Z0; lia]). assert (E1 : pm_q (tm_wr m) = []) by (destruct (pm_q (tm_wr m)); [reflexivity|cbn [length] in Z0; lia]).
  assert (V : ts_valid s = false). { destruct (ts_valid s) eqn:V; [|reflexivity]. pose proof (iv_out _ _ _ I) as X. rewrite V in X. destruct X as [c [_ [_ [X _]]]]. destruct (ts_port s); cbn [tm_port] in X; congruence. }
  pose proof (iv_out _ _ _ I) as X. rewrite V in X. destruct X as [X _].
  assert (C : forall o, pm_q (tm_port m o) = [] -> pm_cur (tm_port m o) = None).
  { intros o E. destruct (pm_cur (tm_port m o)) as [b|] eqn:C; [|reflexivity]. destruct (emit p s o _ _ O (proj1 (iv_pm _ _ _ I o)) C 0 false false) as [rest [R _]]. rewrite <- X, E in R. discriminate. }
  repeat (split; [assumption|]). split; [exact (C false E0)|]. split; [exact (C true E1)|exact V].
Qed.
Lemma quiet_run p l : tp_ok p -> forall s m, QI p s m -> (forall o, pm_whole (tm_port m o)) -> tx_quiet p m (tx_trace p s l) -> mu p s m <= tx_goods (tx_trace p s l) -> let m' := fold_left (tm_next p) (tx_trace p s l) m in
  pm_q (tm_rd m') = [] /\ pm_q (tm_wr m') = [] /\ pm_cur (tm_rd m') = None /\ pm_cur (tm_wr m') = None /\ ts_valid (tx_run p s l) = false.
Proof.
  intros O. induction l as [|i l IH]; intros s m I W Q G; cbn [tx_trace tx_run fold_left] in *.
  - cbn zeta. apply (mu_zero p); [exact O|exact (proj1 I)|]. unfold tx_goods in G. cbn in G. pose proof (ql_nn m). unfold mu in *. destruct (qlen m =? 0); [reflexivity|]. destruct (ts_valid s), (cg p s); lia.
  - cbn zeta. cbn [tx_quiet] in Q. destruct Q as [Q1 [Q2 [Q3 [Q4 [Q5 [Q6 Q7]]]]]].
    assert (QU : Quiet1 m i) by (split; [exact Q1|split; [intros o; destruct o; assumption|auto]]).
    destruct (quiet_assume p s m i I QU) as [A1 A2]. apply (IH (tx_step p s i)); [now apply qi_step|apply quiet_whole; [exact (proj1 I)|exact QU|exact W]|exact Q7|].
    pose proof (mu_step p s m i O I QU W) as MS. unfold tx_goods in *. cbn [filter tx_event tv_in] in G. destruct (ti_ready i); cbn [length Z.b2z] in *; lia.
Qed.
Lemma tx_progress_ok p l1 l2 : tp_ok p -> let tr1 := tx_trace p ts0 l1 in let tr2 := tx_trace p (tx_run p ts0 l1) l2 in let m := tx_after p tr1 in let m' := tx_after p (tr1 ++ tr2) in
  tx_assume p tm0 tr1 -> pm_whole (tm_rd m) -> pm_whole (tm_wr m) -> tx_quiet p m tr2 -> Z.of_nat (length (pm_q (tm_rd m))) + Z.of_nat (length (pm_q (tm_wr m))) + 2 <= tx_goods tr2 ->
  pm_q (tm_rd m') = [] /\ pm_q (tm_wr m') = [] /\ pm_cur (tm_rd m') = None /\ pm_cur (tm_wr m') = None /\ ts_valid (tx_run p ts0 (l1 ++ l2)) = false.
Proof.
  intros O. cbn zeta. intros A W0 W1 Q G. pose proof (qi_run p l1 O ts0 tm0 (qi0 p) A) as I. unfold tx_after in *. rewrite fold_left_app.
  replace (tx_run p ts0 (l1 ++ l2)) with (tx_run p (tx_run p ts0 l1) l2) by (unfold tx_run; now rewrite fold_left_app).
  apply (quiet_run p l2 O _ _ I); [intros o; destruct o; assumption|exact Q|]. set (m := fold_left _ _ tm0) in *. pose proof (ql_nn m) as N. unfold mu. unfold qlen, ql in *. destruct (_ =? 0); [unfold tx_goods; lia|]. destruct (ts_valid _), (cg _ _); lia.
Qed.

(** * Credits *)
Lemma start_ok p s m i i2 : tp_ok p -> Inv p s m -> tx_assume1 p m (tx_event p s i) -> tx_assume2 p m (tx_event p s i) -> let e := tx_event p s i in let m' := tm_next p m e in let e' := tx_event p (tx_step p s i) i2 in
  tp_rq p = true -> tv_valid e' = true -> tv_valid e && negb (ti_ready i) = false -> tm_lock m' = None ->
  (t_who p m' e' = false -> ts_npc s = true) /\ (t_who p m' e' = true -> ts_pc s = true /\ (tb_valid (ti_rd i) = false \/ ts_npc s = false)).
Proof.
  intros O I A1 A2. cbn zeta. intros RQ V NW LK. pose proof (inv_step p s m i O I A1 A2) as I'. cbn [tx_event tv_valid] in V, NW. rewrite (who p _ _ i2 I' V). clear I'.
  assert (R : ti_rst i = false) by (destruct (ti_rst i) eqn:R; [unfold tx_step in V; cbn zeta in V; rewrite R in V; discriminate|reflexivity]).
  assert (SN : tx_step p s i = tx_next p s i) by (unfold tx_step; cbn zeta; now rewrite R). rewrite SN in *. unfold tx_next in V |- *. cbn zeta in V |- *. destruct (tx_commit p s i) eqn:CM; [|destruct (ts_valid s), (ti_ready i); cbn in *; discriminate].
  assert (F : ts_frame s = false).
  { destruct (ts_frame s) eqn:F; [|reflexivity]. exfalso. unfold tm_next in LK. cbn zeta in LK. cbn [tx_event tv_in] in LK. rewrite R in LK. cbn [tm_lock] in LK. unfold t_taken in LK. change (tv_valid (tx_event p s i)) with (ts_valid s) in LK. change (tv_in (tx_event p s i)) with i in LK. change (tv_last (tx_event p s i)) with (ts_last s) in LK. pose proof (iv_out _ _ _ I) as X. destruct (ts_valid s) eqn:VS.
    - destruct (ti_ready i); [|discriminate]. cbn [andb] in LK. destruct X as [c [_ [_ [_ [_ [X _]]]]]]. rewrite F in X. destruct (ts_last s); [discriminate X|discriminate LK].
    - cbn [andb] in LK. destruct X as [_ X]. rewrite F in X. congruence. }
  assert (PO : ts_port (let '(shd, shs) := tx_shift p s (tx_port i (tc_port (tx_sel p s i))) in mkTs (tr_frame (tx_route p (tx_sel p s i) (tx_port i (tc_port (tx_sel p s i))))) (tr_h1 (tx_route p (tx_sel p s i) (tx_port i (tc_port (tx_sel p s i))))) (tr_h2 (tx_route p (tx_sel p s i) (tx_port i (tc_port (tx_sel p s i)))))
      (tr_s1 (tx_route p (tx_sel p s i) (tx_port i (tc_port (tx_sel p s i))))) (tr_s2 (tx_route p (tx_sel p s i) (tx_port i (tc_port (tx_sel p s i))))) (tc_port (tx_sel p s i)) shd shs (tx_mps i) (tx_pc s i) (tx_npc i) (tx_data p s (tx_sel p s i) (tx_port i (tc_port (tx_sel p s i))))
      (tx_strb p s (tx_sel p s i) (tx_route p (tx_sel p s i) (tx_port i (tc_port (tx_sel p s i)))) (tx_port i (tc_port (tx_sel p s i)))) true (tr_eop (tx_route p (tx_sel p s i) (tx_port i (tc_port (tx_sel p s i)))))
      (tx_user p (tx_sel p s i) (tx_route p (tx_sel p s i) (tx_port i (tc_port (tx_sel p s i)))) (tx_port i (tc_port (tx_sel p s i))) (tx_strb p s (tx_sel p s i) (tx_route p (tx_sel p s i) (tx_port i (tc_port (tx_sel p s i)))) (tx_port i (tc_port (tx_sel p s i)))))) = tc_port (tx_sel p s i)) by (destruct (tx_shift _ _ _); reflexivity).
  rewrite PO. clear PO V. unfold tx_commit in CM. cbn zeta in CM. unfold tx_sel in *. rewrite F, RQ in *. cbn [negb] in *. destruct (tb_valid (ti_rd i)) eqn:V0, (ts_npc s) eqn:E0; cbn [andb] in *; cbn [tc_port tc_frame andb] in *; try (split; [reflexivity|discriminate]);
    (destruct (tb_valid (ti_wr i) && ts_pc s) eqn:E1; cbn [tc_port tc_frame andb] in *; [|discriminate]); apply andb_prop in E1; destruct E1; (split; [discriminate|]); intros _; (split; [assumption|]); auto.
Qed.
Lemma tx_trace_app p l1 l2 s : tx_trace p s (l1 ++ l2) = tx_trace p s l1 ++ tx_trace p (tx_run p s l1) l2.
Proof. revert s. induction l1 as [|i l1 IH]; intros s; [reflexivity|]. cbn [app tx_trace tx_run fold_left]. now rewrite IH. Qed.
Lemma tx_assume_app p t1 t2 m : tx_assume p m (t1 ++ t2) <-> tx_assume p m t1 /\ tx_assume p (fold_left (tm_next p) t1 m) t2.
Proof. revert m. induction t1 as [|e t IH]; intros m; cbn [app tx_assume fold_left]; [tauto|]. rewrite IH. tauto. Qed.
Lemma tx_start_ok p l i2 i1 i i' : tp_ok p -> tp_rq p = true -> let tr := tx_trace p ts0 (l ++ [i2; i1; i]) in let m := tx_after p tr in let e := last tr (tx_event p ts0 i) in let e' := tx_event p (tx_run p ts0 (l ++ [i2; i1; i])) i' in
  tx_assume p tm0 tr -> tv_valid e' = true -> tv_valid e && negb (ti_ready i) = false -> tm_lock m = None ->
  (t_who p m e' = false -> 8 < ti_nph i1) /\ (t_who p m e' = true -> 8 < ti_ph i1 /\ 2 * (8 * 2 ^ Z.min 5 (ti_mps i2)) < ti_pd i1 /\ (tb_valid (ti_rd i) = false \/ ti_nph i1 <= 8)).
Proof.
  intros O RQ. cbn zeta. replace (l ++ [i2; i1; i]) with ((l ++ [i2; i1]) ++ [i]) by (rewrite <- app_assoc; reflexivity). rewrite tx_trace_app. cbn [tx_trace]. set (s := tx_run p ts0 (l ++ [i2; i1])). intros A V NW LK.
  apply tx_assume_app in A. destruct A as [A [A1 [A2 _]]]. pose proof (proj1 (qi_run p _ O ts0 tm0 (qi0 p) A)) as I. fold s in I. rewrite last_last in NW. unfold tx_after in LK |- *. rewrite fold_left_app in LK |- *. cbn [fold_left] in LK |- *. set (m := fold_left _ _ tm0) in *.
  replace (tx_run p ts0 ((l ++ [i2; i1]) ++ [i])) with (tx_step p s i) in V |- * by (unfold s, tx_run; rewrite (fold_left_app _ (l ++ [i2; i1]) [i]); reflexivity).
  destruct (start_ok p s m i i' O I A1 A2 RQ V NW LK) as [S1 S2].
  assert (SE : exists s0, s = tx_step p (tx_step p s0 i2) i1) by (exists (tx_run p ts0 l); unfold s, tx_run; rewrite fold_left_app; reflexivity). destruct SE as [s0 SE]. destruct (step_regs p (tx_step p s0 i2) i1) as [_ [E1 E2]]. rewrite <- SE in E1, E2. destruct (step_regs p s0 i2) as [E3 _].
  unfold tx_npc in E2. unfold tx_pc in E1. rewrite E3 in E1. unfold tx_mps in E1. assert (ME : (if 5 <? ti_mps i2 then 5 else ti_mps i2) = Z.min 5 (ti_mps i2)) by (destruct (Z.ltb_spec 5 (ti_mps i2)); lia). rewrite ME in E1. split.
  - intros W. specialize (S1 W). rewrite S1 in E2. symmetry in E2. apply Z.ltb_lt in E2. exact E2.
  - intros W. destruct (S2 W) as [P1 P2]. rewrite P1 in E1. symmetry in E1. apply andb_prop in E1. destruct E1 as [X1 X2]. apply Z.ltb_lt in X1, X2. split; [exact X1|]. split; [lia|]. destruct P2 as [P2|P2]; [left; exact P2|right]. rewrite P2 in E2. symmetry in E2. apply Z.ltb_ge in E2. exact E2.
Qed.
(** Sequence numbers. *)
Lemma rq_back_ok p tw q (port : bool) : 0 <= tw <= tp_sw p - 1 -> 0 <= q < 2 ^ tw -> rq_back p tw true (q + (if port then 0 else 2 ^ (tp_sw p - 1))) = ((negb port, q), (port, q)).
Proof.
  intros T Q. pose proof (sw_pos p) as SW. set (k := tp_sw p - 1) in *. assert (K : 0 <= q < 2 ^ k) by (pose proof (Z.pow_le_mono_r 2 tw k ltac:(lia) ltac:(lia)); lia).
  assert (D : Z.land q (2 ^ k) = 0).
  { apply Z.bits_inj'. intros n N. rewrite Z.land_spec, Z.bits_0, Z.pow2_bits_eqb by lia. destruct (Z.eqb_spec k n) as [<-|]; [|now rewrite andb_false_r]. replace q with (q mod 2 ^ k) by (apply Z.mod_small; lia). rewrite Z.mod_pow2_bits_high by lia. reflexivity. }
  unfold rq_back. cbn zeta. fold k. destruct port.
  - rewrite Z.add_0_r, D. rewrite Z.mod_small by lia. reflexivity.
  - rewrite <- (lor_flag q k) by lia. rewrite Z.land_lor_distr_l, D, Z.land_diag, Z.lor_0_l. assert (P : 0 < 2 ^ k) by (apply Z.pow_pos_nonneg; lia). rewrite (proj2 (Z.eqb_neq (2 ^ k) 0)) by lia. rewrite lor_flag by lia.
    replace (2 ^ k) with (2 ^ (k - tw) * 2 ^ tw) by (rewrite <- Z.pow_add_r by lia; f_equal; lia). rewrite Z_mod_plus_full, Z.mod_small by lia. reflexivity.
Qed.

(** * The end pointer *)
Definition UK (p : tx_param) (s : tx_state) : Prop := tp_rq p = false -> ts_valid s = true -> ts_last s = true -> exists sop, ts_user s = cc_user p sop true (ts_keep s).
Lemma uk_step p s i : UK p s -> UK p (tx_step p s i).
Proof.
  intros U R. unfold tx_step. cbn zeta. destruct (ti_rst i); [discriminate|]. unfold tx_next. cbn zeta. destruct (tx_commit p s i); [destruct (tx_shift _ _ _); cbn [ts_valid ts_last ts_user ts_keep]; intros _ L; unfold tx_user; rewrite R, L; eexists; reflexivity|].
  destruct (negb (ts_valid s) || ti_ready i) eqn:V; [discriminate|]. apply orb_false_elim in V. destruct V as [V _]. apply negb_false_iff in V. cbn [ts_valid ts_last ts_user ts_keep]. intros _ L. exact (U R V L).
Qed.
Lemma uk_trace p l : forall s e, UK p s -> In e (tx_trace p s l) -> tp_rq p = false -> tv_valid e = true -> tv_last e = true -> exists sop, tv_user e = cc_user p sop true (tv_keep e).
Proof.
  induction l as [|i l IH]; intros s e U; cbn [tx_trace In]; [tauto|]. intros [<-|H]; [exact U|]. exact (IH _ _ (uk_step p s i U) H).
Qed.
Lemma tx_eop_ptr_ok p l e n : tp_rq p = false -> tp_lw p = 4 -> In e (tx_trace p ts0 l) -> tv_valid e = true -> tv_last e = true -> tv_keep e = 2 ^ n - 1 -> 1 <= n <= 8 -> fld (tv_user e) 11 8 = n - 1.
Proof.
  intros R L H V LA K N. destruct (uk_trace p l ts0 e) as [sop U]; try assumption; [intros _ X; discriminate|]. rewrite U, K. unfold cc_user. rewrite L. change (4 =? 4) with true. cbv iota. unfold tx_eop_index, tp_w. rewrite L.
  assert (C : n = 1 \/ n = 2 \/ n = 3 \/ n = 4 \/ n = 5 \/ n = 6 \/ n = 7 \/ n = 8) by lia. destruct sop; decompose [or] C; subst n; vm_compute; reflexivity.
Qed.
