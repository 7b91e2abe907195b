(** The adapters for UltraScale completion and request streams (C111 to C113): clock after clock. *)
From Verif Require Import PyBase RtlModel RtlAxmModel RtlAxmSpec RtlAxmProofs RtlUsIfSpec RtlUsIfProofs RtlUsTxModel RtlUsTxSpec RtlUsTxProofs RtlUsTxProofs2 RtlUsTxProofs3.
From Coq Require Import Lia.

Definition bport (i : tx_in) (o : bool) : tx_beat := if o then ti_wr i else ti_rd i.
Definition addq (p : tx_param) (o : bool) (m : tx_pm) (b : tx_beat) : list tchunk := if tb_valid b && (match pm_cur m with None => true | _ => false end) then pdue p o m b (pstart p m) else [].
Definition arr (m : tx_pm) (b : tx_beat) (q : list tchunk) : tx_pm := mkPm (if tb_valid b then Some b else None) (pm_open m) (pm_hdr m) (pm_seq m) (pm_pay m) q.
Definition cv (m : tx_pm) : Prop := match pm_cur m with Some b => tb_valid b = true | None => True end.
Definition PM (p : tx_param) (s : tx_state) (o : bool) (m : tx_pm) : Prop := PInv p s o m /\ cv m /\ (o = false -> pm_open m = false).

Lemma pm_next_arr p o m b (rd pop : bool) : (rd = true -> tb_valid b = true) -> let q' := (if pop then tl (pm_q m) else pm_q m) ++ addq p o m b in pm_next p o m b rd pop = if tb_valid b then afterrd rd o (arr m b q') b q' else arr m b q'.
Proof.
  intros V. cbn zeta. unfold pm_next, addq, arr, afterrd. cbn zeta. destruct (tb_valid b).
  - destruct (pm_cur m); cbn [andb]; rewrite ?app_nil_r; reflexivity.
  - destruct rd; [specialize (V eq_refl); discriminate|]. cbn [andb]. now rewrite app_nil_r.
Qed.
Lemma bok_of p o m b : tp_ok p -> (o = false -> pm_open m = false) -> beat_ok p o m b -> tb_valid b = true -> (pm_open m = false -> thdr_ok p (tb_hdr b)) -> BOK p o m b.
Proof.
  intros O OF K V H. destruct (K V) as [_ [K1 K2]]. destruct o.
  - cbn zeta in K2. destruct K2 as [K2 [K3 [K4 K5]]]. assert (E : bl true b = kcnt (tb_strb b)) by (unfold bl, bpay; rewrite zlen_lanes; lia). constructor; rewrite ?E; try assumption.
    intros l L. unfold bpay, pbeat. symmetry. apply dw_lanes. exact L.
  - assert (E : bl false b = 0) by reflexivity. destruct (tcases p O) as [W _]. constructor; rewrite ?E; try assumption; try reflexivity; try lia.
    + congruence.
    + rewrite OF by reflexivity. discriminate.
Qed.
Lemma arrive p s o m b q : tp_ok p -> PM p s o m -> port_assume p o m b -> (tb_valid b = true -> pm_open m = false -> thdr_ok p (tb_hdr b)) -> PM p s o (arr m b q) /\ Rest p s o (arr m b q) = Rest p s o m ++ addq p o m b.
Proof.
  intros O [[I0 I1] [CV OF]] A H. unfold port_assume, cv in *. destruct (pm_cur m) as [c|] eqn:C.
  - subst c. unfold PM, PInv, cv, arr, Rest, addq, epos, ppay, pdue, phdr, pseq. cbn [pm_open pm_cur pm_pay pm_hdr pm_seq]. rewrite C, CV. cbn [andb]. split; [|unfold ppay; rewrite app_nil_r; reflexivity].
    split; [|split; [exact CV|exact OF]]. split; [exact I0|]. destruct (act s o).
    + destruct I1 as [J1 [J2 [J3 J4]]]. split; [exact J1|]. split; [exact J2|]. split; [apply (bok_ext p o m); [reflexivity|exact J3]|apply (pa_ext p s o m); [reflexivity|reflexivity|exact J4]].
    + destruct I1 as [J1 J2]. split; [exact J1|]. apply (bok_ext p o m); [reflexivity|exact J2].
  - destruct (tb_valid b) eqn:V.
    + assert (B : BOK p o m b) by (apply bok_of; try assumption; intros E; exact (H eq_refl E)). split.
      * unfold PM, PInv, cv, arr. cbn [pm_open pm_cur pm_pay]. rewrite V. split; [|split; [exact V|exact OF]]. split; [exact I0|]. destruct (act s o).
        -- destruct I1 as [J1 [J2 [J3 [J4 [J5 J6]]]]]. split; [exact J1|]. split; [exact J2|]. split; [apply (bok_ext p o m); [reflexivity|exact B]|apply pa_d; assumption].
        -- destruct I1 as [J1 J2]. split; [exact J1|]. apply (bok_ext p o m); [reflexivity|exact B].
      * unfold Rest, addq, arr. cbn [pm_cur]. rewrite C, V. cbn [andb app]. unfold pdue, phdr, pseq, ppay. cbn [pm_open pm_hdr pm_seq pm_pay]. cbn zeta. f_equal. unfold epos, pstart. cbn [pm_open pm_pay]. destruct (act s o).
        -- destruct I1 as [_ [_ [J1 [-> [-> _]]]]]. rewrite J1. reflexivity.
        -- destruct I1 as [-> _]. reflexivity.
    + unfold PM, PInv, cv, arr, Rest, addq. cbn [pm_open pm_cur pm_pay]. rewrite C, V. cbn [andb app]. split; [|reflexivity]. split; [|split; [exact Logic.I|exact OF]]. split; assumption.
Qed.
(** A port that is not the active one. *)
Lemma idle_ext p s s' o m : act s o = false -> act s' o = false -> PM p s o m -> PM p s' o m /\ Rest p s' o m = Rest p s o m.
Proof.
  intros A A' [[I0 I1] X]. unfold PM, PInv, Rest, epos. rewrite A' in *. rewrite A in *. split; [split; [split; assumption|exact X]|reflexivity].
Qed.
Lemma same_ext p s s' o m : ts_frame s' = ts_frame s -> ts_h1 s' = ts_h1 s -> ts_h2 s' = ts_h2 s -> ts_s1 s' = ts_s1 s -> ts_s2 s' = ts_s2 s -> ts_port s' = ts_port s -> ts_shd s' = ts_shd s -> ts_shs s' = ts_shs s ->
  PM p s o m -> PM p s' o m /\ Rest p s' o m = Rest p s o m.
Proof.
  intros E1 E2 E3 E4 E5 E6 E7 E8 [[I0 I1] X]. assert (AE : act s' o = act s o) by (unfold act; now rewrite E1, E6).
  assert (SE : forall pay, Sh p s pay -> Sh p s' pay) by (intros pay SH N; rewrite E7, E8; exact (SH N)).
  unfold PM, PInv, Rest, epos. rewrite AE, E2, E3, E4, E5. split; [|reflexivity]. split; [|exact X]. split; [exact I0|]. destruct (act s o); [|exact I1]. destruct I1 as [J1 [J2 J3]]. split; [exact J1|]. split; [exact J2|].
  destruct (pm_cur m) as [b|].
  - destruct J3 as [J3 J4]. split; [exact J3|]. destruct J4; [apply pa_h2|apply pa_s1|apply pa_d|apply pa_b]; rewrite ?E3, ?E4, ?E7, ?E8; try assumption. now apply SE.
  - destruct J3 as [J3 [J4 [J5 J6]]]. repeat (split; [assumption|]). now apply SE.
Qed.

Record Inv (p : tx_param) (s : tx_state) (m : tx_mon) : Prop := mkInv {
  iv_pm : forall o, PM p s o (tm_port m o);
  iv_cc : tp_rq p = false -> ts_frame s = true \/ ts_valid s = true -> ts_port s = true;
  iv_out : if ts_valid s then exists c, tout_s p c s /\ tk_port c = ts_port s /\ pm_q (tm_port m (ts_port s)) = c :: Rest p s (ts_port s) (tm_port m (ts_port s)) /\ pm_q (tm_port m (negb (ts_port s))) = Rest p s (negb (ts_port s)) (tm_port m (negb (ts_port s))) /\
      ts_frame s = negb (ts_last s) /\ (tm_lock m = Some (ts_port s) \/ tm_lock m = None /\ tk_i c = 0 /\ 0 <= tk_seq c < 2 ^ (tp_sw p - 1))
    else (forall o, pm_q (tm_port m o) = Rest p s o (tm_port m o)) /\ tm_lock m = if ts_frame s then Some (ts_port s) else None }.

Lemma inv0 p s : ts_frame s = false -> ts_valid s = false -> Inv p s tm0.
Proof.
  intros F V. assert (A : forall o, act s o = false) by (intros; unfold act; now rewrite F). constructor.
  - intros o. unfold PM, PInv, cv. rewrite A. destruct o; cbn; repeat split; try discriminate.
  - rewrite F, V. intros _ [?|?]; discriminate.
  - rewrite V, F. split; [|reflexivity]. intros o; destruct o; reflexivity.
Qed.
Lemma who p s m i : Inv p s m -> ts_valid s = true -> t_who p m (tx_event p s i) = ts_port s.
Proof.
  intros I V. pose proof (iv_out _ _ _ I) as X. rewrite V in X. destruct X as [c [T [P [_ [_ [_ L]]]]]]. unfold t_who. destruct L as [-> |[-> [Z0 S]]]; [reflexivity|].
  destruct (tp_rq p) eqn:R; [|symmetry; apply (iv_cc _ _ _ I R); right; exact V]. destruct T as [_ [_ [T _]]]. unfold user_is in T. cbn [tv_user] in T. rewrite R in T. destruct T as [T _]. destruct (T Z0) as [_ [_ SQ]]. cbn [tx_event tv_user]. rewrite SQ, P.
  destruct (ts_port s); [apply Z.ltb_lt|apply Z.ltb_ge]; lia.
Qed.
Lemma tm_next_port p m e o : ti_rst (tv_in e) = false -> tm_port (tm_next p m e) o = pm_next p o (tm_port m o) (bport (tv_in e) o) (if o then tv_wr e else tv_rd e) (t_taken e && Bool.eqb (t_who p m e) o).
Proof. intros R. unfold tm_next. cbn zeta. rewrite R. destruct o; cbn [tm_port tm_rd tm_wr bport]; destruct (t_who p m e); reflexivity. Qed.
Lemma tx_port_bport i o : tx_port i o = pbeat o (bport i o).
Proof. destruct o; reflexivity. Qed.
Lemma sel_cyc p s i : tc_frame (tx_sel p s i) = true -> tx_sel p s i = cyc s (tc_port (tx_sel p s i)) /\ (ts_frame s = true -> tc_port (tx_sel p s i) = ts_port s) /\ (ts_frame s = false -> forall o, act s o = false) /\
  (ts_frame s = false -> tp_rq p = false -> tc_port (tx_sel p s i) = true).
Proof.
  intros F. unfold tx_sel in *. destruct (ts_frame s) eqn:E.
  - cbn [tc_port]. split; [unfold cyc; rewrite (act_of s true) by (try assumption; reflexivity); reflexivity|]. split; [reflexivity|]. split; discriminate.
  - assert (A : forall o, act s o = false) by (intros; unfold act; now rewrite E). destruct (tp_rq p) eqn:R; cbn [negb] in *.
    + destruct (tb_valid (ti_rd i) && ts_npc s); [|destruct (tb_valid (ti_wr i) && ts_pc s); [|discriminate]]; cbn [tc_port]; (split; [unfold cyc; rewrite A; reflexivity|]); (split; [discriminate|]); (split; [auto|discriminate]).
    + cbn [tc_frame tc_port] in *. rewrite F. split; [unfold cyc; rewrite A; reflexivity|]. split; [discriminate|]. split; auto.
Qed.
Lemma read_ok p s i (o : bool) : (if o then tv_wr (tx_event p s i) else tv_rd (tx_event p s i)) = tx_read p s i o.
Proof. destruct o; reflexivity. Qed.
Lemma read_valid p s i o : tx_read p s i o = true -> tb_valid (bport i o) = true.
Proof.
  unfold tx_read. cbn zeta. intros H. apply andb_prop in H. destruct H as [H1 H2]. apply andb_prop in H1. destruct H1 as [H1 _]. apply Bool.eqb_prop in H2. unfold tx_commit in H1. cbn zeta in H1. apply andb_prop in H1. destruct H1 as [H1 _]. apply andb_prop in H1. destruct H1 as [_ H1].
  rewrite H2, tx_port_bport in H1. destruct o; exact H1.
Qed.
Lemma arr_pa p m e o : ti_rst (tv_in e) = false -> tx_assume1 p m e -> tx_assume2 p m e ->
  port_assume p o (tm_port m o) (bport (tv_in e) o) /\ (tb_valid (bport (tv_in e) o) = true -> pm_open (tm_port m o) = false -> thdr_ok p (tb_hdr (bport (tv_in e) o))).
Proof. intros R A1 A2. destruct (A1 R) as [X1 [X2 _]]. destruct (A2 R) as [Y1 Y2]. destruct o; split; assumption. Qed.

(** What is left after what is taken. *)
Definition pre (s : tx_state) (i : tx_in) (o : bool) (c : tchunk) : list tchunk := if ts_valid s && negb (ti_ready i) && Bool.eqb (ts_port s) o then [c] else [].
Lemma popped p s m i : Inv p s m -> exists c, (ts_valid s = true -> tout_s p c s /\ tk_port c = ts_port s /\ ts_frame s = negb (ts_last s) /\ (tm_lock m = Some (ts_port s) \/ tm_lock m = None /\ tk_i c = 0 /\ 0 <= tk_seq c < 2 ^ (tp_sw p - 1))) /\
  forall o, let e := tx_event p s i in let q := pm_q (tm_port m o) in (if t_taken e && Bool.eqb (t_who p m e) o then tl q else q) = pre s i o c ++ Rest p s o (tm_port m o).
Proof.
  intros I. pose proof (iv_out _ _ _ I) as X. destruct (ts_valid s) eqn:V.
  - destruct X as [c [T [P [Q1 [Q2 [F L]]]]]]. exists c. split; [auto|]. intros o. cbn zeta. rewrite (who p s m i I V). unfold t_taken, pre. cbn [tx_event tv_valid tv_in]. rewrite V. cbn [andb]. destruct (ti_ready i); cbn [andb negb].
    + destruct (Bool.eqb (ts_port s) o) eqn:E; [apply Bool.eqb_prop in E; subst o; rewrite Q1; reflexivity|]. assert (o = negb (ts_port s)) as -> by (destruct o, (ts_port s); try discriminate; reflexivity). exact Q2.
    + destruct (Bool.eqb (ts_port s) o) eqn:E; [apply Bool.eqb_prop in E; subst o; exact Q1|]. assert (o = negb (ts_port s)) as -> by (destruct o, (ts_port s); try discriminate; reflexivity). exact Q2.
  - exists (mkTk false 0 0 [] false 0). split; [discriminate|]. intros o. cbn zeta. unfold t_taken, pre. cbn [tx_event tv_valid tv_in]. rewrite V. cbn [andb app]. exact (proj1 X o).
Qed.

Lemma inv_next p s m i : tp_ok p -> Inv p s m -> ti_rst i = false -> tx_assume1 p m (tx_event p s i) -> tx_assume2 p m (tx_event p s i) -> Inv p (tx_next p s i) (tm_next p m (tx_event p s i)).
Proof.
  intros O I R A1 A2. destruct (popped p s m i I) as [c [CV QQ]]. cbn zeta in QQ. set (e := tx_event p s i) in *.
  assert (ARR : forall o q, PM p s o (arr (tm_port m o) (bport i o) q) /\ Rest p s o (arr (tm_port m o) (bport i o) q) = Rest p s o (tm_port m o) ++ addq p o (tm_port m o) (bport i o)).
  { intros o q. destruct (arr_pa p m e o R A1 A2) as [X Y]. apply arrive; try assumption. exact (iv_pm _ _ _ I o). }
  set (Q := fun o => pre s i o c ++ Rest p s o (tm_port m o) ++ addq p o (tm_port m o) (bport i o)).
  assert (NX : forall o, tm_port (tm_next p m e) o = if tb_valid (bport i o) then afterrd (tx_read p s i o) o (arr (tm_port m o) (bport i o) (Q o)) (bport i o) (Q o) else arr (tm_port m o) (bport i o) (Q o)).
  { intros o. rewrite tm_next_port by exact R. unfold e at 1. cbn [tx_event tv_in]. rewrite pm_next_arr; [|unfold e; rewrite read_ok; apply read_valid]. cbn zeta. rewrite QQ. unfold Q. rewrite <- app_assoc. unfold e; rewrite read_ok. reflexivity. }
  assert (NR : forall o, tx_read p s i o = false -> tm_port (tm_next p m e) o = arr (tm_port m o) (bport i o) (Q o)).
  { intros o RD. rewrite NX, RD. destruct (tb_valid (bport i o)) eqn:V; [|reflexivity]. unfold afterrd, arr. cbn [pm_open pm_hdr pm_seq pm_pay]. rewrite V. reflexivity. }
  assert (LK : tm_lock (tm_next p m e) = if t_taken e then (if ts_last s then None else Some (t_who p m e)) else tm_lock m) by (unfold tm_next; cbn zeta; unfold e at 1; cbn [tx_event tv_in]; rewrite R; reflexivity).
  assert (TK : t_taken e = ts_valid s && ti_ready i) by reflexivity.
  unfold tx_next. cbn zeta. destruct (tx_commit p s i) eqn:CM.
  - unfold tx_commit in CM. cbn zeta in CM. apply andb_prop in CM. destruct CM as [CM VR]. apply andb_prop in CM. destruct CM as [FR BV]. destruct (sel_cyc p s i FR) as [SC [SP [SA SQ]]]. set (o := tc_port (tx_sel p s i)) in *. rewrite tx_port_bport in *.
    assert (VB : tb_valid (bport i o) = true) by (destruct o; exact BV).
    assert (P0 : forall o', pre s i o' c = []) by (intros o'; unfold pre; destruct (ts_valid s), (ti_ready i); cbn in *; try reflexivity; discriminate).
    assert (RDO : forall o', tx_read p s i o' = tr_read (tx_route p (cyc s o) (pbeat o (bport i o))) && Bool.eqb o o').
    { intros o'. unfold tx_read. cbn zeta. unfold tx_commit. cbn zeta. fold o. rewrite FR, tx_port_bport, BV, VR. rewrite SC. reflexivity. }
    rewrite SC. fold (nxt p s (cyc s o) (pbeat o (bport i o)) (tx_mps i) (tx_pc s i) (tx_npc i)).
    assert (PC : tc_port (cyc s o) = o) by apply cyc_frame. 
    set (s' := let '(shd, shs) := tx_shift p s (pbeat o (bport i o)) in _). assert (ES : s' = nxt p s (cyc s o) (pbeat o (bport i o)) (tx_mps i) (tx_pc s i) (tx_npc i)) by (unfold nxt; cbn zeta; rewrite PC; reflexivity). clearbody s'.
    assert (PS : ts_port s' = o /\ ts_valid s' = true /\ ts_last s' = tr_eop (tx_route p (cyc s o) (pbeat o (bport i o))) /\ ts_frame s' = tr_frame (tx_route p (cyc s o) (pbeat o (bport i o)))).
    { rewrite ES. unfold nxt. cbn zeta. destruct (tx_shift p s (pbeat o (bport i o))). cbn [ts_port ts_valid ts_last ts_frame]. rewrite PC. auto. }
    destruct PS as [PS [PV [PL PF]]].
    destruct (ARR o (Q o)) as [PMo RSo]. assert (CU : pm_cur (arr (tm_port m o) (bport i o) (Q o)) = Some (bport i o)) by (unfold arr; cbn [pm_cur]; rewrite VB; reflexivity).
    destruct (emit p s o _ _ O (proj1 PMo) CU (tx_mps i) (tx_pc s i) (tx_npc i)) as [rest [E1 [E2 [E3 E4]]]]. rewrite <- ES in E2, E4. specialize (E4 (Q o)). destruct E4 as [E4 E5].
    assert (MO : tm_port (tm_next p m e) o = afterrd (tr_read (tx_route p (cyc s o) (pbeat o (bport i o)))) o (arr (tm_port m o) (bport i o) (Q o)) (bport i o) (Q o)).
    { rewrite NX, VB, RDO. rewrite Bool.eqb_reflx, andb_true_r. reflexivity. }
    assert (AN : act s (negb o) = false). { destruct (ts_frame s) eqn:F; [|exact (SA eq_refl _)]. unfold act. rewrite F, (eq_sym (SP eq_refl)). destruct o; reflexivity. }
    assert (AN' : act s' (negb o) = false) by (unfold act; rewrite PS; destruct o; cbn; apply andb_false_r).
    assert (MN : tm_port (tm_next p m e) (negb o) = arr (tm_port m (negb o)) (bport i (negb o)) (Q (negb o))) by (apply NR; rewrite RDO; destruct o; cbn; apply andb_false_r).
    destruct (ARR (negb o) (Q (negb o))) as [PMn RSn]. destruct (idle_ext p s s' (negb o) _ AN AN' PMn) as [IDn IRn].
    assert (PMo' : PM p s' o (tm_port (tm_next p m e) o)).
    { rewrite MO. split; [exact E4|]. destruct PMo as [[_ PI] [_ OF]]. unfold cv, afterrd. destruct (tr_read _) eqn:RD; cbn [pm_cur pm_open]; [|split; [exact VB|exact OF]]. split; [exact Logic.I|]. intros ->. rewrite CU in PI.
      assert (B : BOK p false (arr (tm_port m false) (bport i false) (Q false)) (bport i false)) by (destruct (act s false); [exact (proj1 (proj2 (proj2 PI)))|exact (proj2 PI)]).
      destruct (tb_eop (bport i false)) eqn:EO; [reflexivity|]. pose proof (bk_full _ _ _ _ B EO) as X. change (bl false (bport i false)) with 0 in X. destruct (tcases p O) as [W _]. lia. }
    assert (PMn' : PM p s' (negb o) (tm_port (tm_next p m e) (negb o))) by (rewrite MN; exact IDn).
    constructor.
    + intros o'. destruct (Bool.bool_dec o' o) as [-> |]; [exact PMo'|]. rename n into NE; assert (EN : o' = negb o) by (clear - NE; destruct o, o'; try reflexivity; exfalso; apply NE; reflexivity); rewrite EN. exact PMn'.
    + intros RQ _. rewrite PS. destruct (ts_frame s) eqn:F; [|exact (SQ eq_refl RQ)]. rewrite (SP eq_refl). apply (iv_cc _ _ _ I RQ). left; exact F.
    + rewrite PV. exists (chk p s o (arr (tm_port m o) (bport i o) (Q o)) (bport i o)). split; [exact E2|]. rewrite PS. split; [reflexivity|]. split; [|split; [|split]].
      * rewrite MO at 1. replace (pm_q (afterrd _ _ _ _ (Q o))) with (Q o) by (unfold afterrd; destruct (tr_read _); reflexivity). rewrite MO. rewrite E5, <- E1, RSo. unfold Q. rewrite P0. reflexivity.
      * rewrite MN. rewrite IRn, RSn. unfold arr at 1. cbn [pm_q]. unfold Q. rewrite P0. reflexivity.
      * rewrite PF, PL, E3. now rewrite negb_involutive.
      * rewrite LK, TK. destruct (ts_valid s) eqn:V.
        -- cbn [negb orb] in VR. rewrite VR. cbn [andb]. destruct (CV eq_refl) as [_ [_ [FL _]]]. rewrite (who p s m i I V : t_who p m e = ts_port s). destruct (ts_last s); cbn [negb] in FL; [|left; now rewrite (SP FL)]. right. split; [reflexivity|].
           unfold chk. cbn [tk_i tk_seq]. unfold epos. rewrite (SA FL). split; [reflexivity|]. destruct PMo as [[_ PI] _]. rewrite (SA FL), CU in PI. unfold pseq. rewrite (proj1 PI). exact (bk_seq _ _ _ _ (proj2 PI)).
        -- cbn [andb]. pose proof (iv_out _ _ _ I) as X. rewrite V in X. rewrite (proj2 X). destruct (ts_frame s) eqn:FL; [left; now rewrite (SP eq_refl)|]. right. split; [reflexivity|].
           unfold chk. cbn [tk_i tk_seq]. unfold epos. rewrite (SA eq_refl). split; [reflexivity|]. destruct PMo as [[_ PI] _]. rewrite (SA eq_refl), CU in PI. unfold pseq. rewrite (proj1 PI). exact (bk_seq _ _ _ _ (proj2 PI)).
  - assert (MN : forall o, tm_port (tm_next p m e) o = arr (tm_port m o) (bport i o) (Q o)) by (intros o; apply NR; unfold tx_read; cbn zeta; rewrite CM; reflexivity).
    assert (EX : forall s' o, ts_frame s' = ts_frame s -> ts_h1 s' = ts_h1 s -> ts_h2 s' = ts_h2 s -> ts_s1 s' = ts_s1 s -> ts_s2 s' = ts_s2 s -> ts_port s' = ts_port s -> ts_shd s' = ts_shd s -> ts_shs s' = ts_shs s ->
      PM p s' o (tm_port (tm_next p m e) o) /\ Rest p s' o (tm_port (tm_next p m e) o) = Rest p s o (tm_port m o) ++ addq p o (tm_port m o) (bport i o)).
    { intros s' o F1 F2 F3 F4 F5 F6 F7 F8. rewrite MN. destruct (ARR o (Q o)) as [X1 X2]. destruct (same_ext p s s' o _ F1 F2 F3 F4 F5 F6 F7 F8 X1) as [Y1 Y2]. split; [exact Y1|]. rewrite Y2. exact X2. }
    destruct (negb (ts_valid s) || ti_ready i) eqn:VR.
    + match goal with |- Inv p ?x _ => set (s' := x) end. specialize (EX s'). constructor.
      * intros o. destruct (EX o) as [X _]; try reflexivity. exact X.
      * intros RQ [F|F]; [|discriminate]. apply (iv_cc _ _ _ I RQ). left. exact F.
      * change (ts_valid s') with false. cbv iota. split.
        -- intros o. destruct (EX o) as [_ X]; try reflexivity. rewrite X. rewrite MN. unfold arr at 1. cbn [pm_q]. unfold Q. replace (pre s i o c) with (@nil tchunk); [reflexivity|]. unfold pre. destruct (ts_valid s), (ti_ready i); cbn in *; try reflexivity; discriminate.
        -- rewrite LK, TK. change (ts_frame s') with (ts_frame s). change (ts_port s') with (ts_port s). destruct (ts_valid s) eqn:V.
           ++ cbn [negb orb] in VR. rewrite VR. cbn [andb]. destruct (CV eq_refl) as [_ [_ [-> _]]]. rewrite (who p s m i I V : t_who p m e = ts_port s). destruct (ts_last s); reflexivity.
           ++ cbn [andb]. pose proof (iv_out _ _ _ I) as X. rewrite V in X. exact (proj2 X).
    + apply orb_false_elim in VR. destruct VR as [V RY]. apply negb_false_iff in V. match goal with |- Inv p ?x _ => set (s' := x) end. specialize (EX s'). destruct (CV V) as [T [P [FL L]]]. constructor.
      * intros o. destruct (EX o) as [X _]; try reflexivity. exact X.
      * intros RQ _. apply (iv_cc _ _ _ I RQ). right. exact V.
      * change (ts_valid s') with true. cbv iota. change (ts_port s') with (ts_port s). exists c. split; [|split; [exact P|split; [|split; [|split; [exact FL|]]]]].
        -- unfold tout_s in *. unfold s'. cbn [ts_valid ts_data ts_keep ts_last ts_user]. rewrite V in T. exact T.
        -- destruct (EX (ts_port s)) as [_ X]; try reflexivity. rewrite X, MN. unfold arr at 1. cbn [pm_q]. unfold Q, pre. rewrite V, RY, Bool.eqb_reflx. reflexivity.
        -- destruct (EX (negb (ts_port s))) as [_ X]; try reflexivity. rewrite X, MN. unfold arr at 1. cbn [pm_q]. unfold Q, pre. rewrite V, RY. destruct (ts_port s); reflexivity.
        -- rewrite LK, TK, V, RY. cbn [andb]. exact L.
Qed.
Lemma inv_step p s m i : tp_ok p -> Inv p s m -> tx_assume1 p m (tx_event p s i) -> tx_assume2 p m (tx_event p s i) -> Inv p (tx_step p s i) (tm_next p m (tx_event p s i)).
Proof.
  intros O I A1 A2. unfold tx_step. cbn zeta. destruct (ti_rst i) eqn:R; [|now apply inv_next]. unfold tm_next. cbn zeta. cbn [tx_event tv_in]. rewrite R. apply inv0; reflexivity.
Qed.
Lemma inv_shows p s m i : Inv p s m -> tx_shows p m (tx_event p s i).
Proof.
  intros I. split; [|split; [exact (read_valid p s i false)|exact (read_valid p s i true)]]. cbn [tx_event tv_valid]. intros V. rewrite (who p s m i I V). pose proof (iv_out _ _ _ I) as X. rewrite V in X. destruct X as [c [T [_ [Q _]]]].
  exists c. eexists. split; [exact Q|]. exact T.
Qed.
Lemma tx_follows_inv p l : tp_ok p -> forall s m, Inv p s m -> tx_follows p m (tx_trace p s l).
Proof.
  intros O. induction l as [|i l IH]; intros s m I; cbn [tx_trace tx_follows]; [exact Logic.I|]. split; [now apply inv_shows|]. intros A1 A2. apply IH. now apply inv_step.
Qed.
Lemma tx_follows_ok p l : tp_ok p -> tx_follows p tm0 (tx_trace p ts0 l).
Proof. intros O. apply tx_follows_inv; [exact O|]. apply inv0; reflexivity. Qed.

Lemma tx_kept_step p s i i2 : tx_kept (tx_event p s i) (tx_event p (tx_step p s i) i2).
Proof.
  unfold tx_kept. cbn [tx_event tv_in tv_valid tv_data tv_keep tv_last tv_user]. intros R V Y. unfold tx_step. cbn zeta. rewrite R. unfold tx_next. cbn zeta. assert (C : tx_commit p s i = false) by (unfold tx_commit; cbn zeta; rewrite V, Y; cbn; apply andb_false_r).
  rewrite C, V, Y. cbn. auto.
Qed.
Lemma tx_kept_ok p l : forall s a e e' b, tx_trace p s l = a ++ e :: e' :: b -> tx_kept e e'.
Proof.
  induction l as [|i l IH]; intros s a e e' b Q; cbn [tx_trace] in Q; [destruct a; discriminate|]. destruct a as [|x a]; cbn [app] in Q.
  - injection Q as Q1 Q2. destruct l as [|i2 l]; cbn [tx_trace] in Q2; [discriminate|]. injection Q2 as Q2 Q3. subst e e'. apply tx_kept_step.
  - injection Q as Q1 Q2. exact (IH _ _ _ _ _ Q2).
Qed.
