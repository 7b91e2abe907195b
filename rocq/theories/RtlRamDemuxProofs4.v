(** Lemmas on the RAM write demultiplexer (C90). *)
From Verif Require Import PyBase RtlModel RtlProofs RtlFcProofs RtlRamModel RtlRamProofs RtlRamProofs2 RtlDemuxModel RtlDemuxProofs RtlRamDemuxModel RtlRamDemuxSpec RtlRamDemuxProofs RtlRamDemuxProofs3.
From Coq Require Import Lia.

Section wr.
Context {D : Type}.
Variable p : x_param.
Hypothesis OKP : x_ok p.
Implicit Types (s : wr_state D) (i : wr_in D) (tr : list (wr_ev D)).

Definition occ (q : Z) (K : list Z) : nat := length (filter (fun x => x =? q) K).
Lemma occ_app : forall q a b, occ q (a ++ b) = (occ q a + occ q b)%nat.
Proof. intros. unfold occ. now rewrite filter_app, app_length. Qed.
Lemma occ_le : forall q a, (occ q a <= length a)%nat.
Proof. intros q a. unfold occ. induction a as [|x a IH]; [cbn; lia|]. cbn [filter]. destruct (x =? q); cbn [length]; lia. Qed.
Lemma occ_of : forall A q (l : list (Z * A)), length (of_port q l) = occ q (map fst l).
Proof. intros A q l. unfold of_port, occ. induction l as [|x l IH]; [reflexivity|]. cbn [map filter]. destruct (fst x =? q); cbn [map length]; now rewrite IH. Qed.

Definition dones (tr : list (wr_ev D)) (q : Z) : Z := Z.of_nat (length (of_port q (w_dones p tr))).
Definition waits s : list Z := if wrs_valid s then [wrs_sel s] else [].

Record winv tr s (K : list Z) : Prop := {
  wi_x : xinv p (wrs_x s) (w_asked p tr) (w_sent p tr) (K ++ waits s);
  wi_t : length K = length (w_told tr);
  wi_k : forall q, In q K -> 0 <= q < xp_ports p;
  wi_c : forall q, 0 <= q < xp_ports p -> 0 <= wrs_cnt s q <= 32 /\ (wrs_done s q = true <-> 0 < wrs_cnt s q) /\ wrs_cnt s q + Z.of_nat (occ q K) <= dones tr q;
  wi_e : w_causal p tr -> forall q, 0 <= q < xp_ports p -> wrs_cnt s q + Z.of_nat (occ q K) = dones tr q;
  wi_n : 0 <= wrs_sel s /\ forall k, 0 <= xs_sel (wrs_x s) k }.

Lemma out_eq : forall s, 0 <= wrs_sel s -> wr_out p s = wrs_valid s && exists_port p (wrs_sel s) && wrs_done s (wrs_sel s).
Proof.
  intros s N. unfold wr_out. destruct (wrs_valid s && exists_port p (wrs_sel s) && wrs_done s (wrs_sel s)) eqn:E.
  - apply andb_true_iff in E. destruct E as [E E3]. apply andb_true_iff in E. destruct E as [E1 E2]. unfold exists_port in E2. apply Z.ltb_lt in E2.
    apply existsb_exists. exists (wrs_sel s). split; [apply (proj2 (zseq_in (xp_ports p) (wrs_sel s))); lia|]. unfold wr_ack. rewrite E3, E1, Z.eqb_refl. reflexivity.
  - apply not_true_is_false. intros H. apply existsb_exists in H. destruct H as [q [I A]]. apply (proj1 (zseq_in (xp_ports p) q)) in I. unfold wr_ack in A.
    apply andb_true_iff in A. destruct A as [A A3]. apply andb_true_iff in A. destruct A as [A1 A2]. apply Z.eqb_eq in A3. subst q.
    rewrite A1, A2 in E. unfold exists_port in E. destruct (Z.ltb_spec (wrs_sel s) (xp_ports p)); [discriminate | lia].
Qed.

Lemma ack_eq : forall s q, 0 <= q < xp_ports p -> 0 <= wrs_sel s -> wr_ack s q = wr_out p s && (q =? wrs_sel s).
Proof.
  intros s q Q N. rewrite out_eq by exact N. unfold wr_ack. destruct (Z.eqb_spec q (wrs_sel s)) as [->|]; [|now rewrite !andb_false_r].
  unfold exists_port. destruct (Z.ltb_spec (wrs_sel s) (xp_ports p)); [|lia]. destruct (wrs_done s (wrs_sel s)), (wrs_valid s); reflexivity.
Qed.

Lemma dones_snoc : forall tr e q, 0 <= q < xp_ports p -> dones (tr ++ [e]) q = if w_rst e then 0 else dones tr q + Z.b2z (Z.testbit (wr_done (wre_in e)) q).
Proof.
  intros tr e q Q. unfold dones, w_dones. rewrite since_snoc. destruct (w_rst e); [reflexivity|]. rewrite of_port_app, app_length, Nat2Z.inj_add. f_equal.
  rewrite occ_of. rewrite map_map. cbn [fst]. rewrite map_id. unfold occ.
  change (ports_list p) with (zseq (xp_ports p)). set (b := Z.testbit (wr_done (wre_in e)) q). 
  assert (E : filter (fun x => x =? q) (filter (fun q0 => Z.testbit (wr_done (wre_in e)) q0) (zseq (xp_ports p))) = filter (fun x => (x =? q) && b) (zseq (xp_ports p))).
  { induction (zseq (xp_ports p)) as [|y r IH]; [reflexivity|]. cbn [filter]. destruct (Z.eqb_spec y q) as [->|N].
    - fold b. destruct b; cbn [filter andb]; rewrite ?Z.eqb_refl; now rewrite IH.
    - destruct (Z.testbit _ y); cbn [filter]; [destruct (Z.eqb_spec y q); [contradiction|]|]; exact IH. }
  rewrite E. rewrite (filter_one _ _ _ q); [|apply zseq_nodup | now apply zseq_in |].
  - rewrite Z.eqb_refl. destruct b; reflexivity.
  - intros y _ Y. destruct (Z.eqb_spec y q); [contradiction | reflexivity].
Qed.

Lemma tab_eq : forall A n (x : A) g q, 0 <= q < n -> tab n x g q = g q.
Proof.
  intros A n x g q Q. unfold tab. rewrite map_map. rewrite nth_indep with (d' := g (Z.of_nat 0)) by (rewrite map_length, seq_length; lia).
  rewrite (map_nth (fun k => g (Z.of_nat k))), seq_nth by lia. f_equal. lia.
Qed.
Lemma count_rst : forall s i q, xi_rst (wr_cmd i) = true -> wr_count s i q = (0, false).
Proof. intros s i q H. unfold wr_count. rewrite H. destruct (wrs_cnt s q <? 32), (bsel (wr_done i) q =? 1), (wr_ack s q), (0 <? wrs_cnt s q); reflexivity. Qed.
Lemma causal_prefix : forall tr e, w_causal p (tr ++ [e]) -> w_causal p tr.
Proof. intros tr e H a b E. apply (H a (b ++ [e])). now rewrite E, app_assoc. Qed.

Lemma wstep_ok : forall tr s i K, winv tr s K ->
  winv (tr ++ [wr_event p s i]) (wr_step p s i) (if xi_rst (wr_cmd i) then [] else K ++ if wr_out p s then [wrs_sel s] else []).
Proof.
  intros tr s i K [I1 I2 I3 I4 I5 [I6 I7]]. set (e := wr_event p s i).
  set (free := negb (wrs_valid s) || wr_out p s). set (next := free && negb (ptr_empty (xs_wr (wrs_x s)) (xs_rd (wrs_x s)))).
  assert (SEL : forall rd k, 0 <= xs_sel (x_cmd_step p (wrs_x s) (wr_cmd i) rd) k).
  { intros rd k. unfold x_cmd_step. cbn [xs_sel]. destruct (xi_valid (wr_cmd i) && x_ready (wrs_x s)); [|apply I7]. unfold upd. destruct (k =? _); [now apply select_nonneg | apply I7]. }
  assert (SN : 0 <= wrs_sel (wr_step p s i)). { unfold wr_step. cbn [wrs_sel]. fold free. fold next. destruct next; [apply I7 | exact I6]. }
  destruct (xi_rst (wr_cmd i)) eqn:RS.
  - assert (RE : w_rst e = true) by exact RS.
    constructor.
    + unfold w_asked, w_sent. rewrite !since_snoc, RE. unfold wr_step, waits. cbn [wrs_x wrs_valid]. rewrite RS. cbn [app]. now apply xstep_reset.
    + unfold w_told. rewrite since_snoc, RE. reflexivity.
    + intros q H. contradiction.
    + intros q Q. rewrite dones_snoc, RE by exact Q. unfold wr_step. cbn [wrs_cnt wrs_done]. rewrite tab_eq, count_rst by assumption. cbn. repeat split; try lia; discriminate.
    + intros _ q Q. rewrite dones_snoc, RE by exact Q. unfold wr_step. cbn [wrs_cnt]. rewrite tab_eq, count_rst by assumption. reflexivity.
    + split; [exact SN | apply SEL].
  - assert (RE : w_rst e = false) by exact RS.
    assert (NE : next = true -> ptr_empty (xs_wr (wrs_x s)) (xs_rd (wrs_x s)) = false). { intros H. unfold next in H. apply andb_true_iff in H. destruct H as [_ H]. now apply negb_true_iff in H. }
    pose proof (xstep_ok p OKP (wrs_x s) (wr_cmd i) _ _ _ next I1 RS NE) as XS.
    assert (OV : wr_out p s = true -> wrs_valid s = true /\ 0 <= wrs_sel s < xp_ports p /\ wrs_done s (wrs_sel s) = true).
    { intros H. rewrite out_eq in H by exact I6. apply andb_true_iff in H. destruct H as [H H3]. apply andb_true_iff in H. destruct H as [H1 H2]. unfold exists_port in H2. apply Z.ltb_lt in H2. repeat split; auto; lia. }
    assert (CNT : forall q, 0 <= q < xp_ports p -> Z.of_nat (occ q (K ++ (if wr_out p s then [wrs_sel s] else []))) = Z.of_nat (occ q K) + Z.b2z (wr_ack s q)).
    { intros q Q. rewrite occ_app, Nat2Z.inj_add. f_equal. rewrite ack_eq by auto. destruct (wr_out p s); [|reflexivity]. cbn [andb]. unfold occ. cbn [filter]. rewrite Z.eqb_sym. destruct (q =? wrs_sel s); reflexivity. }
    assert (AC : forall q, 0 <= q < xp_ports p -> wr_ack s q = true -> 0 < wrs_cnt s q).
    { intros q Q H. unfold wr_ack in H. apply andb_true_iff in H. destruct H as [H _]. apply andb_true_iff in H. destruct H as [H _]. now apply (I4 q Q). }
    constructor.
    + unfold w_asked, w_sent. rewrite !since_snoc, RE. fold (w_asked p tr) (w_sent p tr). unfold wr_step. cbn [wrs_x]. rewrite RS. fold free. fold next.
      match goal with |- xinv p _ _ _ ?R => assert (ER : R = (K ++ waits s) ++ (if next then [xs_sel (wrs_x s) (xs_rd (wrs_x s) mod 32)] else [])) end.
      { unfold waits. cbn [wrs_valid wrs_sel]. rewrite <- !app_assoc. f_equal. unfold next, free in *.
        destruct (wrs_valid s) eqn:V; cbn [negb orb andb].
        - destruct (wr_out p s) eqn:O; cbn [andb app]; [|reflexivity]. destruct (ptr_empty (xs_wr (wrs_x s)) (xs_rd (wrs_x s))); reflexivity.
        - destruct (wr_out p s) eqn:O; [destruct (OV eq_refl); discriminate|]. destruct (ptr_empty (xs_wr (wrs_x s)) (xs_rd (wrs_x s))); reflexivity. }
      rewrite ER. exact XS.
    + unfold w_told. rewrite since_snoc, RE, !app_length. fold (w_told tr). rewrite I2. unfold e, wr_event. cbn [wre_done]. destruct (wr_out p s); reflexivity.
    + intros q H. apply in_app_or in H. destruct H as [H|H]; [now apply I3|]. destruct (wr_out p s); [|contradiction]. destruct H as [<-|[]]. now apply OV.
    + intros q Q. destruct (I4 q Q) as [C1 [C2 C3]]. specialize (AC q Q). rewrite CNT, dones_snoc, RE by exact Q. change (wr_done (wre_in e)) with (wr_done i).
      unfold wr_step. cbn [wrs_cnt wrs_done]. rewrite tab_eq by exact Q. unfold wr_count. rewrite RS, on_bsel by lia.
      destruct (Z.testbit (wr_done i) q); destruct (wr_ack s q) eqn:A; cbn [andb negb Z.b2z]; rewrite ?andb_true_r, ?andb_false_r; cbn [fst snd].
      * repeat split; try lia; apply C2.
      * destruct (Z.ltb_spec (wrs_cnt s q) 32); cbn [fst snd]; repeat split; try lia; try apply C2.
      * specialize (AC eq_refl). destruct (Z.ltb_spec 0 (wrs_cnt s q)); [|lia]. cbn [fst snd]. rewrite Z.ltb_lt. repeat split; lia.
      * repeat split; try lia; apply C2.
    + intros CA q Q. specialize (I5 (causal_prefix _ _ CA) q Q). destruct (I4 q Q) as [C1 [C2 _]]. specialize (AC q Q). rewrite CNT, dones_snoc, RE by exact Q.
      assert (LIM : Z.testbit (wr_done i) q = true -> wr_ack s q = false -> wrs_cnt s q < 32).
      { intros B A. pose proof (CA _ [] (eq_sym (app_nil_r _)) q) as CQ. apply Nat2Z.inj_le in CQ. fold (dones (tr ++ [e]) q) in CQ. rewrite dones_snoc, RE in CQ by exact Q.
        change (wr_done (wre_in e)) with (wr_done i) in CQ. rewrite B in CQ. cbn [Z.b2z] in CQ.
        unfold w_sent in CQ. rewrite since_snoc, RE in CQ. fold (w_sent p tr) in CQ. unfold e, wr_event in CQ. cbn [wre_cvalid wre_cmd wre_in] in CQ. rewrite handed_eq in CQ.
        destruct I1 as [V P XS1 XR]. pose proof (vgiven_eq (xp_ports p) (xs_out (wrs_x s)) (xi_cready (wr_cmd i)) (v_p1 _ _ V)) as VG.
        assert (SUB : exists r, vcontent (xs_out (wrs_x s)) = vgiven (xp_ports p) (xs_out (wrs_x s)) (xi_cready (wr_cmd i)) ++ r).
        { rewrite VG. unfold vcontent. destruct (negb (Z.land _ _ =? 0)); [eexists; reflexivity | exists (item (vk_valid (xs_out (wrs_x s))) (vk_data (xs_out (wrs_x s))) ++ item (vk_tvalid (xs_out (wrs_x s))) (vk_tdata (xs_out (wrs_x s)))); reflexivity]. }
        destruct SUB as [r SUB]. rewrite SUB, app_assoc in XS1.
        assert (QE : exists_port p q = true) by (unfold exists_port; apply Z.ltb_lt; lia).
        pose proof (f_equal (fun l => length (of_port q l)) XS1) as LQ. cbn beta in LQ. rewrite (of_port_filter _ q _ (exists_port p) QE) in LQ.
        rewrite (of_port_app _ q _ r), app_length in LQ. rewrite occ_of, XR, !occ_app in LQ.
        pose proof (occ_le q (ring (xs_wr (wrs_x s)) (xs_rd (wrs_x s)) (xs_sel (wrs_x s)))) as R1. pose proof (ring_max _ _ _ (xs_sel (wrs_x s)) P) as R2.
        destruct (Z.lt_ge_cases (wrs_cnt s q) 32) as [|G]; [assumption|]. exfalso.
        assert (OW : occ q (waits s) = O).
        { unfold waits, occ. destruct (wrs_valid s) eqn:VV; [|reflexivity]. cbn [filter]. destruct (Z.eqb_spec (wrs_sel s) q) as [EQ|]; [|reflexivity].
          exfalso. unfold wr_ack in A. rewrite VV, EQ, Z.eqb_refl in A. rewrite (proj2 C2) in A by lia. discriminate. }
        lia. }
      change (wr_done (wre_in e)) with (wr_done i).
      unfold wr_step. cbn [wrs_cnt]. rewrite tab_eq by exact Q. unfold wr_count. rewrite RS, on_bsel by lia.
      destruct (Z.testbit (wr_done i) q); destruct (wr_ack s q) eqn:A; cbn [andb negb Z.b2z]; rewrite ?andb_true_r, ?andb_false_r; cbn [fst snd].
      * lia.
      * specialize (LIM eq_refl eq_refl). destruct (Z.ltb_spec (wrs_cnt s q) 32); [|lia]. cbn [fst snd]. lia.
      * specialize (AC eq_refl). destruct (Z.ltb_spec 0 (wrs_cnt s q)); [|lia]. cbn [fst snd]. lia.
      * lia.
    + split; [exact SN | apply SEL].
Qed.

Lemma winv0 : forall d : Z * D, winv [] (wr0 d) [].
Proof.
  intros d. constructor.
  - apply xinv0.
  - reflexivity.
  - intros q H. contradiction.
  - intros q Q. cbn. repeat split; try lia; discriminate.
  - intros _ q Q. reflexivity.
  - cbn. split; [lia | intros; lia].
Qed.

Lemma wtrace_app : forall l1 l2 s, wr_trace p s (l1 ++ l2) = wr_trace p s l1 ++ wr_trace p (wr_run p s l1) l2.
Proof. induction l1 as [|i l1 IH]; intros l2 s; [reflexivity|]. cbn [app wr_trace]. rewrite IH. reflexivity. Qed.
Lemma wrun_snoc : forall l i s, wr_run p s (l ++ [i]) = wr_step p (wr_run p s l) i.
Proof. intros. unfold wr_run. now rewrite fold_left_app. Qed.
Lemma winv_run : forall (d : Z * D) l, exists K, winv (wr_trace p (wr0 d) l) (wr_run p (wr0 d) l) K.
Proof.
  intros d. induction l as [|i l [K IH]] using rev_ind; [exists []; apply winv0|]. rewrite wtrace_app, wrun_snoc. cbn [wr_trace]. eexists. exact (wstep_ok _ _ i _ IH).
Qed.
Lemma wtrace_split : forall l s a e b, wr_trace p s l = a ++ e :: b ->
  exists l1 i l2, l = l1 ++ i :: l2 /\ a = wr_trace p s l1 /\ e = wr_event p (wr_run p s l1) i /\ b = wr_trace p (wr_step p (wr_run p s l1) i) l2.
Proof.
  induction l as [|i l IH]; intros s a e b E; [destruct a; discriminate|]. cbn [wr_trace] in E. destruct a as [|x a]; cbn [app] in E.
  - injection E as <- <-. exists [], i, l. auto.
  - injection E as <- E. destruct (IH _ _ _ _ E) as [l1 [j [l2 [-> [-> [-> ->]]]]]]. exists (i :: l1), j, l2. auto.
Qed.

Lemma wr_routed : forall (d : Z * D) l, w_routed p (wr_trace p (wr0 d) l).
Proof. intros d l. destruct (winv_run d l) as [K [[_ _ I _] _ _ _ _ _]]. eexists. split; [exact I | apply vcontent_len]. Qed.

Lemma wr_sound : forall (d : Z * D) l, w_sound p (wr_trace p (wr0 d) l).
Proof.
  intros d l. destruct (winv_run d l) as [K [[_ _ _ XR] I2 I3 I4 _ _]]. set (tr := wr_trace p (wr0 d) l) in *. split.
  - apply (f_equal (@length Z)) in XR. rewrite map_length, !app_length in XR. lia.
  - intros q. rewrite <- I2. rewrite occ_of, <- firstn_map, XR, <- app_assoc, firstn_app, Nat.sub_diag. cbn [firstn]. rewrite app_nil_r, firstn_all.
    destruct (Z.le_gt_cases 0 q); [destruct (Z.lt_ge_cases q (xp_ports p))|].
    + destruct (I4 q ltac:(lia)) as [C1 [_ C3]]. unfold dones in C3. lia.
    + assert (occ q K = O); [|lia]. unfold occ. rewrite filter_none; [reflexivity|]. intros y Y. apply I3 in Y. apply Z.eqb_neq. lia.
    + assert (occ q K = O); [|lia]. unfold occ. rewrite filter_none; [reflexivity|]. intros y Y. apply I3 in Y. apply Z.eqb_neq. lia.
Qed.

Lemma wr_kept : forall (d : Z * D) l, w_kept p (wr_trace p (wr0 d) l).
Proof.
  intros d l a e1 e2 b E NR q Q V R. apply wtrace_split in E. destruct E as [l1 [i [l2 [-> [-> [-> E2]]]]]].
  destruct l2 as [|j l2]; [discriminate|]. cbn [wr_trace] in E2. injection E2 as -> _.
  destruct (winv_run d l1) as [K [I1 _ _ _ _ _]]. set (s := wr_run p (wr0 d) l1) in *. unfold w_rst, wr_event in *. cbn [wre_in wre_cvalid wre_cmd] in *.
  unfold wr_step. cbn [wrs_x]. eapply xkept; eauto.
Qed.

(** * Every write is told of. *)
Section live.
Variables (d : Z * D) (l : list (wr_in D)) (f : nat -> wr_in D).
Let st (k : nat) : wr_state D := wr_run p (wr0 d) (w_inputs l f k).
Let tr (k : nat) : list (wr_ev D) := wr_trace p (wr0 d) (w_inputs l f k).
Hypothesis FAIR : w_fair p tr f.

Lemma w_inputs_S : forall k, w_inputs l f (S k) = w_inputs l f k ++ [f k].
Proof. intros k. unfold w_inputs. rewrite seq_S, map_app, app_assoc. reflexivity. Qed.
Lemma wst_S : forall k, st (S k) = wr_step p (st k) (f k).
Proof. intros. unfold st. now rewrite w_inputs_S, wrun_snoc. Qed.
Lemma wtr_S : forall k, tr (S k) = tr k ++ [wr_event p (st k) (f k)].
Proof. intros. unfold tr. rewrite w_inputs_S, wtrace_app. reflexivity. Qed.

Let asked k := length (w_asked p (tr k)).
Let sent k := length (w_sent p (tr k)).
Let told k := length (w_told (tr k)).

Lemma wnorst : forall k, w_rst (wr_event p (st k) (f k)) = false.
Proof. intros k. apply (wf_rst _ _ _ FAIR). Qed.
Lemma wasked_next : forall k, w_asked p (tr (S k)) = w_asked p (tr k) ++ command p (wr_cmd (f k)) (x_ready (wrs_x (st k))).
Proof. intros k. rewrite wtr_S. unfold w_asked. rewrite since_snoc, wnorst. reflexivity. Qed.
Lemma wsent_next : forall k, w_sent p (tr (S k)) = w_sent p (tr k) ++ vgiven (xp_ports p) (xs_out (wrs_x (st k))) (xi_cready (wr_cmd (f k))).
Proof. intros k. rewrite wtr_S. unfold w_sent. rewrite since_snoc, wnorst. reflexivity. Qed.
Lemma wtold_next : forall k, w_told (tr (S k)) = w_told (tr k) ++ if wr_out p (st k) then [tt] else [].
Proof. intros k. rewrite wtr_S. unfold w_told. rewrite since_snoc, wnorst. reflexivity. Qed.
Lemma wasked_mono : forall k, (asked k <= asked (S k))%nat.
Proof. intros. unfold asked. rewrite wasked_next, app_length. lia. Qed.
Lemma wsent_mono : forall k, (sent k <= sent (S k))%nat.
Proof. intros. unfold sent. rewrite wsent_next, app_length. lia. Qed.
Lemma wtold_mono : forall k, (told k <= told (S k))%nat.
Proof. intros. unfold told. rewrite wtold_next, app_length. lia. Qed.
Lemma winv_at : forall k, exists K, winv (tr k) (st k) K.
Proof. intros. apply winv_run. Qed.
Lemma wasked_sent : forall k, w_asked p (tr k) = w_sent p (tr k) ++ vcontent (xs_out (wrs_x (st k))).
Proof.
  intros k. destruct (winv_at k) as [K [[_ _ I _] _ _ _ _ _]]. rewrite <- I. pose proof (wf_exist _ _ _ FAIR k) as H. clear I.
  induction (w_asked p (tr k)) as [|x r IH]; [reflexivity|]. cbn [filter]. rewrite (H x) by now left. f_equal. apply IH. intros y Y. apply H. now right.
Qed.

Lemma wdeliver : forall k, exists m, (asked k <= sent (k + m))%nat.
Proof.
  intros k. destruct (reach (fun h => sent (k + h)) (asked k)) with (k := O) as [m M].
  - intros h. rewrite Nat.add_succ_r. apply wsent_mono.
  - intros h L. set (a := (k + h)%nat) in *. pose proof (mono_le asked wasked_mono k h) as AM. fold a in AM.
    pose proof (f_equal (@length _) (wasked_sent a)) as E. rewrite app_length in E. fold (asked a) (sent a) in E.
    destruct (winv_at a) as [K [[V _ _ _] _ _ _ _ _]].
    assert (NZ : vk_valid (xs_out (wrs_x (st a))) <> 0).
    { intros Z0. unfold vcontent, item in E. destruct (Z.eqb_spec (vk_valid (xs_out (wrs_x (st a)))) 0); [|contradiction].
      destruct (Z.eqb_spec (vk_tvalid (xs_out (wrs_x (st a)))) 0) as [|N]; [cbn [length app] in E; lia|]. apply (v_t _ _ V N). exact Z0. }
    destruct (v_p1 _ _ V) as [Z0|[q [Q EQ]]]; [contradiction|].
    destruct (wf_take _ _ _ FAIR q a Q) as [m M].
    assert (GI : forall b, Z.testbit (vk_valid (xs_out (wrs_x (st b)))) q = true -> Z.testbit (xi_cready (wr_cmd (f b))) q = true -> (sent b < sent (S b))%nat).
    { intros b B R. unfold sent. rewrite wsent_next, app_length. unfold vgiven. rewrite map_length.
      assert (IN : In q (filter (fun q => Z.testbit (vk_valid (xs_out (wrs_x (st b)))) q && Z.testbit (xi_cready (wr_cmd (f b))) q) (zseq (xp_ports p)))).
      { apply filter_In. split; [now apply zseq_in | now rewrite B, R]. }
      destruct (filter _ _); [contradiction | cbn [length]; lia]. }
    assert (ST : forall b, Z.testbit (vk_valid (xs_out (wrs_x (st b)))) q = true -> sent (S b) = sent b -> Z.testbit (vk_valid (xs_out (wrs_x (st (S b))))) q = true).
    { intros b B SE. destruct (Z.testbit (xi_cready (wr_cmd (f b))) q) eqn:R; [specialize (GI b B R); lia|].
      rewrite wst_S. unfold wr_step. cbn [wrs_x]. destruct (winv_at b) as [KB [I _ _ _ _ _]].
      match goal with |- Z.testbit (vk_valid (xs_out (x_cmd_step p _ _ ?r))) q = true =>
        destruct (xkept p OKP (wrs_x (st b)) (wr_cmd (f b)) r _ _ _ I (wf_rst _ _ _ FAIR b) q Q B R) as [KK _] end. exact KK. }
    assert (B0 : Z.testbit (vk_valid (xs_out (wrs_x (st a)))) q = true). { rewrite EQ. apply Z.pow2_bits_true. lia. }
    destruct (until sent (fun b => Z.testbit (vk_valid (xs_out (wrs_x (st b)))) q = true) wsent_mono ST a m B0) as [U|[U1 U2]].
    + exists m. now rewrite Nat.add_assoc.
    + exists (m + 1)%nat. replace (k + (h + (m + 1)))%nat with (S (a + m)) by lia. specialize (GI _ U1 M). lia.
  - exists m. exact M.
Qed.

Lemma tell_one : forall k, (told k < asked k)%nat -> exists m, (told k < told (k + m))%nat.
Proof.
  (* first the port that is waited for *)
  assert (W : forall k, (told k < asked k)%nat -> exists m, (told k < told (k + m))%nat \/ (wrs_valid (st (k + m)) = true /\ told (k + m) = told k)).
  { intros k L. destruct (wrs_valid (st k)) eqn:V; [exists O; rewrite Nat.add_0_r; auto|]. exists 1%nat. rewrite Nat.add_1_r.
    destruct (winv_at k) as [K [[_ P _ XR] I2 _ _ _ [I6 _]]]. apply (f_equal (@length Z)) in XR. unfold waits in XR. rewrite V, app_nil_r, map_length, app_length in XR. fold (asked k) in XR. fold (told k) in I2.
    assert (O : wr_out p (st k) = false). { rewrite out_eq by exact I6. now rewrite V. }
    right. split; [|unfold told; rewrite wtold_next, O, app_nil_r; reflexivity].
    rewrite wst_S. unfold wr_step. cbn [wrs_valid]. rewrite (wf_rst _ _ _ FAIR), V. cbn [negb orb andb].
    apply negb_true_iff. apply not_true_is_false. rewrite (ring_empty _ _ _ (xs_sel (wrs_x (st k))) P). intros H. rewrite H in XR. cbn [length] in XR. lia. }
  intros k0 L0. destruct (W k0 L0) as [m0 [G|[V T0]]]; [now exists m0|].
  set (k := (k0 + m0)%nat) in *. assert (L : (told k < asked k)%nat). { pose proof (mono_le asked wasked_mono k0 m0). fold k in H. lia. }
  assert (G : exists m, (told k < told (k + m))%nat). 2:{ destruct G as [m M]. exists (m0 + m)%nat. rewrite Nat.add_assoc. fold k. lia. }
  set (q := wrs_sel (st k)).
  assert (ST : forall b, wrs_valid (st b) = true /\ wrs_sel (st b) = q -> told (S b) = told b -> wrs_valid (st (S b)) = true /\ wrs_sel (st (S b)) = q).
  { intros b [B1 B2] TE. unfold told in TE. rewrite wtold_next, app_length in TE. destruct (wr_out p (st b)) eqn:O; [cbn [length] in TE; lia|].
    rewrite wst_S. unfold wr_step. cbn [wrs_valid wrs_sel]. rewrite (wf_rst _ _ _ FAIR), B1, O. cbn [negb orb andb]. auto. }
  assert (AQ : exists c, nth_error (w_asked p (tr k)) (told k) = Some (q, c) /\ 0 <= q < xp_ports p).
  { destruct (winv_at k) as [K [[_ _ _ XR] I2 _ _ _ [I6 _]]]. fold (told k) in I2. unfold waits in XR. rewrite V in XR.
    assert (H : nth_error (map fst (w_asked p (tr k))) (told k) = Some q). { rewrite XR, <- app_assoc, nth_error_app2 by lia. rewrite I2, Nat.sub_diag. reflexivity. }
    rewrite nth_error_map in H. destruct (nth_error (w_asked p (tr k)) (told k)) as [[q' c]|] eqn:N; [|discriminate]. cbn [option_map fst] in H. injection H as ->. exists c. split; [reflexivity|].
    apply nth_error_In in N. pose proof (wf_exist _ _ _ FAIR k _ N) as E. unfold exists_port in E. cbn [fst] in E. apply Z.ltb_lt in E. unfold q at 1. lia. }
  destruct AQ as [c [AQ Q]]. destruct (wdeliver k) as [m1 M1]. set (k1 := (k + m1)%nat) in *. destruct (wf_does _ _ _ FAIR q k1 Q) as [m2 M2].
  destruct (until told _ wtold_mono ST k (m1 + m2) (conj V eq_refl)) as [U|[[U1 U2] U3]]; [now exists (m1 + m2)%nat|].
  replace (k + (m1 + m2))%nat with (k1 + m2)%nat in * by lia. set (k2 := (k1 + m2)%nat) in *.
  exists (m1 + m2 + 1)%nat. replace (k + (m1 + m2 + 1))%nat with (S k2) by lia.
  destruct (winv_at k2) as [K [[_ _ _ XR] I2 _ I4 I5 [I6 _]]]. fold (told k2) in I2. specialize (I5 (wf_causal _ _ _ FAIR k2) q Q). destruct (I4 q Q) as [_ [C2 _]].
  (* the write has been handed to the port *)
  assert (PA : forall m, exists r, w_asked p (tr (k + m)) = w_asked p (tr k) ++ r).
  { induction m as [|m [r IH]]; [exists []; rewrite Nat.add_0_r, app_nil_r; reflexivity|]. rewrite Nat.add_succ_r, wasked_next, IH, <- app_assoc. eauto. }
  assert (N1 : nth_error (w_asked p (tr k1)) (told k) = Some (q, c)). { destruct (PA m1) as [r E]. fold k1 in E. rewrite E, nth_error_app1; [exact AQ | exact L]. }
  assert (N2 : nth_error (w_sent p (tr k1)) (told k) = Some (q, c)). { rewrite wasked_sent, nth_error_app1 in N1; [exact N1|]. fold (sent k1). lia. }
  assert (OK : occ q K = occ q (map fst (firstn (told k) (w_sent p (tr k1))))).
  { destruct (PA (m1 + m2)%nat) as [r2 E2]. replace (k + (m1 + m2))%nat with k2 in E2 by lia. destruct (PA m1) as [r1 E1]. fold k1 in E1.
    assert (F : K = map fst (firstn (told k) (w_asked p (tr k)))).
    { apply (f_equal (firstn (told k))) in XR. rewrite <- app_assoc, firstn_app in XR. rewrite <- U3, <- I2, Nat.sub_diag, firstn_all in XR. cbn [firstn] in XR. rewrite app_nil_r in XR.
      rewrite <- XR, E2, map_app, firstn_app, I2, U3, map_length. fold (asked k). replace (told k - asked k)%nat with O by lia. cbn [firstn]. now rewrite app_nil_r, firstn_map. }
    rewrite F. f_equal. f_equal. pose proof (wasked_sent k1) as S1. rewrite E1 in S1. apply (f_equal (firstn (told k))) in S1. rewrite !firstn_app in S1. fold (asked k) (sent k1) in S1.
    replace (told k - asked k)%nat with O in S1 by lia. replace (told k - sent k1)%nat with O in S1 by lia. cbn [firstn] in S1. now rewrite !app_nil_r in S1. }
  assert (LT : (occ q K < length (of_port q (w_sent p (tr k1))))%nat).
  { rewrite OK, <- occ_of. apply nth_error_Some. rewrite (of_port_nth _ _ _ _ _ N2). discriminate. }
  assert (DN : wrs_done (st k2) q = true). { apply C2. unfold dones in I5. fold k2 in M2. lia. }
  assert (O : wr_out p (st k2) = true). { rewrite out_eq by exact I6. rewrite U1, U2, DN. unfold exists_port. destruct (Z.ltb_spec q (xp_ports p)); [reflexivity | lia]. }
  assert (told (S k2) = told k2 + 1)%nat; [|lia]. unfold told. rewrite wtold_next, app_length, O. reflexivity.
Qed.

Lemma wr_served : forall k, exists m, (length (w_asked p (tr k)) <= length (w_told (tr (k + m))))%nat.
Proof.
  intros k. destruct (reach (fun h => told (k + h)) (asked k)) with (k := O) as [m M].
  - intros h. rewrite Nat.add_succ_r. apply wtold_mono.
  - intros h L. pose proof (mono_le asked wasked_mono k h). destruct (tell_one (k + h) ltac:(lia)) as [m M]. exists m. now rewrite Nat.add_assoc.
  - exists m. exact M.
Qed.

Lemma wr_ready_again : forall k, exists m, x_ready (wrs_x (st (k + m))) = true.
Proof.
  intros k. destruct (wdeliver k) as [m1 M1]. destruct (wr_served k) as [m2 M2]. fold (asked k) (told (k + m2)) in M2. set (m := (m1 + m2)%nat).
  pose proof (mono_le sent wsent_mono (k + m1) m2) as A1. pose proof (mono_le told wtold_mono (k + m2) m1) as A2.
  replace (k + m1 + m2)%nat with (k + m)%nat in A1 by lia. replace (k + m2 + m1)%nat with (k + m)%nat in A2 by lia.
  destruct (Nat.eq_dec (asked (k + m)) (asked k)) as [E|E].
  - exists (S m). rewrite Nat.add_succ_r. set (a := (k + m)%nat) in *. rewrite wst_S. unfold x_ready, wr_step, x_cmd_step. cbn [wrs_x xs_out xs_wr xs_rd].
    rewrite (wf_rst _ _ _ FAIR). pose proof (f_equal (@length _) (wasked_sent a)) as AS. rewrite app_length in AS. fold (asked a) (sent a) in AS.
    destruct (winv_at a) as [K [[V P _ XR] I2 _ _ _ _]]. fold (told a) in I2. apply (f_equal (@length Z)) in XR. rewrite map_length, !app_length in XR. fold (asked a) in XR.
    assert (R0 : ring (xs_wr (wrs_x (st a))) (xs_rd (wrs_x (st a))) (xs_sel (wrs_x (st a))) = []). { destruct (ring _ _ _); [reflexivity | cbn [length] in XR; lia]. }
    assert (V0 : vcontent (xs_out (wrs_x (st a))) = []). { destruct (vcontent _); [reflexivity | cbn [length] in AS; lia]. }
    apply (ring_empty _ _ _ _ P) in R0. rewrite R0. cbn [negb]. rewrite andb_false_r. apply andb_true_iff. split.
    + assert (VV : vk_valid (xs_out (wrs_x (st a))) = 0 /\ vk_tvalid (xs_out (wrs_x (st a))) = 0).
      { unfold vcontent, item in V0. destruct (Z.eqb_spec (vk_valid (xs_out (wrs_x (st a)))) 0); [|discriminate]. destruct (Z.eqb_spec (vk_tvalid (xs_out (wrs_x (st a)))) 0); [auto | discriminate]. }
      destruct VV as [VV1 VV2].
      assert (EA : vskid_early (xs_out (wrs_x (st a))) (xi_cready (wr_cmd (f a))) = true). { unfold vskid_early. rewrite VV1, VV2. cbn. apply orb_true_r. }
      unfold vskid_step. destruct (if vk_ready _ then _ else _) as [[[[? ?] ?] ?] ?]. exact EA.
    + apply negb_true_iff. destruct (_ && _).
      * unfold ptr_empty in R0. apply Z.eqb_eq in R0. unfold ptr_full. rewrite R0. destruct P as [_ [P _]]. rewrite lxor32 by lia. unfold ptr_inc.
        apply Z.eqb_neq. intros H. pose proof (mod64_cases (xs_rd (wrs_x (st a)) + 1) ltac:(lia)). pose proof (mod64_cases (xs_rd (wrs_x (st a)) + 32) ltac:(lia)). lia.
      * apply not_true_is_false. intros H. apply (full_iff _ _ P) in H. apply (empty_iff _ _ P) in R0. lia.
  - pose proof (mono_le asked wasked_mono k m) as AM.
    assert (G : forall h, (asked k < asked (k + h))%nat -> exists j, x_ready (wrs_x (st (k + j))) = true).
    { induction h as [|h IH]; intros H; [rewrite Nat.add_0_r in H; lia|]. destruct (Nat.lt_ge_cases (asked k) (asked (k + h))) as [L|L]; [now apply IH|].
      exists h. rewrite Nat.add_succ_r in H. unfold asked in H at 2. rewrite wasked_next, app_length in H. fold (asked (k + h)) in H. unfold command in H.
      destruct (x_ready (wrs_x (st (k + h)))); [reflexivity|]. rewrite andb_false_r in H. cbn [length] in H. lia. }
    apply (G m). lia.
Qed.
End live.
End wr.

(** * Wiring. *)
Lemma gather_aux : forall segs n v, 0 <= segs -> 0 <= n -> forall m, let g := fold_left (fun a q => a + bsel v (q * segs + n) * 2 ^ q) (map Z.of_nat (seq 0 m)) 0 in
  0 <= g < 2 ^ Z.of_nat m /\ forall q, 0 <= q < Z.of_nat m -> Z.testbit g q = Z.testbit v (q * segs + n).
Proof.
  intros segs n v S N. induction m as [|m IH]; cbn zeta in *; [cbn; split; [lia | intros; lia]|].
  rewrite seq_S, map_app, fold_left_app. cbn [map fold_left plus]. destruct IH as [IH1 IH2]. set (g := fold_left _ _ _) in *.
  set (b := Z.testbit v (Z.of_nat m * segs + n)). assert (B : bsel v (Z.of_nat m * segs + n) = Z.b2z b). { rewrite bsel_testbit by nia. fold b. destruct b; reflexivity. }
  rewrite B. rewrite Nat2Z.inj_succ, Z.pow_succ_r by lia. pose proof (Z.pow_pos_nonneg 2 (Z.of_nat m)). split.
  - destruct b; cbn [Z.b2z]; lia.
  - intros q Q. destruct (Z.eq_dec q (Z.of_nat m)) as [->|].
    + fold b. apply Z.b2z_inj. rewrite Z.testbit_spec' by lia. rewrite Z.div_add, Z.div_small by lia. destruct b; reflexivity.
    + rewrite <- IH2 by lia. rewrite <- (Z.mod_pow2_bits_low _ (Z.of_nat m) q) by lia. rewrite Z.mod_add by lia. now rewrite Z.mod_pow2_bits_low by lia.
Qed.
Lemma gather_bit : forall ports segs n v q, 0 <= segs -> 0 <= n -> 0 <= q < ports -> Z.testbit (gather ports segs n v) q = Z.testbit v (q * segs + n).
Proof. intros ports segs n v q S N Q. unfold gather. destruct (gather_aux segs n v S N (Z.to_nat ports)) as [_ G]. apply G. lia. Qed.
