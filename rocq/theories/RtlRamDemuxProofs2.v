(** Lemmas on the RAM read demultiplexer (C89). *)
From Verif Require Import PyBase RtlModel RtlProofs RtlFcProofs RtlRamModel RtlRamProofs RtlRamProofs2 RtlDemuxModel RtlDemuxProofs RtlRamDemuxModel RtlRamDemuxSpec RtlRamDemuxProofs.
From Coq Require Import Lia.

Section rd.
Context {D : Type}.
Variable p : x_param.
Hypothesis OKP : x_ok p.
Implicit Types (s : rd_state D) (i : rd_in D) (tr : list (rd_ev D)).

Record rinv tr s : Prop := {
  ri_x : xinv p (rds_x s) (r_asked p tr) (r_sent p tr) (map fst (r_got p tr));
  ri_p : ptr_ok (rds_wr s) (rds_rd s);
  ri_c : (rds_wr s - rds_rd s) mod 64 <= (if rds_half s then 17 else 16);
  ri_d : map snd (r_got p tr) = r_answers tr ++ (if rds_valid s then [rds_data s] else []) ++ ring (rds_wr s) (rds_rd s) (rds_mem s);
  ri_n : forall k, 0 <= xs_sel (rds_x s) k }.

Lemma got_eq : forall s i, 0 <= rd_resp s ->
  map (fun q => (q, rd_rdata i q)) (filter (fun q => Z.testbit (rd_rvalid i) q && Z.testbit (rd_ready p s) q) (ports_list p)) = if rd_take p s i then [(rd_resp s, rd_rdata i (rd_resp s))] else [].
Proof.
  intros s i N. unfold rd_ready, rd_take. rewrite (shl_exists p OKP) by exact N. fold (exists_port p (rd_resp s)). destruct (rd_want s); cbn [andb].
  - destruct (exists_port p (rd_resp s)) eqn:E; cbn [andb].
    + unfold exists_port in E. apply Z.ltb_lt in E. change (ports_list p) with (zseq (xp_ports p)). rewrite (filter_one _ _ _ (rd_resp s)).
      * rewrite Z.pow2_bits_true, andb_true_r by exact N. rewrite on_bsel by exact N. rewrite andb_true_r. destruct (Z.testbit _ _); reflexivity.
      * apply zseq_nodup.
      * apply zseq_in. lia.
      * intros y _ Y. rewrite Z.pow2_bits_false by congruence. apply andb_false_r.
    + rewrite filter_none; [reflexivity|]. intros. now rewrite Z.bits_0, andb_false_r.
  - rewrite filter_none; [now rewrite andb_false_r|]. intros. now rewrite Z.bits_0, andb_false_r.
Qed.

Lemma upd_nonneg : forall (f : Z -> Z) a x, (forall k, 0 <= f k) -> 0 <= x -> forall k, 0 <= upd f a x k.
Proof. intros f a x F X k. unfold upd. destruct (k =? a); auto. Qed.

Lemma take_want : forall s i, rd_take p s i = true -> rds_half s = false /\ ptr_empty (xs_wr (rds_x s)) (xs_rd (rds_x s)) = false.
Proof.
  intros s i H. unfold rd_take, rd_want in H. apply andb_true_iff in H. destruct H as [_ H]. apply andb_true_iff in H. destruct H as [H1 H2].
  apply negb_true_iff in H1, H2. auto.
Qed.

Lemma rstep_ok : forall tr s i, rinv tr s -> rinv (tr ++ [rd_event p s i]) (rd_step p s i).
Proof.
  intros tr s i [I1 I2 I3 I4 I5]. set (e := rd_event p s i).
  assert (SEL : forall rd k, 0 <= xs_sel (x_cmd_step p (rds_x s) (rd_cmd i) rd) k).
  { intros rd k. unfold x_cmd_step. cbn [xs_sel]. destruct (_ && _); [|apply I5]. apply upd_nonneg; [apply I5 | now apply select_nonneg]. }
  pose proof (Z.mod_pos_bound (rds_wr s - rds_rd s) 64 ltac:(lia)) as CB.
  unfold r_asked, r_sent, r_got, r_answers. destruct (xi_rst (rd_cmd i)) eqn:RS.
  - assert (RE : r_rst e = true) by exact RS.
    constructor; unfold r_asked, r_sent, r_got, r_answers; rewrite ?since_snoc, ?RE; unfold rd_step; cbn [rds_x rds_wr rds_rd rds_half rds_valid rds_data rds_mem map app]; rewrite ?RS.
    + now apply xstep_reset.
    + apply ptr00.
    + cbn. destruct (16 <=? _); lia.
    + reflexivity.
    + apply SEL.
  - assert (RE : r_rst e = false) by exact RS.
    pose proof (take_want s i) as TW. set (take := rd_take p s i) in *.
    assert (NF : take = true -> ptr_full (rds_wr s) (rds_rd s) = false).
    { intros T. destruct (TW T) as [H _]. rewrite H in I3. apply not_true_is_false. rewrite full_iff by exact I2. lia. }
    assert (PU : negb (ptr_full (rds_wr s) (rds_rd s)) && take = take). { destruct take; [now rewrite NF | apply andb_false_r]. }
    set (pop := negb (ptr_empty (rds_wr s) (rds_rd s)) && (negb (rds_valid s) || rd_rready i)).
    assert (PO : pop = true -> ptr_empty (rds_wr s) (rds_rd s) = false). { intros H. unfold pop in H. apply andb_true_iff in H. destruct H as [H _]. now apply negb_true_iff in H. }
    pose proof (xstep_ok p OKP (rds_x s) (rd_cmd i) _ _ _ take I1 RS (fun H => proj2 (TW H))) as XS.
    destruct (ring_step Z (rds_wr s) (rds_rd s) (rds_mem s) take pop (rd_rdata i (rd_resp s)) I2 NF PO) as [P1 P2].
    assert (GE : since r_rst (fun e => map (fun q => (q, rd_rdata (rde_in e) q)) (filter (fun q => Z.testbit (rd_rvalid (rde_in e)) q && Z.testbit (rde_rready e) q) (ports_list p))) (tr ++ [e])
      = r_got p tr ++ if take then [(rd_resp s, rd_rdata i (rd_resp s))] else []).
    { rewrite since_snoc, RE. fold (r_got p tr). f_equal. apply got_eq. apply I5. }
    constructor; unfold r_asked, r_sent, r_got, r_answers; rewrite ?GE; rewrite ?since_snoc, ?RE; unfold rd_step; cbn [rds_x rds_wr rds_rd rds_half rds_valid rds_data rds_mem]; rewrite ?RS; fold take; rewrite ?PU; fold pop.
    + fold (r_asked p tr) (r_sent p tr). rewrite map_app. replace (map fst (if take then [(rd_resp s, rd_rdata i (rd_resp s))] else [])) with (if take then [rd_resp s] else []) by (destruct take; reflexivity).
      exact XS.
    + exact P1.
    + assert (CC : ((if take then ptr_inc (rds_wr s) else rds_wr s) - (if pop then ptr_inc (rds_rd s) else rds_rd s)) mod 64
        <= (rds_wr s - rds_rd s) mod 64 + (if take then 1 else 0)).
      { pose proof (f_equal (@length Z) P2) as L. rewrite !app_length in L.
        pose proof (ring_len Z (rds_wr s) (rds_rd s) (rds_mem s)).
        pose proof (ring_len Z (if take then ptr_inc (rds_wr s) else rds_wr s) (if pop then ptr_inc (rds_rd s) else rds_rd s) (if take then upd (rds_mem s) (rds_wr s mod 32) (rd_rdata i (rd_resp s)) else rds_mem s)).
        destruct take, pop; cbn [length] in *; lia. }
      destruct (rds_half s) eqn:HF.
      * assert (take = false) as TF. { destruct take; [|reflexivity]. destruct (TW eq_refl). congruence. } rewrite TF in *. destruct (Z.leb_spec 16 ((rds_wr s - rds_rd s) mod 64)); lia.
      * destruct (Z.leb_spec 16 ((rds_wr s - rds_rd s) mod 64)); destruct take; lia.
    + fold (r_answers tr). rewrite map_app, I4.
      replace (map snd (if take then [(rd_resp s, rd_rdata i (rd_resp s))] else [])) with (if take then [rd_rdata i (rd_resp s)] else []) by (destruct take; reflexivity).
      rewrite <- !app_assoc. f_equal. rewrite P2. unfold e, rd_event. cbn [rde_valid rde_in rde_data].
      destruct (rds_valid s) eqn:V; cbn [andb app].
      * destruct (rd_rready i); cbn [app].
        -- f_equal. unfold pop in *. destruct (ptr_empty (rds_wr s) (rds_rd s)); cbn [negb andb orb app]; reflexivity.
        -- unfold pop in *. destruct (ptr_empty (rds_wr s) (rds_rd s)); cbn [negb andb orb app]; reflexivity.
      * unfold pop in *. destruct (ptr_empty (rds_wr s) (rds_rd s)); cbn [negb andb orb app]; reflexivity.
    + apply SEL.
Qed.

Lemma rinv0 : forall d : Z * D, rinv [] (rd0 d).
Proof.
  intros d. constructor; cbn.
  - apply xinv0.
  - apply ptr00.
  - lia.
  - reflexivity.
  - intros; lia.
Qed.

Lemma rtrace_app : forall l1 l2 s, rd_trace p s (l1 ++ l2) = rd_trace p s l1 ++ rd_trace p (rd_run p s l1) l2.
Proof. induction l1 as [|i l1 IH]; intros l2 s; [reflexivity|]. cbn [app rd_trace]. rewrite IH. reflexivity. Qed.
Lemma rrun_snoc : forall l i s, rd_run p s (l ++ [i]) = rd_step p (rd_run p s l) i.
Proof. intros. unfold rd_run. now rewrite fold_left_app. Qed.
Lemma rinv_run : forall (d : Z * D) l, rinv (rd_trace p (rd0 d) l) (rd_run p (rd0 d) l).
Proof.
  intros d. induction l as [|i l IH] using rev_ind; [apply rinv0|]. rewrite rtrace_app, rrun_snoc. cbn [rd_trace]. now apply rstep_ok.
Qed.
Lemma rtrace_split : forall l s a e b, rd_trace p s l = a ++ e :: b ->
  exists l1 i l2, l = l1 ++ i :: l2 /\ a = rd_trace p s l1 /\ e = rd_event p (rd_run p s l1) i /\ b = rd_trace p (rd_step p (rd_run p s l1) i) l2.
Proof.
  induction l as [|i l IH]; intros s a e b E; [destruct a; discriminate|]. cbn [rd_trace] in E. destruct a as [|x a]; cbn [app] in E.
  - injection E as <- <-. exists [], i, l. auto.
  - injection E as <- E. destruct (IH _ _ _ _ E) as [l1 [j [l2 [-> [-> [-> ->]]]]]]. exists (i :: l1), j, l2. auto.
Qed.

Lemma rd_routed : forall (d : Z * D) l, r_routed p (rd_trace p (rd0 d) l).
Proof. intros d l. destruct (rinv_run d l) as [[_ _ I _] _ _ _ _]. eexists. split; [exact I | apply vcontent_len]. Qed.
Lemma rd_ordered : forall (d : Z * D) l, r_ordered p (rd_trace p (rd0 d) l).
Proof. intros d l. destruct (rinv_run d l) as [[_ P _ I] _ _ _ _]. eexists. split; [exact I | now apply ring_max]. Qed.
Lemma rd_passed : forall (d : Z * D) l, r_passed p (rd_trace p (rd0 d) l).
Proof.
  intros d l. destruct (rinv_run d l) as [_ P C I _]. eexists. split; [exact I|]. rewrite app_length.
  pose proof (ring_len Z (rds_wr (rd_run p (rd0 d) l)) (rds_rd (rd_run p (rd0 d) l)) (rds_mem (rd_run p (rd0 d) l))). destruct (rds_valid _); destruct (rds_half _); cbn [length]; lia.
Qed.

(** Only ports that exist answer. *)
Lemma got_exists : forall tr x, In x (r_got p tr) -> exists_port p (fst x) = true /\ 0 <= fst x.
Proof.
  induction tr as [|e tr IH] using rev_ind; intros x H; [contradiction|]. unfold r_got in H. rewrite since_snoc in H. destruct (r_rst e); [contradiction|].
  apply in_app_or in H. destruct H as [H|H]; [now apply IH|]. apply in_map_iff in H. destruct H as [q [<- H]]. apply filter_In in H. destruct H as [H _].
  cbn [fst]. change (ports_list p) with (zseq (xp_ports p)) in H. apply zseq_in in H. unfold exists_port. split; [apply Z.ltb_lt; lia | lia].
Qed.

Lemma nth_prefix : forall A (l a b : list A) k x, l = a ++ b -> nth_error a k = Some x -> nth_error l k = Some x.
Proof. intros A l a b k x -> H. rewrite nth_error_app1; [exact H|]. apply nth_error_Some. congruence. Qed.

Lemma rd_own : forall (d : Z * D) l, r_causal p (rd_trace p (rd0 d) l) -> r_own p (rd_trace p (rd0 d) l).
Proof.
  intros d l CA k w H. set (tr := rd_trace p (rd0 d) l) in *.
  destruct (rd_routed d l) as [r1 [E1 _]]. destruct (rd_ordered d l) as [r2 [E2 _]]. destruct (rd_passed d l) as [r3 [E3 _]]. fold tr in E1, E2, E3.
  pose proof (nth_prefix _ _ _ _ _ _ E3 H) as G. rewrite nth_error_map in G. destruct (nth_error (r_got p tr) k) as [[q w']|] eqn:GK; [|discriminate].
  cbn [option_map snd] in G. injection G as ->.
  assert (A1 : nth_error (map fst (r_asked p tr)) k = Some q). { apply (nth_prefix _ _ _ _ _ _ E2). rewrite nth_error_map, GK. reflexivity. }
  rewrite nth_error_map in A1. destruct (nth_error (r_asked p tr) k) as [[q' c]|] eqn:AK; [|discriminate]. cbn [option_map fst] in A1. injection A1 as ->.
  exists q, c, (length (of_port q (firstn k (r_asked p tr)))).
  pose proof (of_port_nth _ _ _ _ _ GK) as G1. pose proof (of_port_nth _ _ _ _ _ AK) as G2.
  assert (KL : (k < length (r_got p tr))%nat) by (apply nth_error_Some; congruence).
  assert (LE : length (of_port q (firstn k (r_asked p tr))) = length (of_port q (firstn k (r_got p tr)))).
  { apply of_port_len. rewrite <- !firstn_map, E2. rewrite firstn_app. rewrite map_length. replace (k - length (r_got p tr))%nat with O by lia. cbn [firstn]. now rewrite app_nil_r. }
  split; [reflexivity|]. split; [|now rewrite LE].
  assert (QE : exists_port p q = true). { apply (got_exists tr (q, w)). now apply nth_error_In in GK. }
  rewrite <- (of_port_filter _ q (r_asked p tr) (exists_port p) QE) in G2. rewrite E1, of_port_app in G2.
  rewrite nth_error_app1 in G2; [exact G2|]. specialize (CA q).
  assert (length (of_port q (firstn k (r_got p tr))) < length (of_port q (r_got p tr)))%nat; [|lia]. apply nth_error_Some. congruence.
Qed.

Lemma rd_kept : forall (d : Z * D) l, r_kept p (rd_trace p (rd0 d) l).
Proof.
  intros d l a e1 e2 b E NR. apply rtrace_split in E. destruct E as [l1 [i [l2 [-> [-> [-> E2]]]]]].
  destruct l2 as [|j l2]; [discriminate|]. cbn [rd_trace] in E2. injection E2 as -> _.
  pose proof (rinv_run d l1) as [I1 _ _ _ _]. set (s := rd_run p (rd0 d) l1) in *. unfold r_rst, rd_event in *. cbn [rde_in rde_cvalid rde_cmd rde_valid rde_data] in *. split.
  - intros q Q V R. unfold rd_step. cbn [rds_x]. eapply xkept; eauto.
  - intros V R. unfold rd_step. cbn [rds_valid rds_data]. rewrite NR, V, R. cbn [negb orb andb]. now rewrite andb_false_r.
Qed.
End rd.
