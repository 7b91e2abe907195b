(** AXI: runs. *)
From Verif Require Import PyBase TlpProofs BitLemmas SplitProofs AxilModel AxilSpec AxilProofs AxilProofs2 AxiModel AxiSpec AxiProofs AxiProofs2 AxiProofs3.
From Coq Require Import ZifyBool ZifyNat Arith.
Ltac Zify.zify_post_hook ::= idtac.
Local Arguments Z.mul : simpl never.

Section Runs.
Variable cfg : xcfg.
Hypothesis HC : cfg_ok cfg.

Definition xinv (m0 : Z -> Z) (wb : list lwdone) (rb : list lrdone) (ws : list (Z * list Z * Z)) (rs : list (Z * Z * Z)) (s : xstate) : Prop :=
  xwinv cfg m0 wb ws (x_w s) (lm_data (x_mem s)) /\ xrinv cfg m0 (all_ops ws) rb rs (x_r s) /\ x_fly s = wpend (x_w s) + rpend (x_r s).

Definition xmu (s : xstate) : nat := (wmu (x_w s) + rmu (x_r s))%nat.

Lemma wmoment_m : forall m0 wb ws w l, xwinv cfg m0 wb ws w l -> exists m, moment cfg m0 (all_ops ws) m /\ holds (xc_size cfg) l m.
Proof.
  intros m0 wb ws w l H. destruct (wmoment _ _ _ _ _ _ H) as (k & n & _ & Hn & _ & _ & Hh & HB). eexists. split; [|exact Hh]. split; [exists n; split; [lia|reflexivity]|].
  intros x Hx. destruct Hh as [H1 H2]. rewrite <- H2 by assumption. rewrite Forall_forall in HB. apply HB, nth_In. unfold zlen in H1. lia.
Qed.

Lemma xedge_spec : forall m0 wb rb ws rs s p rf, xinv m0 wb rb ws rs s -> exists s', x_edge cfg p rf s = Ok s' /\ xinv m0 wb rb ws rs s' /\
  (p = mkXp false false false false false false false false false false -> (xmu s' < xmu s)%nat \/ x_idle s = true).
Proof.
  intros m0 wb rb ws rs [w r fly [l pos]] p rf (W & R & F). cbn [x_w x_r x_mem x_fly lm_data] in *.
  destruct (xedge_w_spec cfg m0 wb ws w l p HC W) as (w1 & E1 & HW). destruct (xedge_r_spec cfg m0 HC (all_ops ws) rb rs r p R) as (r1 & bs & E2 & L1 & L2 & HR).
  unfold x_edge. cbn [x_w x_r x_mem x_fly]. rewrite E1. cbn [bind]. rewrite E2. cbn [bind].
  assert (exists w2 rl l' pos', (if rf
     then let! (l0, m) := x_rlogic (xc_bw cfg) (xc_size cfg) bs (mkLm l pos) in let! (w2, m1) := x_ram_w cfg w1 m in Ok (w2, l0, m1)
     else let! (w2, m) := x_ram_w cfg w1 (mkLm l pos) in let! (l0, m1) := x_rlogic (xc_bw cfg) (xc_size cfg) bs m in Ok (w2, l0, m1)) = Ok (w2, rl, mkLm l' pos') /\
     Forall2 (beat_is cfg m0 (all_ops ws)) rl (flat_map ebeats bs) /\ xwinv cfg m0 wb ws w2 l' /\ - (zlen (xw_done w2) - zlen (xw_done w)) = wpend w2 - wpend w /\
     (p = mkXp false false false false false false false false false false -> (wmu w2 <= wmu w)%nat /\ ((wmu w2 < wmu w)%nat \/ wempty w)))
    as (w2 & rl & l' & pos' & E3 & X1 & X2 & X3 & X4).
  { destruct rf.
    - destruct (wmoment_m _ _ _ _ _ W) as (m & M1 & M2). destruct (rlogic_spec cfg m0 HC bs l pos (all_ops ws) m L1 L2 M2 M1) as (rl & p1 & Y1 & Y2). rewrite Y1. cbn [bind].
      destruct (HW p1) as (w2 & l' & p2 & Z1 & Z2 & Z3 & Z4). rewrite Z1. cbn [bind]. exists w2, rl, l', p2. split; [reflexivity|]. split; [assumption|]. split; [assumption|]. split; assumption.
    - destruct (HW pos) as (w2 & l' & p2 & Z1 & Z2 & Z3 & Z4). rewrite Z1. cbn [bind]. destruct (wmoment_m _ _ _ _ _ Z2) as (m & M1 & M2).
      destruct (rlogic_spec cfg m0 HC bs l' p2 (all_ops ws) m L1 L2 M2 M1) as (rl & p1 & Y1 & Y2). rewrite Y1. cbn [bind]. exists w2, rl, l', p1. split; [reflexivity|]. split; [assumption|]. split; [assumption|]. split; assumption. }
  rewrite E3. cbn [bind]. destruct (HR rl X1) as (r2 & E4 & Y1 & Y2 & Y3). rewrite E4. cbn [bind]. eexists. split; [reflexivity|].
  split; [split; [exact X2|split; [exact Y1|cbn [x_fly x_w x_r]; lia]]|].
  intro Hp. destruct (X4 Hp) as [A1 A2]. destruct (Y3 Hp) as [B1 B2]. unfold xmu, x_idle. cbn [x_w x_r x_fly]. destruct A2 as [A2|A2]; [left; lia|]. destruct B2 as [B2|B2]; [left; lia|]. right.
  destruct A2 as (_ & _ & Q1 & Q2 & _). destruct B2 as (_ & Q3 & Q4 & _). rewrite F. unfold wpend, rpend. rewrite Q1, Q2, Q3, Q4. reflexivity.
Qed.

Lemma xstep_spec : forall m0 wb rb ws rs s e, event_ok cfg e -> xinv m0 wb rb ws rs s -> exists s', x_step cfg s e = Ok s' /\ xinv m0 wb rb (ws ++ xwrites [e]) (rs ++ xreads [e]) s'.
Proof.
  intros m0 wb rb ws rs s [a d b z p|a n b z p|p rf] He Hi; cbn [x_step xwrites xreads].
  - destruct Hi as (W & R & F). assert (b = 1) as -> by (destruct He as (_ & _ & _ & E & _); exact E). destruct (xinit_write_spec cfg m0 wb ws (x_w s) (lm_data (x_mem s)) a d z p HC W He) as (w' & E1 & E2 & E3). rewrite E1. cbn [bind].
    eexists. split; [reflexivity|]. rewrite app_nil_r. split; [exact E2|]. split; [cbn [x_r]; rewrite all_ops_app; apply xrinv_mono; exact R|]. cbn [x_fly x_w x_r]. lia.
  - destruct Hi as (W & R & F). assert (b = 1) as -> by (destruct He as (_ & _ & _ & E & _); exact E). destruct (xinit_read_spec cfg m0 HC (all_ops ws) rb rs (x_r s) a n z p R He) as (r' & E1 & E2 & E3). rewrite E1. cbn [bind].
    eexists. split; [reflexivity|]. rewrite app_nil_r. split; [exact W|]. split; [exact E2|]. cbn [x_fly x_w x_r]. lia.
  - rewrite !app_nil_r. destruct (xedge_spec m0 wb rb ws rs s p rf Hi) as (s' & E & I' & _). exists s'. split; assumption.
Qed.

Lemma xwrites_app : forall a b, xwrites (a ++ b) = xwrites a ++ xwrites b.
Proof. induction a as [|[] a IH]; intro b; cbn [app xwrites]; rewrite ?IH; reflexivity. Qed.
Lemma xreads_app : forall a b, xreads (a ++ b) = xreads a ++ xreads b.
Proof. induction a as [|[] a IH]; intro b; cbn [app xreads]; rewrite ?IH; reflexivity. Qed.

Lemma xrun_spec : forall evs m0 wb rb ws rs s, Forall (event_ok cfg) evs -> xinv m0 wb rb ws rs s ->
  exists s', x_run cfg evs s = Ok s' /\ xinv m0 wb rb (ws ++ xwrites evs) (rs ++ xreads evs) s'.
Proof.
  induction evs as [|e evs IH]; intros m0 wb rb ws rs s He Hi; cbn [x_run].
  - cbn [xwrites xreads]. rewrite !app_nil_r. exists s. split; [reflexivity|assumption].
  - inversion_clear He as [|? ? H1 H2]. destruct (xstep_spec m0 wb rb ws rs s e H1 Hi) as (s1 & E1 & I1). rewrite E1. cbn [bind].
    destruct (IH m0 wb rb _ _ s1 H2 I1) as (s2 & E2 & I2). exists s2. split; [assumption|]. change (e :: evs) with ([e] ++ evs). rewrite xwrites_app, xreads_app, !app_assoc. exact I2.
Qed.

Definition xquiet (m : Z -> Z) (s : xstate) : Prop :=
  wempty (x_w s) /\ rempty (x_r s) /\ x_fly s = 0 /\ holds (xc_size cfg) (lm_data (x_mem s)) m /\ Forall is_byte (lm_data (x_mem s)).

Lemma xinv0 : forall m s, xquiet m s -> xinv m (xw_done (x_w s)) (xr_done (x_r s)) [] [] s.
Proof.
  intros m s ((W1 & W2 & W3 & W4 & W5 & W6 & W7 & W8 & W9 & W10 & W11 & W12) & (R1 & R2 & R3 & R4 & R5 & R6 & R7) & Q3 & Q4 & Q5). split; [|split].
  - constructor; unfold aw_out, w_out; rewrite ?W1, ?W2, ?W3, ?W4, ?W5, ?W6, ?W7, ?W8, ?W9, ?W10, ?W11, ?W12; cbn [regl app copt caws cok].
    + exists [], [], [], [], []. cbn [flat_map map app]. rewrite app_nil_r. split; [constructor|]. split; [split; reflexivity|]. split; [|split; reflexivity].
      constructor; try (constructor; fail); try reflexivity; try assumption; try exact I.
    + reflexivity.
    + exact I.
    + constructor.
    + reflexivity.
    + congruence.
    + constructor.
    + constructor.
    + left. split; reflexivity.
  - constructor; unfold ar_out; rewrite ?R1, ?R2, ?R3, ?R4, ?R5, ?R6, ?R7; cbn [regl app xropt].
    + exists [], [], [], [], [], [], []. cbn [flat_map map app]. rewrite app_nil_r. split; [constructor|]. split; [reflexivity|]. split; [reflexivity|]. split; [constructor|]. split; [try constructor; try reflexivity|]. split; [constructor|]. split; [reflexivity|]. split; [constructor|]. split; [constructor|]. congruence.
    + split; constructor.
    + reflexivity.
  - unfold wpend, rpend. rewrite W3, W4, R2, R3, Q3. reflexivity.
Qed.

Lemma ranswers : forall m0 ws rb rs r, xrinv cfg m0 (all_ops ws) rb rs r -> exists k dl, (k <= length rs)%nat /\ xr_done r = rb ++ dl /\
  Forall2 (answer_ok (xc_size cfg) m0 ws) (firstn k rs) dl /\ (rpend r = 0 -> k = length rs).
Proof.
  intros m0 ws rb rs r [(ccs & gbs & exp & qe & qf & fin & dl & F1 & F2 & F3 & F4 & _) _ _]. exists (length fin), dl. pose proof (f2_len _ _ _ F1) as HL. rewrite F2, app_length in HL.
  split; [lia|]. split; [assumption|]. split.
  - rewrite F2 in F1. apply Forall2_app_inv_r in F1. destruct F1 as (c1 & c2 & G1 & G2 & ->). rewrite <- (f2_len _ _ _ G1), firstn_app, firstn_all, Nat.sub_diag. cbn [firstn]. rewrite app_nil_r.
    clear - G1 F4. revert dl F4. induction G1 as [|c k c1 fin (A1 & A2 & A3) G IH]; intros dl F4; inversion_clear F4 as [|? r ? dl' (B1 & B2 & B3 & B4 & B5) F]; constructor; [|apply IH; assumption].
    unfold answer_ok. rewrite <- A1, <- A2, <- A3. repeat (split; [assumption|]). intros i Hi. destruct (B5 i Hi) as (m & ((k0 & _ & ->) & _) & M2). exists k0. exact M2.
  - intro Hp. unfold rpend in Hp. assert (xropt (xr_cur r) ++ xr_rc r = []) as En by (apply zlen0_nil; lia). rewrite En in HL. cbn [length] in HL. lia.
Qed.

Lemma xidle : forall m0 wb rb ws rs s, xinv m0 wb rb ws rs s -> x_idle s = true ->
  xquiet (put_ops (xc_size cfg) m0 (all_ops ws)) s /\ xw_done (x_w s) = wb ++ write_answers ws /\ exists dl, xr_done (x_r s) = rb ++ dl /\ Forall2 (answer_ok (xc_size cfg) m0 ws) rs dl.
Proof.
  intros m0 wb rb ws rs s (W & R & F) Hi. unfold x_idle in Hi. apply Z.eqb_eq in Hi. pose proof (zlen_nonneg (copt (xw_cur (x_w s)) ++ xw_rc (x_w s))) as P1. pose proof (zlen_nonneg (xropt (xr_cur (x_r s)) ++ xr_rc (x_r s))) as P2.
  fold (wpend (x_w s)) in P1. fold (rpend (x_r s)) in P2. assert (wpend (x_w s) = 0) as E1 by lia. assert (rpend (x_r s) = 0) as E2 by lia.
  destruct (wmoment _ _ _ _ _ _ W) as (k & n & Hk & Hn & H1 & H2 & H3 & H4). destruct (H2 E1) as [-> ->]. rewrite !firstn_all in *.
  destruct (ranswers _ _ _ _ _ R) as (k & dl & K1 & K2 & K3 & K4). rewrite (K4 E2), firstn_all in K3.
  split; [|split; [assumption|exists dl; split; assumption]]. split; [apply (wempty_iff _ _ _ _ _ _ W); right; assumption|]. split; [apply (rempty_iff _ _ _ _ _ _ R); right; assumption|]. split; [assumption|]. split; assumption.
Qed.

Lemma xcompletes : forall rf m0 wb rb ws rs s, xinv m0 wb rb ws rs s -> exists n s', x_run cfg (free_edges rf n) s = Ok s' /\ x_idle s' = true.
Proof.
  intro rf. assert (forall k m0 wb rb ws rs s, (xmu s <= k)%nat -> xinv m0 wb rb ws rs s -> exists n s', x_run cfg (free_edges rf n) s = Ok s' /\ x_idle s' = true) as HP.
  { induction k; intros m0 wb rb ws rs s Hk Hi; destruct (xedge_spec m0 wb rb ws rs s (mkXp false false false false false false false false false false) rf Hi) as (s1 & E1 & I1 & [Hm|Hm]); try reflexivity; try (exists O, s; split; [reflexivity|assumption]); [lia|].
    destruct (IHk m0 wb rb ws rs s1 ltac:(lia) I1) as (n & s2 & E2 & E3). exists (S n), s2. split; [|assumption]. unfold free_edges in *. cbn [repeat x_run x_step]. rewrite E1. cbn [bind]. exact E2. }
  intros. eapply HP; [reflexivity|eassumption].
Qed.

Lemma xruns_quiet : forall bs m s t, xquiet m s -> xruns cfg s bs t ->
  xquiet (xafter (xc_size cfg) m bs) t /\ xw_done (x_w t) = xw_done (x_w s) ++ write_answers (flat_map xwrites bs) /\
  exists dl, xr_done (x_r t) = xr_done (x_r s) ++ dl /\ xanswered (xc_size cfg) m bs dl.
Proof.
  induction bs as [|b bs IH]; intros m s t Hq H; cbn [xruns xafter xanswered flat_map] in *.
  - subst t. cbn. rewrite !app_nil_r. split; [assumption|]. split; [reflexivity|]. exists []. rewrite app_nil_r. split; reflexivity.
  - destruct H as (HE & u & H1 & H2 & H3). destruct (xrun_spec b m _ _ [] [] s HE (xinv0 m s Hq)) as (u' & E & I'). rewrite H1 in E. injection E as <-. cbn [app] in I'.
    destruct (xidle _ _ _ _ _ _ I' H2) as (Q & D1 & dl & D2 & D3). destruct (IH _ _ _ Q H3) as (Q' & G1 & dl2 & G2 & G3). split; [assumption|].
    split; [rewrite G1, D1, <- app_assoc; unfold write_answers; rewrite map_app; reflexivity|]. exists (dl ++ dl2). split; [rewrite G2, D2, app_assoc; reflexivity|]. exists dl, dl2. split; [reflexivity|]. split; assumption.
Qed.

Lemma xquiet0 : forall d, zlen d = xc_size cfg -> Forall is_byte d -> xquiet (fun i => nth (Z.to_nat i) d 0) (xs0 d).
Proof. intros d H1 H2. repeat split; assumption. Qed.

Lemma xmemory : forall d bs s, zlen d = xc_size cfg -> Forall is_byte d -> xruns cfg (xs0 d) bs s ->
  holds (xc_size cfg) (lm_data (x_mem s)) (xafter (xc_size cfg) (fun i => nth (Z.to_nat i) d 0) bs) /\ xw_done (x_w s) = write_answers (flat_map xwrites bs).
Proof. intros d bs s H1 H2 H. destruct (xruns_quiet bs _ _ s (xquiet0 d H1 H2) H) as (Q & G1 & _). split; [apply Q|assumption]. Qed.

Lemma xreaded : forall d bs s, zlen d = xc_size cfg -> Forall is_byte d -> xruns cfg (xs0 d) bs s -> xanswered (xc_size cfg) (fun i => nth (Z.to_nat i) d 0) bs (xr_done (x_r s)).
Proof. intros d bs s H1 H2 H. destruct (xruns_quiet bs _ _ s (xquiet0 d H1 H2) H) as (_ & _ & dl & G1 & G2). rewrite G1. exact G2. Qed.

Lemma xrun_app : forall e1 e2 s, x_run cfg (e1 ++ e2) s = let! t := x_run cfg e1 s in x_run cfg e2 t.
Proof. induction e1 as [|e e1 IH]; intros e2 s; [reflexivity|]. cbn [app x_run]. destruct (x_step cfg s e); cbn [bind]; [apply IH|reflexivity]. Qed.

Lemma xprogress : forall d bs s b, zlen d = xc_size cfg -> Forall is_byte d -> xruns cfg (xs0 d) bs s -> Forall (event_ok cfg) b ->
  exists t, x_run cfg b s = Ok t /\ (forall rf, exists n u, x_run cfg (b ++ free_edges rf n) s = Ok u /\ x_idle u = true).
Proof.
  intros d bs s b H1 H2 H Hb. destruct (xruns_quiet bs _ _ s (xquiet0 d H1 H2) H) as (Q & _). destruct (xrun_spec b _ _ _ [] [] s Hb (xinv0 _ s Q)) as (t & E & I').
  exists t. split; [assumption|]. intro rf. destruct (xcompletes rf _ _ _ _ _ t I') as (n & u & E1 & E2). exists n, u. rewrite xrun_app, E. cbn [bind]. split; assumption.
Qed.

Lemma xorder : forall d bs s b t, zlen d = xc_size cfg -> Forall is_byte d -> xruns cfg (xs0 d) bs s -> Forall (event_ok cfg) b -> x_run cfg b s = Ok t ->
  exists k n, (k <= length (xwrites b))%nat /\ (length (all_ops (firstn k (xwrites b))) <= n <= length (all_ops (xwrites b)))%nat /\
    xw_done (x_w t) = xw_done (x_w s) ++ write_answers (firstn k (xwrites b)) /\
    holds (xc_size cfg) (lm_data (x_mem t)) (put_ops (xc_size cfg) (xafter (xc_size cfg) (fun i => nth (Z.to_nat i) d 0) bs) (firstn n (all_ops (xwrites b)))).
Proof.
  intros d bs s b t H1 H2 H Hb Ht. destruct (xruns_quiet bs _ _ s (xquiet0 d H1 H2) H) as (Q & _). destruct (xrun_spec b _ _ _ [] [] s Hb (xinv0 _ s Q)) as (t' & E & (W & _)). rewrite Ht in E. injection E as <-. cbn [app] in W.
  destruct (wmoment _ _ _ _ _ _ W) as (k & n & K1 & K2 & K3 & _ & K4 & _). exists k, n. repeat (split; [assumption|]). assumption.
Qed.

Lemma xrorder : forall d bs s b t, zlen d = xc_size cfg -> Forall is_byte d -> xruns cfg (xs0 d) bs s -> Forall (event_ok cfg) b -> x_run cfg b s = Ok t ->
  exists k dl, (k <= length (xreads b))%nat /\ xr_done (x_r t) = xr_done (x_r s) ++ dl /\
    Forall2 (answer_ok (xc_size cfg) (xafter (xc_size cfg) (fun i => nth (Z.to_nat i) d 0) bs) (xwrites b)) (firstn k (xreads b)) dl.
Proof.
  intros d bs s b t H1 H2 H Hb Ht. destruct (xruns_quiet bs _ _ s (xquiet0 d H1 H2) H) as (Q & _). destruct (xrun_spec b _ _ _ [] [] s Hb (xinv0 _ s Q)) as (t' & E & (_ & R & _)). rewrite Ht in E. injection E as <-. cbn [app] in R.
  destruct (ranswers _ _ _ _ _ R) as (k & dl & K1 & K2 & K3 & _). exists k, dl. repeat (split; [assumption|]). assumption.
Qed.
End Runs.

(** The bursts of one command. *)
Lemma consec_addrs : forall nb l a, consec nb a l -> l = map (fun i => a + Z.of_nat i * nb) (seq 0 (length l)).
Proof.
  intros nb. induction l as [|x l IH]; intros a H; [reflexivity|]. destruct H as [-> H]. cbn [length seq map]. f_equal; [lia|]. rewrite (IH _ H) at 1. rewrite <- seq_shift, map_map. apply map_ext. intro i. lia.
Qed.

Lemma obeats_addrs : forall b, map fst (obeats b) = burst_addrs b.
Proof. intros. unfold obeats, run_beats, burst_addrs. rewrite map_map. reflexivity. Qed.

Lemma obeats_last : forall b, 0 <= xa_len b -> map snd (obeats b) = repeat false (Z.to_nat (xa_len b)) ++ [true].
Proof.
  intros b H. unfold obeats. replace (Z.to_nat (xa_len b + 1)) with (S (Z.to_nat (xa_len b))) by lia. generalize (xa_addr b) as a. induction (Z.to_nat (xa_len b)) as [|n IH]; intro a; rewrite run_beats_S; [reflexivity|]. cbn [map snd repeat app Nat.eqb]. rewrite IH. reflexivity.
Qed.

Lemma flat_fst : forall bs, map fst (flat_map obeats bs) = flat_map burst_addrs bs.
Proof. induction bs as [|b bs IH]; [reflexivity|]. cbn [flat_map]. rewrite map_app, IH, obeats_addrs. reflexivity. Qed.

Lemma flat_nil : forall {A B} (f : A -> list B) l, (forall x, In x l -> f x = []) -> flat_map f l = [].
Proof. induction l as [|x l IH]; intro H; [reflexivity|]. cbn [flat_map]. rewrite (H x (or_introl eq_refl)), IH; [reflexivity|]. intros y Hy. apply H. right. assumption. Qed.

Lemma seq_ops : forall d k a (f : nat -> list (Z * Z)), (forall i, (i < length d)%nat -> f (k + i)%nat = [(a + Z.of_nat i, nth i d 0)]) -> flat_map f (seq k (length d)) = byte_ops a d.
Proof.
  induction d as [|x d IH]; intros k a f H; [reflexivity|]. cbn [length seq flat_map byte_ops]. pose proof (H O ltac:(cbn; lia)) as H0. rewrite Nat.add_0_r in H0. rewrite H0. cbn [nth app]. rewrite Z.add_0_r. f_equal.
  apply IH. intros i Hi. replace (S k + i)%nat with (k + S i)%nat by lia. rewrite H by (cbn; lia). cbn [nth]. do 2 f_equal. lia.
Qed.

Lemma beat_ops_is : forall bw t a d, 0 < bw -> word_is bw (t_w t) a d -> t_ok bw t -> beat_ops bw (t_addr t) (t_beat t) = byte_ops a d.
Proof.
  intros bw t a d Hb (W1 & W2 & W3 & W4 & W5 & W6) [T1 T2]. rewrite W1 in T1. unfold beat_ops. cbn [fst snd t_beat]. rewrite T1. pose proof (Z.mod_pos_bound a bw Hb) as Hm. pose proof (Z.div_mod a bw ltac:(lia)) as Hd.
  set (lo := Z.to_nat (a mod bw)). pose proof (zlen_nonneg d) as HL. replace (Z.to_nat bw) with (lo + (length d + (Z.to_nat bw - lo - length d)))%nat by (unfold lo, zlen in *; lia).
  rewrite !seq_app, !flat_map_app. cbn [Nat.add]. rewrite flat_nil, (flat_nil _ (seq (lo + length d) _)), app_nil_r.
  - cbn [app]. apply seq_ops. intros i Hi. rewrite W5 by (unfold lo, zlen in *; lia). assert ((a mod bw <=? Z.of_nat (lo + i)) && (Z.of_nat (lo + i) <? a mod bw + zlen d) = true) as -> by (unfold lo, zlen in *; lia).
    do 2 f_equal. { rewrite Hd at 2. unfold lo. lia. } pose proof (W6 (Z.of_nat (lo + i)) ltac:(unfold lo, zlen in *; lia)) as HW. replace (Z.to_nat (Z.of_nat (lo + i) - a mod bw)) with i in HW by (unfold lo; lia). rewrite <- HW.
    unfold word_byte. rewrite (land_low_mod _ 8) by lia. rewrite Z.shiftr_div_pow2 by lia. rewrite (Z.mul_comm 8). reflexivity.
  - intros x Hx. apply in_seq in Hx. rewrite W5 by (unfold lo, zlen in *; lia). assert ((a mod bw <=? Z.of_nat x) && (Z.of_nat x <? a mod bw + zlen d) = false) as -> by (unfold lo, zlen in *; lia). reflexivity.
  - intros x Hx. apply in_seq in Hx. rewrite W5 by (unfold lo, zlen in *; lia). assert ((a mod bw <=? Z.of_nat x) && (Z.of_nat x <? a mod bw + zlen d) = false) as -> by (unfold lo, zlen in *; lia). reflexivity.
Qed.

Lemma combine_map : forall {A B C} (f : A -> B) (g : A -> C) l, combine (map f l) (map g l) = map (fun x => (f x, g x)) l.
Proof. induction l as [|x l IH]; [reflexivity|]. cbn [map combine]. rewrite IH. reflexivity. Qed.

Lemma xbursts : forall cfg id a d z, lanes_ok (xc_bw cfg) -> 0 <= a -> a + zlen d <= 2 ^ 52 -> Forall is_byte d -> size_ok cfg z ->
  exists aws beats id', x_write cfg id a d 1 z = Ok (aws, beats, id', zlen aws) /\ Forall (legal cfg) aws /\ length beats = length (flat_map burst_addrs aws) /\
    map snd beats = flat_map lasts aws /\ flat_map (fun p => beat_ops (xc_bw cfg) (fst p) (snd p)) (combine (flat_map burst_addrs aws) beats) = byte_ops a d.
Proof.
  intros cfg id a d z Hb Ha Hd HB Hz. destruct (xwrite_spec cfg id a d z Hb Ha Hd HB Hz) as (aws & ts & ps & id' & X1 & X2 & X3 & X4 & X5 & X6). exists aws, (map t_beat ts), id'. split; [assumption|]. split; [assumption|].
  assert (flat_map burst_addrs aws = map t_addr ts) as E1 by (rewrite <- flat_fst, <- X5, map_map; reflexivity).
  assert (map t_last ts = flat_map lasts aws) as E2.
  { replace (map t_last ts) with (map snd (map t_al ts)) by (rewrite map_map; reflexivity). rewrite X5. clear - X6. induction X6 as [|b aws H F IH]; [reflexivity|]. cbn [flat_map]. rewrite map_app, IH, obeats_last by (destruct H as (_ & _ & _ & _ & H & _); lia). reflexivity. }
  split; [rewrite E1, !map_length; reflexivity|]. split; [rewrite map_map; exact E2|]. rewrite E1, combine_map. rewrite <- X4. assert (0 < xc_bw cfg) as Hr by (pose proof (lanes_range _ Hb) as Hr; lia). clear - X2 X3 Hr.
  remember (map t_w ts) as ws eqn:Ew. revert ts X3 Ew. induction X2 as [|w p ws ps H F IH]; intros [|t ts] X3 Ew; try discriminate; [reflexivity|]. cbn [map] in Ew. injection Ew as -> ->.
  inversion_clear X3 as [|? ? T1 T2]. cbn [map flat_map fst snd]. unfold pieces_ops. cbn [flat_map]. rewrite (beat_ops_is _ _ _ _ Hr H T1). f_equal. apply IH; [assumption|reflexivity].
Qed.

Lemma xrbursts : forall cfg id a n z p, lanes_ok (xc_bw cfg) -> 0 <= a -> 0 <= n -> a + n <= 2 ^ 52 -> size_ok cfg z ->
  exists ars c id', x_read cfg id a n 1 z p = Ok (ars, c, id') /\ Forall (legal cfg) ars /\ exists s, Forall (fun b => xa_size b = s) ars /\ beats_for s a n (flat_map burst_addrs ars).
Proof.
  intros cfg id a n z p Hb Ha Hn Hd Hz. destruct (xread_spec cfg id a n z p Hb Ha Hn Hd Hz) as (ars & c & id' & X1 & (R1 & R2 & R3 & R4 & R5 & R6 & R7 & R8 & R9 & R10 & R11) & _ & E1 & E2 & E3). exists ars, c, id'. split; [assumption|]. split; [assumption|].
  exists (xq_size c). split; [assumption|]. destruct R11 as [C1 C2]. rewrite flat_fst in C1. subst a n. unfold beats_for. split; [apply consec_addrs, C1|]. intro Hp.
  rewrite <- flat_fst. unfold zlen. rewrite map_length. fold (zlen (flat_map obeats ars)). rewrite C2, xcycles_is. destruct (cycles_spec _ _ _ R5 R1 R2 R3) as (C0 & D1 & D2 & D3).
  pose proof (Z.mod_pos_bound (xq_addr c) (2 ^ xq_size c) ltac:(lia)) as Hm. destruct D2 as (G1 & G2 & G3); [lia|]. split; lia.
Qed.

Lemma f2_nth : forall {A B} (P : A -> B -> Prop) l1 l2, Forall2 P l1 l2 -> forall i x, nth_error l1 i = Some x -> exists y, nth_error l2 i = Some y /\ P x y.
Proof. induction 1 as [|x y l1 l2 H F IH]; intros [|i] z E; try discriminate; cbn in *; [injection E as <-; exists y; split; [reflexivity|assumption]|apply IH; assumption]. Qed.

Lemma xreads_exact : forall cfg, cfg_ok cfg -> forall d bs s b t, zlen d = xc_size cfg -> Forall is_byte d -> xruns cfg (xs0 d) bs s -> Forall (event_ok cfg) b -> xwrites b = [] ->
  x_run cfg b s = Ok t -> x_idle t = true -> exists dl, xr_done (x_r t) = xr_done (x_r s) ++ dl /\ length dl = length (xreads b) /\
    forall i a n p, nth_error (xreads b) i = Some (a, n, p) -> exists r, nth_error dl i = Some r /\ le_addr r = a /\ le_prot r = p /\ le_resp r = 0 /\
      le_data r = map (fun j => nth (Z.to_nat ((a + Z.of_nat j) mod xc_size cfg)) (lm_data (x_mem s)) 0) (seq 0 (Z.to_nat n)).
Proof.
  intros cfg HC d bs s b t H1 H2 H Hb Hw Ht Hi. destruct (xruns_quiet cfg HC bs _ _ s (xquiet0 cfg d H1 H2) H) as (Q & _). destruct (xrun_spec cfg HC b _ _ _ [] [] s Hb (xinv0 cfg _ s Q)) as (t' & E & I'). rewrite Ht in E. injection E as <-. cbn [app] in I'.
  destruct (xidle cfg _ _ _ _ _ _ I' Hi) as (_ & _ & dl & D1 & D2). exists dl. split; [assumption|]. split; [symmetry; apply (f2_len _ _ _ D2)|]. intros i a n p Hn. destruct (f2_nth _ _ _ D2 i _ Hn) as (r & E1 & (A1 & A2 & A3 & A4 & A5)). exists r.
  cbn [fst snd] in *. repeat (split; [assumption|]). destruct Q as (_ & _ & _ & [Q1 Q2] & _). destruct HC as (_ & Hs & _).
  apply (nth_ext _ _ 0 0); [rewrite map_length, seq_length; unfold zlen in A4; lia|]. intros j Hj. assert (0 <= Z.of_nat j < n) as Hjn by (unfold zlen in A4; lia). destruct (A5 _ Hjn) as (k & Ek). rewrite Nat2Z.id in Ek. rewrite Ek. rewrite Hw. unfold all_ops. cbn [flat_map]. rewrite firstn_nil.
  unfold put_ops at 1. cbn [fold_left]. rewrite <- Q2 by (apply Z.mod_pos_bound; lia).
  set (f := fun j0 : nat => nth (Z.to_nat ((a + Z.of_nat j0) mod xc_size cfg)) (lm_data (x_mem s)) 0). 
  assert (nth j (map f (seq 0 (Z.to_nat n))) 0 = f j) as ->; [|reflexivity].
  rewrite (nth_indep (map f _) 0 (f O)) by (rewrite map_length, seq_length; lia). rewrite map_nth, seq_nth by lia. reflexivity.
Qed.
