(** Proofs about the frame demultiplexers (C87): whole runs, liveness. *)
From Verif Require Import PyBase BitLemmas RtlDemuxModel RtlDemuxSpec RtlDemuxProofs RtlDemuxProofs2.

Section demux.
Context {D : Type}.
Notation ev := (dm_ev D).
Notation beat := (@beat D).
Variable n : Z.
Hypothesis Hn : 1 <= n.

(* ---------- unconditional facts ---------- *)
Lemma vskid_gate {M} (k : vskid M) rst m vint d : vskid_step k rst m vint d = vskid_step k rst m (if vk_ready k then vint else 0) d.
Proof. unfold vskid_step. destruct (vk_ready k); reflexivity. Qed.
Lemma vskid_inv {M} (k : vskid M) rst m vint d : vinv n k -> port n vint -> vinv n (vskid_step k rst m vint d) /\
  (rst = false -> vk_ready (vskid_step k rst m vint d) = vskid_early k m /\
    (vk_valid k <> 0 -> Z.land m (vk_valid k) = 0 -> vk_valid (vskid_step k rst m vint d) = vk_valid k /\ vk_data (vskid_step k rst m vint d) = vk_data k)).
Proof.
  intros V P. destruct rst; [split; [apply vskid_reset|discriminate]|]. rewrite vskid_gate.
  destruct (vskid_ok n k m (if vk_ready k then vint else 0) d V) as (A & B & C & E).
  - destruct (vk_ready k); [assumption|now left].
  - destruct (vk_ready k); congruence.
  - auto.
Qed.
Record sinv (s : dm_state D) : Prop := { s_skid : vinv n (dm_out s); s_sel : 0 <= dm_sel s < n }.
Lemma pick_range (i : dm_in D) : 0 <= fst (dm_pick n i) < n.
Proof.
  destruct (pick_choice n true (dm0 (di_data i)) i) as [_ _]. unfold dm_pick.
  assert (H : forall l a, Forall (fun j => 0 <= j < n) l -> 0 <= fst a < n -> 0 <= fst (fold_left (fun '(sel, drop) j => if Z.testbit (di_select i) j then (j, false) else (sel, drop)) l a) < n).
  { induction l as [|x l IH]; intros a F A; [exact A|]. inversion F; subst. cbn [fold_left]. apply IH; [assumption|]. destruct a. destruct (Z.testbit (di_select i) x); assumption. }
  specialize (H (rev (map Z.of_nat (seq 0 (Z.to_nat n)))) (0, true)). destruct (fold_left _ _ _) as [sel drop]. cbn [fst] in *. apply H; [|lia].
  apply Forall_forall. intros x Hx. apply in_rev in Hx. now apply zseq_in in Hx.
Qed.
Lemma ctl_range w64 (s : dm_state D) i : 0 <= dm_sel s < n -> 0 <= fst (fst (fst (dm_ctl w64 n s i))) < n /\ 0 <= fst (fst (snd (dm_ctl w64 n s i))) < n.
Proof.
  intros S. pose proof (pick_range i) as PR. unfold dm_ctl. destruct (dm_pick n i) as [sc dc]. cbn [fst] in PR.
  destruct (negb (dm_frame s) && _ && _ && _); [|cbn; auto]. destruct (if w64 then _ else _); cbn; auto.
Qed.
Lemma sinv_step w64 s i : sinv s -> sinv (dm_step w64 n s i) /\ (di_rst i = false -> (vskid_early (dm_out s) (di_mready i) = true -> dm_tready (dm_step w64 n s i) = true) /\
    (vk_valid (dm_out s) <> 0 -> Z.land (di_mready i) (vk_valid (dm_out s)) = 0 -> vk_valid (dm_out (dm_step w64 n s i)) = vk_valid (dm_out s) /\ vk_data (dm_out (dm_step w64 n s i)) = vk_data (dm_out s))).
Proof.
  intros [V S]. destruct (ctl_range w64 s i S) as [R1 R2]. unfold dm_step. destruct (dm_ctl w64 n s i) as [[[sc dc] fc] [[sn dn] fn]]. cbn [fst snd] in R1, R2.
  set (v := (if w64 then dm_tv s else di_valid i) && _ && _ && _). destruct (if w64 then _ else (dm_tv s, dm_tl s, dm_td s)) as [[tv tl] td].
  destruct (shl_port n Hn v sc) as [P _]; [intros; lia|].
  destruct (vskid_inv (dm_out s) (di_rst i) (di_mready i) _ (if w64 then (dm_tl s, dm_td s) else (di_last i, di_data i)) V P) as [A B].
  destruct (di_rst i) eqn:ER.
  - split; [|discriminate]. constructor; cbn [dm_out dm_sel]; [exact A|lia].
  - split; [constructor; cbn [dm_out dm_sel]; [exact A|lia]|]. intros _. cbn [dm_tready dm_out]. split; [intros ->; reflexivity|apply B; reflexivity].
Qed.

Lemma push_any w64 s i : sinv s -> di_rst i = false -> exists c, vcontent (dm_out s) ++ c = vgiven n (dm_out s) (di_mready i) ++ vcontent (dm_out (dm_step w64 n s i)).
Proof.
  intros [V S] R. destruct (ctl_range w64 s i S) as [R1 R2]. unfold dm_step. destruct (dm_ctl w64 n s i) as [[[sc dc] fc] [[sn dn] fn]]. cbn [fst snd] in R1, R2.
  set (v := (if w64 then dm_tv s else di_valid i) && _ && _ && _). destruct (if w64 then _ else (dm_tv s, dm_tl s, dm_td s)) as [[tv tl] td]. rewrite R. cbn [dm_out].
  destruct (shl_port n Hn v sc) as [P _]; [intros; lia|]. rewrite vskid_gate. eexists. apply vskid_ok; [assumption|destruct (vk_ready (dm_out s)); [exact P|now left]|destruct (vk_ready (dm_out s)); congruence].
Qed.
Lemma push_wait tr (s : dm_state D) i : ninv n tr s -> di_rst i = false -> dm_ready true s i = true -> dm_tv s && dm_frame s = true ->
  vcontent (dm_out s) ++ waiting s = vgiven n (dm_out s) (di_mready i) ++ vcontent (dm_out (dm_step true n s i)).
Proof.
  intros [N1 N2 _ N4 _ _ N7 _] R Y W. unfold waiting. rewrite W. apply andb_true_iff in W. destruct W as [W1 W2]. unfold dm_step, dm_ctl. rewrite R, Y, W1, W2, N2. cbn [negb andb orb]. cbn [dm_out].
  destruct (shl_port n Hn true (dm_sel s)) as (P1 & P2 & _); [intros _; now apply N4|].
  destruct (vskid_ok n (dm_out s) (di_mready i) (Z.shiftl (Z.b2z true) (dm_sel s) mod 2 ^ n) (dm_tl s, dm_td s) N1 P1) as (_ & K & _).
  { intros _. apply N7. unfold dm_ready in Y. rewrite W1 in Y. destruct (dm_tready s); [reflexivity|discriminate]. }
  rewrite P2 in K at 1 by reflexivity. rewrite item_pow in K by (apply N4; assumption). destruct (di_valid i); exact K.
Qed.

Lemma push_done (w64 : bool) (tr : list ev) (s : dm_state D) i : (if w64 then ninv n tr s else winv n tr s) -> sinv s -> di_rst i = false -> dm_ready w64 s i = true ->
  exists c, sent n tr ++ vgiven n (dm_out s) (di_mready i) ++ vcontent (dm_out (dm_step w64 n s i)) = expected w64 (taken n tr) ++ c.
Proof.
  intros I S R Y. destruct (push_any w64 s i S R) as [c C]. destruct w64.
  - rewrite (n_eq _ _ _ I). destruct (dm_tv s && dm_frame s) eqn:W.
    + exists []. rewrite app_nil_r. f_equal. symmetry. now apply (push_wait tr).
    + exists c. unfold waiting. rewrite W, app_nil_r, <- C, app_assoc. reflexivity.
  - exists c. rewrite (w_eq _ _ _ I), <- C, app_assoc. reflexivity.
Qed.

(* ---------- whole runs ---------- *)
Variable w64 : bool.
Variable d : D.
Notation trace := (dm_trace w64 n (dm0 d)).
Notation run := (dm_run w64 n (dm0 d)).

Lemma trace_app (s : dm_state D) l l' : dm_trace w64 n s (l ++ l') = dm_trace w64 n s l ++ dm_trace w64 n (dm_run w64 n s l) l'.
Proof. revert s. induction l as [|i l IH]; intros s; [reflexivity|]. cbn [app dm_trace]. rewrite IH. reflexivity. Qed.
Lemma trace_snoc l i : trace (l ++ [i]) = trace l ++ [dm_event w64 (run l) i].
Proof. now rewrite trace_app. Qed.
Lemma run_snoc l i : run (l ++ [i]) = dm_step w64 n (run l) i.
Proof. unfold dm_run. now rewrite fold_left_app. Qed.

Lemma sinv_run l : sinv (run l).
Proof.
  induction l as [|i l IH] using rev_ind.
  - constructor; cbn; [|lia]. constructor; cbn; try (now left); congruence.
  - rewrite run_snoc. now apply sinv_step.
Qed.
Lemma port_bits v m q : port n v -> 0 <= q -> Z.testbit v q = true -> v = 2 ^ q /\ (Z.testbit m q = false -> Z.land m v = 0).
Proof.
  intros [->|(p & Hp & ->)] Hq H; [now rewrite Z.bits_0 in H|]. rewrite Z.pow2_bits_eqb in H by lia. apply Z.eqb_eq in H. subst p. split; [reflexivity|].
  intros E. apply Z.eqb_eq. rewrite land_port by lia. now rewrite E.
Qed.
Lemma dm_kept l : kept n (trace l).
Proof.
  intros a e1 e2 b q E Hq R V M. assert (X : exists l1 i1 i2 l2, l = l1 ++ i1 :: i2 :: l2 /\ e1 = dm_event w64 (run l1) i1 /\ e2 = dm_event w64 (dm_step w64 n (run l1) i1) i2).
  { clear R V M. unfold dm_run. revert E. generalize (dm0 d). revert l. induction a as [|e a IH]; intros l s E.
    - destruct l as [|i1 [|i2 l2]]; try discriminate. cbn in E. injection E as <- <- _. exists [], i1, i2, l2. auto.
    - destruct l as [|i l]; [discriminate|]. cbn [dm_trace app] in E. injection E as <- E. destruct (IH _ _ E) as (l1 & i1 & i2 & l2 & -> & H1 & H2). exists (i :: l1), i1, i2, l2. auto. }
  destruct X as (l1 & i1 & i2 & l2 & -> & -> & ->). pose proof (sinv_run l1) as S. destruct (sinv_step w64 _ i1 S) as [_ K]. cbn [dm_event de_rst de_mvalid de_mready de_mlast de_mdata] in *.
  destruct (K R) as [_ K2]. destruct (port_bits _ (di_mready i1) q (v_p1 _ _ (s_skid _ S))) as [P1 P2]; [lia|assumption|]. destruct K2 as [K3 K4]; [rewrite P1; apply port_pos; lia|now apply P2|].
  rewrite K3, K4. auto.
Qed.

Definition binv (tr : list ev) (s : dm_state D) : Prop := if w64 then ninv n tr s else winv n tr s.
Lemma fit_pre (a b : list ev) : fit w64 n (a ++ b) -> fit w64 n a.
Proof.
  unfold fit. destruct w64.
  - intros [H1 H2]. split.
    + intros x y E. apply (H1 x (y ++ b)). rewrite E, app_assoc. reflexivity.
    + intros x e y E. apply (H2 x e (y ++ b)). rewrite E, <- app_assoc. reflexivity.
  - intros H x e1 e2 y E. apply (H x e1 e2 (y ++ b)). rewrite E, <- app_assoc. reflexivity.
Qed.
Lemma binv_run l : fit w64 n (trace l) -> binv (trace l) (run l).
Proof.
  induction l as [|i l IH] using rev_ind; intros F.
  - assert (V : vinv n (dm_out (dm0 d))) by (constructor; cbn; try (now left); congruence).
    unfold binv. destruct w64; constructor; cbn; try discriminate; auto. split; [discriminate|]. intros H. now destruct H.
  - rewrite trace_snoc in F |- *. rewrite run_snoc. specialize (IH (fit_pre _ _ F)). unfold binv, fit in *. destruct w64; [apply narrow_step|apply wide_step]; tauto.
Qed.
Lemma dm_routed l : fit w64 n (trace l) -> routed w64 n (trace l).
Proof.
  intros F. pose proof (binv_run l F) as I. unfold binv, routed in *. revert I. clear F. generalize (trace l) (run l). intros t s I. pose proof (vcontent_len (dm_out s)). destruct w64.
  - exists (vcontent (dm_out s) ++ waiting s). split; [apply I|]. rewrite app_length. unfold waiting. destruct (_ && _); cbn; lia.
  - exists (vcontent (dm_out s)). split; [apply I|]. lia.
Qed.

(* ---------- liveness ---------- *)
Section live.
Variable l : list (dm_in D).
Variable f : nat -> dm_in D.
Hypothesis F : dm_fair n f.
Notation st k := (run (dm_inputs l f k)).
Notation tr k := (trace (dm_inputs l f k)).
Lemma inputs_S k : dm_inputs l f (S k) = dm_inputs l f k ++ [f k].
Proof. unfold dm_inputs. rewrite seq_S, map_app, app_assoc. reflexivity. Qed.
Lemma st_S k : st (S k) = dm_step w64 n (st k) (f k).
Proof. rewrite inputs_S. apply run_snoc. Qed.
Lemma tr_S k : tr (S k) = tr k ++ [dm_event w64 (st k) (f k)].
Proof. rewrite inputs_S. apply trace_snoc. Qed.

(** A beat offered is taken in the end. *)
Lemma taken_at k : vk_valid (dm_out (st k)) <> 0 -> exists m, Z.land (di_mready (f (k + m)%nat)) (vk_valid (dm_out (st (k + m)))) <> 0.
Proof.
  intros V. destruct (v_p1 _ _ (s_skid _ (sinv_run (dm_inputs l f k)))) as [?|(q & Hq & E)]; [contradiction|]. destruct (f_sink _ _ F q k Hq) as [m M]. clear V.
  revert k E M. induction m as [|m IH]; intros k E M.
  - exists O. rewrite Nat.add_0_r in *. rewrite E. intros H. apply Z.eqb_eq in H. rewrite land_port, M in H by lia. discriminate.
  - destruct (Z.eq_dec (Z.land (di_mready (f k)) (vk_valid (dm_out (st k)))) 0) as [Z0|Z0]; [|exists O; now rewrite Nat.add_0_r].
    destruct (sinv_step w64 (st k) (f k) (sinv_run _)) as [_ K]. destruct (K (f_rst _ _ F k)) as [_ K2]. rewrite <- st_S in K2. destruct K2 as [K2 _]; [rewrite E; apply port_pos; lia|assumption|].
    destruct (IH (S k)) as [m' M']; [congruence|now replace (S k + m)%nat with (k + S m)%nat by lia|]. exists (S m'). now replace (k + S m')%nat with (S k + m')%nat by lia.
Qed.
Lemma ready_again k : exists m, dm_ready w64 (st (k + m)) (f (k + m)%nat) = true.
Proof.
  assert (H : exists m, dm_tready (st (k + m)) = true).
  { destruct (Z.eq_dec (vk_valid (dm_out (st k))) 0) as [E|E].
    - exists 1%nat. replace (k + 1)%nat with (S k) by lia. rewrite st_S. destruct (sinv_step w64 (st k) (f k) (sinv_run _)) as [_ K]. apply (K (f_rst _ _ F k)). unfold vskid_early.
      destruct (sinv_run (dm_inputs l f k)) as [[_ _ _ T] _]. rewrite E. destruct (Z.eqb_spec (vk_tvalid (dm_out (st k))) 0) as [Y|Y]; [now rewrite orb_true_r|]. now apply T in Y.
    - destruct (taken_at k E) as [m M]. exists (S m). replace (k + S m)%nat with (S (k + m)) by lia. rewrite st_S. destruct (sinv_step w64 (st (k + m)) (f (k + m)%nat) (sinv_run _)) as [_ K]. apply (K (f_rst _ _ F _)).
      unfold vskid_early. apply Z.eqb_neq in M. now rewrite M. }
  destruct H as [m H]. exists m. unfold dm_ready. now rewrite H, (f_en _ _ F).
Qed.

Lemma sends_mono w (g : list beat) b : exists c, sends w (g ++ [b]) = sends w g ++ c.
Proof.
  unfold sends at 2. destruct (decision w g) eqn:E; [|eexists; reflexivity]. rewrite (sends_more _ _ _ _ E). unfold sends. rewrite E. eexists. reflexivity.
Qed.
Lemma expected_mono k : exists c, expected w64 (taken n (tr (S k))) = expected w64 (taken n (tr k)) ++ c.
Proof.
  rewrite tr_S, taken_snoc. unfold taken_step. cbn [de_rst dm_event]. rewrite (f_rst _ _ F). destruct (takes _); [|exists []; now rewrite app_nil_r].
  pose (b := (de_last (dm_event w64 (st k) (f k)), de_data (dm_event w64 (st k) (f k)), choice n (dm_event w64 (st k) (f k))) : beat).
  destruct (sends_mono w64 (snd (cut (taken n (tr k)))) b) as [c C]. exists c. transitivity (flat_map (sends w64) (fst (cut (taken n (tr k)))) ++ sends w64 (snd (cut (taken n (tr k))) ++ [b])); [apply expected_snoc|].
  rewrite C, expected_eq, app_assoc. reflexivity.
Qed.
Lemma expected_later k m : exists c, expected w64 (taken n (tr (k + m))) = expected w64 (taken n (tr k)) ++ c.
Proof.
  induction m as [|m [c C]]; [exists []; now rewrite Nat.add_0_r, app_nil_r|]. destruct (expected_mono (k + m)) as [c' C']. exists (c ++ c'). rewrite app_assoc, <- C, <- C'. now rewrite Nat.add_succ_r.
Qed.

Hypothesis G : forall k, fit w64 n (tr k).
Notation out k := (sent n (tr k) ++ vcontent (dm_out (st k))).

Lemma out_S k : exists c, out (S k) = out k ++ c.
Proof.
  destruct (push_any w64 (st k) (f k) (sinv_run _) (f_rst _ _ F k)) as [c C]. exists c. rewrite <- app_assoc, C, tr_S, sent_snoc, st_S. unfold sent_step. cbn [de_rst dm_event]. rewrite (f_rst _ _ F), given_eq, app_assoc. reflexivity.
Qed.
Lemma sent_S k : sent n (tr (S k)) = sent n (tr k) ++ vgiven n (dm_out (st k)) (di_mready (f k)).
Proof. rewrite tr_S, sent_snoc. unfold sent_step. cbn [de_rst dm_event]. now rewrite (f_rst _ _ F), given_eq. Qed.
Lemma sent_later k m : exists c, sent n (tr (k + m)) = sent n (tr k) ++ c.
Proof.
  induction m as [|m [c C]]; [exists []; now rewrite Nat.add_0_r, app_nil_r|]. exists (c ++ vgiven n (dm_out (st (k + m))) (di_mready (f (k + m)%nat))). now rewrite app_assoc, <- C, Nat.add_succ_r, sent_S.
Qed.
Lemma out_later k m : exists c, out (k + m) = out k ++ c.
Proof.
  induction m as [|m [c C]]; [exists []; now rewrite Nat.add_0_r, app_nil_r|]. destruct (out_S (k + m)) as [c' C']. exists (c ++ c'). rewrite app_assoc, <- C, <- C'. now rewrite Nat.add_succ_r.
Qed.
Lemma flush N k X : (length X <= length (sent n (tr k)) + N)%nat -> (exists c, out k = X ++ c) -> exists k' c, sent n (tr k') = X ++ c.
Proof.
  revert k. induction N as [|N IH]; intros k L [c C].
  - exists k. assert (E : firstn (length X) (sent n (tr k)) = X).
    { pose proof (f_equal (firstn (length X)) C) as H. rewrite firstn_app in H. replace (length X - length (sent n (tr k)))%nat with O in H by lia. cbn [firstn] in H. rewrite app_nil_r in H. rewrite H, firstn_app, Nat.sub_diag, firstn_all. cbn. apply app_nil_r. }
    assert (L2 : length (sent n (tr k)) = length X \/ (length (sent n (tr k)) > length X)%nat) by lia.
    exists (skipn (length X) (sent n (tr k))). rewrite <- E at 1. rewrite firstn_skipn. reflexivity.
  - destruct (Nat.le_gt_cases (length X) (length (sent n (tr k)) + N)) as [L2|L2]; [apply (IH k L2); now exists c|].
    assert (V : vk_valid (dm_out (st k)) <> 0).
    { intros E. assert (H : vcontent (dm_out (st k)) = []). { destruct (sinv_run (dm_inputs l f k)) as [[_ _ _ T] _]. unfold vcontent, item. rewrite E. cbn [Z.eqb app]. destruct (Z.eqb_spec (vk_tvalid (dm_out (st k))) 0) as [Y|Y]; [reflexivity|]. now apply T in Y. }
      apply (f_equal (@length _)) in C. rewrite H, !app_length in C. cbn [length] in C. lia. }
    destruct (taken_at k V) as [m M]. apply (IH (S (k + m))).
    + rewrite sent_S, app_length, vgiven_eq by apply sinv_run. destruct (sent_later k m) as [c' ->]. rewrite app_length. destruct (Z.eqb_spec (Z.land (di_mready (f (k + m)%nat)) (vk_valid (dm_out (st (k + m))))) 0) as [Y|Y]; [contradiction|]. cbn [negb].
      unfold item. destruct (Z.eqb_spec (vk_valid (dm_out (st (k + m)))) 0) as [Y2|Y2]; [rewrite Y2, Z.land_0_r in M; contradiction|]. cbn [length]. lia.
    + destruct (out_later k (S m)) as [c' C']. exists (c ++ c'). rewrite app_assoc, <- C, <- C'. now rewrite Nat.add_succ_r.
Qed.
Lemma dm_delivered k : exists k' c, sent n (tr k') = expected w64 (taken n (tr k)) ++ c.
Proof.
  assert (H : exists k1 c, out k1 = expected w64 (taken n (tr k)) ++ c).
  { destruct (ready_again k) as [m M]. destruct (expected_later k m) as [c C]. destruct (push_done w64 _ _ (f (k + m)%nat) (binv_run _ (G (k + m)%nat)) (sinv_run _) (f_rst _ _ F _) M) as [c' X].
    exists (S (k + m)), (c ++ c'). rewrite app_assoc, <- C, <- X, st_S, sent_S, app_assoc. reflexivity. }
  destruct H as (k1 & c & C). apply (flush (length (expected w64 (taken n (tr k)))) k1); [lia|now exists c].
Qed.
End live.
End demux.
