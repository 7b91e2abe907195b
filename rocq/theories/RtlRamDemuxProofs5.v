(** Lemmas for the liveness statements and examples of C89 and C90. *)
From Verif Require Import PyBase RtlModel RtlProofs RtlFcProofs RtlRamModel RtlRamProofs RtlRamProofs2 RtlDemuxModel RtlRamDemuxModel RtlRamDemuxSpec RtlRamDemuxProofs RtlRamDemuxProofs2 RtlRamDemuxProofs3 RtlRamDemuxProofs4.
From Coq Require Import Lia.

Lemma rd_ready_seen {D} p (OKP : x_ok p) (d : Z * D) l f : r_fair p (fun k => rd_trace p (rd0 d) (r_inputs l f k)) f ->
  forall k, exists m a e, rd_trace p (rd0 d) (r_inputs l f (S (k + m))) = a ++ [e] /\ rde_ready e = true.
Proof.
  intros F k. destruct (rd_ready_again p OKP d l f F k) as [m M]. exists m. eexists. eexists. split.
  - unfold r_inputs. rewrite seq_S, map_app, app_assoc, rtrace_app. reflexivity.
  - exact M.
Qed.

Lemma wr_ready_seen {D} p (OKP : x_ok p) (d : Z * D) l f : w_fair p (fun k => wr_trace p (wr0 d) (w_inputs l f k)) f ->
  forall k, exists m a e, wr_trace p (wr0 d) (w_inputs l f (S (k + m))) = a ++ [e] /\ wre_ready e = true.
Proof.
  intros F k. destruct (wr_ready_again p OKP d l f F k) as [m M]. exists m. eexists. eexists. split.
  - unfold w_inputs. rewrite seq_S, map_app, app_assoc, wtrace_app. reflexivity.
  - exact M.
Qed.

Lemma r_asked_in {D} p (tr : list (rd_ev D)) x : In x (r_asked p tr) -> exists s, fst x = port_of p s.
Proof.
  induction tr as [|e tr IH] using rev_ind; [contradiction|]. unfold r_asked. rewrite since_snoc. destruct (r_rst e); [contradiction|].
  intros H. apply in_app_or in H. destruct H as [H|H]; [now apply IH|]. unfold command in H. destruct (_ && _); [|contradiction]. destruct H as [<-|[]]. eexists. reflexivity.
Qed.

(** A run that goes on with the same input and stays where it is. *)
Lemma rd_fix {D} p (s : rd_state D) i : rd_step p s i = s -> forall k, rd_trace p s (map (fun _ => i) (seq 0 k)) = repeat (rd_event p s i) k.
Proof.
  intros E k. generalize 0%nat. induction k as [|k IH]; intros n; [reflexivity|]. cbn [seq map rd_trace repeat]. rewrite E. f_equal. apply IH.
Qed.
Lemma wr_fix {D} p (s : wr_state D) i : wr_step p s i = s -> forall k, wr_trace p s (map (fun _ => i) (seq 0 k)) = repeat (wr_event p s i) k.
Proof.
  intros E k. generalize 0%nat. induction k as [|k IH]; intros n; [reflexivity|]. cbn [seq map wr_trace repeat]. rewrite E. f_equal. apply IH.
Qed.
Lemma repeat_snoc {E} (e : E) k : repeat e (S k) = repeat e k ++ [e].
Proof. induction k as [|k IH]; [reflexivity|]. cbn [repeat app] in *. now rewrite <- IH. Qed.
Lemma since_repeat {E A} (rst : E -> bool) (g : E -> list A) e T : rst e = false -> g e = [] -> forall k, since rst g (T ++ repeat e k) = since rst g T.
Proof.
  intros R G. induction k as [|k IH]; [now rewrite app_nil_r|]. rewrite repeat_snoc, app_assoc, since_snoc, R, G, app_nil_r. exact IH.
Qed.
Lemma firstn_repeat {E} (e : E) : forall k n, exists j, firstn n (repeat e k) = repeat e j.
Proof.
  induction k as [|k IH]; intros n; [exists 0%nat; destruct n; reflexivity|]. destruct n as [|n]; [exists 0%nat; reflexivity|].
  destruct (IH n) as [j J]. exists (S j). cbn [repeat firstn]. now rewrite J.
Qed.
Lemma prefix_repeat {E} (e : E) T k a b : T ++ repeat e k = a ++ b -> exists n j, a = firstn n T ++ repeat e j.
Proof.
  intros H. exists (length a). pose proof (f_equal (firstn (length a)) H) as F. rewrite (firstn_app _ a), Nat.sub_diag, firstn_all in F. cbn [firstn] in F. rewrite app_nil_r in F.
  rewrite firstn_app in F. destruct (firstn_repeat e k (length a - length T)) as [j J]. exists j. now rewrite <- J.
Qed.

Lemma w_asked_in {D} p (tr : list (wr_ev D)) x : In x (w_asked p tr) -> exists s, fst x = port_of p s.
Proof.
  induction tr as [|e tr IH] using rev_ind; [contradiction|]. unfold w_asked. rewrite since_snoc. destruct (w_rst e); [contradiction|].
  intros H. apply in_app_or in H. destruct H as [H|H]; [now apply IH|]. unfold command in H. destruct (_ && _); [|contradiction]. destruct H as [<-|[]]. eexists. reflexivity.
Qed.

Definition c89_p := mkXp 2 2 3.
Definition c90_c sel (c : Z) cr dn := mkWr (mkXi false true sel c cr) dn.
Definition c90_n cr dn := mkWr (mkXi false false 0 0 cr) dn.
(** Port 0 is done first, but the first write is for port 1. *)
Definition c90_l := [c90_n 0 0; c90_c 5 11 1 0; c90_c 2 12 1 0; c90_c 1 13 3 0; c90_c 1 13 3 0; c90_n 3 1; c90_n 3 0; c90_n 3 3; c90_n 3 0].
Definition c90_f (_ : nat) := c90_n 3 0.
Definition c90_T := wr_trace c89_p (wr0 (0, 0)) (w_inputs c90_l c90_f 8).
(** Nothing is left to do in a state, and nothing happens at a clock. *)
Definition w_idle (s : wr_state Z) : Prop := vk_valid (xs_out (wrs_x s)) = 0 /\ vk_tvalid (xs_out (wrs_x s)) = 0.
Definition w_quiet (e : wr_ev Z) : Prop := w_rst e = false /\ wre_cvalid e = 0 /\ wr_done (wre_in e) = 0.
Lemma w_idle_step : forall s, w_idle s -> w_idle (wr_step c89_p s (c90_n 3 0)) /\ w_quiet (wr_event c89_p s (c90_n 3 0)).
Proof.
  intros s [H1 H2]. split; [|repeat split; exact H1]. unfold w_idle, wr_step, x_cmd_step, c90_n. cbn [wrs_x xs_out wr_cmd xi_rst xi_valid xi_cready andb Z.b2z]. rewrite Z.shiftl_0_l. cbn [Z.modulo].
  unfold vskid_step. rewrite H1, H2. destruct (vk_ready (xs_out (wrs_x s))), (xs_out (wrs_x s)); cbn; auto.
Qed.
Lemma w_idle_run : forall m b s, w_idle s -> Forall w_quiet (wr_trace c89_p s (map c90_f (seq b m))).
Proof. induction m as [|m IH]; intros b s H; cbn [seq map wr_trace]; constructor; [apply w_idle_step, H | apply IH, w_idle_step, H]. Qed.
Lemma c90_tail : forall m, exists X, wr_trace c89_p (wr0 (0, 0)) (w_inputs c90_l c90_f (8 + m)) = c90_T ++ X /\ Forall w_quiet X.
Proof.
  intros m. unfold w_inputs. rewrite seq_app, map_app, app_assoc, wtrace_app. eexists. split; [reflexivity|]. apply w_idle_run. split; vm_compute; reflexivity.
Qed.
Lemma c90_since {A} (g : wr_ev Z -> list A) T X : (forall e, w_quiet e -> g e = []) -> Forall w_quiet X -> since w_rst g (T ++ X) = since w_rst g T.
Proof.
  intros G. induction X as [|e X IH] using rev_ind; intros F; [now rewrite app_nil_r|]. apply Forall_app in F. destruct F as [F1 F2]. inversion F2 as [|e' t F3 F4]; subst.
  rewrite app_assoc, since_snoc, G by exact F3. destruct F3 as [-> _]. rewrite app_nil_r. now apply IH.
Qed.
Lemma c90_sent T X : Forall w_quiet X -> w_sent c89_p (T ++ X) = w_sent c89_p T.
Proof.
  apply c90_since. intros e [_ [H _]]. unfold handed. rewrite H. rewrite RtlDemuxProofs.filter_none; [reflexivity|]. intros. now rewrite Z.bits_0.
Qed.
Lemma c90_dones T X : Forall w_quiet X -> w_dones c89_p (T ++ X) = w_dones c89_p T.
Proof.
  apply c90_since. intros e [_ [_ H]]. rewrite H. rewrite RtlDemuxProofs.filter_none; [reflexivity|]. intros. now rewrite Z.bits_0.
Qed.
Lemma Forall_firstn {A} (P : A -> Prop) : forall n l, Forall P l -> Forall P (firstn n l).
Proof. induction n as [|n IH]; intros l F; [constructor|]. destruct F; cbn [firstn]; constructor; auto. Qed.
Lemma c90_causal : forall k, w_causal c89_p (wr_trace c89_p (wr0 (0, 0)) (w_inputs c90_l c90_f k)).
Proof.
  intros k a b E q. destruct (c90_tail k) as [X [B F]]. assert (E2 : exists r, c90_T ++ X = a ++ r).
  { rewrite <- B. unfold w_inputs. replace (seq 0 (8 + k)) with (seq 0 k ++ seq k 8) by now rewrite (Nat.add_comm 8 k), seq_app. rewrite map_app, app_assoc, wtrace_app. unfold w_inputs in E. rewrite E, <- app_assoc. eauto. }
  destruct E2 as [r E2]. pose proof (f_equal (firstn (length a)) E2) as FE. rewrite (firstn_app _ a), Nat.sub_diag, firstn_all in FE. cbn [firstn] in FE. rewrite app_nil_r, firstn_app in FE.
  rewrite <- FE. rewrite c90_sent, c90_dones by now apply Forall_firstn. generalize (length a). intros n.
  do 18 (destruct n as [|n]; [match goal with |- (length (of_port q ?x) <= length (of_port q ?y))%nat => let x' := eval vm_compute in x in let y' := eval vm_compute in y in replace x with x' by (vm_compute; reflexivity); replace y with y' by (vm_compute; reflexivity) end;
    unfold of_port; rewrite !map_length; cbn [filter fst]; destruct (1 =? q), (0 =? q); cbn [length]; lia|]).
  rewrite firstn_all2 by (vm_compute; lia).
  match goal with |- (length (of_port q ?x) <= length (of_port q ?y))%nat => let x' := eval vm_compute in x in let y' := eval vm_compute in y in replace x with x' by (vm_compute; reflexivity); replace y with y' by (vm_compute; reflexivity) end;
    unfold of_port; rewrite !map_length; cbn [filter fst]; destruct (1 =? q), (0 =? q); cbn [length]; lia.
Qed.
Lemma c90_does : forall q k, (length (of_port q (w_sent c89_p (wr_trace c89_p (wr0 (0, 0)%Z) (w_inputs c90_l c90_f k)))) <=
  length (of_port q (w_dones c89_p (wr_trace c89_p (wr0 (0, 0)%Z) (w_inputs c90_l c90_f (k + 0)%nat)))))%nat.
Proof.
  intros q k. rewrite Nat.add_0_r. assert (H : w_sent c89_p (wr_trace c89_p (wr0 (0, 0)) (w_inputs c90_l c90_f k)) = [(1, (1, 11)); (0, (2, 12)); (0, (1, 13))]
    /\ w_dones c89_p (wr_trace c89_p (wr0 (0, 0)) (w_inputs c90_l c90_f k)) = [(0, tt); (0, tt); (1, tt)]).
  { do 8 (destruct k as [|k]; [vm_compute; auto|]). change (S (S (S (S (S (S (S (S k)))))))) with (8 + k)%nat. destruct (c90_tail k) as [X [-> F]]. rewrite c90_sent, c90_dones by exact F. vm_compute. auto. }
  destruct H as [-> ->]. unfold of_port. rewrite !map_length. cbn [filter fst]. destruct (1 =? q), (0 =? q); cbn [length]; lia.
Qed.

(** * Wiring *)
Lemma slice_bit : forall v w n k, 0 <= w -> 0 <= n -> 0 <= k < w -> Z.testbit (psel v (w * n) w) k = Z.testbit v (n * w + k).
Proof. intros v w n k W N K. rewrite psel_bits by nia. destruct (Z.ltb_spec k w); [|lia]. rewrite (Z.mul_comm w n). reflexivity. Qed.
Lemma rd_wired : forall p segs aw dw n b q, x_ok p -> 0 <= n < segs -> 0 <= q < xp_ports p -> 0 <= aw -> 0 <= dw ->
  let i := rd_seg p segs aw dw n b in
  xi_valid (rd_cmd i) = Z.testbit (rb_valid b) n /\ rd_rready i = Z.testbit (rb_rready b) n
  /\ Z.testbit (xi_cready (rd_cmd i)) q = Z.testbit (rb_cready b) (q * segs + n) /\ Z.testbit (rd_rvalid i) q = Z.testbit (rb_rvalid b) (q * segs + n)
  /\ (forall k, 0 <= k < xp_m p -> Z.testbit (xi_sel (rd_cmd i)) k = Z.testbit (rb_sel b) (n * xp_m p + k))
  /\ (forall k, 0 <= k < aw -> Z.testbit (xi_cmd (rd_cmd i)) k = Z.testbit (rb_addr b) (n * aw + k))
  /\ (forall k, 0 <= k < dw -> Z.testbit (rd_rdata i q) k = Z.testbit (rb_rdata b) ((q * segs + n) * dw + k)).
Proof.
  intros p segs aw dw n b q [O1 [O2 O3]] N Q A W i. pose proof (Z.log2_up_nonneg (xp_ports p)). unfold i, rd_seg. cbn [rd_cmd xi_valid xi_sel xi_cmd xi_cready rd_rvalid rd_rdata rd_rready].
  rewrite !on_bsel, !gather_bit by lia. repeat split; intros k K.
  - apply slice_bit; lia.
  - apply slice_bit; lia.
  - rewrite (Z.mul_comm (q * segs + n) dw) at 1. now rewrite slice_bit by nia.
Qed.
Lemma wr_wired : forall p segs bw aw dw n b q, x_ok p -> 0 <= n < segs -> 0 <= q < xp_ports p -> 0 <= bw -> 0 <= aw -> 0 <= dw ->
  let i := wr_seg p segs bw aw dw n b in
  xi_valid (wr_cmd i) = Z.testbit (wb_valid b) n
  /\ Z.testbit (xi_cready (wr_cmd i)) q = Z.testbit (wb_cready b) (q * segs + n) /\ Z.testbit (wr_done i) q = Z.testbit (wb_done b) (q * segs + n)
  /\ (forall k, 0 <= k < xp_m p -> Z.testbit (xi_sel (wr_cmd i)) k = Z.testbit (wb_sel b) (n * xp_m p + k))
  /\ (forall k, 0 <= k < bw -> Z.testbit (fst (fst (xi_cmd (wr_cmd i)))) k = Z.testbit (wb_be b) (n * bw + k))
  /\ (forall k, 0 <= k < aw -> Z.testbit (snd (fst (xi_cmd (wr_cmd i)))) k = Z.testbit (wb_addr b) (n * aw + k))
  /\ (forall k, 0 <= k < dw -> Z.testbit (snd (xi_cmd (wr_cmd i))) k = Z.testbit (wb_data b) (n * dw + k)).
Proof.
  intros p segs bw aw dw n b q [O1 [O2 O3]] N Q B A W i. pose proof (Z.log2_up_nonneg (xp_ports p)). unfold i, wr_seg. cbn [wr_cmd xi_valid xi_sel xi_cmd xi_cready wr_done fst snd].
  rewrite !on_bsel, !gather_bit by lia. repeat split; intros k K; apply slice_bit; lia.
Qed.
