(** Lemmas on the RAM read demultiplexer (C89): every command is answered. *)
From Verif Require Import PyBase RtlModel RtlProofs RtlFcProofs RtlRamModel RtlRamProofs RtlRamProofs2 RtlDemuxModel RtlDemuxProofs RtlRamDemuxModel RtlRamDemuxSpec RtlRamDemuxProofs RtlRamDemuxProofs2.
From Coq Require Import Lia.

(** A count that goes on whenever it is behind reaches every mark. *)
Lemma reach : forall (c : nat -> nat) (N : nat), (forall k, (c k <= c (S k))%nat) -> (forall k, (c k < N)%nat -> exists m, (c k < c (k + m))%nat) -> forall k, exists m, (N <= c (k + m))%nat.
Proof.
  intros c N MO PR k. assert (G : forall g k, (N - c k <= g)%nat -> exists m, (N <= c (k + m))%nat).
  { induction g as [|g IH]; intros h H.
    - exists O. rewrite Nat.add_0_r. lia.
    - destruct (Nat.le_gt_cases N (c h)) as [L|L]; [exists O; rewrite Nat.add_0_r; lia|]. destruct (PR h L) as [m M].
      destruct (IH (h + m)%nat ltac:(lia)) as [m' M']. exists (m + m')%nat. now rewrite Nat.add_assoc. }
  apply (G (N - c k)%nat). lia.
Qed.
Lemma mono_le : forall (c : nat -> nat), (forall k, (c k <= c (S k))%nat) -> forall k m, (c k <= c (k + m))%nat.
Proof. intros c MO k m. induction m as [|m IH]; [rewrite Nat.add_0_r; lia|]. rewrite Nat.add_succ_r. specialize (MO (k + m)%nat). lia. Qed.
(** Something that holds until a count goes on. *)
Lemma until : forall (c : nat -> nat) (P : nat -> Prop), (forall k, (c k <= c (S k))%nat) -> (forall k, P k -> c (S k) = c k -> P (S k)) ->
  forall k m, P k -> (c k < c (k + m))%nat \/ (P (k + m)%nat /\ c (k + m)%nat = c k).
Proof.
  intros c P MO ST k m H. induction m as [|m IH]; [right; rewrite Nat.add_0_r; auto|]. rewrite Nat.add_succ_r. pose proof (MO (k + m)%nat).
  destruct IH as [IH|[IH1 IH2]]; [left; lia|]. destruct (Nat.eq_dec (c (S (k + m))) (c (k + m)%nat)) as [E|E]; [right; split; [now apply ST | lia] | left; lia].
Qed.

Section live.
Context {D : Type}.
Variable p : x_param.
Hypothesis OKP : x_ok p.
Variables (d : Z * D) (l : list (rd_in D)) (f : nat -> rd_in D).
Let st (k : nat) : rd_state D := rd_run p (rd0 d) (r_inputs l f k).
Let tr (k : nat) : list (rd_ev D) := rd_trace p (rd0 d) (r_inputs l f k).
Hypothesis FAIR : r_fair p tr f.

Lemma r_inputs_S : forall k, r_inputs l f (S k) = r_inputs l f k ++ [f k].
Proof. intros k. unfold r_inputs. rewrite seq_S, map_app, app_assoc. reflexivity. Qed.
Lemma rst_S : forall k, st (S k) = rd_step p (st k) (f k).
Proof. intros. unfold st. now rewrite r_inputs_S, rrun_snoc. Qed.
Lemma rtr_S : forall k, tr (S k) = tr k ++ [rd_event p (st k) (f k)].
Proof. intros. unfold tr. rewrite r_inputs_S, rtrace_app. reflexivity. Qed.
Lemma rinv_at : forall k, rinv p (tr k) (st k).
Proof. intros. apply rinv_run. exact OKP. Qed.

Let asked k := length (r_asked p (tr k)).
Let sent k := length (r_sent p (tr k)).
Let got k := length (r_got p (tr k)).
Let ans k := length (r_answers (tr k)).

Lemma norst : forall k, r_rst (rd_event p (st k) (f k)) = false.
Proof. intros k. apply (rf_rst _ _ _ FAIR). Qed.
Lemma asked_next : forall k, r_asked p (tr (S k)) = r_asked p (tr k) ++ command p (rd_cmd (f k)) (x_ready (rds_x (st k))).
Proof. intros k. rewrite rtr_S. unfold r_asked. rewrite since_snoc, norst. reflexivity. Qed.
Lemma sent_next : forall k, r_sent p (tr (S k)) = r_sent p (tr k) ++ vgiven (xp_ports p) (xs_out (rds_x (st k))) (xi_cready (rd_cmd (f k))).
Proof. intros k. rewrite rtr_S. unfold r_sent. rewrite since_snoc, norst. reflexivity. Qed.
Lemma got_next : forall k, r_got p (tr (S k)) = r_got p (tr k) ++ if rd_take p (st k) (f k) then [(rd_resp (st k), rd_rdata (f k) (rd_resp (st k)))] else [].
Proof.
  intros k. rewrite rtr_S. unfold r_got at 1. rewrite since_snoc, norst. fold (r_got p (tr k)). f_equal. apply got_eq; [exact OKP|]. destruct (rinv_at k) as [_ _ _ _ I]. apply I.
Qed.
Lemma ans_next : forall k, r_answers (tr (S k)) = r_answers (tr k) ++ if rds_valid (st k) && rd_rready (f k) then [rds_data (st k)] else [].
Proof. intros k. rewrite rtr_S. unfold r_answers. rewrite since_snoc, norst. reflexivity. Qed.
Lemma asked_mono : forall k, (asked k <= asked (S k))%nat.
Proof. intros. unfold asked. rewrite asked_next, app_length. lia. Qed.
Lemma sent_mono : forall k, (sent k <= sent (S k))%nat.
Proof. intros. unfold sent. rewrite sent_next, app_length. lia. Qed.
Lemma got_mono : forall k, (got k <= got (S k))%nat.
Proof. intros. unfold got. rewrite got_next, app_length. lia. Qed.
Lemma ans_mono : forall k, (ans k <= ans (S k))%nat.
Proof. intros. unfold ans. rewrite ans_next, app_length. lia. Qed.

(** The counts. *)
Lemma got_ans : forall k, got k = (ans k + (if rds_valid (st k) then 1 else 0) + length (ring (rds_wr (st k)) (rds_rd (st k)) (rds_mem (st k))))%nat.
Proof.
  intros k. destruct (rinv_at k) as [_ _ _ I _]. apply (f_equal (@length Z)) in I. rewrite map_length, !app_length in I. unfold got, ans. destruct (rds_valid (st k)); cbn [length] in I; lia.
Qed.
Lemma asked_got : forall k, asked k = (got k + length (ring (xs_wr (rds_x (st k))) (xs_rd (rds_x (st k))) (xs_sel (rds_x (st k)))))%nat.
Proof.
  intros k. destruct (rinv_at k) as [[_ _ _ I] _ _ _ _]. apply (f_equal (@length Z)) in I. rewrite app_length, !map_length in I. exact I.
Qed.
Lemma asked_all : forall k, filter (fun x => exists_port p (fst x)) (r_asked p (tr k)) = r_asked p (tr k).
Proof.
  intros k. pose proof (rf_exist _ _ _ FAIR k) as H. induction (r_asked p (tr k)) as [|x r IH]; [reflexivity|]. cbn [filter]. rewrite (H x) by now left. f_equal. apply IH. intros y Y. apply H. now right.
Qed.
Lemma asked_sent : forall k, r_asked p (tr k) = r_sent p (tr k) ++ vcontent (xs_out (rds_x (st k))).
Proof. intros k. rewrite <- asked_all. destruct (rinv_at k) as [[_ _ I _] _ _ _ _]. exact I. Qed.

(** The output FIFO drains. *)
Lemma drain : forall N k, (N <= got k)%nat -> exists m, (N <= ans (k + m))%nat.
Proof.
  intros N k GE. assert (G : forall j, exists m, (N <= ans (k + j + m))%nat).
  2:{ destruct (G O) as [m M]. exists m. now rewrite Nat.add_0_r in M. }
  intros j. replace (k + j)%nat with (k + j)%nat by lia. destruct (reach (fun h => ans (k + h)) N) with (k := j) as [m M].
  - intros h. rewrite Nat.add_succ_r. apply ans_mono.
  - intros h L. pose proof (mono_le got got_mono k h) as GM. pose proof (got_ans (k + h)) as GA.
    assert (V : exists m, rds_valid (st (k + h + m)) = true /\ (ans (k + h) <= ans (k + h + m))%nat).
    { destruct (rds_valid (st (k + h))) eqn:V; [exists O; rewrite Nat.add_0_r; auto|]. exists 1%nat. rewrite Nat.add_1_r. split; [|apply ans_mono].
      rewrite rst_S. unfold rd_step. cbn [rds_valid]. rewrite (rf_rst _ _ _ FAIR), V. cbn [negb orb andb]. rewrite andb_true_r.
      destruct (ptr_empty (rds_wr (st (k + h))) (rds_rd (st (k + h)))) eqn:E; [|reflexivity].
      destruct (rinv_at (k + h)) as [_ P _ _ _]. apply (ring_empty _ _ _ (rds_mem (st (k + h))) P) in E. rewrite E in GA. cbn [length] in GA. lia. }
    destruct V as [m [V AL]]. destruct (rf_client _ _ _ FAIR (k + h + m)) as [m' M'].
    assert (ST : forall a, rds_valid (st a) = true -> ans (S a) = ans a -> rds_valid (st (S a)) = true).
    { intros a VA AE. unfold ans in AE. rewrite ans_next, app_length, VA in AE. cbn [andb] in AE. destruct (rd_rready (f a)) eqn:R; [cbn [length] in AE; lia|].
      rewrite rst_S. unfold rd_step. cbn [rds_valid]. rewrite (rf_rst _ _ _ FAIR), VA, R. cbn [negb orb andb]. now rewrite andb_false_r. }
    destruct (until ans (fun a => rds_valid (st a) = true) ans_mono ST (k + h + m) m' V) as [U|[U1 U2]].
    + exists (m + m')%nat. replace (k + (h + (m + m')))%nat with (k + h + m + m')%nat by lia. lia.
    + exists (m + m' + 1)%nat. replace (k + (h + (m + m' + 1)))%nat with (S (k + h + m + m'))%nat by lia.
      assert (ans (S (k + h + m + m')) = ans (k + h + m + m') + 1)%nat; [|lia]. unfold ans. rewrite ans_next, app_length, U1, M'. reflexivity.
  - exists m. now rewrite <- Nat.add_assoc.
Qed.

(** The commands are handed on. *)
Lemma deliver : forall k, exists m, (asked k <= sent (k + m))%nat.
Proof.
  intros k. destruct (reach (fun h => sent (k + h)) (asked k)) with (k := O) as [m M].
  - intros h. rewrite Nat.add_succ_r. apply sent_mono.
  - intros h L. set (a := (k + h)%nat) in *. pose proof (mono_le asked asked_mono k h) as AM. fold a in AM.
    pose proof (f_equal (@length _) (asked_sent a)) as E. rewrite app_length in E. fold (asked a) (sent a) in E.
    destruct (rinv_at a) as [[V _ _ _] _ _ _ _].
    assert (NZ : vk_valid (xs_out (rds_x (st a))) <> 0).
    { intros Z0. unfold vcontent, item in E. destruct (Z.eqb_spec (vk_valid (xs_out (rds_x (st a)))) 0); [|contradiction].
      destruct (Z.eqb_spec (vk_tvalid (xs_out (rds_x (st a)))) 0) as [|N]; [cbn [length app] in E; lia|]. apply (v_t _ _ V N). exact Z0. }
    destruct (v_p1 _ _ V) as [Z0|[q [Q EQ]]]; [contradiction|].
    destruct (rf_take _ _ _ FAIR q a Q) as [m M].
    assert (ST : forall b, Z.testbit (vk_valid (xs_out (rds_x (st b)))) q = true -> sent (S b) = sent b -> Z.testbit (vk_valid (xs_out (rds_x (st (S b))))) q = true).
    { intros b B SE. destruct (Z.testbit (xi_cready (rd_cmd (f b))) q) eqn:R.
      - exfalso. unfold sent in SE. rewrite sent_next, app_length in SE. unfold vgiven in SE. rewrite map_length in SE.
        assert (In q (filter (fun q => Z.testbit (vk_valid (xs_out (rds_x (st b)))) q && Z.testbit (xi_cready (rd_cmd (f b))) q) (zseq (xp_ports p)))).
        { apply filter_In. split; [now apply zseq_in | now rewrite B, R]. }
        destruct (filter _ _); [contradiction | cbn [length] in SE; lia].
      - rewrite rst_S. unfold rd_step. cbn [rds_x]. destruct (rinv_at b) as [I _ _ _ _].
        destruct (xkept p OKP (rds_x (st b)) (rd_cmd (f b)) (if xi_rst (rd_cmd (f b)) then 0 else if rd_take p (st b) (f b) then ptr_inc (xs_rd (rds_x (st b))) else xs_rd (rds_x (st b))) _ _ _ I (rf_rst _ _ _ FAIR b) q Q B R) as [K _]. exact K. }
    assert (B0 : Z.testbit (vk_valid (xs_out (rds_x (st a)))) q = true). { rewrite EQ. apply Z.pow2_bits_true. lia. }
    destruct (until sent (fun b => Z.testbit (vk_valid (xs_out (rds_x (st b)))) q = true) sent_mono ST a m B0) as [U|[U1 U2]].
    + exists m. now rewrite Nat.add_assoc.
    + exists (m + 1)%nat. replace (k + (h + (m + 1)))%nat with (S (a + m)) by lia.
      assert (sent (a + m) < sent (S (a + m)))%nat; [|lia]. unfold sent. rewrite sent_next, app_length. unfold vgiven. rewrite map_length.
      assert (IN : In q (filter (fun q => Z.testbit (vk_valid (xs_out (rds_x (st (a + m))))) q && Z.testbit (xi_cready (rd_cmd (f (a + m)))) q) (zseq (xp_ports p)))).
      { apply filter_In. split; [now apply zseq_in | now rewrite U1, M]. }
      destruct (filter _ _); [contradiction | cbn [length]; lia].
  - exists m. exact M.
Qed.

(** Answers are taken. *)
Lemma take_one : forall k, (got k < sent k)%nat -> exists m, (got k < got (k + m))%nat.
Proof.
  intros k L. pose proof (asked_got k) as AG. pose proof (f_equal (@length _) (asked_sent k)) as AS. rewrite app_length in AS. fold (asked k) (sent k) in AS.
  destruct (rinv_at k) as [[_ P _ XR] _ _ _ SN].
  (* the port of the next answer *)
  assert (NE : ptr_empty (xs_wr (rds_x (st k))) (xs_rd (rds_x (st k))) = false).
  { apply not_true_is_false. rewrite (ring_empty _ _ _ (xs_sel (rds_x (st k))) P). intros H. rewrite H in AG. cbn [length] in AG. lia. }
  set (q := rd_resp (st k)). destruct (ring_head _ _ _ (xs_sel (rds_x (st k))) P NE) as [r HR]. fold (rd_resp (st k)) in HR. fold q in HR. rewrite HR in XR.
  assert (AQ : exists c, nth_error (r_asked p (tr k)) (got k) = Some (q, c)).
  { assert (H : nth_error (map fst (r_asked p (tr k))) (got k) = Some q). { rewrite XR. rewrite nth_error_app2; rewrite map_length; fold (got k); [|lia]. now rewrite Nat.sub_diag. }
    rewrite nth_error_map in H. destruct (nth_error (r_asked p (tr k)) (got k)) as [[q' c]|]; [|discriminate]. cbn [option_map fst] in H. injection H as ->. eauto. }
  destruct AQ as [c AQ].
  assert (QE : exists_port p q = true). { apply nth_error_In in AQ. apply (rf_exist _ _ _ FAIR k (q, c) AQ). }
  assert (Q : 0 <= q < xp_ports p). { unfold exists_port in QE. apply Z.ltb_lt in QE. unfold q at 1. unfold rd_resp. specialize (SN (xs_rd (rds_x (st k)) mod 32)). lia. }
  assert (SQ : nth_error (r_sent p (tr k)) (got k) = Some (q, c)). { rewrite asked_sent in AQ. rewrite nth_error_app1 in AQ; [exact AQ | exact L]. }
  assert (LT : (length (of_port q (r_got p (tr k))) < length (of_port q (r_sent p (tr k))))%nat).
  { pose proof (of_port_nth _ _ _ _ _ SQ) as N1.
    assert (LE : length (of_port q (firstn (got k) (r_sent p (tr k)))) = length (of_port q (r_got p (tr k)))).
    { apply of_port_len. rewrite <- firstn_map. pose proof (f_equal (map fst) (asked_sent k)) as E. rewrite map_app, XR in E.
      apply (f_equal (firstn (got k))) in E. rewrite !firstn_app in E. rewrite !map_length in E. fold (got k) (sent k) in E.
      replace (got k - got k)%nat with O in E by lia. replace (got k - sent k)%nat with O in E by lia. cbn [firstn] in E. rewrite !app_nil_r in E.
      rewrite (firstn_all2 (map fst (r_got p (tr k)))) in E by (rewrite map_length; unfold got; lia). now rewrite E. }
    rewrite LE in N1. apply nth_error_Some. congruence. }
  destruct (rf_answer _ _ _ FAIR q k Q LT) as [m M].
  (* until it is taken, the port stays the same *)
  assert (ST : forall b, rd_resp (st b) = q /\ ptr_empty (xs_wr (rds_x (st b))) (xs_rd (rds_x (st b))) = false -> got (S b) = got b ->
    rd_resp (st (S b)) = q /\ ptr_empty (xs_wr (rds_x (st (S b)))) (xs_rd (rds_x (st (S b)))) = false).
  { intros b [B1 B2] GE. unfold got in GE. rewrite got_next, app_length in GE. destruct (rd_take p (st b) (f b)) eqn:T; [cbn [length] in GE; lia|].
    destruct (rinv_at b) as [[_ PB _ XB] _ _ _ _]. destruct (rinv_at (S b)) as [[_ PB' _ XB'] _ _ _ _].
    destruct (ring_head _ _ _ (xs_sel (rds_x (st b))) PB B2) as [rb HB]. rewrite HB in XB.
    rewrite asked_next, map_app, XB, got_next, T, app_nil_r, <- app_assoc in XB'. apply app_inv_head in XB'.
    assert (NB : ptr_empty (xs_wr (rds_x (st (S b)))) (xs_rd (rds_x (st (S b)))) = false).
    { apply not_true_is_false. rewrite (ring_empty _ _ _ (xs_sel (rds_x (st (S b)))) PB'). intros H. rewrite H in XB'. discriminate. }
    split; [|exact NB]. destruct (ring_head _ _ _ (xs_sel (rds_x (st (S b)))) PB' NB) as [rb' HB']. rewrite HB' in XB'. cbn [app] in XB'. injection XB' as X1 _.
    unfold rd_resp. rewrite <- X1. exact B1. }
  destruct (until got _ got_mono ST k m (conj eq_refl NE)) as [U|[[U1 U2] U3]]; [now exists m|].
  (* now the answer is there; let the output FIFO drain *)
  set (a := (k + m)%nat) in *. destruct (drain (got a) a ltac:(lia)) as [m2 M2].
  assert (ST2 : forall b, (rd_resp (st b) = q /\ ptr_empty (xs_wr (rds_x (st b))) (xs_rd (rds_x (st b))) = false) /\ Z.testbit (rd_rvalid (f b)) q = true -> got (S b) = got b ->
    (rd_resp (st (S b)) = q /\ ptr_empty (xs_wr (rds_x (st (S b)))) (xs_rd (rds_x (st (S b)))) = false) /\ Z.testbit (rd_rvalid (f (S b))) q = true).
  { intros b [B1 B2] GE. split; [now apply ST|]. apply (rf_keep _ _ _ FAIR q b Q B2). unfold got in GE. rewrite got_next, app_length in GE. rewrite got_next.
    destruct (rd_take p (st b) (f b)); [cbn [length] in GE; lia|]. now rewrite app_nil_r. }
  destruct (until got _ got_mono ST2 a (m2 + 1) (conj (conj U1 U2) M)) as [W|[[[W1 W2] W3] W4]].
  { exists (m + (m2 + 1))%nat. replace (k + (m + (m2 + 1)))%nat with (a + (m2 + 1))%nat by lia. lia. }
  assert (GB : got (a + m2) = got a). { pose proof (mono_le got got_mono a m2). pose proof (got_mono (a + m2)). replace (a + (m2 + 1))%nat with (S (a + m2)) in W4 by lia. lia. }
  assert (H : rds_half (st (S (a + m2))) = false).
  { rewrite rst_S. unfold rd_step. cbn [rds_half]. pose proof (got_ans (a + m2)) as GA. pose proof (ring_len Z (rds_wr (st (a + m2))) (rds_rd (st (a + m2))) (rds_mem (st (a + m2)))).
    apply Z.leb_gt. destruct (rds_valid (st (a + m2))); lia. }
  exists (m + m2 + 2)%nat. replace (k + (m + m2 + 2))%nat with (S (S (a + m2))) by lia. replace (a + (m2 + 1))%nat with (S (a + m2)) in * by lia.
  assert (T : rd_take p (st (S (a + m2))) (f (S (a + m2))) = true).
  { unfold rd_take, rd_want. rewrite W1, H, W2, on_bsel by lia. rewrite W3. unfold exists_port in QE. rewrite QE. reflexivity. }
  assert (got (S (S (a + m2))) = got (S (a + m2)) + 1)%nat; [|lia]. unfold got. rewrite got_next, app_length, T. reflexivity.
Qed.

Lemma sent_asked : forall k, (sent k <= asked k)%nat.
Proof. intros k. pose proof (f_equal (@length _) (asked_sent k)) as E. rewrite app_length in E. unfold sent, asked. lia. Qed.
Lemma all_got : forall k, exists m, (asked k <= got (k + m))%nat.
Proof.
  intros k. destruct (reach (fun h => got (k + h)) (asked k)) with (k := O) as [m M].
  - intros h. rewrite Nat.add_succ_r. apply got_mono.
  - intros h L. destruct (deliver k) as [m M].
    destruct (Nat.le_gt_cases (asked k) (got (k + h + m))) as [G|G].
    + exists m. rewrite Nat.add_assoc. lia.
    + pose proof (mono_le sent sent_mono (k + m) h) as SM. replace (k + m + h)%nat with (k + h + m)%nat in SM by lia.
      destruct (take_one (k + h + m) ltac:(lia)) as [m' M']. exists (m + m')%nat. replace (k + (h + (m + m')))%nat with (k + h + m + m')%nat by lia.
      pose proof (mono_le got got_mono (k + h) m). lia.
  - exists m. exact M.
Qed.

Lemma rd_served : forall k, exists m, (length (r_asked p (tr k)) <= length (r_answers (tr (k + m))))%nat.
Proof. intros k. destruct (all_got k) as [m M]. destruct (drain (asked k) (k + m) M) as [m' M']. exists (m + m')%nat. now rewrite Nat.add_assoc. Qed.

Lemma rd_ready_again : forall k, exists m, x_ready (rds_x (st (k + m))) = true.
Proof.
  intros k. destruct (deliver k) as [m1 M1]. destruct (all_got k) as [m2 M2]. set (m := (m1 + m2)%nat).
  pose proof (mono_le sent sent_mono (k + m1) m2) as A1. pose proof (mono_le got got_mono (k + m2) m1) as A2.
  replace (k + m1 + m2)%nat with (k + m)%nat in A1 by lia. replace (k + m2 + m1)%nat with (k + m)%nat in A2 by lia.
  destruct (Nat.eq_dec (asked (k + m)) (asked k)) as [E|E].
  - exists (S m). rewrite Nat.add_succ_r. set (a := (k + m)%nat) in *. rewrite rst_S. unfold x_ready, rd_step, x_cmd_step. cbn [rds_x xs_out xs_wr xs_rd].
    rewrite (rf_rst _ _ _ FAIR). pose proof (asked_got a) as AG. pose proof (f_equal (@length _) (asked_sent a)) as AS. rewrite app_length in AS. fold (asked a) (sent a) in AS.
    assert (R0 : ring (xs_wr (rds_x (st a))) (xs_rd (rds_x (st a))) (xs_sel (rds_x (st a))) = []). { destruct (ring _ _ _); [reflexivity | cbn [length] in AG; lia]. }
    assert (V0 : vcontent (xs_out (rds_x (st a))) = []). { destruct (vcontent _); [reflexivity | cbn [length] in AS; lia]. }
    destruct (rinv_at a) as [[V P _ _] _ _ _ _]. apply (ring_empty _ _ _ _ P) in R0.
    assert (T0 : rd_take p (st a) (f a) = false). { apply not_true_is_false. intros T. apply take_want in T. destruct T. congruence. }
    rewrite T0. apply andb_true_iff. split.
    + assert (VV : vk_valid (xs_out (rds_x (st a))) = 0 /\ vk_tvalid (xs_out (rds_x (st a))) = 0).
      { unfold vcontent, item in V0. destruct (Z.eqb_spec (vk_valid (xs_out (rds_x (st a)))) 0); [|discriminate]. destruct (Z.eqb_spec (vk_tvalid (xs_out (rds_x (st a)))) 0); [auto | discriminate]. }
      destruct VV as [VV1 VV2].
      assert (EA : vskid_early (xs_out (rds_x (st a))) (xi_cready (rd_cmd (f a))) = true). { unfold vskid_early. rewrite VV1, VV2. cbn. apply orb_true_r. }
      unfold vskid_step. destruct (if vk_ready _ then _ else _) as [[[[? ?] ?] ?] ?]. exact EA.
    + apply negb_true_iff. destruct (_ && _).
      * unfold ptr_empty in R0. apply Z.eqb_eq in R0. unfold ptr_full. rewrite R0. destruct P as [_ [P _]]. rewrite lxor32 by lia. unfold ptr_inc.
        apply Z.eqb_neq. intros H. pose proof (mod64_cases (xs_rd (rds_x (st a)) + 1) ltac:(lia)). pose proof (mod64_cases (xs_rd (rds_x (st a)) + 32) ltac:(lia)). lia.
      * apply not_true_is_false. intros H. apply (full_iff _ _ P) in H. apply (empty_iff _ _ P) in R0. lia.
  - pose proof (mono_le asked asked_mono k m) as AM.
    assert (G : forall h, (asked k < asked (k + h))%nat -> exists j, x_ready (rds_x (st (k + j))) = true).
    { induction h as [|h IH]; intros H; [rewrite Nat.add_0_r in H; lia|]. destruct (Nat.lt_ge_cases (asked k) (asked (k + h))) as [L|L]; [now apply IH|].
      exists h. rewrite Nat.add_succ_r in H. unfold asked in H at 2. rewrite asked_next, app_length in H. fold (asked (k + h)) in H. unfold command in H.
      destruct (x_ready (rds_x (st (k + h)))); [reflexivity|]. rewrite andb_false_r in H. cbn [length] in H. lia. }
    apply (G m). lia.
Qed.
End live.
