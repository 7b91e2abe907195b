(** C97, C98: the AXI stream source. *)
From Verif Require Import PyBase RtlModel RtlSrcModel RtlSrcSpec RtlSrcProofs RtlSrcProofs2.

(** * C97 *)
(** Wanted, for all sizes and lengths: the beats, status messages and reads are those of the descriptors. Proved for blocks of at least one word and, if the RAM is wider than the stream, beats of
    more than one word; for the rest it is false (below). *)
Theorem C97_follows_partial : forall p mem l, src_ok p -> src_wide p -> src_follows p mem (fun _ => []) sm0 (src_trace p src0 l).
Proof. exact src_follows_ok. Qed.
Print Assumptions C97_follows_partial.
(** A beat or a read command that is not taken is kept. *)
Theorem C97_kept : forall p s l a e e' b, src_trace p s l = a ++ e :: e' :: b -> src_kept e e'.
Proof. exact src_kept_all. Qed.
Print Assumptions C97_kept.
(** Beats of one word from a RAM of four words: a block of the words at 0 and 1 comes out as the word at 0, twice. *)
Theorem C97_one_word_refuted : exists p mem l, src_ok p /\ src_assume p mem (fun _ => []) (src_trace p src0 l) /\ ~ src_follows p mem (fun _ => []) sm0 (src_trace p src0 l).
Proof.
  exists src_p1, (fun a => a), src_l1. split; [exists 1, 1, 0; cbn; lia|]. split; [exact one_word_assume | exact one_word_wrong].
Qed.
Print Assumptions C97_one_word_refuted.
(** The only descriptor is for no words; 32 words come out. *)
Theorem C97_zero_refuted : exists p mem l, src_ok p /\ src_wide p /\ ram_all p mem (fun _ => []) (src_trace p src0 l) /\
  (forall e, In e (src_trace p src0 l) -> si_rst (se_in e) = false /\ (se_ready e && si_valid (se_in e) = true -> de_addr (si_desc (se_in e)) = 0 /\ de_len (si_desc (se_in e)) = 0)) /\
  length (filter (fun e => se_tvalid e && si_tready (se_in e) && (bt_keep (se_beat e) =? 3)) (src_trace p src0 l)) = 16%nat.
Proof.
  exists src_p2, (fun a => a), src_l2. split; [exists 1, 1, 1; cbn; lia|]. split; [left; vm_compute; reflexivity|]. split; [apply answers_all_ok; vm_compute; reflexivity|]. split; [|vm_compute; reflexivity].
  assert (H : forallb (fun e => negb (si_rst (se_in e)) && (negb (se_ready e && si_valid (se_in e)) || ((de_addr (si_desc (se_in e)) =? 0) && (de_len (si_desc (se_in e)) =? 0)))) (src_trace src_p2 src0 src_l2) = true) by (vm_compute; reflexivity).
  rewrite forallb_forall in H. intros e E. apply H in E. apply andb_true_iff in E. destruct E as [E1 E2]. split; [now apply negb_true_iff|]. intros T. rewrite T in E2. cbn [negb orb] in E2. apply andb_true_iff in E2. lia.
Qed.
Print Assumptions C97_zero_refuted.

(** Blocks of 3 words at 2 and of 2 words at 9 (that is, at 8) from a RAM with 100 + address; the second beat waits two clocks. *)
Example C97_example : src_ok src_p2 /\ src_wide src_p2 /\ src_assume src_p2 (fun a => a + 100) (fun _ => []) (src_trace src_p2 src0 (src_run1 ++ firstn 5 src_run2)) /\
  map (fun e => (se_tvalid e, bt_data (se_beat e), bt_keep (se_beat e), bt_last (se_beat e), bt_id (se_beat e), se_status e, se_tag e)) (skipn 5 (src_trace src_p2 src0 (src_run1 ++ firstn 5 src_run2)))
  = [(false, 0, 0, false, 0, false, 7); (true, 102 + 103 * 256, 3, false, 1, true, 7); (true, 102 + 103 * 256, 3, false, 1, false, 8); (true, 104 + 105 * 256, 1, true, 1, false, 8); (false, 104 + 105 * 256, 1, true, 1, true, 8);
     (true, 108 + 109 * 256, 3, true, 4, false, 8); (false, 108 + 109 * 256, 3, true, 4, false, 8); (false, 108 + 109 * 256, 3, true, 4, false, 8)].
Proof. split; [exists 1, 1, 1; cbn; lia|]. split; [left; vm_compute; reflexivity|]. split; [apply assumeb_ok; vm_compute; reflexivity | vm_compute; reflexivity]. Qed.
Example C97_kept_example : let tr := src_trace src_p2 src0 src_run1 in
  exists e e', tr = firstn 5 tr ++ nth 5 tr e :: e :: e' :: skipn 8 tr /\ se_tvalid e = true /\ si_tready (se_in e) = false.
Proof. do 2 eexists. split; [vm_compute; reflexivity | split; reflexivity]. Qed.

(** * C98 *)
(** Same restrictions as in C97. *)
Theorem C98_progress_partial : forall p mem l1 l2 i, src_ok p -> src_wide p ->
  let tr1 := src_trace p src0 l1 in let tr2 := src_trace p (src_run p src0 l1) l2 in
  let s := src_run p src0 (l1 ++ l2) in let e := src_event p s i in
  src_assume p mem (fun _ => []) (tr1 ++ tr2) -> src_quiet tr2 ->
  (cl_segs p + 4) * beats_due p (snd (src_after p tr1)) + 1 <= good_clocks p (fst (src_after p tr1)) tr2 ->
  src_done p (snd (src_after p (tr1 ++ tr2))) (fst (src_after p (tr1 ++ tr2))) e /\
  (si_rst i = false -> si_enable i = true -> se_ready e && si_valid i = false -> forall i', se_ready (src_event p (src_step p s i) i') = true).
Proof. exact src_progress_ok. Qed.
Print Assumptions C98_progress_partial.
Example C98_example : let tr1 := src_trace src_p2 src0 src_run1 in let tr2 := src_trace src_p2 (src_run src_p2 src0 src_run1) src_run2 in
  src_assume src_p2 (fun a => a + 100) (fun _ => []) (tr1 ++ tr2) /\ src_quiet tr2 /\
  beats_due src_p2 (snd (src_after src_p2 tr1)) = 2 /\ good_clocks src_p2 (fst (src_after src_p2 tr1)) tr2 = 30 /\ cl_segs src_p2 = 2.
Proof.
  cbn zeta. split; [apply assumeb_ok; vm_compute; reflexivity|]. split; [|vm_compute; auto].
  assert (H : forallb (fun e => negb (si_rst (se_in e)) && negb (se_ready e && si_valid (se_in e))) (src_trace src_p2 (src_run src_p2 src0 src_run1) src_run2) = true) by (vm_compute; reflexivity).
  rewrite forallb_forall in H. apply Forall_forall. intros e E. apply H, andb_true_iff in E. destruct E as [E1 E2]. now apply negb_true_iff in E1, E2.
Qed.
