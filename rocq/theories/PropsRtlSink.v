(** C99, C100: the AXI stream sink. *)
From Verif Require Import PyBase RtlModel RtlSrcModel RtlSrcSpec RtlSrcProofs2 RtlSinkModel RtlSinkSpec RtlSinkProofs RtlSinkProofs2.

(** * C99 *)
(** Wanted, for all sizes and lengths, and with tkeep ignored if AXIS_KEEP_ENABLE is 0: the writes and status messages are those of the descriptors and packets. Proved for blocks of at least one word,
    beats of more than one word or as wide as the RAM, and tkeep tied to one without AXIS_KEEP_ENABLE; for the rest it is false (below). *)
Theorem C99_follows_partial : forall p l, src_ok p -> src_wide p -> sk_follows p mo0 (sk_trace p sk0 l).
Proof. exact sk_follows_ok. Qed.
Print Assumptions C99_follows_partial.
(** A write command that is not taken is kept. *)
Theorem C99_kept : forall p s l a e e' b, sk_trace p s l = a ++ e :: e' :: b -> cmd_kept e e'.
Proof. exact sk_kept_all. Qed.
Print Assumptions C99_kept.
(** Beats of one word into a RAM of four words: the word for address 1 is written to address 0. *)
Theorem C99_one_word_refuted : exists p l, src_ok p /\ sk_assume p mo0 (sk_trace p sk0 l) /\ ~ sk_follows p mo0 (sk_trace p sk0 l).
Proof. exists sk_p1, sk_l1. split; [exists 1, 1, 0; cbn; lia|]. split; [exact sk_one_assume | exact sk_one_wrong]. Qed.
Print Assumptions C99_one_word_refuted.
(** The only descriptor is for no words; 24 words are written. *)
Theorem C99_zero_refuted : exists p l, src_ok p /\ src_wide p /\
  (forall e, In e (sk_trace p sk0 l) -> ki_rst (kv_in e) = false /\ ki_done (kv_in e) = 0 /\ (kv_ready e && ki_valid (kv_in e) = true -> de_addr (ki_desc (kv_in e)) = 0 /\ de_len (ki_desc (kv_in e)) = 0)) /\
  forall n, 0 <= n < cl_segs p -> length (filter (fun e => kv_cvalid e n && bit (ki_cready (kv_in e)) n && (kc_be (kv_cmd e n) =? 3)) (sk_trace p sk0 l)) = 6%nat.
Proof.
  exists sk_p2, sk_l2. split; [exists 1, 1, 1; cbn; lia|]. split; [left; vm_compute; reflexivity|]. split.
  - assert (H : forallb (fun e => negb (ki_rst (kv_in e)) && (ki_done (kv_in e) =? 0) && (negb (kv_ready e && ki_valid (kv_in e)) || ((de_addr (ki_desc (kv_in e)) =? 0) && (de_len (ki_desc (kv_in e)) =? 0)))) (sk_trace sk_p2 sk0 sk_l2) = true) by (vm_compute; reflexivity).
    rewrite forallb_forall in H. intros e E. apply H in E. apply andb_true_iff in E. destruct E as [E E2]. apply andb_true_iff in E. destruct E as [E0 E1]. split; [now apply negb_true_iff|]. split; [lia|]. intros T. rewrite T in E2. cbn [negb orb] in E2. apply andb_true_iff in E2. lia.
  - intros n N. change (cl_segs sk_p2) with 2 in N. assert (C : n = 0 \/ n = 1) by lia. destruct C as [-> | ->]; vm_compute; reflexivity.
Qed.
Print Assumptions C99_zero_refuted.
(** AXIS_KEEP_ENABLE is 0 and tkeep is 0: a block of one word, whose word is taken, gets its status with length 1, and nothing is written. *)
Theorem C99_no_keep_refuted : exists p l, src_ok p /\ src_wide p /\ cl_ken p = false /\
  (forall e, In e (sk_trace p sk0 l) -> ki_rst (kv_in e) = false /\ ki_done (kv_in e) = 0 /\ (kv_ready e && ki_valid (kv_in e) = true -> desc_ok p (ki_desc (kv_in e)))) /\
  (exists e, In e (sk_trace p sk0 l) /\ kv_tready e && ki_tvalid (kv_in e) = true) /\ (exists e, In e (sk_trace p sk0 l) /\ kv_status e = true /\ kt_len (kv_stat e) = 1) /\
  forall e n, In e (sk_trace p sk0 l) -> 0 <= n < cl_segs p -> kv_cvalid e n = false.
Proof.
  exists sk_p3, sk_l3. split; [exists 0, 0, 0; cbn; lia|]. split; [right; vm_compute; reflexivity|]. split; [reflexivity|]. split; [|split; [|split]].
  - assert (H : forallb (fun e => negb (ki_rst (kv_in e)) && (ki_done (kv_in e) =? 0) && (negb (kv_ready e && ki_valid (kv_in e)) || descb sk_p3 (ki_desc (kv_in e)))) (sk_trace sk_p3 sk0 sk_l3) = true) by (vm_compute; reflexivity).
    rewrite forallb_forall in H. intros e E. apply H in E. apply andb_true_iff in E. destruct E as [E E2]. apply andb_true_iff in E. destruct E as [E0 E1]. split; [now apply negb_true_iff|]. split; [lia|]. intros T. rewrite T in E2. cbn [negb orb] in E2. unfold descb in E2. unfold desc_ok. lia.
  - assert (H : existsb (fun e => kv_tready e && ki_tvalid (kv_in e)) (sk_trace sk_p3 sk0 sk_l3) = true) by (vm_compute; reflexivity). apply existsb_exists in H. exact H.
  - assert (H : existsb (fun e => kv_status e && (kt_len (kv_stat e) =? 1)) (sk_trace sk_p3 sk0 sk_l3) = true) by (vm_compute; reflexivity). apply existsb_exists in H. destruct H as [e [E H]]. apply andb_true_iff in H. exists e. split; [exact E|]. split; [apply H | lia].
  - assert (H : forallb (fun e => negb (kv_cvalid e 0)) (sk_trace sk_p3 sk0 sk_l3) = true) by (vm_compute; reflexivity). rewrite forallb_forall in H. intros e n E N. apply H in E. change (cl_segs sk_p3) with 1 in N. replace n with 0 by lia. now apply negb_true_iff.
Qed.
Print Assumptions C99_no_keep_refuted.

(** Blocks of 3 words at 2 and of 8 words at 9 (that is, at 8) with a packet of only 3 words; what is seen from the first write on. *)
Example C99_example : src_ok sk_p2 /\ src_wide sk_p2 /\ sk_assume sk_p2 mo0 (sk_trace sk_p2 sk0 (sk_run1 ++ firstn 5 sk_run2)) /\
  map (fun e => (kv_status e, kt_tag (kv_stat e), kt_len (kv_stat e), (kv_cvalid e 0, kc_be (kv_cmd e 0), kc_addr (kv_cmd e 0), kc_data (kv_cmd e 0)), (kv_cvalid e 1, kc_be (kv_cmd e 1), kc_addr (kv_cmd e 1), kc_data (kv_cmd e 1)))) (skipn 4 (sk_trace sk_p2 sk0 (sk_run1 ++ firstn 5 sk_run2)))
  = [(false, 7, 2, (false, 0, 0, 0), (true, 3, 0, 513)); (false, 7, 2, (true, 1, 1, 1027), (false, 3, 0, 513)); (false, 7, 2, (false, 1, 1, 1027), (false, 3, 0, 513)); (false, 7, 2, (true, 3, 2, 1541), (false, 3, 0, 513));
     (true, 7, 3, (false, 3, 2, 1541), (true, 1, 2, 2055)); (false, 8, 2, (false, 3, 2, 1541), (false, 1, 2, 2055)); (false, 8, 2, (false, 3, 2, 1541), (false, 1, 2, 2055)); (true, 8, 3, (false, 3, 2, 1541), (false, 1, 2, 2055))].
Proof. split; [exists 1, 1, 1; cbn; lia|]. split; [left; vm_compute; reflexivity|]. split; [apply sk_assumeb_ok; vm_compute; reflexivity | vm_compute; reflexivity]. Qed.
(** A command for segment 1 waits. *)
Example C99_kept_example : let tr := sk_trace sk_p2 sk0 (map no_ready sk_run1) in
  exists e e', tr = firstn 4 tr ++ e :: e' :: skipn 6 tr /\ ki_rst (kv_in e) = false /\ kv_cvalid e 1 = true /\ bit (ki_cready (kv_in e)) 1 = false /\ kv_cmd e' 1 = mkKc 3 0 513.
Proof.
  cbn zeta. set (tr := sk_trace sk_p2 sk0 (map no_ready sk_run1)). exists (nth 4 tr (sk_event sk0 (nth 0 sk_run1 (mkKi false (mkDe 0 0 kmeta) false 0 0 false false 0 0 0 0 0 false)))), (nth 5 tr (sk_event sk0 (nth 0 sk_run1 (mkKi false (mkDe 0 0 kmeta) false 0 0 false false 0 0 0 0 0 false)))).
  split; [reflexivity|]. repeat split; vm_compute; reflexivity.
Qed.

(** * C100 *)
(** Same restrictions as in C99. *)
Theorem C100_progress_partial : forall p l1 l2 i1 i2 i3, src_ok p -> src_wide p ->
  let tr1 := sk_trace p sk0 l1 in let tr2 := sk_trace p (sk_run p sk0 l1) l2 in let s := sk_run p sk0 (l1 ++ l2) in let s1 := sk_step p s i1 in
  let m := sk_after p (tr1 ++ tr2) in let e3 := sk_event (sk_step p s1 i2) i3 in
  sk_assume p mo0 (tr1 ++ tr2) -> sk_quiet tr2 -> 54 * cl_segs p + 37 <= sk_goods p (sk_after p tr1) tr2 ->
  sk_done p m /\ (sk_quiet [sk_event s i1; sk_event s1 i2] -> (mo_cur m <> CIdle -> kv_tready e3 = true) /\ (mo_cur m = CIdle -> ki_enable i2 = true -> kv_ready e3 = true)).
Proof. exact sk_progress_ok. Qed.
Print Assumptions C100_progress_partial.
Example C100_example : let tr1 := sk_trace sk_p2 sk0 sk_run1 in let tr2 := sk_trace sk_p2 (sk_run sk_p2 sk0 sk_run1) sk_run2 in
  sk_assume sk_p2 mo0 (tr1 ++ tr2) /\ sk_quiet tr2 /\ sk_goods sk_p2 (sk_after sk_p2 tr1) tr2 = 150 /\ cl_segs sk_p2 = 2 /\ length (mo_t (sk_after sk_p2 tr1)) = 4%nat /\ mo_w (sk_after sk_p2 tr1) 1 <> [].
Proof.
  cbn zeta. split; [apply sk_assumeb_ok; vm_compute; reflexivity|]. split; [|split; [vm_compute; reflexivity | split; [reflexivity | split; [vm_compute; reflexivity | vm_compute; discriminate]]]].
  assert (H : forallb (fun e => negb (ki_rst (kv_in e)) && negb (kv_ready e && ki_valid (kv_in e)) && negb (kv_tready e && ki_tvalid (kv_in e))) (sk_trace sk_p2 (sk_run sk_p2 sk0 sk_run1) sk_run2) = true) by (vm_compute; reflexivity).
  rewrite forallb_forall in H. apply Forall_forall. intros e E. apply H, andb_true_iff in E. destruct E as [E E2]. apply andb_true_iff in E. destruct E as [E0 E1]. now apply negb_true_iff in E0, E1, E2.
Qed.
