(** C105, C106: the AXI write master. *)
From Verif Require Import PyBase RtlModel RtlAxmSpec RtlAxwModel RtlAxwSpec RtlAxwProofs RtlAxwProofs2 RtlAxwProofs3 RtlAxwProofs4.

(** * C105 *)
(** Wanted: for all writes, with bursts of at most AXI_MAX_BURST_LEN beats. Proved for writes that fit in one burst (bw_assume1); for others it is false (below). *)
Theorem C105_follows_partial : forall p l, bw_ok p -> bw_follows p bm0 (bw_trace p bw0 l).
Proof. intros p l OK. exact (bw_follows_ok p OK l). Qed.
Print Assumptions C105_follows_partial.
(** A beat that is shown and not taken is kept, for all TLPs. *)
Theorem C105_kept : forall p l a e e' b, bw_trace p bw0 l = a ++ e :: e' :: b -> bw_kept e e'.
Proof. exact bw_kept_ok. Qed.
Print Assumptions C105_kept.
(** An address that is shown and not taken is kept, if the writes fit in a burst. *)
Theorem C105_address_kept_partial : forall p l a e e' b, bw_ok p -> bw_trace p bw0 l = a ++ e :: e' :: b -> bw_assume p bm0 (a ++ [e]) -> bw_akept e e'.
Proof. intros p l a e e' b OK. exact (bw_akept_ok p OK l a e e' b). Qed.
Print Assumptions C105_address_kept_partial.

(** A write that is split into bursts, from a source that always has the next beat, and AXI always ready: other data is written. *)
Theorem C105_split_refuted : exists p l h ds, bw_ok p /\ let tr := bw_trace p bw0 l in
  is_write h = true /\ Z.of_nat (length ds) = beats_in p h /\ (forall e, In e tr -> bi_rst (bv_in e) = false) /\
  map (fun e => (bi_hdr (bv_in e), bi_data (bv_in e))) (filter b_taken tr) = map (fun d => (h, d)) ds /\
  map fst (axi_bytes p tr) = map fst (tlp_bytes p h ds) /\ axi_bytes p tr <> tlp_bytes p h ds.
Proof.
  exists bw_p2, bw_l4, bw_h4, [pk 1; pk 2; pk 3; pk 4]. split; [exact bw_p2_ok|]. cbn zeta. split; [vm_compute; reflexivity|]. split; [vm_compute; reflexivity|]. split.
  - assert (H : forallb (fun e => negb (bi_rst (bv_in e))) (bw_trace bw_p2 bw0 bw_l4) = true) by (vm_compute; reflexivity). rewrite forallb_forall in H. intros e E. apply H in E. destruct (bi_rst (bv_in e)); [discriminate | reflexivity].
  - split; [vm_compute; reflexivity|]. split; [vm_compute; reflexivity|]. vm_compute. discriminate.
Qed.
Print Assumptions C105_split_refuted.
(** A write of AXI_MAX_BURST_SIZE bytes that is not aligned: a burst of more than AXI_MAX_BURST_LEN beats. *)
Theorem C105_burst_refuted : exists p l, bw_ok p /\ exists e, In e (bw_trace p bw0 l) /\ bv_awv e = true /\ bv_awlen e + 1 > bp_max p.
Proof.
  exists bw_p2, bw_l5. split; [exact bw_p2_ok|]. assert (H : existsb (fun e => bv_awv e && (bp_max bw_p2 <? bv_awlen e + 1)) (bw_trace bw_p2 bw0 bw_l5) = true) by (vm_compute; reflexivity).
  apply existsb_exists in H. destruct H as [e [E H]]. apply andb_true_iff in H. destruct H as [H1 H2]. exists e. split; [exact E|]. split; [exact H1 | lia].
Qed.
Print Assumptions C105_burst_refuted.
(** With bursts of 256 beats, the default: the length wraps to one beat. All 256 beats of the TLP are taken, and one beat is put out. *)
Theorem C105_wrap_refuted : exists p l h ds, bw_ok p /\ bp_max p = 256 /\ let tr := bw_trace p bw0 l in
  is_write h = true /\ dws h = 512 /\ beats_in p h = 256 /\ length ds = 256%nat /\ map (fun e => (bi_hdr (bv_in e), bi_data (bv_in e))) (filter b_taken tr) = map (fun d => (h, d)) ds /\
  map (fun e => (bv_awaddr e, bv_awlen e)) (filter bv_awv tr) = [(waddr p h, 0)] /\ length (filter bv_wv tr) = 1%nat.
Proof. exists bw_p1, bw_l6, bw_h6, (repeat (pk 1) 256). split; [exact bw_p1_ok|]. split; [reflexivity|]. cbn zeta. repeat split; vm_compute; reflexivity. Qed.
Print Assumptions C105_wrap_refuted.
(** The address of the next burst replaces one that is not taken yet. *)
Theorem C105_address_refuted : exists p l a e e' b, bw_ok p /\ bw_trace p bw0 l = a ++ e :: e' :: b /\ ~ bw_akept e e'.
Proof.
  set (l := map aw_hold bw_l4). set (tr := bw_trace bw_p2 bw0 l). set (n := 3%nat). exists bw_p2, l, (firstn n tr), (nth n tr (bw_event bw0 widle)), (nth (S n) tr (bw_event bw0 widle)), (skipn (S (S n)) tr).
  split; [exact bw_p2_ok|]. split; [reflexivity|]. intros K. destruct (K ltac:(vm_compute; reflexivity) ltac:(vm_compute; reflexivity) ltac:(vm_compute; reflexivity)) as [_ [K1 _]]. vm_compute in K1. discriminate.
Qed.
Print Assumptions C105_address_refuted.

(** A write of 5 double words without its first and last bytes, a read, and a write of one byte: the bursts, the bytes that are written, and the error. *)
Example C105_example : let tr := bw_trace bw_p1 bw0 bw_l1 in bw_ok bw_p1 /\ bw_assume bw_p1 bm0 tr /\
  map (fun e => (bv_awaddr e, bv_awlen e)) (filter bv_awv tr) = [(0x1004, 2); (0x2004, 0)] /\
  axi_bytes bw_p1 tr = tlp_bytes bw_p1 bw_h1 [pk 1; pk 2; pk 3] ++ tlp_bytes bw_p1 bw_h3 [pk 4] /\
  tlp_bytes bw_p1 bw_h1 [pk 1; pk 2; pk 3] = [(4101, 17); (4102, 18); (4103, 19); (4104, 20); (4105, 21); (4106, 22); (4107, 23); (4108, 32); (4109, 33); (4110, 34); (4111, 35); (4112, 36); (4113, 37); (4114, 38); (4115, 39); (4116, 48); (4117, 49)] /\
  tlp_bytes bw_p1 bw_h3 [pk 4] = [(0x2007, 67)] /\ length (filter bv_unc tr) = 1%nat.
Proof. cbn zeta. split; [exact bw_p1_ok|]. split; [apply bw_assumeb_ok; vm_compute; reflexivity|]. repeat split; vm_compute; reflexivity. Qed.
(** The first beat and the first address wait. *)
Example C105_kept_example : let tr := bw_trace bw_p1 bw0 (map w_hold bw_l1) in
  exists e e', tr = firstn 6 tr ++ e :: e' :: skipn 8 tr /\ bi_rst (bv_in e) = false /\ bv_wv e = true /\ bi_wready (bv_in e) = false /\ bv_awv e = true /\ bi_awready (bv_in e) = false /\ bw_assume bw_p1 bm0 (firstn 6 tr ++ [e]) /\ bb_strb (bv_w e') = 224 /\ bv_awaddr e' = 0x1004.
Proof.
  cbn zeta. set (tr := bw_trace bw_p1 bw0 (map w_hold bw_l1)). exists (nth 6 tr (bw_event bw0 widle)), (nth 7 tr (bw_event bw0 widle)).
  split; [reflexivity|]. do 5 (split; [vm_compute; reflexivity|]). split; [apply bw_assumeb_ok; vm_compute; reflexivity|]. split; vm_compute; reflexivity.
Qed.

(** * C106 *)
(** After 44 good clocks in which nothing is taken all beats of all writes are out, except for beats of a TLP that is not complete; nothing is shown, and two clocks later the next beat is accepted. *)
Theorem C106_progress : forall p l1 l2 l3, bw_ok p -> let tr1 := bw_trace p bw0 l1 in let tr2 := bw_trace p (bw_run p bw0 l1) l2 in let tr3 := bw_trace p (bw_run p bw0 (l1 ++ l2)) l3 in
  bw_assume p bm0 tr1 -> bw_quiet tr2 -> 44 <= bw_goods tr2 -> bw_quiet tr3 -> bw_done (bw_after p (tr1 ++ tr2)) /\ Forall bw_still tr3 /\ Forall (fun e => bv_ready e = true) (skipn 2 tr3).
Proof. intros p l1 l2 l3 OK. exact (bw_progress_ok p OK l1 l2 l3). Qed.
Print Assumptions C106_progress.
(** The TLPs of the example of C105 while AXI takes nothing. *)
Example C106_example : let l1 := map w_hold bw_l1 in let l2 := repeat widle 45 in let tr1 := bw_trace bw_p1 bw0 l1 in let tr2 := bw_trace bw_p1 (bw_run bw_p1 bw0 l1) l2 in
  bw_ok bw_p1 /\ bw_assume bw_p1 bm0 tr1 /\ bw_quiet tr2 /\ bw_goods tr2 = 45 /\ length (bm_jobs (bw_after bw_p1 tr1)) = 1%nat /\ bw_quiet (bw_trace bw_p1 (bw_run bw_p1 bw0 (l1 ++ l2)) l2).
Proof.
  cbn zeta. split; [exact bw_p1_ok|]. split; [apply bw_assumeb_ok; vm_compute; reflexivity|].
  assert (Q : forall tr, forallb (fun e => negb (bi_rst (bv_in e)) && negb (b_taken e)) tr = true -> bw_quiet tr).
  { intros tr H. rewrite forallb_forall in H. apply Forall_forall. intros e E. apply H, andb_true_iff in E. destruct E as [E1 E2]. apply negb_true_iff in E1, E2. auto. }
  split; [apply Q; vm_compute; reflexivity|]. split; [vm_compute; reflexivity|]. split; [vm_compute; reflexivity|]. apply Q; vm_compute; reflexivity.
Qed.
