(** Property theorem C28 (UltraScale stream endpoints). *)
From Verif Require Import PyBase TlpModel TlpSpec UsModel UsSpec UsStreamModel UsStreamSpec UsStreamProofs2 UsStreamProofs3.

(** C28, safety: whatever the frames and the pause schedule, no assertion of
    either side fires and the frames received are, in order, the first of those
    sent. *)
Theorem C28_stream_safe : forall b l, bus_ok b = true -> Forall (frame_ok (b_if b)) (sent l) ->
  exists s k n, us_link_run b (src0, snk0) l = Ok (s, k) /\ k_queue k = map (delivered b) (firstn n (sent l)).
Proof.
  intros b l HB HF. destruct (run_ok b l HB [] (src0, snk0) (inv0 b) HF) as ((s & k) & E & HI & _).
  destruct (inv_prefix b _ s k HI) as (n & HN). exists s, k, n. split; assumption.
Qed.
Print Assumptions C28_stream_safe.

(** C28, completeness: when the source has nothing left, everything has arrived. *)
Theorem C28_stream_complete : forall b l s k, bus_ok b = true -> Forall (frame_ok (b_if b)) (sent l) ->
  us_link_run b (src0, snk0) l = Ok (s, k) -> src_idle s -> k_queue k = map (delivered b) (sent l).
Proof.
  intros b l s k HB HF E HI. destruct (run_ok b l HB [] (src0, snk0) (inv0 b) HF) as ((s' & k') & E' & HIv & _).
  rewrite E in E'. injection E' as <- <-. exact (inv_idle b _ s k HIv HI).
Qed.
Print Assumptions C28_stream_complete.

(** C28, progress: two edges without a pause on either side per transfer, however
    they are spread over time, are enough to deliver everything. *)
Theorem C28_stream_progress : forall b l1 l2, bus_ok b = true -> Forall (frame_ok (b_if b)) (sent l1) -> sent l2 = [] ->
  2 * all_transfers b (sent l1) <= unpaused l2 ->
  exists s k, us_link_run b (src0, snk0) (l1 ++ l2) = Ok (s, k) /\ src_idle s /\ k_queue k = map (delivered b) (sent l1).
Proof.
  intros b l1 l2 HB HF HS HU. destruct (run_ok b l1 HB [] (src0, snk0) (inv0 b) HF) as (st1 & E1 & I1 & M1).
  destruct (drain_ok b l2 HB HS _ st1 I1) as ((s & k) & E2 & I2 & M2).
  exists s, k. split; [|].
  - rewrite <- E2. clear - E1. revert E1. generalize (src0, snk0). induction l1 as [|i l1 IH]; intros st E.
    + cbn in E. injection E as ->. reflexivity.
    + cbn [us_link_run app] in *. destruct (us_link_step b st i); [|discriminate]. cbn [bind] in *. apply IH. exact E.
  - assert (HI : src_idle s).
    { apply (inv_meas0 b _ s k HB I2). change (meas b (src0, snk0)) with (2 * (0 + ceil b 0 + 0) - 0) in M1. rewrite ceil_0 in M1 by exact HB.
      rewrite Z.max_comm in M2. destruct (Z.max_spec (meas b st1 - unpaused l2) 0) as [(_ & E)|(_ & E)]; lia. }
    split; [exact HI|]. exact (inv_idle b _ s k I2 HI).
Qed.
Print Assumptions C28_stream_progress.

Definition C28_bus : us_bus := mkBus RQ 2 62.
Definition C28_frames : list us_frame :=
  [mkFrame [1; 2; 3] [] [4; 5; 6] 15 3 false 37; mkFrame [0xffffffff] [] [9] 7 0 true 63; mkFrame [10; 11; 12; 13] [] [1; 2; 3; 4] 1 8 false 0].
Definition C28_pauses (n : nat) : list us_in :=
  map (fun i => mkIn [] (i mod 3 =? 0)%nat (i mod 2 =? 1)%nat) (seq 0 n).
Example C28_example : bus_ok C28_bus = true /\ Forall (frame_ok RQ) C28_frames /\
  2 * all_transfers C28_bus C28_frames <= unpaused (C28_pauses 30) /\
  (let! st := us_link_run C28_bus (src0, snk0) (mkIn C28_frames true true :: C28_pauses 30) in Ok (k_queue (snd st))) = Ok C28_frames /\
  (let! st := us_link_run C28_bus (src0, snk0) (mkIn C28_frames true true :: C28_pauses 8) in Ok (k_queue (snd st))) = Ok (firstn 2 C28_frames).
Proof.
  split; [reflexivity|]. split; [|split; [vm_compute; discriminate|split; vm_compute; reflexivity]].
  unfold C28_frames, frame_ok, nib, dword. repeat (apply Forall_cons || apply Forall_nil); cbn -[Z.lt Z.le Z.pow];
    (split; [discriminate|]); repeat split; try (repeat (apply Forall_cons || apply Forall_nil)); cbn; lia.
Qed.

(** C28 with the descriptors: TLPs packed, sent over the link with any pauses and
    unpacked (with the parity check) at the other end arrive in order with
    everything the interface carries. *)
Definition payload_ok (u : tlp_us) : Prop := Forall dword (t_data (u_tlp u)).
Definition be_ok (u : tlp_us) : Prop := nib (t_first_be (u_tlp u)) /\ nib (t_last_be (u_tlp u)).
Theorem C28_cq_end_to_end : forall b us frames l s k, bus_ok b = true -> b_if b = CQ ->
  Forall (fun u => us_cq_ok u /\ payload_ok u /\ be_ok u) us -> map pack_us_cq us = map Ok frames -> sent l = frames ->
  us_link_run b (src0, snk0) l = Ok (s, k) -> src_idle s ->
  map (fun f => unpack_us_cq us0 f true) (k_queue k) = map (fun u => Ok (carried_cq u)) us.
Proof.
  intros b us frames l s k HB HIF HU HM HS HR HI. eapply (e2e b); try eassumption.
  intros u f (H1 & H2 & H3 & H4) HP. rewrite HIF. split; [exact (frame_cq u f H1 H2 H3 H4 HP)|exact (deliver_cq b u f HIF H1 HP)].
Qed.
Print Assumptions C28_cq_end_to_end.
Theorem C28_rq_end_to_end : forall b us frames l s k, bus_ok b = true -> b_if b = RQ ->
  Forall (fun u => us_rq_ok u /\ payload_ok u /\ be_ok u /\ 0 <= u_seq_num u < (if b_user b =? 60 then 16 else 64)) us ->
  map pack_us_rq us = map Ok frames -> sent l = frames ->
  us_link_run b (src0, snk0) l = Ok (s, k) -> src_idle s ->
  map (fun f => unpack_us_rq us0 f true) (k_queue k) = map (fun u => Ok (carried_rq u)) us.
Proof.
  intros b us frames l s k HB HIF HU HM HS HR HI. eapply (e2e b); try eassumption.
  intros u f (H1 & H2 & (H3 & H4) & H5) HP. rewrite HIF. split; [exact (frame_rq u f H1 H2 H3 H4 HP)|exact (deliver_rq b u f HIF H1 H5 HP)].
Qed.
Print Assumptions C28_rq_end_to_end.
Theorem C28_cc_end_to_end : forall b us frames l s k, bus_ok b = true -> b_if b = CC ->
  Forall (fun u => us_cpl_ok 128 u /\ payload_ok u) us -> map pack_us_cc us = map Ok frames -> sent l = frames ->
  us_link_run b (src0, snk0) l = Ok (s, k) -> src_idle s ->
  map (fun f => unpack_us_cc us0 f true) (k_queue k) = map (fun u => Ok (carried_cc u)) us.
Proof.
  intros b us frames l s k HB HIF HU HM HS HR HI. eapply (e2e b); try eassumption.
  intros u f (H1 & H2) HP. rewrite HIF. split; [exact (frame_cc u f H1 H2 HP)|exact (deliver_cc b u f HIF H1 HP)].
Qed.
Print Assumptions C28_cc_end_to_end.
Theorem C28_rc_end_to_end : forall b us frames l s k, bus_ok b = true -> b_if b = RC ->
  Forall (fun u => us_cpl_ok 4096 u /\ payload_ok u) us -> map pack_us_rc us = map Ok frames -> sent l = frames ->
  us_link_run b (src0, snk0) l = Ok (s, k) -> src_idle s ->
  map (fun f => unpack_us_rc us0 f true) (k_queue k) = map (fun u => Ok (carried_rc u)) us.
Proof.
  intros b us frames l s k HB HIF HU HM HS HR HI. eapply (e2e b); try eassumption.
  intros u f (H1 & H2) HP. rewrite HIF. split; [exact (frame_rc u f H1 H2 HP)|exact (deliver_rc b u f HIF H1 HP)].
Qed.
Print Assumptions C28_rc_end_to_end.
Definition C28_cpl : tlp_us :=
  mkUs (mkTlp 2 10 5 0 0 0 3 0 3 (mkId 40 1 7) 0 0 9 (mkId 17 3 5) (mkId 0 0 0) 200 0 0 0x42 0 0 [1; 0xffffffff; 7])
    0 0 false false true 0 4.
Example C28_e2e_example : us_cpl_ok 4096 C28_cpl /\ payload_ok C28_cpl /\
  (let! f := pack_us_rc C28_cpl in
   let! st := us_link_run (mkBus RC 4 75) (src0, snk0) (mkIn [f; f] true true :: C28_pauses 30) in
   Ok (s_queue (fst st), s_data (fst st), s_active (fst st), map (fun f => unpack_us_rc us0 f true) (k_queue (snd st)))) =
  Ok ([], [], false, [Ok (carried_rc C28_cpl); Ok (carried_rc C28_cpl)]).
Proof.
  split; [|split; [|vm_compute; reflexivity]].
  - unfold us_cpl_ok, us_common, id_ok; cbn; repeat split; try lia; right; repeat split; try lia; auto.
  - unfold payload_ok, dword. cbn. repeat (apply Forall_cons || apply Forall_nil); lia.
Qed.

(** C28, full statement over every frame the classes accept: a frame without data
    queued at a source is dropped silently. *)
Theorem C28_empty_frame_refuted : exists l s k, us_link_run C28_bus (src0, snk0) l = Ok (s, k) /\ src_idle s /\
  unpaused l = 6 /\ sent l = [frame0] /\ k_queue k = [].
Proof.
  exists (mkIn [frame0] false false :: repeat (mkIn [] false false) 5). eexists _, _. split; [vm_compute; reflexivity|].
  repeat split; vm_compute; reflexivity.
Qed.
Print Assumptions C28_empty_frame_refuted.

(** C28, full statement including resets: a sink that comes out of reset while the
    source is holding a transfer takes that transfer before it has offered
    [tready], and again when it has. *)
Theorem C28_sink_reset_refuted : exists f s1 s2 s3 k1 k2 k3,
  frame_ok RQ f /\
  src_step C28_bus (src_send src0 [f]) false false false = Ok s1 /\ snk_step C28_bus snk0 true false false (s_beat src0) = Ok k1 /\
  src_step C28_bus s1 false false (snk_tready k1 false) = Ok s2 /\ snk_step C28_bus k1 false false (s_tvalid s1) (s_beat s1) = Ok k2 /\
  src_step C28_bus s2 false false (snk_tready k2 false) = Ok s3 /\ snk_step C28_bus k2 false false (s_tvalid s2) (s_beat s2) = Ok k3 /\
  src_idle s3 /\ k_queue k3 = [f; f].
Proof.
  exists (mkFrame [7] [] [2] 1 0 false 0). do 6 eexists. split.
  { unfold frame_ok, nib, dword. cbn -[Z.lt Z.le Z.pow]. (split; [discriminate|]); repeat split; try (repeat (apply Forall_cons || apply Forall_nil)); cbn; lia. }
  do 6 (split; [vm_compute; reflexivity|]). split; [repeat split; vm_compute; reflexivity|vm_compute; reflexivity].
Qed.
Print Assumptions C28_sink_reset_refuted.
