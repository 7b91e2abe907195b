(** C81, C82: flow control counters in RTL. *)
From Verif Require Import PyBase RtlModel RtlFcModel RtlFcSpec RtlFcProofs.

(** * C81 *)
(** For any number of segments: the outputs after a clock are the header and data credits, by class, of
    the TLPs that started in that clock (modulo the output widths), if no payload exceeds 512 DWORDs. *)
Theorem C81_counts_partial : forall segs hdr valid sop ready,
  Forall (fun h => Z.testbit (fst h) 6 = true -> dwords (snd h) <= 512) (starts hdr valid sop ready segs) ->
  fc_step segs false hdr valid sop ready = fc_mod (counts_of (starts hdr valid sop ready segs)).
Proof. intros. now apply fc_next_ok. Qed.
Print Assumptions C81_counts_partial.
(** Two segments: a memory write of 512 DWORDs and a completion with 5; a third, not valid. *)
Definition hdr3 : Z := (0x60000000 + 0) * 2 ^ 352 + (0x4a000000 + 5) * 2 ^ 224 + (0x40000000 + 512) * 2 ^ 96.
Example C81_example : starts hdr3 3 7 true 3 = [(0x40, 512); (0x4a, 5)] /\ fc_step 3 false hdr3 3 7 true = mkFc 1 128 0 0 1 2.
Proof. vm_compute. auto. Qed.
(** The length field has 10 bits but only 9 are used: a 4096 byte write counts as 2048 bytes, one of 513
    DWORDs as one DWORD. *)
Theorem C81_length_refuted : exists hdr hdr', starts hdr 1 1 true 1 = [(0x40, 0)] /\ fc_step 1 false hdr 1 1 true = mkFc 1 128 0 0 0 0 /\ credits (0x40, 0) = 256 /\
  starts hdr' 1 1 true 1 = [(0x40, 513)] /\ fc_step 1 false hdr' 1 1 true = mkFc 1 1 0 0 0 0 /\ credits (0x40, 513) = 129.
Proof. exists (0x40000000 * 2 ^ 96), ((0x40000000 + 513) * 2 ^ 96). vm_compute. repeat split; reflexivity. Qed.
Print Assumptions C81_length_refuted.

(** * C82 *)
(** If the limit of this counter is shown in every cycle, fc_av is exactly the credits announced up to the
    previous cycle and not used. *)
Theorem C82_exact_partial : forall w index l, 0 < w -> acct_run_ok w acct0 l ->
  let a := fold_left acct_step l acct0 in pt_av (pt_run w index pt0 (shown w index 0 l)) = a_old a - a_used a.
Proof. intros w index l Hw H. apply (pt_exact w index Hw l pt0 acct0 H); cbn; try lia. Qed.
Print Assumptions C82_exact_partial.
(** Whatever the inputs, fc_av never exceeds the first limit. *)
Theorem C82_bounded : forall w index l, 0 <= w -> Forall (fun i => 0 <= pi_limit i) l -> let s := pt_run w index pt0 l in 0 <= pt_av s <= pt_cap s.
Proof. intros w index l Hw H. apply pt_bounded; cbn; try lia; assumption. Qed.
Print Assumptions C82_bounded.
Example C82_example : acct_run_ok 12 acct0 [(8, 0); (0, 0); (0, 3); (2, 5); (4, 0); (0, 2)] /\
  pt_av (pt_run 12 0 pt0 (shown 12 0 0 [(8, 0); (0, 0); (0, 3); (2, 5); (4, 0); (0, 2)])) = 4.
Proof. split; [|reflexivity]. cbn. unfold acct_ok. cbn. repeat split; lia. Qed.
(** The limits of the counters are shown in turn.  The increment of a counter is kept while the others are
    shown and added again in each cycle: 8 credits are announced once, and a sender that never
    uses more than fc_av uses 24. *)
Theorem C82_turns_refuted : exists l, map pi_limit (filter (fun i => pi_idx i =? 0) l) = [8] /\ Forall (fun i => pi_rst i = false) l /\
  (forall k i, nth_error l k = Some i -> pi_dec i <= pt_av (pt_run 12 0 pt0 (firstn k l))) /\ zsum (map pi_dec l) = 24.
Proof.
  exists [mkPtIn false 8 0 0; mkPtIn false 0 1 0; mkPtIn false 0 2 8; mkPtIn false 0 4 8; mkPtIn false 0 5 8].
  split; [reflexivity|]. split; [repeat constructor|]. split; [|reflexivity].
  intros [|[|[|[|[|[|k]]]]]] i; cbn [nth_error]; intros [= <-]; vm_compute; congruence.
Qed.
Print Assumptions C82_turns_refuted.
