(** Property theorems C41-C45 (priority encoder, arbiter, pulse merger). *)
From Verif Require Import PyBase RtlModel RtlSpec RtlProofs RtlProofs2.
From Coq Require Import ZifyBool ZifyNat.

(** C41. *)
Theorem C41_priority_encoder : forall width lsb x, 2 <= width -> vec width x ->
  let '(v, e, u) := priority_encoder width lsb x in
  v = (if x =? 0 then 0 else 1) /\ (x <> 0 -> winner lsb x e /\ e < width /\ u = 2 ^ e).
Proof. exact encoder_ok. Qed.
Print Assumptions C41_priority_encoder.
Example C41_example : vec 11 0x2c8 /\ priority_encoder 11 true 0x2c8 = (1, 3, 8) /\ priority_encoder 11 false 0x2c8 = (1, 9, 512).
Proof. split; [split; [discriminate|reflexivity]|]. split; vm_compute; reflexivity. Qed.

(** C42: after any history the grant vector, the encoded grant and the valid output
    agree, at most one bit is set ... *)
Theorem C42_one_hot : forall p l, arb_ok p -> Forall (arb_in_ok p) l ->
  let s := arb_run p arb0 l in
  if as_valid s then 0 <= as_enc s < ap_ports p /\ as_grant s = 2 ^ as_enc s else as_enc s = 0 /\ as_grant s = 0.
Proof. intros p l HP HF. exact (proj1 (arb_run_inv p l arb0 HP HF (arb_inv0 p HP))). Qed.
Print Assumptions C42_one_hot.
(** ... and a grant that is not a held one goes to a port requesting at that clock. *)
Theorem C42_only_requesters : forall p l i, arb_ok p -> Forall (arb_in_ok p) l -> arb_in_ok p i ->
  let s := arb_run p arb0 l in let s' := arb_step p s i in
  ap_block p && as_valid s && negb (released p i (as_enc s)) = false -> as_valid s' = true -> Z.testbit (ai_req i) (as_enc s') = true.
Proof. intros p l i HP HF HI. exact (arb_new p _ i HP HI (arb_run_inv p l arb0 HP HF (arb_inv0 p HP))). Qed.
Print Assumptions C42_only_requesters.
Definition ex_arb (blk : bool) : arb_param := mkArb 5 true blk true true.
Definition ex_arb_in : list arb_in := [mkArbIn false 0x16 0; mkArbIn false 0x16 0; mkArbIn false 0x17 0; mkArbIn false 1 0].
Example C42_example : Forall (arb_in_ok (ex_arb false)) ex_arb_in /\ granted (ex_arb false) arb0 ex_arb_in = [1; 2; 4; 0] /\
  as_grant (arb_run (ex_arb false) arb0 ex_arb_in) = 1.
Proof. split; [repeat (apply Forall_cons || apply Forall_nil); split; split; cbn; lia|]. split; vm_compute; reflexivity. Qed.

(** C43: a port that keeps requesting is granted after at most PORTS-1 grants to
    others, from any reachable state ... *)
Theorem C43_no_starvation : forall p port l1 l2, arb_ok p -> ap_rr p = true -> 0 <= port < ap_ports p ->
  Forall (arb_in_ok p) l1 -> Forall (arb_in_ok p) l2 -> Forall (fun i => requests i port) l2 ->
  let s := arb_run p arb0 l1 in
  ~ In port (granted p s l2) -> zlen (granted p s l2) <= ap_ports p - 1.
Proof.
  intros p port l1 l2 HP HR Hp H1 H2 HQ s HN. pose proof (arb_run_inv p l1 arb0 HP H1 (arb_inv0 p HP)) as HS. pose proof HS as (_ & m & HM).
  pose proof (rr_run p port HP HR Hp l2 s m HS HM H2 HQ HN). pose proof (rr_bound p m port (proj1 HM) Hp). lia.
Qed.
Print Assumptions C43_no_starvation.
(** ... and without blocking, within PORTS clocks. *)
Theorem C43_within_ports_clocks : forall p port l1 l2, arb_ok p -> ap_rr p = true -> ap_block p = false -> 0 <= port < ap_ports p ->
  Forall (arb_in_ok p) l1 -> Forall (arb_in_ok p) l2 -> Forall (fun i => requests i port) l2 -> ap_ports p <= zlen l2 ->
  In port (granted p (arb_run p arb0 l1) l2).
Proof.
  intros p port l1 l2 HP HR HB Hp H1 H2 HQ HL. destruct (in_dec Z.eq_dec port (granted p (arb_run p arb0 l1) l2)) as [HI|HI]; [assumption|exfalso].
  pose proof (arb_run_inv p l1 arb0 HP H1 (arb_inv0 p HP)) as HS. pose proof HS as (_ & m & HM).
  pose proof (rr_run p port HP HR Hp l2 _ m HS HM H2 HQ HI). pose proof (rr_bound p m port (proj1 HM) Hp).
  pose proof (granted_len p port HP HB l2 _ HS H2 HQ ltac:(lia)). unfold zlen in *. lia.
Qed.
Print Assumptions C43_within_ports_clocks.
Example C43_example : let l2 := [mkArbIn false 0x1f 0; mkArbIn false 0x1f 0; mkArbIn false 0x1f 0; mkArbIn false 0x1f 0] in
  Forall (fun i => requests i 4) l2 /\ granted (ex_arb false) (arb_run (ex_arb false) arb0 [mkArbIn false 0x10 0]) l2 = [0; 1; 2; 3].
Proof. split; [repeat constructor|vm_compute; reflexivity]. Qed.

(** C44: a blocking arbiter keeps its grant until the granted port releases it. *)
Theorem C44_grant_held : forall p l1 l2, arb_ok p -> Forall (arb_in_ok p) l1 -> ap_block p = true ->
  let s := arb_run p arb0 l1 in
  as_valid s = true -> Forall (fun i => released p i (as_enc s) = false) l2 -> arb_run p s l2 = s.
Proof. intros p l1 l2 HP HF HB s HV HR. exact (arb_held p l2 s (arb_run_inv p l1 arb0 HP HF (arb_inv0 p HP)) HB HV HR). Qed.
Print Assumptions C44_grant_held.
Example C44_example : let s := arb_run (ex_arb true) arb0 [mkArbIn false 0x16 0] in as_valid s = true /\ as_enc s = 1 /\
  Forall (fun i => released (ex_arb true) i (as_enc s) = false) [mkArbIn false 0x1f 0x1d; mkArbIn false 0 0] /\
  as_enc (arb_step (ex_arb true) s (mkArbIn false 0x1f 0x02)) = 2.
Proof. split; [reflexivity|]. split; [reflexivity|]. split; [repeat constructor|reflexivity]. Qed.

(** C45: pulses out plus pulses pending equal pulses in, and the count output is the
    backlog of an ideal merger, while that backlog fits the counter. *)
Theorem C45_conservation : forall iw cw l, 0 <= cw -> no_reset l -> fits iw cw l ->
  let '(s, o) := pm_run iw cw (mkPm 0 false) l in
  received iw l = emitted o + pm_count s /\ pm_count s = backlog iw 0 l /\ length o = length l.
Proof.
  intros iw cw l Hc HN HF. pose proof (pm_run_ok iw cw Hc l 0 false HN) as H. assert (0 < 2 ^ cw) by (apply Z.pow_pos_nonneg; lia).
  specialize (H ltac:(lia) HF). destruct (pm_run iw cw (mkPm 0 false) l) as [s o]. destruct H as (H1 & H2 & H3). repeat split; [lia|assumption|assumption].
Qed.
Print Assumptions C45_conservation.
(** The backlog limit is needed: beyond it pulses are lost. *)
Theorem C45_overflow_refuted : exists iw cw l, no_reset l /\ let '(s, o) := pm_run iw cw (mkPm 0 false) l in received iw l <> emitted o + pm_count s.
Proof. exists 3, 2, [(false, 7); (false, 7)]. split; [repeat constructor|]. vm_compute. discriminate. Qed.
Print Assumptions C45_overflow_refuted.
Example C45_example : fits 3 4 [(false, 7); (false, 5); (false, 0)] /\ pm_run 3 4 (mkPm 0 false) [(false, 7); (false, 5); (false, 0)] = (mkPm 3 true, [false; true; true]).
Proof. split; [|vm_compute; reflexivity]. intros [|[|[|[|k]]]]; vm_compute; reflexivity. Qed.
