From Verif Require Import PyBase RtlModel RtlTileRxModel RtlTileRxSpec RtlTileRxProofs RtlTileRxProofs2 RtlTileRxProofs3 RtlTileRxProofs4.

(** C119: the Stratix 10 receive adapter puts exactly the TLPs of the stream into the FIFO, split into header and data, at most two beats late. *)
Theorem C119_received : forall io s i ins, si_rst i = true -> stream false ins ->
  exists rest, expected io [] (beats ins) = flat_map seen (sr_trace io (sr_step io s i) ins) ++ rest /\ (length rest <= 2)%nat.
Proof. exact s10_rx_ok. Qed.
Print Assumptions C119_received.

(** Two clocks without new beats bring out the rest. *)
Theorem C119_complete : forall io s i ins q1 q2, si_rst i = true -> stream false (ins ++ [q1; q2]) -> quiet q1 -> quiet q2 ->
  flat_map seen (sr_trace io (sr_step io s i) (ins ++ [q1; q2])) = expected io [] (beats ins).
Proof. exact s10_rx_done. Qed.
Print Assumptions C119_complete.

Module TileRxExamples.
Definition none (rdy : bool) : sr_in := mkSi false 0 0 false false false 0 0 rdy.
Definition reset : sr_in := mkSi true 0 0 false false false 0 0 true.
Definition beat (d e : Z) (sop eop : bool) (func bar : Z) : sr_in := mkSi false d e sop eop true func bar true.
Definition st0 : sr_state := mkSr 0 0 0 0 0 true true true false 0 0 true true true 0 0 0.
(** A write with a header of three double words and eleven of data in two beats, the clocks between them without data or without room; a read of function 2 with four, BAR 7, right after it. *)
Definition w3 : Z := fold_right (fun x a => x + a * 2 ^ 32) 0 [0x4000000B; 0x000000FF; 0x1000; 1; 2; 3; 4; 5].
Definition w3b : Z := fold_right (fun x a => x + a * 2 ^ 32) 0 [6; 7; 8; 9; 10; 11; 99; 99].
Definition r4 : Z := fold_right (fun x a => x + a * 2 ^ 32) 0 [0x20000001; 0x0000000F; 0x1; 0x2000; 77; 77; 77; 77].
Definition ins : list sr_in := [beat w3 0 true false 1 6; none true; none false; beat w3b 2 false true 1 6; beat r4 4 true true 2 7; none true; none true].
End TileRxExamples.
Import TileRxExamples.

Example C119_example : stream false ins /\ quiet (none true) /\
  expected 5 [] (beats ins) =
    [mkItem true false [0x4000000B; 0x000000FF; 0x1000] 5 1 255 [1; 2; 3; 4; 5; 6; 7; 8]; mkItem false true [] 0 0 7 [9; 10; 11];
     mkItem true true [0x20000001; 0x0000000F; 1; 0x2000] 6 2 0 []] /\
  flat_map seen (sr_trace 5 (sr_step 5 st0 reset) ins) = expected 5 [] (beats ins).
Proof.
  split; [|split; [repeat split|split; vm_compute; reflexivity]].
  cbn [ins stream]. repeat (split; [reflexivity|split; [vm_compute; try (intros Hc; discriminate Hc); intros _; repeat split; try congruence; intros; try discriminate; lia|]]). exact I.
Qed.

(** C120: the P-Tile receive adapter puts exactly the segments of the stream into the FIFO. False for the function, true for all the rest. *)
Theorem C120_received_partial : forall p s i ins, pr_ok p -> length s = Z.to_nat (pp_n p) -> pi_rst i = true -> Forall pstream ins ->
  exists rest, map nofunc (flat_map (psegs p) ins) = map nofunc (flat_map (pseen p) (pr_trace p (pr_step p s i) ins)) ++ rest.
Proof. exact ptile_rx_ok. Qed.
Print Assumptions C120_received_partial.

Theorem C120_complete_partial : forall p s i ins q, pr_ok p -> length s = Z.to_nat (pp_n p) -> pi_rst i = true -> Forall pstream ins -> pquiet q ->
  map nofunc (flat_map (pseen p) (pr_trace p (pr_step p s i) (ins ++ [q]))) = map nofunc (flat_map (psegs p) ins).
Proof. exact ptile_rx_done. Qed.
Print Assumptions C120_complete_partial.

(** With function 0 only, or one segment and functions below 4, all is right. *)
Theorem C120_functions_partial : forall p s i ins q, pr_ok p -> length s = Z.to_nat (pp_n p) -> pi_rst i = true -> Forall pstream ins -> pquiet q ->
  Forall (fun i => pi_func i = 0 \/ pp_n p = 1 /\ 0 <= pi_func i < 4) ins ->
  flat_map (pseen p) (pr_trace p (pr_step p s i) (ins ++ [q])) = flat_map (psegs p) ins.
Proof. exact ptile_rx_func. Qed.
Print Assumptions C120_functions_partial.

Module PtileRxExamples.
Definition p2 : pr_param := mkPp 2 3 5.
Definition seg0 : pr_seg := mkPs 0 0 0 0 0 true true true.
Definition pinp (data empty sop eop valid hdr func bar : Z) (rdy : bool) : pr_in := mkPi false data empty sop eop valid hdr func bar rdy.
Definition preset : pr_in := mkPi true 0 0 0 0 0 0 0 0 true.
(** A write of three double words in segment 0 (BAR 6) and a read in segment 1 (BAR 2). *)
Definition two (func : Z) : pr_in :=
  pinp (10 + 11 * 2 ^ 32 + 12 * 2 ^ 64 + 7 * 2 ^ 256) 5 3 3 3 (0x40000003 * 2 ^ 96 + 0x00000001 * 2 ^ 224) func (6 + 2 * 8) true.
Definition pnone : pr_in := pinp 0 0 0 0 0 0 0 0 true.
Definition pbusy : pr_in := pinp 0 0 0 0 0 0 0 0 false.
End PtileRxExamples.
Import PtileRxExamples.

Example C120_example : pr_ok p2 /\ Forall pstream [two 0; pbusy; pnone; two 0] /\ pquiet pnone /\
  flat_map (pseen p2) (pr_trace p2 (pr_step p2 [seg0; seg0] preset) ([two 0; pbusy; two 0] ++ [pnone])) =
    flat_map (fun _ => [mkPg 0 true true (0x40000003 * 2 ^ 96) 5 0 7 [10; 11; 12]; mkPg 1 true true (2 ^ 96) 2 0 0 []]) [tt; tt].
Proof. split; [split; cbn; lia|]. split; [repeat constructor; cbn; congruence|]. split; [repeat split|]. vm_compute. reflexivity. Qed.

(** Function 1 in segment 1 comes out as function 3, and function 5 in segment 0 as 1. *)
Theorem C120_received_refuted : exists p s i ins q, pr_ok p /\ length s = Z.to_nat (pp_n p) /\ pi_rst i = true /\ Forall pstream ins /\ pquiet q /\
  map pg_func (flat_map (pseen p) (pr_trace p (pr_step p s i) (ins ++ [q]))) = [1; 3] /\ map pg_func (flat_map (psegs p) ins) = [5; 1].
Proof. exists p2, [seg0; seg0], preset, [two (5 + 1 * 8)], pnone. split; [split; cbn; lia|]. repeat split; try (repeat constructor; cbn; congruence). Qed.
Print Assumptions C120_received_refuted.
