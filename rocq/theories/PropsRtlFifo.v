From Verif Require Import PyBase RtlFifoModel RtlFifoSpec RtlFifoProofs RtlFifoProofs2.

(** C121: what comes out of the TLP FIFO are the complete TLPs that went in, in order; nothing is lost, given twice or changed. *)
Theorem C121_delivered : forall p s i l, fp_ok p -> fi_rst i = true -> Forall running l ->
  let tr := fi_trace p (fi_step p s i) l in
  exists rest, whole [] (flat_map taken tr) = flat_map given tr ++ rest /\ Z.of_nat (length rest) <= fp_d p + 1.
Proof. exact fifo_ok. Qed.
Print Assumptions C121_delivered.

Theorem C121_drained : forall p s i l d, fp_ok p -> fi_rst i = true -> Forall running l -> Forall draining d -> fp_d p + 2 <= Z.of_nat (length d) ->
  let tr := fi_trace p (fi_step p s i) (l ++ d) in
  flat_map given tr = whole [] (flat_map taken (fi_trace p (fi_step p s i) l)).
Proof. exact fifo_drain. Qed.
Print Assumptions C121_drained.

(** The output is kept until it is taken, and a TLP is not interrupted. *)
Theorem C121_kept : forall p s j, running j -> fs_ov s = true -> fi_read j = false -> fs_ov (fi_step p s j) = true /\ fs_ob (fi_step p s j) = fs_ob s.
Proof. exact fifo_kept. Qed.
Print Assumptions C121_kept.

Theorem C121_no_gap : forall p s i l j, fp_ok p -> fi_rst i = true -> Forall running l -> running j ->
  let t := fi_run p (fi_step p s i) l in
  fs_ov t = true -> fb_eop (fs_ob t) = false -> fs_ov (fi_step p t j) = true.
Proof. exact fifo_no_gap. Qed.
Print Assumptions C121_no_gap.

Module FifoExamples.
Definition bt (n : Z) (sop eop : bool) : fbeat := mkFb n 255 (n * 2) 1 2 3 0 sop eop.
Definition st0 : fi_st := mkFs (fun _ => bt 99 true true) 3 1 7 2 2 true (bt 98 true true) true (bt 97 true true) true true true.
Definition rst : fi_in := mkFi true (bt 96 true true) true true.
Definition put (n : Z) (sop eop rd : bool) : fi_in := mkFi false (bt n sop eop) true rd.
Definition idle (rd : bool) : fi_in := mkFi false (bt 0 false false) false rd.
(** Eight entries, watermark at four. *)
Definition p8 : fi_param := mkFp 3 8 4.
Definition two : list fi_in := [put 1 true false true; put 2 false false true; idle false; put 3 false true false; put 4 true true true; put 5 true false true; idle true; idle true; idle true].
(** The limits of the receive adapter for Stratix 10: 512 double words, eight in a beat, watermark at 512 - 8 * 20. *)
Definition s10 : fi_param := mkFp 6 64 44.
End FifoExamples.
Import FifoExamples.

Example C121_example : fp_ok p8 /\ Forall running two /\ Forall draining (repeat (idle true) 10) /\
  map fb_data (flat_map taken (fi_trace p8 (fi_step p8 st0 rst) two)) = [1; 2; 3; 4; 5] /\
  map fb_data (flat_map given (fi_trace p8 (fi_step p8 st0 rst) two)) = [1; 2; 3] /\
  map fb_data (flat_map given (fi_trace p8 (fi_step p8 st0 rst) (two ++ repeat (idle true) 10))) = [1; 2; 3; 4] /\
  map fb_data (whole [] (flat_map taken (fi_trace p8 (fi_step p8 st0 rst) two))) = [1; 2; 3; 4] /\
  (let t := fi_run p8 (fi_step p8 st0 rst) (firstn 7 two) in fs_ov t = true /\ fb_eop (fs_ob t) = false /\ fb_data (fs_ob t) = 2).
Proof. split; [split; cbn; lia|]. split; [repeat constructor|]. split; [repeat constructor|]. vm_compute. repeat split. Qed.

(** C122: the input waits only while the FIFO is nearly full, and goes on when it is read. True unless the TLP itself fills the FIFO. *)
Theorem C122_full : forall p s i l, fp_ok p -> fi_rst i = true -> Forall running l ->
  let tr := fi_trace p (fi_step p s i) l in
  ready (fi_run p (fi_step p s i) l) = false -> fp_d p - 2 <= Z.of_nat (length (flat_map taken tr)) - Z.of_nat (length (flat_map given tr)).
Proof. exact fifo_full. Qed.
Print Assumptions C122_full.

Theorem C122_ready_partial : forall p s i l d, fp_ok p -> fi_rst i = true -> Forall running l -> Forall draining d -> fp_d p + 3 <= Z.of_nat (length d) ->
  ready (fi_run p (fi_step p s i) (l ++ d)) = (Z.of_nat (length (open_of [] (flat_map taken (fi_trace p (fi_step p s i) l)))) <? fp_d p - 2).
Proof. exact fifo_ready. Qed.
Print Assumptions C122_ready_partial.

Example C122_example :
  let l := map (fun n => put n (n =? 0) (n =? 5) false) [0; 1; 2; 3; 4; 5; 6; 7] in
  Forall running l /\ ready (fi_run p8 (fi_step p8 st0 rst) l) = false /\ map fb_data (flat_map taken (fi_trace p8 (fi_step p8 st0 rst) l)) = [0; 1; 2; 3; 4; 5; 6] /\
  ready (fi_run p8 (fi_step p8 st0 rst) (l ++ repeat (idle true) 11)) = true.
Proof. split; [repeat constructor|]. vm_compute. repeat split. Qed.

(** A TLP with more beats than the FIFO is never taken whole, and nothing comes out any more. *)
Theorem C122_ready_refuted : exists p s i l, fp_ok p /\ fi_rst i = true /\ Forall running l /\
  flat_map taken (fi_trace p (fi_step p s i) l) = map (fun n => bt n (n =? 0) false) [0; 1; 2; 3; 4; 5; 6] /\
  forall l', Forall running l' -> flat_map taken (fi_trace p (fi_run p (fi_step p s i) l) l') = [] /\ flat_map given (fi_trace p (fi_run p (fi_step p s i) l) l') = [] /\
             ready (fi_run p (fi_run p (fi_step p s i) l) l') = false.
Proof.
  exists p8, st0, rst, (map (fun n => put n (n =? 0) (n =? 7) true) [0; 1; 2; 3; 4; 5; 6; 7]).
  split; [split; cbn; lia|]. split; [reflexivity|]. split; [repeat constructor|]. split; [vm_compute; reflexivity|].
  intros l' Hl. apply stuck_run; [|exact Hl]. vm_compute. repeat split.
Qed.
Print Assumptions C122_ready_refuted.

(** C123: while the watermark is not shown, the input stays ready for as many clocks as there are entries above it (less one). *)
Theorem C123_room : forall p s i l m, fp_ok p -> 0 <= fp_wm p -> fi_rst i = true -> Forall running l -> Forall running m ->
  fs_wmk (fi_run p (fi_step p s i) l) = false -> fp_wm p + Z.of_nat (length m) <= fp_d p - 1 ->
  Forall (fun e => ready (snd e) = true) (fi_trace p (fi_run p (fi_step p s i) l) m).
Proof. exact fifo_room. Qed.
Print Assumptions C123_room.

(** For Stratix 10: the clock without the watermark and 18 more, and this is all: the 20th is refused. *)
Example C123_example :
  let l := map (fun n => put (Z.of_nat n) (n =? 0)%nat false true) (seq 0 45) in let m := map (fun n => put (Z.of_nat n) false false true) (seq 45 20) in
  fp_ok s10 /\ Forall running l /\ Forall running (firstn 19 m) /\ fs_wmk (fi_run s10 (fi_step s10 st0 rst) (firstn 44 l)) = false /\ fp_wm s10 + 19 <= fp_d s10 - 1 /\
  map (fun e => ready (snd e)) (fi_trace s10 (fi_run s10 (fi_step s10 st0 rst) (firstn 44 l)) m) = repeat true 19 ++ [false].
Proof.
  split; [split; cbn; lia|]. split; [apply Forall_forall; intros x Hx; apply in_map_iff in Hx; destruct Hx as (n & <- & _); reflexivity|].
  split; [repeat constructor|]. split; [vm_compute; reflexivity|]. split; [cbn; lia|]. vm_compute. reflexivity.
Qed.
