(** C35: the AXI-Lite master and the AXI-Lite RAM. *)
From Verif Require Import PyBase AxilModel AxilSpec AxilProofs3.
From Coq Require Import Lia.

(** Missing from the full claim: reads and writes in flight at the same time, empty reads
    and addresses that a double does not represent; the claim is false there (below). *)
Theorem C35_memory_partial : forall bw size lat, lanes_ok bw -> 0 < size -> (bw | size) -> forall d bs s,
  zlen d = size -> Forall is_byte d -> batches bw size lat (ls0 d) bs s ->
  holds size (lm_data (ls_mem s)) (after size (fun i => nth (Z.to_nat i) d 0) bs) /\
  ws_done (ls_w s) = write_answers (flat_map writes bs) /\ rs_done (ls_r s) = answers size (fun i => nth (Z.to_nat i) d 0) bs.
Proof. exact memory. Qed.
Print Assumptions C35_memory_partial.

(** No exception in a batch, and it ends. *)
Theorem C35_completes_partial : forall bw size lat, lanes_ok bw -> 0 < size -> (bw | size) -> forall d bs s b,
  zlen d = size -> Forall is_byte d -> batches bw size lat (ls0 d) bs s -> batch_ok b ->
  exists t, l_run bw size lat b s = Ok t /\
    (forall rf, exists n u, l_run bw size lat (b ++ edges rf n) s = Ok u /\ l_idle u = true).
Proof. exact progress. Qed.
Print Assumptions C35_completes_partial.

(** At any time in a batch of writes: the bytes are stored in order, and those of a write
    that was answered are in the memory. *)
Theorem C35_write_order_partial : forall bw size lat, lanes_ok bw -> 0 < size -> (bw | size) -> forall d bs s b t,
  zlen d = size -> Forall is_byte d -> batches bw size lat (ls0 d) bs s -> batch_ok b -> reads b = [] -> l_run bw size lat b s = Ok t ->
  exists k n, (k <= length (writes b))%nat /\ (length (all_ops (firstn k (writes b))) <= n <= length (all_ops (writes b)))%nat /\
    ws_done (ls_w t) = ws_done (ls_w s) ++ write_answers (firstn k (writes b)) /\
    holds size (lm_data (ls_mem t)) (put_ops size (after size (fun i => nth (Z.to_nat i) d 0) bs) (firstn n (all_ops (writes b)))).
Proof. exact write_order. Qed.
Print Assumptions C35_write_order_partial.

Theorem C35_read_order_partial : forall bw size lat, lanes_ok bw -> 0 < size -> (bw | size) -> forall d bs s b t,
  zlen d = size -> Forall is_byte d -> batches bw size lat (ls0 d) bs s -> batch_ok b -> writes b = [] -> l_run bw size lat b s = Ok t ->
  exists k, (k <= length (reads b))%nat /\
    rs_done (ls_r t) = rs_done (ls_r s) ++ read_answers size (after size (fun i => nth (Z.to_nat i) d 0) bs) (firstn k (reads b)) /\
    holds size (lm_data (ls_mem t)) (after size (fun i => nth (Z.to_nat i) d 0) bs).
Proof. exact read_order. Qed.
Print Assumptions C35_read_order_partial.

Ltac fa := repeat (match goal with |- _ /\ _ => split | |- Forall _ (_ :: _) => apply Forall_cons | |- Forall _ [] => apply Forall_nil end); try (cbn; lia).

(** Two unaligned writes, then two reads, on a memory of 16 bytes with 4 lanes. *)
Example C35_example :
  let b1 := [LWrite 5 [1; 2; 3; 4; 5; 6] 2; LEdge true; LWrite 14 [7; 8; 9] 0] ++ edges true 30 in
  let b2 := [LRead 6 3 2; LRead 15 2 1] ++ edges false 30 in
  lanes_ok 4 /\ (4 | 16) /\ exists s, batches 4 16 1 (ls0 (zeros 16)) [b1; b2] s /\
    rs_done (ls_r s) = [mkLe 6 [2; 3; 4] 2 0; mkLe 15 [8; 9] 1 0] /\ lm_data (ls_mem s) = [9; 0; 0; 0; 0; 1; 2; 3; 4; 5; 6; 0; 0; 0; 7; 8].
Proof.
  split; [exists 2; split; [lia|reflexivity]|]. split; [exists 4; reflexivity|]. eexists. split; [|split].
  - cbn [batches]. split; [split; [cbn; unfold write_ok, is_byte; fa|split; [constructor|left; reflexivity]]|]. eexists. split; [vm_compute; reflexivity|]. split; [reflexivity|].
    split; [split; [constructor|split; [cbn; unfold read_ok; fa|right; reflexivity]]|]. eexists. split; [vm_compute; reflexivity|]. split; reflexivity.
  - reflexivity.
  - reflexivity.
Qed.

(** Reads and writes in flight together share the position of the memory map: the bytes
    of the write land at the address after the read, for either order of the processes. *)
Theorem C35_concurrent_refuted : forall rf, exists bw size lat evs s,
  lanes_ok bw /\ (bw | size) /\ writes evs = [(0, [1; 2; 3; 4], 2)] /\ reads evs = [(32, 4, 2)] /\ Forall (fun e => match e with LEdge r => r = rf | _ => True end) evs /\
  l_run bw size lat evs (ls0 (zeros size)) = Ok s /\ l_idle s = true /\ slice (lm_data (ls_mem s)) 0 4 = [0; 0; 0; 0] /\ slice (lm_data (ls_mem s)) 36 40 = [1; 2; 3; 4].
Proof.
  intro rf. exists 4, 64, 1%nat, ([LWrite 0 [1; 2; 3; 4] 2] ++ edges rf (if rf then 1 else 0) ++ [LRead 32 4 2] ++ edges rf 20).
  destruct rf; eexists; (split; [exists 2; split; [lia|reflexivity]|]); (split; [exists 16; reflexivity|]); (split; [reflexivity|]); (split; [reflexivity|]);
    (split; [repeat constructor|]); (split; [vm_compute; reflexivity|]); repeat split.
Qed.
Print Assumptions C35_concurrent_refuted.

(** An empty aligned read puts an address on the bus that nothing waits for; the next
    read then gets the wrong word. *)
Theorem C35_zero_read_refuted : exists bw size lat evs s,
  lanes_ok bw /\ (bw | size) /\ reads evs = [(4, 0, 2); (0, 4, 2)] /\ writes evs = [] /\
  l_run bw size lat evs (ls0 [0; 1; 2; 3; 4; 5; 6; 7]) = Ok s /\ rs_done (ls_r s) = [mkLe 4 [] 2 0; mkLe 0 [4; 5; 6; 7] 2 0].
Proof.
  exists 4, 8, 1%nat, ([LRead 4 0 2] ++ edges true 20 ++ [LRead 0 4 2] ++ edges true 20). eexists. split; [exists 2; split; [lia|reflexivity]|]. split; [exists 2; reflexivity|].
  split; [reflexivity|]. split; [reflexivity|]. split; vm_compute; reflexivity.
Qed.
Print Assumptions C35_zero_read_refuted.

(** The word address is computed with a float division: a 64 bit address is rounded. *)
Theorem C35_float_refuted : exists bw size lat evs s,
  lanes_ok bw /\ (bw | size) /\ writes evs = [(2 ^ 55 + 4, [1; 2; 3; 4], 2)] /\ reads evs = [] /\
  l_run bw size lat evs (ls0 (zeros size)) = Ok s /\ l_idle s = true /\ lm_data (ls_mem s) = [1; 2; 3; 4; 0; 0; 0; 0].
Proof.
  exists 4, 8, 1%nat, ([LWrite (2 ^ 55 + 4) [1; 2; 3; 4] 2] ++ edges true 20). eexists. split; [exists 2; split; [lia|reflexivity]|]. split; [exists 2; reflexivity|].
  split; [reflexivity|]. split; [reflexivity|]. split; [vm_compute; reflexivity|]. split; reflexivity.
Qed.
Print Assumptions C35_float_refuted.
