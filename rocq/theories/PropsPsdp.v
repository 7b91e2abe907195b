(** Property theorems C31 and C32. *)
From Verif Require Import PyBase PsdpModel PsdpSpec PsdpProofs3 PsdpProofs4 PsdpProofs5.

(** Geometry of the examples: two segments of four bytes, eight rows. *)
Definition ex_cfg : pcfg := mkPcfg 2 4 3.
Definition ex_mem : mem := fun x => x mod 256.

(** C31, any interleaving of write calls and (paused) clock edges, in progress: no
    exception; writes complete in order with address and length; every byte is what
    the plain memory holds after all completed writes and some of the later ones. *)
Theorem C31_in_order_partial : forall c size m evs, pcfg_ok c -> capacity c <= size -> Forall (write_ok c) (writes evs) ->
  exists s k, ws_run c size evs (ws0 m) = Ok s /\ (k <= length (writes evs))%nat /\
    s_done s = map (fun w => (fst w, zlen (snd w))) (firstn k (writes evs)) /\
    forall x, exists j, (k <= j <= length (writes evs))%nat /\ s_mem s x = stores (firstn j (writes evs)) m x.
Proof. exact writes_safe. Qed.

Definition ex_writes : list wevent :=
  [WWrite 3 [1;2;3;4;5;6;7;8;9;10;11]; WEdge true true; WEdge false false; WWrite 9 [20;21]; WEdge false true; WEdge false false].
Example C31_in_order_example : pcfg_ok ex_cfg /\ capacity ex_cfg <= 64 /\ Forall (write_ok ex_cfg) (writes ex_writes).
Proof.
  split; [split; [|split]; vm_compute; try discriminate; repeat constructor|]. split; [vm_compute; discriminate|].
  repeat constructor; vm_compute; try discriminate; reflexivity.
Qed.

(** C31, once the clock runs without pause: all writes are done and the memory is the
    plain memory after all of them, at every address. *)
Theorem C31_stores_exactly_partial : forall c size m evs, pcfg_ok c -> capacity c <= size -> Forall (write_ok c) (writes evs) ->
  exists n0, forall n, (n0 <= n)%nat -> exists s,
    ws_run c size (evs ++ free_edges n) (ws0 m) = Ok s /\
    s_done s = map (fun w => (fst w, zlen (snd w))) (writes evs) /\ forall x, s_mem s x = stores (writes evs) m x.
Proof. exact run_completes. Qed.

Example C31_stores_example :
  let s := r_state (ws_run ex_cfg 64 (ex_writes ++ free_edges 8) (ws0 ex_mem)) (ws0 ex_mem) in
  s_done s = [(3, 11); (9, 2)] /\ map (s_mem s) [2;3;4;5;6;7;8;9;10;11;12;13;14] = [2;1;2;3;4;5;6;20;21;9;10;11;14].
Proof. vm_compute. split; reflexivity. Qed.

(** C31, power-of-two byte lanes: everything outside the segments is refused. *)
Theorem C31_refuses_outside : forall c k size a d s, pcfg_ok c -> 0 <= k -> Z.of_nat (p_segs c) * p_sbl c = 2 ^ k ->
  ~ in_cap c a (zlen d) -> ws_step c size s (WWrite a d) = Err ValueError.
Proof. exact write_rejects. Qed.

Example C31_refuses_example : pcfg_ok ex_cfg /\ Z.of_nat (p_segs ex_cfg) * p_sbl ex_cfg = 2 ^ 3 /\ ~ in_cap ex_cfg 63 (zlen [1; 2]).
Proof.
  split; [split; [|split]; vm_compute; try discriminate; repeat constructor|]. split; [reflexivity|].
  intros (_ & _ & H). vm_compute in H. apply H. reflexivity.
Qed.

(** C31 fails for three one-byte segments: a write accepted at address 6 lands at
    address 0, in a RAM large enough to hold address 6. *)
Theorem C31_wraps_refuted : exists c size a d evs s, pcfg_ok c /\ a + zlen d <= size /\ writes evs = [(a, d)] /\
  ws_run c size evs (ws0 (fun _ => 0)) = Ok s /\ s_done s = [(a, zlen d)] /\
  exists x, s_mem s x <> stores [(a, d)] (fun _ => 0) x.
Proof.
  exists (mkPcfg 3 1 1), 8, 6, [0xAB], (WWrite 6 [0xAB] :: free_edges 5),
    (r_state (ws_run (mkPcfg 3 1 1) 8 (WWrite 6 [0xAB] :: free_edges 5) (ws0 (fun _ => 0))) (ws0 (fun _ => 0))).
  split; [split; [|split]; vm_compute; try discriminate; repeat constructor|]. split; [vm_compute; discriminate|].
  split; [reflexivity|]. split; [vm_compute; reflexivity|]. split; [vm_compute; reflexivity|]. exists 0. vm_compute. discriminate.
Qed.

(** C32, in progress: no exception, reads complete in order with the stored bytes. *)
Theorem C32_in_order_partial : forall c size m evs, pcfg_ok c -> capacity c <= size -> (forall x, 0 <= x < capacity c -> is_byte (m x)) ->
  Forall (fun r => in_cap c (fst r) (snd r)) (reads evs) ->
  exists s k, rs_run c size m evs rs0 = Ok s /\ t_done s = map (answer m) (firstn k (reads evs)).
Proof. exact reads_safe. Qed.

(** C32, once the clock runs without pause: every read has returned the stored bytes. *)
Theorem C32_returns_stored_partial : forall c size m evs, pcfg_ok c -> capacity c <= size -> (forall x, 0 <= x < capacity c -> is_byte (m x)) ->
  Forall (fun r => in_cap c (fst r) (snd r)) (reads evs) ->
  exists n0, forall n, (n0 <= n)%nat -> exists s,
    rs_run c size m (evs ++ free_redges n) rs0 = Ok s /\ t_done s = map (answer m) (reads evs).
Proof. exact rrun_completes. Qed.

Definition ex_reads : list revent :=
  [RRead 3 11; REdge true true; REdge false false; RRead 60 4; RRead 7 0; REdge false true; REdge true false; RRead 9 2].
Example C32_example : pcfg_ok ex_cfg /\ capacity ex_cfg <= 64 /\ (forall x, 0 <= x < capacity ex_cfg -> is_byte (ex_mem x)) /\
  Forall (fun r => in_cap ex_cfg (fst r) (snd r)) (reads ex_reads) /\
  t_done (r_state (rs_run ex_cfg 64 ex_mem (ex_reads ++ free_redges 12) rs0) rs0) =
    [(3, [3;4;5;6;7;8;9;10;11;12;13]); (60, [60;61;62;63]); (7, []); (9, [9;10])].
Proof.
  split; [split; [|split]; vm_compute; try discriminate; repeat constructor|]. split; [vm_compute; discriminate|].
  split; [intros x _; apply Z.mod_pos_bound; reflexivity|]. split; [repeat constructor; vm_compute; try discriminate; reflexivity|].
  vm_compute. reflexivity.
Qed.

(** C32, power-of-two byte lanes: everything outside the segments is refused. *)
Theorem C32_refuses_outside : forall c k size m a n s, pcfg_ok c -> 0 <= k -> Z.of_nat (p_segs c) * p_sbl c = 2 ^ k ->
  ~ in_cap c a n -> rs_step c size m s (RRead a n) = Err ValueError.
Proof. exact read_rejects. Qed.

Example C32_refuses_example : pcfg_ok ex_cfg /\ Z.of_nat (p_segs ex_cfg) * p_sbl ex_cfg = 2 ^ 3 /\ ~ in_cap ex_cfg (-1) 1.
Proof.
  split; [split; [|split]; vm_compute; try discriminate; repeat constructor|]. split; [reflexivity|].
  intros (H & _). destruct H as [H _]. apply H. reflexivity.
Qed.

(** C32 fails for three one-byte segments: a read accepted at address 6 returns the
    byte of address 0. *)
Theorem C32_wraps_refuted : exists c size m a n evs s, pcfg_ok c /\ a + n <= size /\ reads evs = [(a, n)] /\
  rs_run c size m evs rs0 = Ok s /\ t_done s <> [] /\ t_done s <> [answer m (a, n)].
Proof.
  exists (mkPcfg 3 1 1), 8, (fun x => x), 6, 1, (RRead 6 1 :: free_redges 6),
    (r_state (rs_run (mkPcfg 3 1 1) 8 (fun x => x) (RRead 6 1 :: free_redges 6) rs0) rs0).
  split; [split; [|split]; vm_compute; try discriminate; repeat constructor|]. split; [vm_compute; discriminate|].
  split; [reflexivity|]. split; [vm_compute; reflexivity|]. split; vm_compute; discriminate.
Qed.

Print Assumptions C31_in_order_partial.
Print Assumptions C31_stores_exactly_partial.
Print Assumptions C31_refuses_outside.
Print Assumptions C31_wraps_refuted.
Print Assumptions C32_in_order_partial.
Print Assumptions C32_returns_stored_partial.
Print Assumptions C32_refuses_outside.
Print Assumptions C32_wraps_refuted.
