(** C77: the segmented RAM of tb/dma_ram.py. *)
From Coq Require Import Permutation.
From Verif Require Import PyBase DmaRamModel DmaRamSpec DmaRamProofs DmaRamProofs2.

(** Every accepted write changes exactly its enabled bytes; every accepted read is
    answered once, in order, with the memory at the time it was accepted; never
    more than latency + 1 answers are outstanding; nothing raises. *)
Theorem C77_memory : forall c m pause l, geom_ok c -> (forall x, is_byte (m x)) -> orders_ok c l ->
  exists s t, dma_run c (dst0 c m pause) l = Ok (s, t) /\ map fst t = l /\ (forall x, s_mem s x = fst (spec_run c m t) x) /\
    forall k, 0 <= k < d_cnt c -> exists pending, owed k (snd (spec_run c m t)) = all_given c k t ++ pending /\ (length pending <= S (d_lat c))%nat.
Proof. exact (fun c m pause l G => dma_ram_run c G m pause l). Qed.

(** With the response side ready, what was accepted is answered after exactly
    latency + 1 edges, whatever else happens in them. *)
Theorem C77_latency : forall c m pause l1 l2 k, geom_ok c -> (forall x, is_byte (m x)) -> orders_ok c (l1 ++ l2) -> 0 <= k < d_cnt c ->
  length l2 = S (d_lat c) -> Forall (fun e => Z.testbit (i_rready (fst e)) k = true) l2 ->
  exists s t1 t2, dma_run c (dst0 c m pause) (l1 ++ l2) = Ok (s, t1 ++ t2) /\ map fst t1 = l1 /\ map fst t2 = l2 /\
    all_given c k (t1 ++ t2) = owed k (snd (spec_run c m t1)).
Proof. exact (fun c m pause l1 l2 k G => dma_ram_drain c G m pause l1 l2 k). Qed.

(** A read port with a ready response side accepts unless paused; a write port accepts
    unless paused at the edge before. *)
Theorem C77_ready : forall c m pause l, geom_ok c -> (forall x, is_byte (m x)) -> orders_ok c l ->
  exists s t, dma_run c (dst0 c m pause) l = Ok (s, t) /\
    Forall (fun e => forall k, 0 <= k < d_cnt c -> Z.testbit (i_rready (fst (fst e))) k = true -> i_rpause (fst (fst e)) = false -> Z.testbit (o_rready (snd e)) k = true) t /\
    forall k, 0 <= k < d_cnt c -> map (fun e => Z.testbit (o_wready (snd e)) k) t = firstn (length l) (negb pause :: map (fun e => negb (i_wpause (fst e))) l).
Proof. exact (fun c m pause l G => dma_ram_ready c G m pause l). Qed.

(** The ports never write the same byte: the order of the processes of an edge makes no
    difference to the memory. *)
Theorem C77_order : forall c s i o1 o2 s1 s2, geom_ok c -> d_size c mod (d_cnt c * d_bw c) = 0 -> Permutation (procs c) o1 -> Permutation (procs c) o2 ->
  dma_edge c s i o1 = Ok s1 -> dma_edge c s i o2 = Ok s2 -> forall x, s_mem s1 x = s_mem s2 x.
Proof. exact (fun c s i o1 o2 s1 s2 G => dma_write_order c G s i o1 o2 s1 s2). Qed.

(** Two ports of two bytes, 16 bytes, latency 2: write 0xbbaa to word 1 of port 1, read
    it back with the response side stalled for two edges. *)
Definition rc : dcfg := mkDcfg 2 2 3 16 2.
Definition order1 : list proc := [PWrite 0; PWrite 1; PRead 0; PRead 1].
Definition order2 : list proc := [PRead 1; PWrite 1; PRead 0; PWrite 0].
Definition i_idle (rr : Z) : din := mkDin 0 0 0 0 false 0 0 rr false.
Definition i_write : din := mkDin 0xc 8 0xbbaa0000 2 false 0 0 0 false.
Definition i_read : din := mkDin 0 0 0 0 false 8 2 0 false.
Definition rlist : list (din * list proc) :=
  [(i_write, order1); (i_read, order2); (i_idle 0, order1); (i_read, order1); (i_idle 0, order2); (i_idle 2, order1); (i_idle 2, order1); (i_idle 2, order1)].
Example C77_example_hyps : geom_ok rc /\ orders_ok rc rlist /\ d_size rc mod (d_cnt rc * d_bw rc) = 0 /\ Forall (fun e => Z.testbit (i_rready (fst e)) 1 = true) (skipn 5 rlist).
Proof.
  split; [unfold geom_ok; cbn; lia|]. split; [|split; [reflexivity|repeat constructor]].
  assert (P1 : Permutation (procs rc) order1) by apply Permutation_refl.
  assert (P2 : Permutation (procs rc) order2).
  { change (procs rc) with order1. apply NoDup_Permutation.
    - repeat constructor; cbn; intuition discriminate.
    - repeat constructor; cbn; intuition discriminate.
    - intros x. cbn. tauto. }
  repeat constructor; assumption.
Qed.
Example C77_example_run : exists s t, dma_run rc (dst0 rc (fun _ => 0) false) rlist = Ok (s, t) /\ mem_load (s_mem s) 0 16 = [0;0;0;0;0;0;0xaa;0xbb;0;0;0;0;0;0;0;0] /\
  all_given rc 1 t = [0xbbaa; 0xbbaa] /\ map (fun e => o_rready (snd e)) t = [3; 3; 3; 3; 3; 3; 3; 3].
Proof. eexists. eexists. split; [vm_compute; reflexivity|]. vm_compute. auto. Qed.

(** The default latency is 1, but 0 is accepted by create_read_port and fails at the
    first edge; a size that is not a multiple of the word fails at the last word. *)
Theorem C77_geometry_refuted :
  (exists c, d_lat c = 0%nat /\ d_size c mod d_bw c = 0 /\ dma_run c (dst0 c (fun _ => 0) false) [(i_idle 0, [PWrite 0; PRead 0])] = Err IndexError) /\
  (exists c i, d_lat c = 1%nat /\ d_size c = 6 /\ d_bw c = 4 /\ dma_run c (dst0 c (fun _ => 0) false) [(i, [PWrite 0; PRead 0])] = Err IndexError) /\
  (exists c i, d_lat c = 1%nat /\ d_size c = 6 /\ d_bw c = 4 /\ dma_run c (dst0 c (fun _ => 0) false) [(i, [PWrite 0; PRead 0])] = Err ValueError).
Proof.
  split; [|split].
  - exists (mkDcfg 1 4 3 16 0). vm_compute. auto.
  - exists (mkDcfg 1 4 3 6 1), (mkDin 0 0 0 0 false 1 1 0 false). vm_compute. auto.
  - exists (mkDcfg 1 4 3 6 1), (mkDin 15 1 0 1 false 0 0 0 false). vm_compute. auto.
Qed.

Print Assumptions C77_memory.
Print Assumptions C77_latency.
Print Assumptions C77_ready.
Print Assumptions C77_order.
Print Assumptions C77_geometry_refuted.
