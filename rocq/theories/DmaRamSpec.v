(** What the segmented RAM of tb/dma_ram.py must do (C77), in terms of the handshakes
    seen on its ports. *)
From Coq Require Import Permutation.
From Verif Require Import PyBase DmaRamModel.

(** A usable geometry: the memory holds whole words, the pipeline is not empty. *)
Definition geom_ok (c : dcfg) : Prop :=
  1 <= d_cnt c /\ 1 <= d_bw c /\ 0 <= d_aw c /\ 0 < d_size c /\ d_size c mod d_bw c = 0 /\ (1 <= d_lat c)%nat.

(** Field [k] of width [w] of a vector. *)
Definition fld (w k v : Z) : Z := (v / 2 ^ (w * k)) mod 2 ^ w.

(** First byte of word [a] of port [k]. *)
Definition base (c : dcfg) (k a : Z) : Z := ((a * d_cnt c + k) * d_bw c) mod d_size c.

(** Little endian value of [n] bytes. *)
Fixpoint word_of (m : mem) (a : Z) (n : nat) : Z :=
  match n with O => 0 | S n' => m a + 256 * word_of m (a + 1) n' end.

(** Memory after the write command at port [k]. *)
Definition written (c : dcfg) (i : din) (k : Z) (m : mem) : mem := fun x =>
  let j := x - base c k (fld (d_aw c) k (i_waddr i)) in
  if (0 <=? j) && (j <? d_bw c) && Z.testbit (i_wbe i) (k * d_bw c + j)
  then fld 8 (k * d_bw c + j) (i_wdata i) else m x.

(** A command counts when valid and ready are both seen high.  The state is the memory
    and the answers owed, in order, each with its port. *)
Definition spec_proc (c : dcfg) (i : din) (o : dout) (s : mem * list (Z * Z)) (p : proc) : mem * list (Z * Z) :=
  match p with
  | PWrite k => if Z.testbit (i_wvalid i) k && Z.testbit (o_wready o) k then (written c i k (fst s), snd s) else s
  | PRead k => if Z.testbit (i_rvalid i) k && Z.testbit (o_rready o) k
               then (fst s, snd s ++ [(k, word_of (fst s) (base c k (fld (d_aw c) k (i_raddr i))) (Z.to_nat (d_bw c)))]) else s
  end.
Definition spec_edge (c : dcfg) (s : mem * list (Z * Z)) (e : din * list proc * dout) : mem * list (Z * Z) :=
  fold_left (spec_proc c (fst (fst e)) (snd e)) (snd (fst e)) s.
Definition spec_run (c : dcfg) (m : mem) (t : list (din * list proc * dout)) : mem * list (Z * Z) :=
  fold_left (spec_edge c) t (m, []).

(** What is owed to port [k]. *)
Definition owed (k : Z) (l : list (Z * Z)) : list Z := map snd (filter (fun e => fst e =? k) l).

(** What port [k] was given. *)
Definition given (c : dcfg) (k : Z) (e : din * list proc * dout) : list Z :=
  if Z.testbit (o_rvalid (snd e)) k && Z.testbit (i_rready (fst (fst e))) k then [fld (8 * d_bw c) k (o_rdata (snd e))] else [].
Definition all_given (c : dcfg) (k : Z) (t : list (din * list proc * dout)) : list Z := flat_map (given c k) t.

(** The processes of an edge; each runs once, in any order. *)
Definition procs (c : dcfg) : list proc :=
  let ks := map Z.of_nat (seq 0 (Z.to_nat (d_cnt c))) in map PWrite ks ++ map PRead ks.
Definition orders_ok (c : dcfg) (l : list (din * list proc)) : Prop := Forall (fun e => Permutation (procs c) (snd e)) l.
