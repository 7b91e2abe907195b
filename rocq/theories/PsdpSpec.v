(** What the segmented RAM interface must do (C31, C32). *)
From Verif Require Import PyBase PsdpModel.

(** Geometry: at least one segment of at least one byte. *)
Definition pcfg_ok (c : pcfg) : Prop := (1 <= p_segs c)%nat /\ 1 <= p_sbl c /\ 0 <= p_aw c.

(** Bytes the segments can address. *)
Definition capacity (c : pcfg) : Z := Z.of_nat (p_segs c) * p_sbl c * 2 ^ p_aw c.

(** A transfer of [n] bytes at [a] inside the segments. *)
Definition in_cap (c : pcfg) (a n : Z) : Prop := 0 <= a < capacity c /\ 0 <= n /\ a + n <= capacity c.

(** The writes requested in a run, in order. *)
Fixpoint writes (evs : list wevent) : list (Z * list Z) :=
  match evs with
  | [] => []
  | WWrite a d :: evs => (a, d) :: writes evs
  | _ :: evs => writes evs
  end.

(** A plain byte memory that executes the writes one after the other. *)
Fixpoint stores (ws : list (Z * list Z)) (m : mem) : mem :=
  match ws with
  | [] => m
  | (a, d) :: ws => stores ws (mem_store m a d)
  end.

(** A legal write: inside the segments, a string of bytes. *)
Definition write_ok (c : pcfg) (w : Z * list Z) : Prop := in_cap c (fst w) (zlen (snd w)) /\ Forall is_byte (snd w).

(** [n] clock edges without pause. *)
Definition free_edges (n : nat) : list wevent := repeat (WEdge false false) n.

(** The reads requested in a run, in order. *)
Fixpoint reads (evs : list revent) : list (Z * Z) :=
  match evs with
  | [] => []
  | RRead a n :: evs => (a, n) :: reads evs
  | _ :: evs => reads evs
  end.

(** What a read of [n] bytes at [a] must return. *)
Definition answer (m : mem) (r : Z * Z) : Z * list Z := (fst r, mem_load m (fst r) (snd r)).

(** [n] clock edges without pause. *)
Definition free_redges (n : nat) : list revent := repeat (REdge false false) n.
