(** What the AXI-Lite master and RAM must do together (C35): a byte memory that wraps at
    its size. *)
From Verif Require Import PyBase AxilModel.

(** The single byte stores of a write. *)
Fixpoint byte_ops (a : Z) (d : list Z) : list (Z * Z) :=
  match d with [] => [] | x :: r => (a, x) :: byte_ops (a + 1) r end.

(** Byte stores on a memory of [size] bytes. *)
Definition put_ops (size : Z) (m : Z -> Z) (ops : list (Z * Z)) : Z -> Z :=
  fold_left (fun m op y => if y =? fst op mod size then snd op else m y) ops m.

(** [n] bytes at [a]. *)
Definition get_bytes (size : Z) (m : Z -> Z) (a n : Z) : list Z :=
  map (fun i => m ((a + Z.of_nat i) mod size)) (seq 0 (Z.to_nat n)).

(** The bytes [l] are the memory [m]. *)
Definition holds (size : Z) (l : list Z) (m : Z -> Z) : Prop :=
  zlen l = size /\ forall i, 0 <= i < size -> nth (Z.to_nat i) l 0 = m i.

(** Write and read commands of a run. *)
Fixpoint writes (evs : list levent) : list (Z * list Z * Z) :=
  match evs with [] => [] | LWrite a d p :: evs => (a, d, p) :: writes evs | _ :: evs => writes evs end.
Fixpoint reads (evs : list levent) : list (Z * Z * Z) :=
  match evs with [] => [] | LRead a n p :: evs => (a, n, p) :: reads evs | _ :: evs => reads evs end.

(** Byte lanes, a power of two up to 128. *)
Definition lanes_ok (bw : Z) : Prop := exists k, 0 <= k <= 7 /\ bw = 2 ^ k.

(** Commands with addresses that doubles represent exactly. *)
Definition write_ok (c : Z * list Z * Z) : Prop :=
  let '(a, d, _) := c in 0 <= a /\ a + zlen d <= 2 ^ 52 /\ Forall is_byte d.
Definition read_ok (c : Z * Z * Z) : Prop :=
  let '(a, n, _) := c in 0 <= a /\ 1 <= n /\ a + n <= 2 ^ 52.

(** The byte stores of some writes, and the answers that writes and reads must get. *)
Definition all_ops (cs : list (Z * list Z * Z)) : list (Z * Z) := flat_map (fun c => byte_ops (fst (fst c)) (snd (fst c))) cs.
Definition write_answers (cs : list (Z * list Z * Z)) : list lwdone :=
  map (fun c => mkLd (fst (fst c)) (zlen (snd (fst c))) (snd c) 0) cs.
Definition read_answers (size : Z) (m : Z -> Z) (cs : list (Z * Z * Z)) : list lrdone :=
  map (fun c => mkLe (fst (fst c)) (get_bytes size m (fst (fst c)) (snd (fst c))) (snd c) 0) cs.

(** A batch: only writes or only reads. *)
Definition batch_ok (b : list levent) : Prop :=
  Forall write_ok (writes b) /\ Forall read_ok (reads b) /\ (reads b = [] \/ writes b = []).

(** Batches run one after the other; the next one starts when the master is idle. *)
Fixpoint batches (bw size : Z) (lat : nat) (s : lstate) (bs : list (list levent)) (s' : lstate) : Prop :=
  match bs with
  | [] => s' = s
  | b :: bs => batch_ok b /\ exists t, l_run bw size lat b s = Ok t /\ l_idle t = true /\ batches bw size lat t bs s'
  end.

(** What batches do to a byte memory, and the answers to their reads. *)
Fixpoint after (size : Z) (m : Z -> Z) (bs : list (list levent)) : Z -> Z :=
  match bs with [] => m | b :: bs => after size (put_ops size m (all_ops (writes b))) bs end.
Fixpoint answers (size : Z) (m : Z -> Z) (bs : list (list levent)) : list lrdone :=
  match bs with
  | [] => []
  | b :: bs => read_answers size m (reads b) ++ answers size (put_ops size m (all_ops (writes b))) bs
  end.

(** [n] clock edges. *)
Definition edges (rf : bool) (n : nat) : list levent := repeat (LEdge rf) n.
