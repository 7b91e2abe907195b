(** What the AXI master and RAM must do together (C33, C34); the byte memory is that of
    AxilSpec. *)
From Verif Require Import PyBase AxilModel AxilSpec AxiModel.

(** An INCR burst that AXI allows: aligned, 1 to 256 beats, not more than the configured
    maximum, inside 4 KiB. *)
Definition legal (cfg : xcfg) (b : xaw) : Prop :=
  xa_burst b = 1 /\ 0 <= xa_size b /\ 2 ^ xa_size b <= xc_bw cfg /\ xa_addr b mod 2 ^ xa_size b = 0 /\
  1 <= xa_len b + 1 <= 256 /\ xa_len b + 1 <= Z.max 1 (xc_mbl cfg) /\
  xa_addr b / 4096 = (xa_addr b + (xa_len b + 1) * 2 ^ xa_size b - 1) / 4096.

(** Beat addresses of a burst. *)
Definition burst_addrs (b : xaw) : list Z := map (fun i => xa_addr b + Z.of_nat i * 2 ^ xa_size b) (seq 0 (Z.to_nat (xa_len b + 1))).

(** The configuration: power-of-two lanes up to 128, memory size a multiple, awid
    connected, ruser connected if buser is. *)
Definition cfg_ok (cfg : xcfg) : Prop :=
  lanes_ok (xc_bw cfg) /\ 0 < xc_size cfg /\ (xc_bw cfg | xc_size cfg) /\ xc_awid cfg <> None /\ (xc_buser cfg = true -> xc_ruser cfg = true).

(** Transfer sizes the bus allows. *)
Definition size_ok (cfg : xcfg) (z : option Z) : Prop := match z with None => True | Some z => 0 <= z /\ 2 ^ z <= xc_bw cfg end.

(** Commands with INCR bursts and addresses that doubles represent exactly. *)
Definition event_ok (cfg : xcfg) (e : xevent) : Prop :=
  match e with
  | XWrite a d b z _ => 0 <= a /\ a + zlen d <= 2 ^ 52 /\ Forall is_byte d /\ b = 1 /\ size_ok cfg z
  | XRead a n b z _ => 0 <= a /\ 0 <= n /\ a + n <= 2 ^ 52 /\ b = 1 /\ size_ok cfg z
  | XEdge _ _ => True
  end.

(** The writes (address, data, prot) and reads (address, length, prot) of a run. *)
Fixpoint xwrites (evs : list xevent) : list (Z * list Z * Z) :=
  match evs with [] => [] | XWrite a d _ _ p :: evs => (a, d, p) :: xwrites evs | _ :: evs => xwrites evs end.
Fixpoint xreads (evs : list xevent) : list (Z * Z * Z) :=
  match evs with [] => [] | XRead a n _ _ p :: evs => (a, n, p) :: xreads evs | _ :: evs => xreads evs end.

(** The answer to a read issued together with the writes [ws] over a memory [m]: the
    right number of bytes, each as it was at some moment of these writes. *)
Definition answer_ok (size : Z) (m : Z -> Z) (ws : list (Z * list Z * Z)) (c : Z * Z * Z) (r : lrdone) : Prop :=
  le_addr r = fst (fst c) /\ le_prot r = snd c /\ le_resp r = 0 /\ zlen (le_data r) = snd (fst c) /\
  forall i, 0 <= i < snd (fst c) -> exists k, nth (Z.to_nat i) (le_data r) 0 = put_ops size m (firstn k (all_ops ws)) ((fst (fst c) + i) mod size).

(** Runs one after the other; the next one starts when the master is idle. *)
Fixpoint xruns (cfg : xcfg) (s : xstate) (bs : list (list xevent)) (s' : xstate) : Prop :=
  match bs with
  | [] => s' = s
  | b :: bs => Forall (event_ok cfg) b /\ exists t, x_run cfg b s = Ok t /\ x_idle t = true /\ xruns cfg t bs s'
  end.

(** What they do to a byte memory, and how the reads are answered. *)
Fixpoint xafter (size : Z) (m : Z -> Z) (bs : list (list xevent)) : Z -> Z :=
  match bs with [] => m | b :: bs => xafter size (put_ops size m (all_ops (xwrites b))) bs end.
Fixpoint xanswered (size : Z) (m : Z -> Z) (bs : list (list xevent)) (l : list lrdone) : Prop :=
  match bs with
  | [] => l = []
  | b :: bs => exists l1 l2, l = l1 ++ l2 /\ Forall2 (answer_ok size m (xwrites b)) (xreads b) l1 /\
                 xanswered size (put_ops size m (all_ops (xwrites b))) bs l2
  end.

(** [n] clock edges without pause. *)
Definition free_edges (rf : bool) (n : nat) : list xevent := repeat (XEdge (mkXp false false false false false false false false false false) rf) n.

(** The bytes (address, value) that a beat of a burst stores: the lanes with a strobe. *)
Definition beat_ops (bw a : Z) (b : xbeat) : list (Z * Z) :=
  flat_map (fun i => if Z.testbit (snd (fst b)) (Z.of_nat i) then [(a / bw * bw + Z.of_nat i, (fst (fst b) / 2 ^ (8 * Z.of_nat i)) mod 256)] else []) (seq 0 (Z.to_nat bw)).

(** [last] of the beats of a burst. *)
Definition lasts (b : xaw) : list bool := repeat false (Z.to_nat (xa_len b)) ++ [true].

(** Aligned consecutive beats from the one that holds [a] to the one that holds [a + n - 1]. *)
Definition beats_for (size a n : Z) (l : list Z) : Prop :=
  l = map (fun i => a / 2 ^ size * 2 ^ size + Z.of_nat i * 2 ^ size) (seq 0 (length l)) /\
  (0 < n -> (zlen l - 1) * 2 ^ size < a mod 2 ^ size + n <= zlen l * 2 ^ size).
