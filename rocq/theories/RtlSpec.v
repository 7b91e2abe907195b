(** Independent specification of the encoder, arbiter and pulse merger. *)
From Verif Require Import PyBase RtlModel.

(** [i] is the set bit of [x] that wins: the lowest if [lsb], else the highest. *)
Definition winner (lsb : bool) (x i : Z) : Prop :=
  0 <= i /\ Z.testbit x i = true /\
  forall j, 0 <= j -> Z.testbit x j = true -> if lsb then i <= j else j <= i.

Definition vec (w x : Z) : Prop := 0 <= x < 2 ^ w.

(** Arbiter inputs and traces. *)
Definition arb_in_ok (p : arb_param) (i : arb_in) : Prop := vec (ap_ports p) (ai_req i) /\ vec (ap_ports p) (ai_ack i).
Definition arb_ok (p : arb_param) : Prop := 2 <= ap_ports p.
Definition requests (i : arb_in) (port : Z) : Prop := ai_rst i = false /\ Z.testbit (ai_req i) port = true.

(** The release condition of a blocking arbiter for the granted port. *)
Definition released (p : arb_param) (i : arb_in) (port : Z) : bool :=
  ai_rst i || (if ap_block_ack p then Z.testbit (ai_ack i) port else negb (Z.testbit (ai_req i) port)).

(** Ports granted by arbitration along a run: one for every clock at which the
    grant is not held by a blocking arbiter and some port requests. *)
Fixpoint granted (p : arb_param) (s : arb_state) (l : list arb_in) : list Z :=
  match l with
  | [] => []
  | i :: r =>
    let s' := arb_step p s i in
    let held := ap_block p && as_valid s && negb (released p i (as_enc s)) in
    (if negb held && as_valid s' then [as_enc s'] else []) ++ granted p s' r
  end.

(** Pulses. *)
Fixpoint ones (n : nat) (x : Z) : Z := match n with O => 0 | S m => ones m x + (if Z.testbit x (Z.of_nat m) then 1 else 0) end.
Definition received (iw : Z) (l : list (bool * Z)) : Z := fold_right (fun i n => ones (Z.to_nat iw) (snd i) + n) 0 l.
Definition emitted (o : list bool) : Z := zlen (filter (fun b => b) o).
(** The backlog of an ideal merger (unbounded counter). *)
Fixpoint backlog (iw : Z) (q : Z) (l : list (bool * Z)) : Z :=
  match l with
  | [] => q
  | i :: r => backlog iw (Z.max 0 (q - 1) + ones (Z.to_nat iw) (snd i)) r
  end.
Definition no_reset (l : list (bool * Z)) : Prop := Forall (fun i => fst i = false) l.
Definition fits (iw cw : Z) (l : list (bool * Z)) : Prop := forall k, backlog iw 0 (firstn k l) < 2 ^ cw.
