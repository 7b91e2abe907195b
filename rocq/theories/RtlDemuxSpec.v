(** Independent specification of the frame demultiplexers (C87). *)
From Verif Require Import PyBase RtlDemuxModel.

Section spec.
Context {D : Type}.
Notation ev := (dm_ev D).

(** The port a frame is meant for: the lowest one selected, unless it is to be dropped. *)
Definition choice (n : Z) (e : ev) : option Z :=
  if de_drop e then None else find (fun q => Z.testbit (de_select e) q) (map Z.of_nat (seq 0 (Z.to_nat n))).

(** A beat: tlast, the rest, and the choice offered beside it. *)
Definition beat := (bool * D * option Z)%type.
Definition takes (e : ev) : bool := de_valid e && de_ready e.
(** The beats taken since the last reset. *)
Definition taken_step (n : Z) (a : list beat) (e : ev) : list beat :=
  if de_rst e then [] else if takes e then a ++ [(de_last e, de_data e, choice n e)] else a.
Definition taken (n : Z) (tr : list ev) : list beat := fold_left (taken_step n) tr [].

(** The beats given to the sinks since the last reset, with the port. *)
Definition given (n : Z) (e : ev) : list (Z * (bool * D)) :=
  map (fun q => (q, (de_mlast e, de_mdata e))) (filter (fun q => Z.testbit (de_mvalid e) q && Z.testbit (de_mready e) q) (map Z.of_nat (seq 0 (Z.to_nat n)))).
Definition sent_step (n : Z) (a : list (Z * (bool * D))) (e : ev) := if de_rst e then [] else a ++ given n e.
Definition sent (n : Z) (tr : list ev) : list (Z * (bool * D)) := fold_left (sent_step n) tr [].

(** The complete frames of a list of beats, and the rest. *)
Definition cut (l : list beat) : list (list beat) * list beat :=
  fold_left (fun '(fs, cur) b => if fst (fst b) : bool then (fs ++ [cur ++ [b]], []) else (fs, cur ++ [b])) l ([], []).
Definition frames (l : list beat) : list (list beat) := fst (cut l) ++ [snd (cut l)].
(** The header is in the first beat, and for a data width of 64 goes on in the second, with which the choice is offered. *)
Definition decision (w64 : bool) (f : list beat) : option Z := match nth_error f (if w64 then 1 else 0)%nat with Some b => snd b | None => None end.
(** What the sinks should get: frame by frame, to the chosen port. *)
Definition sends (w64 : bool) (f : list beat) : list (Z * (bool * D)) := match decision w64 f with Some q => map (fun b => (q, fst b)) f | None => [] end.
Definition expected (w64 : bool) (l : list beat) : list (Z * (bool * D)) := flat_map (sends w64) (frames l).

(** Every frame reaches its port whole, in order, and nothing else does; at most three beats are still inside. *)
Definition routed (w64 : bool) (n : Z) (tr : list ev) : Prop :=
  exists inside, expected w64 (taken n tr) = sent n tr ++ inside /\ (length inside <= 3)%nat.

(** An offer its sink does not take is kept. *)
Definition kept (n : Z) (tr : list ev) : Prop :=
  forall a e1 e2 b q, tr = a ++ e1 :: e2 :: b -> 0 <= q < n -> de_rst e1 = false -> Z.testbit (de_mvalid e1) q = true -> Z.testbit (de_mready e1) q = false ->
  Z.testbit (de_mvalid e2) q = true /\ de_mlast e2 = de_mlast e1 /\ de_mdata e2 = de_mdata e1.

(** At [e] a beat is offered to a port that does not take it. *)
Definition held (n : Z) (e : ev) : Prop := exists q, 0 <= q < n /\ Z.testbit (de_mvalid e) q = true /\ Z.testbit (de_mready e) q = false.
(** After [tr], [e] takes the last beat of a frame that is dropped. *)
Definition ends_dropped (n : Z) (tr : list ev) (e : ev) : Prop :=
  de_rst e = false /\ takes e = true /\ de_last e = true /\ decision false (snd (cut (taken n tr)) ++ [(de_last e, de_data e, choice n e)]) = None.
(** No frame to be sent begins at the very clock after the end of a dropped one, if at that end an offer was held up. *)
Definition unblocked (n : Z) (tr : list ev) : Prop :=
  forall a e1 e2 b, tr = a ++ e1 :: e2 :: b -> ends_dropped n a e1 -> held n e1 -> takes e2 = true -> choice n e2 = None.

(** For a data width of 64: no frame is shorter than its header or dropped, and no beat is taken before the last reset. *)
Definition no_drop (n : Z) (tr : list ev) : Prop :=
  forall a b, tr = a ++ b -> forall f, In f (frames (taken n a)) -> (In f (fst (cut (taken n a))) -> (2 <= length f)%nat) /\ ((2 <= length f)%nat -> decision true f <> None).
Definition reset_first (tr : list ev) : Prop := forall a e b, tr = a ++ e :: b -> de_rst e = true -> Forall (fun e' => takes e' = false) (a ++ [e]).
Definition fit (w64 : bool) (n : Z) (tr : list ev) : Prop := if w64 then no_drop n tr /\ reset_first tr else unblocked n tr.
End spec.

(** Fairness: no reset, every sink is ready again and again, and the module is enabled. *)
Record dm_fair {D} (n : Z) (f : nat -> dm_in D) : Prop := {
  f_rst : forall k, di_rst (f k) = false;
  f_en : forall k, di_enable (f k) = true;
  f_sink : forall q k, 0 <= q < n -> exists m, Z.testbit (di_mready (f (k + m)%nat)) q = true }.
Definition dm_inputs {D} (l : list (dm_in D)) (f : nat -> dm_in D) (k : nat) : list (dm_in D) := l ++ map f (seq 0 k).
