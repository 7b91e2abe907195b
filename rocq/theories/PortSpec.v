(** What a link must do (C78, C79). *)
From Verif Require Import PyBase PortModel.


(** A serial line: a TLP starts when it is sent and the line is free, occupies the line for
    [d a], and arrives [ld] later. *)
Fixpoint serial {A} (d : A -> Z) (ld free : Z) (l : list (Z * A)) : list (Z * A) :=
  match l with
  | [] => []
  | (t, a) :: r => let f := Z.max t free + d a in (f + ld, a) :: serial d ld f r
  end.

(** The times at which the sends of a run were made. *)
Fixpoint sent {A} (d : A -> Z) (ld : Z) (s : tx A) (l : list (op A)) : list (Z * A) :=
  match l with
  | [] => []
  | o :: r => match tx_step d ld s o with
              | Some s' => match o with Send a => (tx_now s, a) :: sent d ld s' r | _ => sent d ld s' r end
              | None => []
              end
  end.

(** The links of a set of ports are two-sided, join two different existing ports, at most one per
    plain port, and a plain port uses the lower of the two speeds and widths and the sum of
    the delays. *)
Definition links_ok (ps : list port) : Prop := forall i p, nth_error ps i = Some p ->
  (p_bus p = false -> (length (p_other p) <= 1)%nat) /\ NoDup (p_other p) /\
  forall j, In j (p_other p) -> j <> i /\ exists q, nth_error ps j = Some q /\ In i (p_other q) /\
    (p_bus p = false -> p_curs p = Z.min (p_maxs p) (p_maxs q) /\ p_curw p = Z.min (p_maxw p) (p_maxw q) /\ p_ldelay p = p_delay p + p_delay q).

(** A port can take another link to port [j]. *)
Definition can_link (p : port) (j : nat) : Prop := if p_bus p then ~ In j (p_other p) else p_other p = [].

(** A bound on the events left: three for every queued TLP and one being clocked out, one for every other
    event. *)
Definition work {A} (s : tx A) : nat := (3 * length (tx_queue s) + list_sum (map (fun x => match snd x with Arr _ => 1 | Fin _ => 3 | Start => 1 end) (tx_pend s)))%nat.
