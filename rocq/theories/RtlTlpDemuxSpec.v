(** Independent specification of the TLP demultiplexers (C91). *)
From Verif Require Import PyBase RtlTlpDemuxModel RtlRamDemuxSpec.

Definition td_ok (p : td_param) : Prop := 1 <= tp_ports p /\ 1 <= tp_segs p.
Definition upto (n : Z) : list Z := map Z.of_nat (seq 0 (Z.to_nat n)).

Section spec.
Context {D : Type}.

(** A segment: start and end flags and contents. *)
Definition segment : Type := bool * bool * D.
(** The port chosen for a packet that starts in segment [g]: the highest one selected, unless it is to be dropped. *)
Definition choice (p : td_param) (i : td_in D) (g : Z) : option Z :=
  if Z.testbit (tdi_drop i) g then None else last (map Some (filter (fun q => Z.testbit (tdi_select i) (tp_segs p * q + g)) (upto (tp_ports p)))) None.

Definition t_rst (e : td_ev D) : bool := tdi_rst (tde_in e).
(** The segments taken since the last reset, in order, each with the choice made at that clock. *)
Definition t_taken (p : td_param) : list (td_ev D) -> list (segment * option Z) :=
  since t_rst (fun e => if tde_ready e then
    map (fun g => ((Z.testbit (tdi_sop (tde_in e)) g, Z.testbit (tdi_eop (tde_in e)) g, tdi_data (tde_in e) g), choice p (tde_in e) g))
      (filter (fun g => Z.testbit (tdi_valid (tde_in e)) g) (upto (tp_segs p))) else []).
(** The segments shown to port [q] at a clock, and those it has taken since the last reset. *)
Definition shown (p : td_param) (q : Z) (e : td_ev D) : list segment :=
  map (fun g => (Z.testbit (tde_sop e) g, Z.testbit (tde_eop e) g, tde_data e g)) (filter (fun g => Z.testbit (tde_valid e) (tp_segs p * q + g)) (upto (tp_segs p))).
Definition t_given (p : td_param) (q : Z) : list (td_ev D) -> list segment :=
  since t_rst (fun e => if Z.testbit (tdi_ready (tde_in e)) q then shown p q e else []).

Definition is_sop (x : segment * option Z) : bool := fst (fst (fst x)).
Definition is_eop (x : segment * option Z) : bool := snd (fst (fst x)).
(** A packet goes on until its end; [c] is where the one under way goes.  Segments outside packets go nowhere. *)
Fixpoint to_port (q : Z) (c : option Z) (l : list (segment * option Z)) : list segment :=
  match l with
  | [] => []
  | x :: r => let c := if is_sop x then snd x else c in
              (match c with Some y => if y =? q then [fst x] else [] | None => [] end) ++ to_port q (if is_eop x then None else c) r
  end.
Definition t_routed (p : td_param) (tr : list (td_ev D)) : Prop := forall q, 0 <= q < tp_ports p ->
  exists rest, to_port q None (t_taken p tr) = t_given p q tr ++ rest /\ Z.of_nat (length rest) <= tp_segs p.

(** A whole packet: start flag on the first segment only, end flag on the last only. *)
Definition packet (l : list (segment * option Z)) : Prop :=
  exists x r, l = x :: r /\ is_sop x = true /\ Forall (fun y => is_sop y = false) r /\ exists a y, l = a ++ [y] /\ is_eop y = true /\ Forall (fun z => is_eop z = false) a.
Definition goes_to (q : Z) (l : list (segment * option Z)) : bool :=
  match l with (_, Some y) :: _ => y =? q | _ => false end.
(** Every port gets exactly the packets for it, whole and in order. *)
Definition t_packets (p : td_param) (tr : list (td_ev D)) : Prop := forall ps q, 0 <= q < tp_ports p -> Forall packet ps -> t_taken p tr = concat ps ->
  exists rest, concat (map (map fst) (filter (goes_to q) ps)) = t_given p q tr ++ rest /\ Z.of_nat (length rest) <= tp_segs p.

Definition t_kept (p : td_param) (tr : list (td_ev D)) : Prop := forall a e1 e2 b, tr = a ++ e1 :: e2 :: b -> t_rst e1 = false ->
  forall q, 0 <= q < tp_ports p -> shown p q e1 <> [] -> Z.testbit (tdi_ready (tde_in e1)) q = false -> shown p q e2 = shown p q e1.

Definition t_inputs (l : list (td_in D)) (f : nat -> td_in D) (k : nat) : list (td_in D) := l ++ map f (seq 0 k).
(** Sinks that are ready again and again. *)
Definition t_fair (p : td_param) (f : nat -> td_in D) : Prop :=
  (forall k, tdi_rst (f k) = false) /\ forall q k, 0 <= q < tp_ports p -> exists m, Z.testbit (tdi_ready (f (k + m)%nat)) q = true.
End spec.

(** Ready to take a beat exactly when enabled and either nothing is shown to any port or every port is ready. *)
Definition t_ready {D} (p : td_param) (tr : list (td_ev D)) : Prop := forall e, In e tr ->
  tde_ready e = true <-> tdi_enable (tde_in e) = true /\
    ((forall q, 0 <= q < tp_ports p -> shown p q e = []) \/ (forall q, 0 <= q < tp_ports p -> Z.testbit (tdi_ready (tde_in e)) q = true)).

(** Three-bit field [m] of a vector: BAR numbers. *)
Definition bar3 (v m : Z) : Z := (v / 8 ^ m) mod 8.
Definition bars_distinct (p : td_param) (ids : Z) : Prop := forall m m', 0 <= m < tp_ports p -> 0 <= m' < tp_ports p -> bar3 ids m = bar3 ids m' -> m = m'.
