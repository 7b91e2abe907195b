(** Independent specification of the TLP multiplexer (C92, C93). *)
From Verif Require Import PyBase RtlMuxModel RtlTlpMuxModel RtlRamDemuxSpec.

Definition tm_ok (p : tm_param) : Prop := 1 <= tm_n p /\ 1 <= tm_s p.
Definition count_up (n : Z) : list Z := map Z.of_nat (seq 0 (Z.to_nat n)).

Section spec.
Context {D : Type}.
(** A segment: start and end flags and the other fields. *)
Definition mseg : Type := bool * bool * D.

(** The valid segments of a beat come first. *)
Definition packed (p : tm_param) (x : tm_pin D) : Prop := exists m, 0 <= m <= tm_s p /\ pi_valid x = 2 ^ m - 1.
(** Beats are empty or full. *)
Definition all_or_none (p : tm_param) (x : tm_pin D) : Prop := pi_valid x = 0 \/ pi_valid x = 2 ^ tm_s p - 1.
Definition in_packed (p : tm_param) (i : tm_in D) : Prop := Z.of_nat (length (ti_port i)) = tm_n p /\ Forall (packed p) (ti_port i).
Definition in_full (p : tm_param) (i : tm_in D) : Prop := Z.of_nat (length (ti_port i)) = tm_n p /\ Forall (all_or_none p) (ti_port i).

Definition m_rst (e : tm_ev D) : bool := ti_rst (te_in e).
(** The segments taken from port [q] since the last reset. *)
Definition m_taken (p : tm_param) (q : Z) : list (tm_ev D) -> list mseg :=
  since m_rst (fun e => match nth_error (ti_port (te_in e)) (Z.to_nat q), nth (Z.to_nat q) (te_ready e) false with
    | Some x, true => map (fun k => (Z.testbit (pi_sop x) k, Z.testbit (pi_eop x) k, pi_data x k)) (filter (fun k => Z.testbit (pi_valid x) k) (count_up (tm_s p)))
    | _, _ => [] end).
(** The segments taken from the output since the last reset. *)
Definition m_out : list (tm_ev D) -> list mseg := since m_rst (fun e => if ti_ready (te_in e) then map snd (filter fst (te_out e)) else []).

Definition ends_packet (x : Z * mseg) : bool := snd (fst (snd x)).
(** A packet is not interrupted by segments of other ports. *)
Definition whole (src : list (Z * mseg)) : Prop := forall a x y b, src = a ++ x :: y :: b -> ends_packet x = false -> fst y = fst x.
Definition from_port (q : Z) (src : list (Z * mseg)) : list mseg := map snd (filter (fun x => fst x =? q) src).

(** The output is a merge of the inputs by packets: [src] lists the segments sent with the port each comes from. *)
Record is_merge (p : tm_param) (tr : list (tm_ev D)) (src : list (Z * mseg)) : Prop := {
  im_out : exists rest, map snd src = m_out tr ++ rest /\ Z.of_nat (length rest) <= 2 * tm_s p;
  im_in : forall q, 0 <= q < tm_n p -> exists rest, m_taken p q tr = from_port q src ++ rest /\ Z.of_nat (length rest) <= tm_s p;
  im_ports : Forall (fun x => 0 <= fst x < tm_n p) src;
  im_whole : whole src }.

(** The selections reported by sel_tlp_seq_valid and sel_tlp_seq at one clock, and since the last reset. *)
Definition pulses (p : tm_param) (e : tm_ev D) : list (Z * D) :=
  flat_map (fun g => flat_map (fun q => if Z.testbit (te_selv e) (tm_s p * q + g) then match nth_error (te_sel e) (Z.to_nat g) with Some d => [(q, d)] | None => [] end else [])
    (count_up (tm_n p))) (count_up (tm_s p)).
Definition m_pulses (p : tm_param) : list (tm_ev D) -> list (Z * D) := since m_rst (pulses p).
(** The first segments of packets: those at the start or after an end. *)
Fixpoint firsts (start : bool) (src : list (Z * mseg)) : list (Z * D) :=
  match src with
  | [] => []
  | x :: r => (if start then [(fst x, snd (snd x))] else []) ++ firsts (ends_packet x) r
  end.

Definition m_kept (tr : list (tm_ev D)) : Prop := forall a e1 e2 b, tr = a ++ e1 :: e2 :: b -> m_rst e1 = false -> te_out e1 <> [] -> ti_ready (te_in e1) = false -> te_out e2 = te_out e1.
End spec.
