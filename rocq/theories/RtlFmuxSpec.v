(** What a multiplexer for TLPs with a FIFO for each port is to do, in terms of its ports. *)
From Verif Require Import PyBase RtlFifoModel RtlFifoSpec RtlFmuxModel.

(** The beats taken at port n, and those given at the output. *)
Definition m_taken (n : Z) (e : fm_in * fm_st) : list fbeat :=
  if mi_valid (fst e) n && negb (fs_full (ms_d (snd e) n) || fs_full (ms_c (snd e) n)) then [mi_b (fst e) n] else [].
Definition m_given (e : fm_in * fm_st) : list fbeat := if mo_v (ms_out (snd e)) && mi_ready (fst e) then [mo_b (ms_out (snd e))] else [].
(** The sequence numbers reported for port n: sel_tlp_seq with sel_tlp_seq_valid. *)
Definition m_seq (n : Z) (e : fm_in * fm_st) : list Z := if ms_osqv (snd e) n then [ms_osq (snd e)] else [].

(** Beats with their ports; those of one port. *)
Definition of_port (n : Z) (l : list (Z * fbeat)) : list fbeat := map snd (filter (fun e => fst e =? n) l).
(** The beats of a TLP are together: after a beat that is not the last of its TLP comes one of the same port; [o] is the port of the open TLP. *)
Fixpoint together (o : option Z) (l : list (Z * fbeat)) : Prop :=
  match l with [] => True | (n, b) :: t => match o with Some m => n = m | None => True end /\ together (if fb_eop b then None else Some n) t end.
(** The first beats of the TLPs; [f] says that a TLP begins. *)
Fixpoint firsts (f : bool) (l : list fbeat) : list fbeat :=
  match l with [] => [] | b :: t => (if f then [b] else []) ++ firsts (fb_eop b) t end.

Definition m_running (i : fm_in) : Prop := mi_rst i = false.
Definition mp_ok (p : fm_param) : Prop := 1 <= mp_n p /\ fp_ok (mp_f p).
(** Nothing comes, no port is held, and the output is taken. *)
Definition m_draining (i : fm_in) : Prop := mi_rst i = false /\ (forall n, mi_valid i n = false) /\ (forall n, mi_pause i n = false) /\ mi_ready i = true.
(** Port m goes before port n: for a fixed priority. *)
Definition m_before (p : fm_param) (m n : Z) : Prop := 0 <= m < mp_n p /\ if mp_lsb p then m < n else n < m.
(** The FIFO of a port has a beat at its control output. *)
Definition m_offers (s : fm_st) (n : Z) : bool := fs_ov (ms_c s n).
