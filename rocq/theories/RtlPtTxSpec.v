(** What the transmit side of the P-Tile interface is to do, in terms of its ports. *)
From Verif Require Import PyBase RtlModel RtlFcModel RtlFcSpec RtlFifoModel RtlFifoSpec RtlFmuxModel RtlPtTxModel.

Definition t_running (i : tx_in) : Prop := ti_rst i = false.
(** A beat as it is at tx_st: data, header, sop and eop only. *)
Definition t_bare (data hdr : Z) (sop eop : bool) : fbeat := mkFb data 0 hdr 0 0 0 0 sop eop.
(** The beats taken at a port. A read request (port 2) has one beat, without data. *)
Definition t_taken (n : Z) (e : tx_in * tx_state) : list fbeat :=
  let b := ti_b (fst e) n in
  if ti_valid (fst e) n && negb (fs_full (ms_d (ts_mux (snd e)) n) || fs_full (ms_c (ts_mux (snd e)) n))
  then [if n =? 2 then t_bare 0 (fb_hdr b) true true else t_bare (fb_data b) (fb_hdr b) (fb_sop b) (fb_eop b)] else [].
(** The beats sent. *)
Definition t_sent (e : tx_in * tx_state) : list fbeat :=
  let o := ts_out (snd e) in if to_v o then [t_bare (to_data o) (to_hdr o) (to_sop o) (to_eop o)] else [].

(** The rules of tx_st for a ready latency of 3: valid only if ready was high three clocks before; and within a TLP ([open]) valid in each such clock.
    r1, r2 and r3 are ready one, two and three clocks before. *)
Fixpoint t_rules (r1 r2 r3 open : bool) (l : list (tx_in * tx_state)) : Prop :=
  match l with
  | [] => True
  | (i, s) :: t => (to_v (ts_out s) = true -> r3 = true) /\ (open = true -> r3 = true -> to_v (ts_out s) = true) /\
      t_rules (ti_ready i) r1 r2 (if to_v (ts_out s) then negb (to_eop (ts_out s)) else open) t
  end.

(** The credits for a TLP of port n are seen: five headers, and data for more than two TLPs of the largest payload. *)
Definition t_credit (s : tx_state) (n : Z) : Prop :=
  if n =? 1 then 5 <= pt_av (tc_cplh (ts_c s)) /\ 2 * ts_mpf s < pt_av (tc_cpld (ts_c s))
  else if n =? 2 then 5 <= pt_av (tc_nph (ts_c s))
  else 5 <= pt_av (tc_ph (ts_c s)) /\ 2 * ts_mpf s < pt_av (tc_pd (ts_c s)).

(** The kind of TLP a port has: completions, read requests, or writes. *)
Definition t_kind (n : Z) : Z -> bool := if n =? 1 then completion else if n =? 2 then nonposted else posted.
(** The beats of a port as they should come: sop at the first beat of each TLP and only there, with a header of the kind of the port. *)
Fixpoint t_framed (kind : Z -> bool) (first : bool) (l : list fbeat) : Prop :=
  match l with [] => True | b :: t => fb_sop b = first /\ (first = true -> kind (psel (fb_hdr b) 120 8) = true) /\ t_framed kind (fb_eop b) t end.
(** No counter has fewer header credits than are to be subtracted from it in this clock. *)
Definition t_covered (s : tx_state) : Prop :=
  let f := ms_fc (ts_mux s) in let c := ts_c s in fc_ph f <= pt_av (tc_ph c) /\ fc_nph f <= pt_av (tc_nph c) /\ fc_cplh f <= pt_av (tc_cplh c).

(** The kinds of headers by their index at tx_cdts_limit_tdm_idx: 0 posted, 1 non-posted, 2 completions. *)
Definition t_class (j : Z) : Z -> bool := if j =? 0 then posted else if j =? 1 then nonposted else completion.
(** TLPs of class j among these beats. *)
Definition t_heads (j : Z) (l : list fbeat) : Z := Z.of_nat (length (filter (fun b => fb_sop b && t_class j (psel (fb_hdr b) 120 8)) l)).
(** The limit of class j as the core announces it: al has, for each clock, the number of headers allowed so far since the reset; it is shown modulo 2^12 in the turn of j. *)
Fixpoint t_shown (j a : Z) (l : list tx_in) (al : list Z) : Prop :=
  match l, al with
  | [], [] => True
  | i :: l, a' :: al => a <= a' < a + 2 ^ 12 /\ (if ti_idx i =? j then ti_lim i mod 2 ^ 12 = a' mod 2 ^ 12 else a' = a) /\ t_shown j a' l al
  | _, _ => False
  end.
(** A new limit is shown again, unchanged, in the next clock. *)
Fixpoint t_twice (j a : Z) (l : list tx_in) (al : list Z) : Prop :=
  match l, al with
  | i :: l, a' :: al => (a' <> a -> match l, al with i2 :: _, a2 :: _ => ti_idx i2 = j /\ a2 = a' | _, _ => True end) /\ t_twice j a' l al
  | _, _ => True
  end.
