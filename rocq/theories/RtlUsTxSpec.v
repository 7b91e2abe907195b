(** What the adapters for UltraScale completion and request streams should do (C111 to C115), in terms of the double words of the TLPs. *)
From Verif Require Import PyBase RtlAxmSpec RtlUsIfSpec RtlUsTxModel.

Definition tp_ok (p : tx_param) : Prop := 1 <= tp_lw p <= 4.
(** Double words in a beat of the stream or of a FIFO, and in a descriptor. *)
Definition WT (p : tx_param) : Z := 2 ^ tp_lw p.
Definition HT (p : tx_param) : Z := if tp_rq p then 4 else 3.

(** * Descriptors (UltraScale integrated block): double word j, v, of the descriptor for the TLP with header h *)
(** Completions: byte count 1 to 4096, double words 0 to 1024. *)
Definition cc_bytes (h : Z) : Z := if fld h 75 64 =? 0 then 4096 else fld h 75 64.
Definition cc_dwords (h : Z) : Z := if fld h 126 126 =? 1 then (if fld h 105 96 =? 0 then 1024 else fld h 105 96) else 0.
Definition cc_dw_is (h j v : Z) : Prop :=
  (j = 0 -> fld v 6 0 = fld h 38 32 (* lower address *) /\ fld v 9 8 = fld h 107 106 (* address type *) /\ fld v 28 16 = cc_bytes h /\ fld v 7 7 = 0 /\ fld v 15 10 = 0 /\ fld v 31 29 = 0) /\
  (j = 1 -> fld v 10 0 = cc_dwords h /\ fld v 13 11 = fld h 79 77 (* status *) /\ fld v 14 14 = fld h 110 110 (* poisoned *) /\ fld v 15 15 = 0 /\ fld v 31 16 = fld h 63 48 (* requester *)) /\
  (j = 2 -> fld v 7 0 = fld h 47 40 (* tag *) /\ fld v 23 8 = fld h 95 80 (* completer *) /\ fld v 24 24 = 0 /\ fld v 27 25 = fld h 118 116 (* traffic class *) /\ fld v 29 28 = fld h 109 108 /\ fld v 30 30 = fld h 114 114 (* attributes *) /\ fld v 31 31 = 0).
(** Requests: the address is in the third and fourth double word of the header, or, if bit 125 is 0, in the third one only; the completer is for configuration requests only. *)
Definition rq_addr_lo (h : Z) : Z := if fld h 125 125 =? 1 then fld h 31 2 else fld h 63 34.
Definition rq_addr_hi (h : Z) : Z := if fld h 125 125 =? 1 then fld h 63 32 else 0.
(** Format, type: read, write, IO, atomics, locked read, as above; configuration requests. *)
Definition rq_kind_is (f t k : Z) : Prop := In (k, (f, t)) rq_kinds \/ (f = 0 /\ In (k, (1, t)) rq_kinds) \/ (f = 2 /\ In (k, (3, t)) rq_kinds) \/ In (f, t, k) [(0, 4, 8); (2, 4, 10); (0, 5, 9); (2, 5, 11)].
Definition rq_dw_is (h j v : Z) : Prop :=
  (j = 0 -> fld v 1 0 = fld h 107 106 /\ fld v 31 2 = rq_addr_lo h) /\ (j = 1 -> v = rq_addr_hi h) /\
  (j = 2 -> fld v 10 0 = (if fld h 105 96 =? 0 then 1024 else fld h 105 96) /\ rq_kind_is (fld h 127 125) (fld h 124 120) (fld v 14 11) /\ fld v 15 15 = fld h 110 110 (* poisoned *) /\ fld v 31 16 = fld h 95 80 (* requester *)) /\
  (j = 3 -> fld v 7 0 = fld h 79 72 (* tag *) /\ fld v 23 8 = 0 /\ fld v 24 24 = 0 /\ fld v 27 25 = fld h 118 116 (* traffic class *) /\ fld v 29 28 = fld h 109 108 /\ fld v 30 30 = fld h 114 114 (* attributes *) /\ fld v 31 31 = 0).
Definition desc_dw_is (p : tx_param) (h j v : Z) : Prop := if tp_rq p then rq_dw_is h j v else cc_dw_is h j v.

(** * Beats of a TLP *)
(** Beat i of a TLP from a port (true: writes, completions), with this header, sequence number and payload; all of the payload is known, or only some. *)
Record tchunk := mkTk { tk_port : bool; tk_hdr : Z; tk_seq : Z; tk_pay : list Z; tk_all : bool; tk_i : Z }.
(** Beats of a TLP with n double words (with descriptor), and those that are full. *)
Definition tbeats (p : tx_param) (n : Z) : Z := (n + WT p - 1) / WT p.
Definition tfull (p : tx_param) (n : Z) : Z := n / WT p.
(** The sequence number in the user signal. *)
Definition seq_of (p : tx_param) (u : Z) : Z := if tp_lw p =? 4 then fld u 66 61 else if tp_u62 p then fld u 27 24 + 16 * fld u 61 60 else fld u 27 24.
(** The user signal: byte enables and sequence number (marked for reads) in the first beat of a request, discontinue never; with 512 bits first and last beat of a completion. *)
Definition user_is (p : tx_param) (c : tchunk) (last : bool) (u : Z) : Prop :=
  if tp_rq p then
    (tk_i c = 0 -> fld u 3 0 = fld (tk_hdr c) 67 64 /\ (if tp_lw p =? 4 then fld u 11 8 else fld u 7 4) = fld (tk_hdr c) 71 68 /\ seq_of p u = tk_seq c + (if tk_port c then 0 else 2 ^ (tp_sw p - 1))) /\
    (if tp_lw p =? 4 then fld u 36 36 else fld u 11 11) = 0
  else if tp_lw p =? 4 then fld u 1 0 = (if tk_i c =? 0 then 1 else 0) /\ fld u 3 2 = 0 /\ fld u 7 6 = (if last then 1 else 0) /\ fld u 16 16 = 0
  else fld u 0 0 = 0.
Definition tout_is (p : tx_param) (c : tchunk) (e : tx_ev) : Prop :=
  let t := HT p + zlen (tk_pay c) in let n := Z.min (WT p) (t - tk_i c * WT p) in
  tv_last e = tk_all c && (tk_i c =? tbeats p t - 1) /\ tv_keep e = 2 ^ n - 1 /\ user_is p c (tv_last e) (tv_user e) /\
  (forall l, 0 <= l < n -> let g := tk_i c * WT p + l in if g <? HT p then desc_dw_is p (tk_hdr c) g (lane (tv_data e) l) else lane (tv_data e) l = dw (tk_pay c) (g - HT p)).
Definition tchunks (port : bool) (h sq : Z) (pay : list Z) (all : bool) (a b : Z) : list tchunk := map (fun j => mkTk port h sq pay all (a + Z.of_nat j)) (seq 0 (Z.to_nat (b - a))).

(** * The monitor. For each FIFO: the beat that is shown and not yet read; header, sequence number and payload that were read of a TLP, if one is open; beats for the stream *)
Record tx_pm := mkPm { pm_cur : option tx_beat; pm_open : bool; pm_hdr : Z; pm_seq : Z; pm_pay : list Z; pm_q : list tchunk }.
Definition pm0 : tx_pm := mkPm None false 0 0 [] [].
(** The payload of a beat: read requests have none. *)
Definition bpay (port : bool) (b : tx_beat) : list Z := if port then lanes (tb_data b) (kcnt (tb_strb b)) else [].
Definition phdr (m : tx_pm) (b : tx_beat) : Z := if pm_open m then pm_hdr m else tb_hdr b.
Definition pseq (m : tx_pm) (b : tx_beat) : Z := if pm_open m then pm_seq m else tb_seq b.
Definition ppay (port : bool) (m : tx_pm) (b : tx_beat) : list Z := (if pm_open m then pm_pay m else []) ++ bpay port b.
(** The beats of the stream that are due with a beat: all up to the end, or those that are full. *)
Definition pdue (p : tx_param) (port : bool) (m : tx_pm) (b : tx_beat) (a : Z) : list tchunk :=
  let n := HT p + zlen (ppay port m b) in tchunks port (phdr m b) (pseq m b) (ppay port m b) (tb_eop b) a (if tb_eop b then tbeats p n else tfull p n).
Definition pstart (p : tx_param) (m : tx_pm) : Z := if pm_open m then tfull p (HT p + zlen (pm_pay m)) else 0.
Definition pm_next (p : tx_param) (port : bool) (m : tx_pm) (b : tx_beat) (rd pop : bool) : tx_pm :=
  let q := if pop then tl (pm_q m) else pm_q m in
  let q' := if tb_valid b && (match pm_cur m with None => true | _ => false end) then q ++ pdue p port m b (pstart p m) else q in
  if rd then mkPm None (negb (tb_eop b)) (phdr m b) (pseq m b) (if tb_eop b then [] else ppay port m b) q'
  else mkPm (if tb_valid b then Some b else None) (pm_open m) (pm_hdr m) (pm_seq m) (pm_pay m) q'.
(** Both FIFOs, and the one whose TLP is open in the stream. *)
Record tx_mon := mkTm { tm_rd : tx_pm; tm_wr : tx_pm; tm_lock : option bool }.
Definition tm0 : tx_mon := mkTm pm0 pm0 None.
(** Where a beat in the stream comes from: the sequence number of the first beat tells. *)
Definition t_who (p : tx_param) (m : tx_mon) (e : tx_ev) : bool := match tm_lock m with Some b => b | None => if tp_rq p then seq_of p (tv_user e) <? 2 ^ (tp_sw p - 1) else true end.
Definition t_taken (e : tx_ev) : bool := tv_valid e && ti_ready (tv_in e).
Definition tm_next (p : tx_param) (m : tx_mon) (e : tx_ev) : tx_mon :=
  let i := tv_in e in let w := t_who p m e in
  if ti_rst i then tm0 else
  mkTm (pm_next p false (tm_rd m) (ti_rd i) (tv_rd e) (t_taken e && negb w)) (pm_next p true (tm_wr m) (ti_wr i) (tv_wr e) (t_taken e && w))
    (if t_taken e then (if tv_last e then None else Some w) else tm_lock m).
Definition tm_port (m : tx_mon) (b : bool) : tx_pm := if b then tm_wr m else tm_rd m.
(** Every beat in the stream is the next one of the FIFO; a FIFO is read only if it shows something. *)
Definition tx_shows (p : tx_param) (m : tx_mon) (e : tx_ev) : Prop :=
  (tv_valid e = true -> exists c r, pm_q (tm_port m (t_who p m e)) = c :: r /\ tout_is p c e) /\ (tv_rd e = true -> tb_valid (ti_rd (tv_in e)) = true) /\ (tv_wr e = true -> tb_valid (ti_wr (tv_in e)) = true).

(** * What the FIFOs guarantee *)
(** A beat stays until it is read; the lanes used are the first ones, all of them but in the last beat, some unless the TLP has no payload. *)
Definition beat_ok (p : tx_param) (port : bool) (m : tx_pm) (b : tx_beat) : Prop := tb_valid b = true ->
  0 <= tb_hdr b < 2 ^ 128 /\ 0 <= tb_seq b < 2 ^ (tp_sw p - 1) /\
  (if port then let n := kcnt (tb_strb b) in tb_strb b = 2 ^ n - 1 /\ 0 <= n <= WT p /\ (tb_eop b = false -> n = WT p) /\ (pm_open m = true -> 1 <= n) else tb_eop b = true).
Definition port_assume (p : tx_param) (port : bool) (m : tx_pm) (b : tx_beat) : Prop := match pm_cur m with Some c => b = c | None => beat_ok p port m b end.
Definition tx_assume1 (p : tx_param) (m : tx_mon) (e : tx_ev) : Prop := ti_rst (tv_in e) = false -> port_assume p false (tm_rd m) (ti_rd (tv_in e)) /\ port_assume p true (tm_wr m) (ti_wr (tv_in e)) /\ (tp_rq p = false -> tb_valid (ti_rd (tv_in e)) = false).
(** Headers of new TLPs: completions with a byte count below 4096, less than 1024 double words, and length 0 if there is no data. *)
Definition cc_hdr_ok (h : Z) : Prop := 1 <= fld h 75 64 /\ (if fld h 126 126 =? 1 then 1 <= fld h 105 96 else fld h 105 96 = 0).
(** Requests of a kind that is known, with a header of four double words. *)
Definition rq_hdr_ok (h : Z) : Prop := fld h 125 125 = 1 /\ exists k, rq_kind_is (fld h 127 125) (fld h 124 120) k.
Definition thdr_ok (p : tx_param) (h : Z) : Prop := if tp_rq p then rq_hdr_ok h else cc_hdr_ok h.
Definition tx_assume2 (p : tx_param) (m : tx_mon) (e : tx_ev) : Prop := ti_rst (tv_in e) = false ->
  (tb_valid (ti_rd (tv_in e)) = true -> pm_open (tm_rd m) = false -> thdr_ok p (tb_hdr (ti_rd (tv_in e)))) /\ (tb_valid (ti_wr (tv_in e)) = true -> pm_open (tm_wr m) = false -> thdr_ok p (tb_hdr (ti_wr (tv_in e)))).
Fixpoint tx_follows (p : tx_param) (m : tx_mon) (tr : list tx_ev) : Prop :=
  match tr with [] => True | e :: r => tx_shows p m e /\ (tx_assume1 p m e -> tx_assume2 p m e -> tx_follows p (tm_next p m e) r) end.
(** The same for all headers. *)
Fixpoint tx_follows_all (p : tx_param) (m : tx_mon) (tr : list tx_ev) : Prop :=
  match tr with [] => True | e :: r => tx_shows p m e /\ (tx_assume1 p m e -> tx_follows_all p (tm_next p m e) r) end.
(** For requests: all kinds that are known. *)
Definition tx_assume2k (p : tx_param) (m : tx_mon) (e : tx_ev) : Prop := ti_rst (tv_in e) = false -> forall b, tb_valid (tx_port (tv_in e) b) = true -> pm_open (tm_port m b) = false ->
  exists k, rq_kind_is (fld (tb_hdr (tx_port (tv_in e) b)) 127 125) (fld (tb_hdr (tx_port (tv_in e) b)) 124 120) k.
Fixpoint tx_follows_k (p : tx_param) (m : tx_mon) (tr : list tx_ev) : Prop :=
  match tr with [] => True | e :: r => tx_shows p m e /\ (tx_assume1 p m e -> tx_assume2k p m e -> tx_follows_k p (tm_next p m e) r) end.

(** What is shown and not taken is kept. *)
Definition tx_kept (e e' : tx_ev) : Prop := ti_rst (tv_in e) = false -> tv_valid e = true -> ti_ready (tv_in e) = false ->
  tv_valid e' = true /\ tv_data e' = tv_data e /\ tv_keep e' = tv_keep e /\ tv_last e' = tv_last e /\ tv_user e' = tv_user e.

(** * Progress *)
Definition tx_after (p : tx_param) (tr : list tx_ev) : tx_mon := fold_left (tm_next p) tr tm0.
Fixpoint tx_assume (p : tx_param) (m : tx_mon) (tr : list tx_ev) : Prop :=
  match tr with [] => True | e :: r => tx_assume1 p m e /\ tx_assume2 p m e /\ tx_assume p (tm_next p m e) r end.
(** The FIFOs show nothing new, there are credits. *)
Definition pm_quiet (m : tx_pm) (b : tx_beat) : Prop := match pm_cur m with Some c => b = c | None => tb_valid b = false end.
Fixpoint tx_quiet (p : tx_param) (m : tx_mon) (tr : list tx_ev) : Prop :=
  match tr with [] => True | e :: r => ti_rst (tv_in e) = false /\ pm_quiet (tm_rd m) (ti_rd (tv_in e)) /\ pm_quiet (tm_wr m) (ti_wr (tv_in e)) /\ 8 < ti_ph (tv_in e) /\ 8 < ti_nph (tv_in e) /\ 512 < ti_pd (tv_in e) /\ tx_quiet p (tm_next p m e) r end.
Definition tx_goods (tr : list tx_ev) : Z := Z.of_nat (length (filter (fun e => ti_ready (tv_in e)) tr)).
(** No TLP that is started but not complete. *)
Definition pm_whole (m : tx_pm) : Prop := match pm_cur m with Some b => tb_eop b = true | None => pm_open m = false end.
