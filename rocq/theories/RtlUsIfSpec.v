(** What the adapters for UltraScale request and completion streams should do (C107, C108), in terms of the double words of the TLPs. *)
From Verif Require Import PyBase RtlAxmSpec RtlUsIfModel.

Definition up_ok (p : ui_param) : Prop := 1 <= up_lw p <= 4.
(** Double words in a beat, and in a descriptor. *)
Definition WD (p : ui_param) : Z := 2 ^ up_lw p.
Definition HD (p : ui_param) : Z := if up_rc p then 3 else 4.
(** Double word j of a bus, and of a list. *)
Definition lane (v j : Z) : Z := (v / 2 ^ (32 * j)) mod 2 ^ 32.
Definition dw (ds : list Z) (j : Z) : Z := nth (Z.to_nat j) ds 0.
Definition zlen (ds : list Z) : Z := Z.of_nat (length ds).
Definition lanes (v n : Z) : list Z := map (fun j => lane v (Z.of_nat j)) (seq 0 (Z.to_nat n)).

(** * The header of a request: from the descriptor (first 4 double words; UltraScale integrated block, completer request descriptor) and the byte enables *)
(** Kinds of requests: read, write, IO read, IO write, fetch and add, swap, compare and swap, locked read; format (1 no data, 3 data; always 4 double words) and type of the TLP. *)
Definition rq_kinds : list (Z * (Z * Z)) := [(0, (1, 0)); (1, (3, 0)); (2, (1, 2)); (3, (3, 2)); (4, (3, 12)); (5, (3, 13)); (6, (3, 14)); (7, (1, 1))].
(** Messages: the format tells if there is data, the type has the routing. *)
Definition rq_fmt_ok (kind cnt r f t : Z) : Prop := In (kind, (f, t)) rq_kinds \/ (12 <= kind <= 14 /\ f = (if cnt =? 0 then 1 else 3) /\ t = 16 + r) \/ (8 <= kind <= 11 \/ kind = 15).
Definition rq_is (ds : list Z) (be : Z) (m : ui_meta) : Prop :=
  let h := ut_hdr m in
  0 <= h < 2 ^ 128 /\ rq_fmt_ok (fld (dw ds 2) 14 11) (fld (dw ds 2) 10 0) (fld (dw ds 3) 18 16) (fld h 127 125) (fld h 124 120) /\
  fld h 118 116 = fld (dw ds 3) 27 25 (* traffic class *) /\ fld h 114 114 = fld (dw ds 3) 30 30 /\ fld h 109 108 = fld (dw ds 3) 29 28 (* attributes *) /\
  fld h 107 106 = fld (dw ds 0) 1 0 (* address type *) /\ fld h 105 96 = fld (dw ds 2) 9 0 (* length *) /\
  fld h 119 119 = 0 /\ fld h 115 115 = 0 /\ fld h 113 110 = 0 /\
  fld h 95 80 = fld (dw ds 2) 31 16 (* requester *) /\ fld h 79 72 = fld (dw ds 3) 7 0 (* tag *) /\ fld h 71 68 = fld be 7 4 /\ fld h 67 64 = fld be 3 0 (* byte enables *) /\
  fld h 63 32 = dw ds 1 /\ fld h 31 2 = fld (dw ds 0) 31 2 /\ fld h 1 0 = 0 (* address *) /\
  ut_bar m = fld (dw ds 3) 18 16 /\ ut_func m = fld (dw ds 3) 15 8.
(** * The header of a completion: from the requester completion descriptor (3 double words) *)
(** Error codes: poisoned, bad status, length, mismatch, address, tag, function reset, timeout. *)
Definition rc_codes : list (Z * Z) := [(0, 0); (1, 1); (2, 2); (3, 4); (4, 3); (5, 5); (6, 6); (8, 8); (9, 15)].
Definition cpl_is (ds : list Z) (m : ui_meta) : Prop :=
  let h := ut_hdr m in
  0 <= h < 2 ^ 128 /\ fld h 127 125 = (if fld (dw ds 1) 10 0 =? 0 then 0 else 2) /\ fld h 124 121 = 5 /\ fld h 120 120 = fld (dw ds 0) 29 29 (* locked *) /\
  fld h 118 116 = fld (dw ds 2) 27 25 (* traffic class *) /\ fld h 114 114 = fld (dw ds 2) 30 30 /\ fld h 109 108 = fld (dw ds 2) 29 28 (* attributes *) /\
  fld h 110 110 = fld (dw ds 1) 14 14 (* poisoned *) /\ fld h 105 96 = fld (dw ds 1) 9 0 (* length *) /\ fld h 119 119 = 0 /\ fld h 115 115 = 0 /\ fld h 113 111 = 0 /\ fld h 107 106 = 0 /\
  fld h 95 80 = fld (dw ds 2) 23 8 (* completer *) /\ fld h 79 77 = fld (dw ds 1) 13 11 (* status *) /\ fld h 76 76 = 0 /\ fld h 75 64 = fld (dw ds 0) 27 16 (* byte count *) /\
  fld h 63 48 = fld (dw ds 1) 31 16 (* requester *) /\ fld h 47 40 = fld (dw ds 2) 7 0 (* tag *) /\ fld h 39 39 = 0 /\ fld h 38 32 = fld (dw ds 0) 6 0 (* lower address *) /\ fld h 31 0 = 0 /\
  (forall e, In (fld (dw ds 0) 15 12, e) rc_codes -> ut_err m = e).
Definition meta_is (p : ui_param) (ds : list Z) (be : Z) (m : ui_meta) : Prop := if up_rc p then cpl_is ds m else rq_is ds be m.

(** * Beats of a TLP *)
(** Beat i of a TLP with these double words and byte enables; all double words are known, or only some. *)
Record chunk := mkCh { ch_ds : list Z; ch_be : Z; ch_all : bool; ch_i : Z }.
(** The number of beats of a TLP with n double words (with descriptor): at least one. *)
Definition nbeats (p : ui_param) (n : Z) : Z := if n <=? HD p then 1 else (n - HD p - 1) / WD p + 1.
(** The beats that are full if n double words are known. *)
Definition nfull (p : ui_param) (n : Z) : Z := Z.max 0 ((n - HD p) / WD p).
(** What the FIFO should get: first and last beat marked, the double words from lane 0 on, all lanes used but in the last beat; the header. *)
Definition out_is (p : ui_param) (c : chunk) (e : ui_ev) : Prop :=
  let n := Z.max 0 (Z.min (WD p) (zlen (ch_ds c) - HD p - ch_i c * WD p)) in
  uv_sop e = (ch_i c =? 0) /\ uv_eop e = ch_all c && (ch_i c =? nbeats p (zlen (ch_ds c)) - 1) /\ uv_strb e = 2 ^ n - 1 /\
  (forall l, 0 <= l < n -> lane (uv_data e) l = dw (ch_ds c) (HD p + ch_i c * WD p + l)) /\ meta_is p (ch_ds c) (ch_be c) (uv_meta e).
Definition chunks (ds : list Z) (be : Z) (all : bool) (a b : Z) : list chunk := map (fun j => mkCh ds be all (a + Z.of_nat j)) (seq 0 (Z.to_nat (b - a))).

(** * The monitor: double words and byte enables of the TLP that is open; beats for the FIFO *)
Record ui_mon := mkUm { um_ds : list Z; um_be : Z; um_q : list chunk }.
Definition um0 : ui_mon := mkUm [] 0 [].
Definition u_taken (e : ui_ev) : bool := ui_ready (uv_in e) && ui_valid (uv_in e).
(** The number of lanes used. *)
Definition kcnt (k : Z) : Z := Z.log2 (k + 1).
(** Byte enables: bits 3:0 and 7:4 of the user signal; with 512 bits 3:0 and 11:8. *)
Definition user_be (p : ui_param) (u : Z) : Z := if WD p =? 16 then fld u 3 0 + 16 * fld u 11 8 else fld u 7 0.
Definition um_next (p : ui_param) (m : ui_mon) (e : ui_ev) : ui_mon :=
  let i := uv_in e in
  if ui_rst i then um0 else
  let q := if uv_valid e && ui_ready i then tl (um_q m) else um_q m in
  if u_taken e then
    let ds := um_ds m ++ lanes (ui_data i) (kcnt (ui_keep i)) in let be := if zlen (um_ds m) =? 0 then user_be p (ui_user i) else um_be m in
    if ui_last i then mkUm [] 0 (q ++ chunks ds be true (nfull p (zlen (um_ds m))) (nbeats p (zlen ds)))
    else mkUm ds be (q ++ chunks ds be false (nfull p (zlen (um_ds m))) (nfull p (zlen ds)))
  else mkUm (um_ds m) (um_be m) q.
Definition ui_shows (p : ui_param) (m : ui_mon) (e : ui_ev) : Prop := uv_valid e = true -> exists c r, um_q m = c :: r /\ out_is p c e.
(** What the integrated block guarantees: the lanes used are the first ones, all of them but in the last beat, and a TLP has a full descriptor. *)
Definition ui_assume1 (p : ui_param) (m : ui_mon) (e : ui_ev) : Prop := ui_rst (uv_in e) = false -> u_taken e = true ->
  let k := ui_keep (uv_in e) in let n := kcnt k in
  k = 2 ^ n - 1 /\ 1 <= n <= WD p /\ (if ui_last (uv_in e) then HD p <= zlen (um_ds m) + n else n = WD p).
(** Not for 64 bit completions: payload of an even number of double words (2, 4, ...). *)
Definition ui_assume2 (p : ui_param) (m : ui_mon) (e : ui_ev) : Prop := ui_rst (uv_in e) = false -> u_taken e = true -> ui_last (uv_in e) = true ->
  up_rc p = true -> up_lw p = 1 -> 4 <= zlen (um_ds m) -> kcnt (ui_keep (uv_in e)) = 2.
Fixpoint ui_follows (p : ui_param) (m : ui_mon) (tr : list ui_ev) : Prop :=
  match tr with [] => True | e :: r => ui_shows p m e /\ (ui_assume1 p m e -> ui_assume2 p m e -> ui_follows p (um_next p m e) r) end.
(** The same without the restriction. *)
Fixpoint ui_follows_all (p : ui_param) (m : ui_mon) (tr : list ui_ev) : Prop :=
  match tr with [] => True | e :: r => ui_shows p m e /\ (ui_assume1 p m e -> ui_follows_all p (um_next p m e) r) end.
(** What is shown to the FIFO and not taken is kept. *)
Definition ui_kept (e e' : ui_ev) : Prop := ui_rst (uv_in e) = false -> uv_valid e = true -> ui_ready (uv_in e) = false ->
  uv_valid e' = true /\ uv_data e' = uv_data e /\ uv_strb e' = uv_strb e /\ uv_meta e' = uv_meta e /\ uv_sop e' = uv_sop e /\ uv_eop e' = uv_eop e.

(** * Progress *)
Definition ui_after (p : ui_param) (tr : list ui_ev) : ui_mon := fold_left (um_next p) tr um0.
Fixpoint ui_assume (p : ui_param) (m : ui_mon) (tr : list ui_ev) : Prop :=
  match tr with [] => True | e :: r => ui_assume1 p m e /\ ui_assume2 p m e /\ ui_assume p (um_next p m e) r end.
Definition ui_quiet (tr : list ui_ev) : Prop := Forall (fun e => ui_rst (uv_in e) = false /\ ui_valid (uv_in e) = false) tr.
Definition ui_goods (tr : list ui_ev) : Z := Z.of_nat (length (filter (fun e => ui_ready (uv_in e)) tr)).
