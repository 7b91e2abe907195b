(** What the minimal AXI lite master should do (C103 to C105), in terms of what is seen at its ports. *)
From Verif Require Import PyBase RtlModel RtlAxmModel.

(** * Requests: bits hi to lo of the header *)
Definition fld (h hi lo : Z) : Z := (h / 2 ^ lo) mod 2 ^ (hi - lo + 1).
Definition fmt_of (h : Z) : Z := fld h 127 125.
Definition type_of (h : Z) : Z := fld h 124 120.
Definition fbe_of (h : Z) : Z := fld h 67 64.
Inductive tkind := KRead | KWrite | KMsg | KCpl | KOther.
(** Memory reads and writes with 3 or 4 words of header; messages with and without data; completions with and without data, also locked. *)
Definition kind_of (h : Z) : tkind :=
  let f := fmt_of h in let t := type_of h in
  if t =? 0 then (if f <=? 1 then KRead else KWrite)
  else if (t / 8 =? 2) && ((f =? 1) || (f =? 3)) then KMsg
  else if ((t =? 10) || (t =? 11)) && ((f =? 0) || (f =? 2)) then KCpl
  else KOther.
(** Of one double word (0 in the length field is 1024). *)
Definition one_dw (h : Z) : bool := fld h 105 96 =? 1.
(** The address in the last two words (4 word header) or the third word (3 word header), without the lower two bits. *)
Definition addr_of (p : am_param) (h : Z) : Z := if am_f64 p || (fmt_of h =? 1) || (fmt_of h =? 3) then h mod 2 ^ 64 - h mod 4 else fld h 63 32 - fld h 33 32.
(** The number of the first and the last byte with the enable bit set. *)
Definition first_byte (be : Z) : Z := if Z.testbit be 0 then 0 else if Z.testbit be 1 then 1 else if Z.testbit be 2 then 2 else 3.
Definition last_byte (be : Z) : Z := if Z.testbit be 3 then 3 else if Z.testbit be 2 then 2 else if Z.testbit be 1 then 1 else 0.
(** From the first byte to the last one; a read of no bytes counts as one byte. *)
Definition byte_count (be : Z) : Z := if be =? 0 then 1 else last_byte be - first_byte be + 1.
Definition lower_addr (p : am_param) (h : Z) : Z := addr_of p h mod 128 + (if fbe_of h =? 0 then 0 else first_byte (fbe_of h)).

(** * Completions: successful (0) with data, unsupported request (1) or completer abort (4) without *)
Inductive cstat := CSc (data : Z) | CUr | CCa.
(** The completion for request [h]: traffic class, attributes, requester and tag (with the bits T9 and T8) are those of the request. *)
Definition cpl_is (p : am_param) (h : Z) (c : cstat) (e : am_ev) : Prop :=
  let x := av_txh e in
  0 <= x < 2 ^ 128 /\ fld x 124 120 = 10 /\
  fld x 119 119 = fld h 119 119 /\ fld x 118 116 = fld h 118 116 /\ fld x 115 115 = fld h 115 115 /\ fld x 114 114 = fld h 114 114 /\ fld x 113 110 = 0 /\ fld x 109 108 = fld h 109 108 /\ fld x 107 106 = 0 /\
  fld x 95 80 = am_cid p mod 2 ^ 16 /\ fld x 76 76 = 0 /\ fld x 63 48 = fld h 95 80 /\ fld x 47 40 = fld h 79 72 /\ fld x 39 39 = 0 /\ fld x 31 0 = 0 /\
  match c with
  | CSc d => fmt_of x = 2 /\ fld x 105 96 = 1 /\ fld x 79 77 = 0 /\ fld x 75 64 = byte_count (fbe_of h) /\ fld x 38 32 = lower_addr p h /\ av_txs e = 1 /\ av_txd e = d
  | CUr => fmt_of x = 0 /\ fld x 105 96 = 0 /\ fld x 79 77 = 1 /\ av_txs e = 0
  | CCa => fmt_of x = 0 /\ fld x 105 96 = 0 /\ fld x 79 77 = 4 /\ av_txs e = 0
  end.

(** * The monitor: inside a TLP; what is not yet taken of the last write (address; data and strobe) and read (address); the responses due, in order; the errors due *)
Inductive item := IRead (h : Z) | IWrite | ICpl (h : Z) (c : cstat).
Record am_mon := mkAmo { ao_mid : bool; ao_aw : option Z; ao_w : option (Z * Z); ao_ar : option Z; ao_q : list item; ao_cor : bool; ao_unc : bool }.
Definition ao0 : am_mon := mkAmo false None None None [] false false.

Definition rx_taken (e : am_ev) : bool := av_ready e && ai_valid (av_in e).
(** The first beat of a TLP is taken. *)
Definition starts (m : am_mon) (e : am_ev) : bool := negb (ao_mid m) && rx_taken e && ai_sop (av_in e).
(** The response due for a request: none for a completion, a message, and a write that is too long. *)
Definition due (h : Z) : list item :=
  match kind_of h with
  | KRead => [if one_dw h then IRead h else ICpl h CCa]
  | KWrite => if one_dw h then [IWrite] else []
  | KMsg | KCpl => []
  | KOther => [ICpl h CUr]
  end.
(** Read data is for the first read without data. *)
Fixpoint give (d : Z) (q : list item) : list item := match q with [] => [] | IRead h :: r => ICpl h (CSc d) :: r | x :: r => x :: give d r end.
(** A write is acknowledged. *)
Fixpoint ack (q : list item) : list item := match q with [] => [] | IWrite :: r => r | x :: r => x :: ack r end.
(** The first that waits for AXI. *)
Fixpoint waits (q : list item) : option item := match q with [] => None | ICpl _ _ :: r => waits r | x :: _ => Some x end.
Definition isk (a b : tkind) : bool := match a, b with KRead, KRead | KWrite, KWrite | KMsg, KMsg | KCpl, KCpl | KOther, KOther => true | _, _ => false end.

Definition ao_next (p : am_param) (m : am_mon) (e : am_ev) : am_mon :=
  let i := av_in e in let h := ai_hdr i in let st := starts m e in
  if ai_rst i then ao0 else
  let q1 := if av_txv e && ai_cready i then tl (ao_q m) else ao_q m in
  let q2 := if av_rready e && ai_rvalid i then give (ai_rdata i) q1 else q1 in
  let q3 := if av_bready e && ai_bvalid i then ack q2 else q2 in
  let wr := st && isk (kind_of h) KWrite && one_dw h in let rd := st && isk (kind_of h) KRead && one_dw h in
  mkAmo (if ao_mid m then negb (rx_taken e && ai_eop i) else st && negb (ai_eop i))
    (if wr then Some (addr_of p h mod 2 ^ am_aw p) else if av_awv e && ai_awready i then None else ao_aw m)
    (if wr then Some (ai_data i mod 2 ^ 32, fbe_of h) else if av_wv e && ai_wready i then None else ao_w m)
    (if rd then Some (addr_of p h mod 2 ^ am_aw p) else if av_arv e && ai_arready i then None else ao_ar m)
    (q3 ++ if st then due h else [])
    (st && match kind_of h with KRead => negb (one_dw h) | KCpl | KOther => true | _ => false end)
    (st && match kind_of h with KWrite => negb (one_dw h) | KMsg => true | _ => false end).

(** In each clock: a write address, write data or read address is shown exactly while one is due, and is the one that is due; no new TLP is started while one is due, so
    a read is never on AXI before an earlier write was taken; answers are taken only for the first request that waits for one; a completion that is shown is the first one
    due; the errors are reported in the clock after the TLP. *)
Definition am_shows (p : am_param) (m : am_mon) (e : am_ev) : Prop :=
  (if av_awv e then ao_aw m = Some (av_awaddr e) else ao_aw m = None) /\
  (if av_wv e then ao_w m = Some (av_wdata e, av_wstrb e) else ao_w m = None) /\
  (if av_arv e then ao_ar m = Some (av_araddr e) else ao_ar m = None) /\
  (av_ready e = true -> ao_mid m = false -> ao_aw m = None /\ ao_w m = None /\ ao_ar m = None) /\
  (av_rready e = true -> exists h, waits (ao_q m) = Some (IRead h)) /\ (av_bready e = true -> waits (ao_q m) = Some IWrite) /\
  (av_txv e = true -> exists h c r, ao_q m = ICpl h c :: r /\ cpl_is p h c e) /\
  av_cor e = ao_cor m /\ av_unc e = ao_unc m.
(** No message, and no header with a prefix format. *)
Definition am_assume1 (m : am_mon) (e : am_ev) : Prop := ai_rst (av_in e) = false -> starts m e = true -> fmt_of (ai_hdr (av_in e)) < 4 /\ kind_of (ai_hdr (av_in e)) <> KMsg.
Fixpoint am_follows (p : am_param) (m : am_mon) (tr : list am_ev) : Prop :=
  match tr with [] => True | e :: r => am_shows p m e /\ (am_assume1 m e -> am_follows p (ao_next p m e) r) end.
(** The same for all TLPs without prefix format. *)
Fixpoint am_follows_all (p : am_param) (m : am_mon) (tr : list am_ev) : Prop :=
  match tr with [] => True | e :: r => am_shows p m e /\ ((starts m e = true -> fmt_of (ai_hdr (av_in e)) < 4) -> am_follows_all p (ao_next p m e) r) end.
(** What is shown and not taken is kept. *)
Definition am_kept (e e' : am_ev) : Prop := ai_rst (av_in e) = false ->
  (av_txv e = true -> ai_cready (av_in e) = false -> av_txv e' = true /\ av_txh e' = av_txh e /\ av_txd e' = av_txd e /\ av_txs e' = av_txs e) /\
  (av_awv e = true -> ai_awready (av_in e) = false -> av_awv e' = true /\ av_awaddr e' = av_awaddr e) /\
  (av_wv e = true -> ai_wready (av_in e) = false -> av_wv e' = true /\ av_wdata e' = av_wdata e /\ av_wstrb e' = av_wstrb e) /\
  (av_arv e = true -> ai_arready (av_in e) = false -> av_arv e' = true /\ av_araddr e' = av_araddr e) /\
  (av_rready e = true -> ai_rvalid (av_in e) = false -> av_rready e' = true) /\
  (av_bready e = true -> ai_bvalid (av_in e) = false -> av_bready e' = true).

(** * Progress *)
Definition am_after (p : am_param) (tr : list am_ev) : am_mon := fold_left (ao_next p) tr ao0.
Definition am_quiet (tr : list am_ev) : Prop := Forall (fun e => ai_rst (av_in e) = false /\ rx_taken e = false) tr.
Fixpoint am_assume (p : am_param) (m : am_mon) (tr : list am_ev) : Prop :=
  match tr with [] => True | e :: r => am_assume1 m e /\ am_assume p (ao_next p m e) r end.
(** A clock in which requests and completions are taken, and an answer is there if the module is ready for it, or a request is only just taken. *)
Definition am_good (e : am_ev) : bool :=
  let i := av_in e in
  ai_awready i && ai_wready i && ai_arready i && ai_cready i && (negb (av_rready e) || ai_rvalid i || av_arv e) && (negb (av_bready e) || ai_bvalid i || av_awv e || av_wv e).
Definition am_goods (tr : list am_ev) : Z := Z.of_nat (length (filter am_good tr)).
(** Nothing is shown, and no answer is waited for. *)
Definition am_still (e : am_ev) : Prop := av_txv e = false /\ av_awv e = false /\ av_wv e = false /\ av_arv e = false /\ av_rready e = false /\ av_bready e = false.
Definition am_done (m : am_mon) : Prop := ao_aw m = None /\ ao_w m = None /\ ao_ar m = None /\ ao_q m = [].
