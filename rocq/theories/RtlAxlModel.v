(** Model of the request side of rtl/pcie_axil_master.v (lines 320-781): memory requests become AXI lite operations and entries of the response FIFO.
    A Verilog vector of width w is an integer in [0, 2^w); AXIL_ADDR_WIDTH is 64.  The response FIFO and the response side are not modelled; half full is an input. *)
From Verif Require Import PyBase RtlModel.

(** rtl/pcie_axil_master.v:54-79, 259, 60-67: inputs of one clock: rst, rx_req_tlp (valid, sop, eop, hdr, data as 32-bit words), awready, wready, arready, and resp_fifo_half_full_reg. *)
Record al_in := mkAi { ai_rst : bool; ai_valid : bool; ai_sop : bool; ai_eop : bool; ai_hdr : Z; ai_data : list Z; ai_awr : bool; ai_wr : bool; ai_arr : bool; ai_half : bool }.
(** rtl/pcie_axil_master.v:161-167. *)
Inductive al_fsm := AIdle | ARead1 | ARead2 | AWrite1 | AWrite2 | AWait.
(** rtl/pcie_axil_master.v:188-191, 422-425: requester id, tag, traffic class and attributes. *)
Record al_who := mkWho { w_id : Z; w_tag : Z; w_tc : Z; w_attr : Z }.
(** rtl/pcie_axil_master.v:246-257: an entry of the response FIFO. *)
Record al_ent := mkEnt { e_rd : bool; e_wr : bool; e_first : bool; e_last : bool; e_stat : Z; e_dw : Z; e_bc : Z; e_low : Z; e_who : al_who }.
(** rtl/pcie_axil_master.v:169, 179-191: req_state, req_addr, req_data, req_op_dword_count, req_dword_count, req_byte_count, req_chunk, req_last_be, req_last, the requester.
    req_first_be is never used after its clock. *)
Record al_req := mkRq { q_st : al_fsm; q_addr : Z; q_data : list Z; q_op : Z; q_dw : Z; q_bc : Z; q_ch : Z; q_lbe : Z; q_last : bool; q_who : al_who }.
(** rtl/pcie_axil_master.v:275, 284-294: rx_req_tlp_ready, m_axil_addr, awvalid, wdata, wstrb, wvalid, arvalid, status_error_cor, status_error_uncor. *)
Record al_out := mkAo { o_rdy : bool; o_addr : Z; o_awv : bool; o_wd : Z; o_ws : Z; o_wv : bool; o_arv : bool; o_cor : bool; o_unc : bool }.
(** rtl/pcie_axil_master.v:169-191, 275-294: the registers. *)
Record al_state := mkAs { s_q : al_req; s_o : al_out }.

(** rtl/pcie_axil_master.v:363. *)
Definition h_len (h : Z) : Z := (if psel h 96 10 =? 0 then 1 else 0) * 2 ^ 10 + psel h 96 10.
(** rtl/pcie_axil_master.v:369-379; TLP_FORCE_64_BIT_ADDR is [f64].  The address without its two low bits. *)
Definition h_word (f64 : bool) (h : Z) : Z := if Z.testbit h 125 || f64 then psel h 2 62 else psel h 34 30.
(** rtl/pcie_axil_master.v:353-356, 361, 365-366. *)
Definition h_who (h : Z) : al_who := mkWho (psel h 80 16) (psel h 119 1 * 2 ^ 9 + psel h 115 1 * 2 ^ 8 + psel h 72 8) (psel h 116 3) (psel h 114 1 * 2 ^ 2 + psel h 108 2).
(** rtl/pcie_axil_master.v:381-394: the cases in order. *)
Definition be_len (b : Z) : Z :=
  match b with 0 => 1 | 1 => 1 | 2 => 1 | 4 => 1 | 8 => 1 | 3 => 2 | 6 => 2 | 12 => 2 | 5 => 3 | 7 => 3 | 10 => 3 | 14 => 3 | 9 => 4 | 11 => 4 | 13 => 4 | 15 => 4 | _ => 1 end.
(** rtl/pcie_axil_master.v:396-403. *)
Definition be_first (b : Z) : Z := if b =? 0 then 0 else if Z.testbit b 0 then 0 else if Z.testbit b 1 then 1 else if Z.testbit b 2 then 2 else if Z.testbit b 3 then 3 else 0.
(** rtl/pcie_axil_master.v:405-412. *)
Definition be_last (b : Z) : Z := if b =? 0 then 0 else if Z.testbit b 3 then 0 else if Z.testbit b 2 then 1 else if Z.testbit b 1 then 2 else if Z.testbit b 0 then 3 else 0.
(** rtl/pcie_axil_master.v:490, 532, 625, 665, 707, 743: the address of the next word. *)
Definition al_up (a : Z) : Z := 4 * ((a / 4 + 1) mod 2 ^ 62).
(** rtl/pcie_axil_master.v:451-459, 595-603: the words of the next completion, in six bits. *)
Definition al_cut (op addr : Z) : Z := (if op <=? 32 then op else 32 - psel addr 2 5) mod 2 ^ 6.
(** rtl/pcie_axil_master.v:432-435, 767-770. *)
Definition al_free (o : al_out) (i : al_in) : bool := (negb (o_awv o) || ai_awr i) && (negb (o_arv o) || ai_arr i) && (negb (o_wv o) || ai_wr i) && negb (ai_half i).
(** rtl/pcie_axil_master.v:688-690, 727-729. *)
Definition al_wfree (o : al_out) (i : al_in) : bool := (negb (o_awv o) || ai_awr i) && (negb (o_wv o) || ai_wr i) && negb (ai_half i).
(** rtl/pcie_axil_master.v:339-347: the AXI lite registers if nothing new is issued; [r] is rx_req_tlp_ready_next. *)
Definition al_keep (o : al_out) (i : al_in) (r : bool) : al_out :=
  mkAo r (o_addr o) (o_awv o && negb (ai_awr i)) (o_wd o) (o_ws o) (o_wv o && negb (ai_wr i)) (o_arv o && negb (ai_arr i)) false false.
(** rtl/pcie_axil_master.v:471-472, 606-607, 646-647: a read is issued. *)
Definition al_read (o : al_out) (r : bool) (a : Z) : al_out := mkAo r a (o_awv o) (o_wd o) (o_ws o) (o_wv o) true (o_cor o) (o_unc o).
(** rtl/pcie_axil_master.v:518-522, 696-700, 732-736: a write is issued. *)
Definition al_write (o : al_out) (r : bool) (a d b : Z) : al_out := mkAo r a true d b true (o_arv o) (o_cor o) (o_unc o).
(** rtl/pcie_axil_master.v:414-426, 525-529, 703-704, 739-740: the entry for a write. *)
Definition al_went (w : al_who) : al_ent := mkEnt false true true true 0 0 0 0 w.

(** rtl/pcie_axil_master.v:442-507: a read request is taken. *)
Definition al_take_rd (f64 : bool) (o : al_out) (i : al_in) (q : al_req) : al_req * al_out * option al_ent :=
  let h := ai_hdr i in let len := h_len h in let fo := be_first (psel h 64 4) in let lo := be_last (psel h 68 4) in
  let a := 4 * h_word f64 h + fo in let dw := al_cut len a in
  let bc := if len =? 1 then be_len (psel h 64 4) else (4 * len - fo - lo) mod 2 ^ 13 in
  let dw1 := (dw - 1) mod 2 ^ 6 in
  (mkRq (if len =? 1 then if ai_eop i then AIdle else AWait else ARead2) (al_up a) (q_data q) (len - 1) dw1 ((4 * (len - 1) - lo) mod 2 ^ 13) (q_ch q) (psel h 68 4) (dw1 =? 1) (h_who h),
   al_read (mkAo false (o_addr o) (o_awv o) (nth 0 (ai_data i) 0) (psel h 64 4) (o_wv o) (o_arv o) false false) (if len =? 1 then negb (ai_eop i) else false) a,
   Some (mkEnt true false true (len =? 1) 0 dw (bc mod 2 ^ 12) (a mod 2 ^ 7) (h_who h))).
(** rtl/pcie_axil_master.v:508-547: a write request is taken; req_chunk has [c] bits. *)
Definition al_take_wr (f64 : bool) (o : al_out) (i : al_in) (q : al_req) : al_req * al_out * option al_ent :=
  let h := ai_hdr i in let len := h_len h in let a := 4 * h_word f64 h + be_first (psel h 64 4) in
  (mkRq (if len =? 1 then if ai_eop i then AIdle else AWait else AWrite2) (al_up a) (ai_data i) (len - 1) (q_dw q) (q_bc q) 1 (psel h 68 4) (len - 1 =? 1) (h_who h),
   al_write o (if len =? 1 then negb (ai_eop i) else false) a (nth 0 (ai_data i) 0) (psel h 64 4), Some (al_went (h_who h))).
(** rtl/pcie_axil_master.v:548-586: another request is taken.  In line 550 == binds closer than &, so the test is type & (5'b11000 == 5'b10000), which is 0. *)
Definition al_take_other (f64 : bool) (o : al_out) (i : al_in) (q : al_req) : al_req * al_out * option al_ent :=
  let h := ai_hdr i in
  let msg := Z.testbit h 125 && negb (Z.land (psel h 120 5) (if 24 =? 16 then 1 else 0) =? 0) in
  let cpl := negb (Z.testbit h 125) && ((psel h 120 5 =? 10) || (psel h 120 5 =? 11)) in
  (mkRq (if ai_eop i then AIdle else AWait) (q_addr q) (q_data q) (q_op q) (q_dw q) (q_bc q) (q_ch q) (q_lbe q) (q_last q) (h_who h),
   mkAo (if ai_eop i then o_rdy o else true) (4 * h_word f64 h) (o_awv o) (nth 0 (ai_data i) 0) (psel h 64 4) (o_wv o) (o_arv o) (negb msg) msg,
   if msg || cpl then None else Some (mkEnt false false true true 1 0 0 0 (h_who h))).
(** rtl/pcie_axil_master.v:429-590: the idle state. *)
Definition al_idle (f64 : bool) (s : al_state) (i : al_in) : al_req * al_out * option al_ent :=
  let q := s_q s in let o := al_keep (s_o s) i (al_free (s_o s) i) in
  if o_rdy (s_o s) && ai_valid i && ai_sop i then
    if psel (ai_hdr i) 120 5 =? 0 then if Z.testbit (ai_hdr i) 126 then al_take_wr f64 o i q else al_take_rd f64 o i q else al_take_other f64 o i q
  else (mkRq AIdle (q_addr q) (q_data q) (q_op q) (q_dw q) (q_bc q) (q_ch q) (q_lbe q) (q_last q) (h_who (ai_hdr i)), o, None).
(** rtl/pcie_axil_master.v:591-684: the read states; [one] for REQ_STATE_READ_1. *)
Definition al_rd (one : bool) (s : al_state) (i : al_in) : al_req * al_out * option al_ent :=
  let q := s_q s in let o := al_keep (s_o s) i false in
  if (negb (o_arv (s_o s)) || ai_arr i) && negb (ai_half i) then
    let dw := if one then al_cut (q_op q) (q_addr q) else q_dw q in
    let dw1 := (dw - 1) mod 2 ^ 6 in let op1 := (q_op q - 1) mod 2 ^ 11 in
    let last := if one then q_op q =? 1 else q_last q in
    (mkRq (if last then if one || (op1 =? 0) then AIdle else ARead1 else ARead2) (al_up (q_addr q)) (q_data q) op1 dw1 ((q_bc q - 4) mod 2 ^ 13) (q_ch q) (q_lbe q) (dw1 =? 1) (q_who q),
     al_read o false (q_addr q), Some (mkEnt true false one last 0 dw (q_bc q mod 2 ^ 12) (q_addr q mod 2 ^ 7) (q_who q)))
  else (q, o, None).
(** rtl/pcie_axil_master.v:685-759: the write states; [one] for REQ_STATE_WRITE_1, which waits for the next beat.  req_chunk has [c] bits; lines 422-425 take the requester
    from the input, which does not matter for the entry of a write. *)
Definition al_wr (c : Z) (one : bool) (s : al_state) (i : al_in) : al_req * al_out * option al_ent :=
  let q := s_q s in
  if (if one then o_rdy (s_o s) && ai_valid i else al_wfree (s_o s) i) then
    let d := if one then ai_data i else q_data q in let op1 := (q_op q - 1) mod 2 ^ 11 in
    (mkRq (if q_last q then AIdle else if q_ch q =? 2 ^ c - 1 then AWrite1 else AWrite2) (al_up (q_addr q)) d op1 (q_dw q) (q_bc q) ((q_ch q + 1) mod 2 ^ c) (q_lbe q) (op1 =? 1) (q_who q),
     al_write (al_keep (s_o s) i false) false (q_addr q) (nth (Z.to_nat (q_ch q)) d 0) (if q_last q then q_lbe q else 15), Some (al_went (h_who (ai_hdr i))))
  else (q, al_keep (s_o s) i (one && al_wfree (s_o s) i), None).
(** rtl/pcie_axil_master.v:760-779: waiting for the end of a TLP. *)
Definition al_wait (s : al_state) (i : al_in) : al_req * al_out * option al_ent :=
  let q := s_q s in let e := o_rdy (s_o s) && ai_valid i && ai_eop i in
  (mkRq (if e then AIdle else AWait) (q_addr q) (q_data q) (q_op q) (q_dw q) (q_bc q) (q_ch q) (q_lbe q) (q_last q) (q_who q), al_keep (s_o s) i (if e then al_free (s_o s) i else true), None).
(** rtl/pcie_axil_master.v:428-780: the state machine. *)
Definition al_comb (f64 : bool) (c : Z) (s : al_state) (i : al_in) : al_req * al_out * option al_ent :=
  match q_st (s_q s) with AIdle => al_idle f64 s i | ARead1 => al_rd true s i | ARead2 => al_rd false s i | AWrite1 => al_wr c true s i | AWrite2 => al_wr c false s i | AWait => al_wait s i end.
(** rtl/pcie_axil_master.v:943-1038: one clock edge; an entry is written if there is one. *)
Definition al_step (f64 : bool) (c : Z) (s : al_state) (i : al_in) : al_state :=
  let '(q, o, _) := al_comb f64 c s i in
  if ai_rst i then mkAs (mkRq AIdle (q_addr q) (q_data q) (q_op q) (q_dw q) (q_bc q) (q_ch q) (q_lbe q) (q_last q) (q_who q)) (mkAo false (o_addr o) false (o_wd o) (o_ws o) false false false false)
  else mkAs q o.
(** rtl/pcie_axil_master.v:984-998: the entry written in this clock. *)
Definition al_entry (f64 : bool) (c : Z) (s : al_state) (i : al_in) : option al_ent := snd (al_comb f64 c s i).
