(** Model of rtl/pcie_axil_master_minimal.v: memory requests of one double word are made on AXI lite and completed. A Verilog vector of width w is an integer in [0, 2^w). *)
From Verif Require Import PyBase RtlModel RtlRamModel RtlRamDemuxModel.

(** rtl/pcie_axil_master_minimal.v:36-53, 105: AXIL_ADDR_WIDTH, TLP_FORCE_64_BIT_ADDR, and the input completer_id, which is constant. The other widths are fixed by the
    checks of lines 118-143 (one segment, headers of 128 bits, AXI lite data of 32 bits) or do not matter (TLP_DATA_WIDTH). *)
Record am_param := mkAm { am_aw : Z; am_f64 : bool; am_cid : Z }.

(** rtl/pcie_axil_master_minimal.v:56-101: the inputs of one clock. The AXI responses bresp and rresp are not used by the code and left out. *)
Record am_in := mkAi { ai_rst : bool; ai_hdr : Z; ai_data : Z; ai_valid : bool; ai_sop : bool; ai_eop : bool; ai_cready : bool;
  ai_awready : bool; ai_wready : bool; ai_bvalid : bool; ai_arready : bool; ai_rdata : Z; ai_rvalid : bool }.

(** A concatenation of fields, given with their widths, most significant first (rtl/pcie_axil_master_minimal.v:299-322, 529-552, assignments to consecutive part selects). *)
Fixpoint cat_from (acc : Z) (l : list (Z * Z)) : Z := match l with [] => acc | (w, v) :: r => cat_from (acc * 2 ^ w + v mod 2 ^ w) r end.
(** rtl/pcie_axil_master_minimal.v:299-322, 529-552: as above. *)
Definition cat (l : list (Z * Z)) : Z := cat_from 0 l.

(** rtl/pcie_axil_master_minimal.v:192-226: an entry of the response FIFO (nine memories with the same address). *)
Record am_ent := mkAe { ae_read : bool; ae_write : bool; ae_stat : Z; ae_bc : Z; ae_la : Z; ae_rid : Z; ae_tag : Z; ae_tc : Z; ae_attr : Z }.
(** rtl/pcie_axil_master_minimal.v:165-169. *)
Inductive am_resp := AIdle | ARead | AWrite | ACpl.
(** rtl/pcie_axil_master_minimal.v:163, 171, 188-250: the registers. [as_wait] is req_state_reg = REQ_STATE_WAIT_END. *)
Record am_state := mkAs {
  as_wait : bool; as_ready : bool; as_addr : Z; as_awv : bool; as_wdata : Z; as_wstrb : Z; as_wv : bool; as_arv : bool; as_cor : bool; as_unc : bool;
  as_wr : Z; as_mem : Z -> am_ent; as_half : bool;
  as_resp : am_resp; as_rd : Z; as_ent : am_ent; as_rdv : bool; as_txv : bool; as_txd : Z; as_txs : Z; as_txh : Z; as_bready : bool; as_rready : bool }.
(** rtl/pcie_axil_master_minimal.v:224-237. *)
Definition ae0 : am_ent := mkAe false false 0 0 0 0 0 0 0.
(** rtl/pcie_axil_master_minimal.v:163, 171, 188-250: initial values. *)
Definition am0 : am_state := mkAs false false 0 false 0 0 false false false false 0 (fun _ => ae0) false AIdle 0 ae0 false false 0 0 0 false false.

(** rtl/pcie_axil_master_minimal.v:297. *)
Definition h_fmt (h : Z) : Z := psel h 125 3.
(** rtl/pcie_axil_master_minimal.v:298. *)
Definition h_type (h : Z) : Z := psel h 120 5.
(** rtl/pcie_axil_master_minimal.v:299, 301, 313. *)
Definition h_tag (h : Z) : Z := cat [(1, bsel h 119); (1, bsel h 115); (8, psel h 72 8)].
(** rtl/pcie_axil_master_minimal.v:302, 307. *)
Definition h_attr (h : Z) : Z := cat [(1, bsel h 114); (2, psel h 108 2)].
(** rtl/pcie_axil_master_minimal.v:309. *)
Definition h_len (h : Z) : Z := cat [(1, if psel h 96 10 =? 0 then 1 else 0); (10, psel h 96 10)].
(** rtl/pcie_axil_master_minimal.v:315. *)
Definition h_fbe (h : Z) : Z := psel h 64 4.
(** rtl/pcie_axil_master_minimal.v:316-325. *)
Definition h_addr (p : am_param) (h : Z) : Z := if (bsel (h_fmt h) 0 =? 1) || am_f64 p then psel h 2 62 * 4 else psel h 34 30 * 4.

(** rtl/pcie_axil_master_minimal.v:365-377: the byte count; the case items in order, z matches both. *)
Definition am_bc (be : Z) : Z :=
  if be =? 0 then 1 else if be =? 1 then 1 else if be =? 2 then 1 else if be =? 4 then 1 else if be =? 8 then 1
  else if be =? 3 then 2 else if be =? 6 then 2 else if be =? 12 then 2
  else if (be =? 5) || (be =? 7) then 3 else if (be =? 10) || (be =? 14) then 3
  else if (bsel be 3 =? 1) && (bsel be 0 =? 1) then 4 else 0.
(** rtl/pcie_axil_master_minimal.v:379-385: the lower address. *)
Definition am_la (p : am_param) (h : Z) : Z :=
  let be := h_fbe h in let a := psel (h_addr p h) 2 5 * 4 in
  if be =? 0 then a else if bsel be 0 =? 1 then a else if psel be 0 2 =? 2 then a + 1 else if psel be 0 3 =? 4 then a + 2 else if be =? 8 then a + 3 else 0.

(** rtl/pcie_axil_master_minimal.v:342-345, 487-490: a request can be taken in the next clock. *)
Definition am_room (s : am_state) (i : am_in) : bool :=
  (negb (as_awv s) || ai_awready i) && (negb (as_arv s) || ai_arready i) && (negb (as_wv s) || ai_wready i) && negb (as_half s).
(** rtl/pcie_axil_master_minimal.v:347: a request is taken. *)
Definition am_take (s : am_state) (i : am_in) : bool := negb (as_wait s) && (as_ready s && ai_valid i && ai_sop i).
(** rtl/pcie_axil_master_minimal.v:327-336, 388-404: an entry with the fields of the request. *)
Definition am_mk (h : Z) (read write : bool) (st bc la : Z) : am_ent := mkAe read write st bc la (psel h 80 16) (h_tag h) (psel h 116 3) (h_attr h).

(** rtl/pcie_axil_master_minimal.v:352-475: what is to be done for a request: AXI read, AXI write, entry of the response FIFO, correctable and uncorrectable error. *)
Record am_act := mkAa { aa_ar : bool; aa_aw : bool; aa_ent : option am_ent; aa_cor : bool; aa_unc : bool }.
(** rtl/pcie_axil_master_minimal.v:352-475. Line 442: == binds stronger than &, so the message test is [type & (5'b11000 == 5'b10000)], which is [type & 0]; completion status
    SC = 0, UR = 1, CA = 4. *)
Definition am_decode (p : am_param) (h : Z) : am_act :=
  let f0 := bsel (h_fmt h) 0 =? 1 in let f1 := bsel (h_fmt h) 1 =? 1 in let ty := h_type h in
  if negb f1 && (ty =? 0) then
    if h_len h =? 1 then mkAa true false (Some (am_mk h true false 0 (am_bc (h_fbe h)) (am_la p h))) false false
    else mkAa false false (Some (am_mk h false false 4 0 0)) true false
  else if f1 && (ty =? 0) then
    if h_len h =? 1 then mkAa false true (Some (am_mk h false true 0 0 0)) false false
    else mkAa false false None false true
  else if f0 && negb (Z.land ty (if 24 =? 16 then 1 else 0) =? 0) then mkAa false false None false true
  else if negb f0 && ((ty =? 10) || (ty =? 11)) then mkAa false false None true false
  else mkAa false false (Some (am_mk h false false 1 0 0)) true false.
(** The decoded request, if one is taken (rtl/pcie_axil_master_minimal.v:347). *)
Definition am_do (p : am_param) (s : am_state) (i : am_in) : am_act := if am_take s i then am_decode p (ai_hdr i) else mkAa false false None false false.

(** rtl/pcie_axil_master_minimal.v:338-500: req_state_next. *)
Definition am_wait_next (s : am_state) (i : am_in) : bool :=
  if as_wait s then negb (as_ready s && ai_valid i && ai_eop i) else am_take s i && negb (ai_eop i).
(** rtl/pcie_axil_master_minimal.v:338-500: rx_req_tlp_ready_next. *)
Definition am_ready_next (p : am_param) (s : am_state) (i : am_in) : bool :=
  if as_wait s then (if as_ready s && ai_valid i && ai_eop i then am_room s i else true)
  else if am_take s i && negb (ai_eop i) then true
  else am_room s i && negb (aa_ar (am_do p s i)) && negb (aa_aw (am_do p s i)).

(** rtl/pcie_axil_master_minimal.v:527-552: the header of a completion. *)
Definition am_hdr (p : am_param) (e : am_ent) : Z :=
  cat [(3, if ae_read e then 2 else 0); (5, 10); (1, bsel (ae_tag e) 9); (3, ae_tc e); (1, bsel (ae_tag e) 8); (1, bsel (ae_attr e) 2); (4, 0);
       (2, psel (ae_attr e) 0 2); (2, 0); (10, if ae_read e then 1 else 0);
       (16, am_cid p); (3, ae_stat e); (1, 0); (12, ae_bc e);
       (16, ae_rid e); (8, psel (ae_tag e) 0 8); (1, 0); (7, ae_la e); (32, 0)].

(** rtl/pcie_axil_master_minimal.v:521, 557-559, 574-577, 606: the output register is free. *)
Definition am_free (s : am_state) (i : am_in) : bool := negb (as_txv s) || ai_cready i.
(** rtl/pcie_axil_master_minimal.v:554-617: the response FIFO entry at hand is finished. *)
Definition am_fin (s : am_state) (i : am_in) : bool :=
  match as_resp s with AIdle => false | ARead => as_rready s && ai_rvalid i | AWrite => as_bready s && ai_bvalid i | ACpl => am_free s i end.
(** rtl/pcie_axil_master_minimal.v:554-617: resp_state_next. *)
Definition am_resp_next (s : am_state) (i : am_in) : am_resp :=
  match as_resp s with
  | AIdle => if as_rdv s then (if ae_read (as_ent s) then ARead else if ae_write (as_ent s) then AWrite else ACpl) else AIdle
  | r => if am_fin s i then AIdle else r
  end.
(** rtl/pcie_axil_master_minimal.v:524-525, 554-617: m_axil_rready_next. *)
Definition am_rready_next (s : am_state) (i : am_in) : bool :=
  match as_resp s with AIdle => as_rdv s && ae_read (as_ent s) && am_free s i | ARead => am_free s i && negb (am_fin s i) | _ => false end.
(** rtl/pcie_axil_master_minimal.v:524-525, 554-617: m_axil_bready_next. *)
Definition am_bready_next (s : am_state) (i : am_in) : bool :=
  match as_resp s with AIdle => as_rdv s && negb (ae_read (as_ent s)) && ae_write (as_ent s) | AWrite => negb (am_fin s i) | _ => false end.
(** rtl/pcie_axil_master_minimal.v:574-584, 602-612: a completion is put to the output. *)
Definition am_cpl (s : am_state) (i : am_in) : bool := match as_resp s with ARead | ACpl => am_fin s i | _ => false end.
(** rtl/pcie_axil_master_minimal.v:619-631: the next entry is read from the FIFO. *)
Definition am_pop (s : am_state) (i : am_in) : bool := negb (as_rdv s && negb (am_fin s i)) && negb (ptr_empty (as_wr s) (as_rd s)).

(** rtl/pcie_axil_master_minimal.v:280-501, 503-682: one clock without reset. *)
Definition am_next (p : am_param) (s : am_state) (i : am_in) : am_state :=
  let d := am_do p s i in let h := ai_hdr i in let tk := am_take s i in
  mkAs (am_wait_next s i) (am_ready_next p s i)
    (if tk then h_addr p h mod 2 ^ am_aw p else as_addr s)
    (aa_aw d || (as_awv s && negb (ai_awready i)))
    (if tk then psel (ai_data i) 0 32 else as_wdata s) (if tk then h_fbe h else as_wstrb s)
    (aa_aw d || (as_wv s && negb (ai_wready i)))
    (aa_ar d || (as_arv s && negb (ai_arready i)))
    (aa_cor d) (aa_unc d)
    (match aa_ent d with Some _ => ptr_inc (as_wr s) | None => as_wr s end)
    (match aa_ent d with Some e => upd (as_mem s) (as_wr s mod 32) e | None => as_mem s end)
    (16 <=? (as_wr s - as_rd s) mod 64)
    (am_resp_next s i)
    (if am_pop s i then ptr_inc (as_rd s) else as_rd s)
    (if am_pop s i then as_mem s (as_rd s mod 32) else as_ent s)
    ((as_rdv s && negb (am_fin s i)) || am_pop s i)
    (am_cpl s i || (as_txv s && negb (ai_cready i)))
    (if am_cpl s i then match as_resp s with ARead => ai_rdata i | _ => 0 end else as_txd s)
    (if am_cpl s i then match as_resp s with ARead => 1 | _ => 0 end else as_txs s)
    (if am_cpl s i then am_hdr p (as_ent s) else as_txh s)
    (am_bready_next s i) (am_rready_next s i).
(** rtl/pcie_axil_master_minimal.v:634-706: one clock. The data registers, the FIFO memory and the half full flag are not reset. *)
Definition am_step (p : am_param) (s : am_state) (i : am_in) : am_state :=
  let n := am_next p s i in
  if ai_rst i then
    mkAs false false (as_addr n) false (as_wdata n) (as_wstrb n) false false false false 0 (as_mem n) (as_half n)
      AIdle 0 (as_ent n) false false (as_txd n) (as_txs n) (as_txh n) false false
  else n.

(** rtl/pcie_axil_master_minimal.v:56-111, 252-278: what is seen at the ports in one clock (sop and eop of completions and the prot outputs are constant). *)
Record am_ev := mkAv { av_in : am_in; av_ready : bool; av_txv : bool; av_txd : Z; av_txs : Z; av_txh : Z; av_awv : bool; av_awaddr : Z; av_wv : bool; av_wdata : Z; av_wstrb : Z;
  av_bready : bool; av_arv : bool; av_araddr : Z; av_rready : bool; av_cor : bool; av_unc : bool }.
(** rtl/pcie_axil_master_minimal.v:252-278. *)
Definition am_event (s : am_state) (i : am_in) : am_ev :=
  mkAv i (as_ready s) (as_txv s) (as_txd s) (as_txs s) (as_txh s) (as_awv s) (as_addr s) (as_wv s) (as_wdata s) (as_wstrb s) (as_bready s) (as_arv s) (as_addr s) (as_rready s) (as_cor s) (as_unc s).
(** rtl/pcie_axil_master_minimal.v:634-706: clock after clock. *)
Fixpoint am_trace (p : am_param) (s : am_state) (l : list am_in) : list am_ev :=
  match l with [] => [] | i :: r => am_event s i :: am_trace p (am_step p s i) r end.
(** rtl/pcie_axil_master_minimal.v:634-706: the last state. *)
Definition am_run (p : am_param) (s : am_state) (l : list am_in) : am_state := fold_left (am_step p) l s.
