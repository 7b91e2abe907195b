(** Model of rtl/pcie_axi_master_wr.v: memory write requests are made on AXI as bursts. A Verilog vector of width w is an integer in [0, 2^w). *)
From Verif Require Import PyBase RtlModel RtlRamModel RtlRamDemuxModel.

(** rtl/pcie_axi_master_wr.v:36-53, 106: OFFSET_WIDTH ([bp_lw], TLP_DATA_WIDTH is 32 * 2^lw), AXI_ADDR_WIDTH, AXI_MAX_BURST_LEN, TLP_FORCE_64_BIT_ADDR. The other widths are fixed
    by the checks of lines 111-136 (one segment, headers of 128 bits, AXI data of the width of the TLP data) or do not matter (AXI_ID_WIDTH). *)
Record bw_param := mkBp { bp_lw : Z; bp_aw : Z; bp_max : Z; bp_f64 : bool }.
(** rtl/pcie_axi_master_wr.v:104: TLP_DATA_WIDTH_DWORDS. *)
Definition bp_w (p : bw_param) : Z := 2 ^ bp_lw p.
(** rtl/pcie_axi_master_wr.v:47: AXI_STRB_WIDTH. *)
Definition bp_s (p : bw_param) : Z := 4 * bp_w p.
(** rtl/pcie_axi_master_wr.v:101: AXI_MAX_BURST_SIZE/4. *)
Definition bp_bs (p : bw_param) : Z := bp_max p * bp_w p.

(** rtl/pcie_axi_master_wr.v:56-90: the inputs of one clock. bid, bresp and bvalid are not used by the code and left out. *)
Record bw_in := mkBi { bi_rst : bool; bi_hdr : Z; bi_data : Z; bi_valid : bool; bi_sop : bool; bi_eop : bool; bi_awready : bool; bi_wready : bool }.
(** rtl/pcie_axi_master_wr.v:197-201: data, strobe and last of a beat of write data. *)
Record bw_beat := mkBb { bb_data : Z; bb_strb : Z; bb_last : bool }.
(** rtl/pcie_axi_master_wr.v:145-148. *)
Inductive bw_st := BIdle | BTransfer | BWait.
(** rtl/pcie_axi_master_wr.v:150-194: the registers of the state machine. tr_dword_count_reg and type_reg are never read and left out. *)
Record bw_fsm := mkBf { bf_st : bw_st; bf_addr : Z; bf_op : Z; bf_ic : Z; bf_oc : Z; bf_ia : bool; bf_first : bool; bf_last : bool; bf_fbe : Z; bf_lbe : Z; bf_off : Z; bf_lco : Z;
  bf_ready : bool; bf_awaddr : Z; bf_awlen : Z; bf_awv : bool; bf_unc : bool }.
(** rtl/pcie_axi_master_wr.v:488-505: the registers of the output datapath. *)
Record bw_out := mkBo { bo_wr : Z; bo_rd : Z; bo_mem : Z -> bw_beat; bo_half : bool; bo_wv : bool; bo_beat : bw_beat }.
(** rtl/pcie_axi_master_wr.v:150-194, 488-505: the registers. *)
Record bw_state := mkBs { bs_f : bw_fsm; bs_save : Z; bs_o : bw_out }.
(** rtl/pcie_axi_master_wr.v:488-490. *)
Definition bb0 : bw_beat := mkBb 0 0 false.
(** rtl/pcie_axi_master_wr.v:150-194, 488-505: initial values. *)
Definition bw0 : bw_state := mkBs (mkBf BIdle 0 0 0 0 false false false 0 0 0 0 false 0 0 false false) 0 (mkBo 0 0 (fun _ => bb0) false false bb0).

(** rtl/pcie_axi_master_wr.v:263. *)
Definition bh_len (h : Z) : Z := (if psel h 96 10 =? 0 then 1024 else 0) + psel h 96 10.
(** rtl/pcie_axi_master_wr.v:269-279. *)
Definition bh_addr (p : bw_param) (h : Z) : Z := if (bsel (psel h 125 3) 0 =? 1) || bp_f64 p then psel h 2 62 * 4 else psel h 34 30 * 4.
(** rtl/pcie_axi_master_wr.v:322: a write request. *)
Definition bh_write (h : Z) : bool := (bsel (psel h 125 3) 1 =? 1) && (psel h 120 5 =? 0) && negb (bsel h 110 =? 1).

(** rtl/pcie_axi_master_wr.v:297: axi_addr[OFFSET_WIDTH+2-1:2]. *)
Definition bw_o (p : bw_param) (a : Z) : Z := psel a 2 (bp_lw p).
(** rtl/pcie_axi_master_wr.v:293-303, 390-400: the double words of the next burst, and its length. *)
Definition bw_burst (p : bw_param) (op a : Z) : Z * Z :=
  if op <=? bp_bs p then (op, psel (op + bw_o p a - 1) (bp_lw p) 8)
  else let tr := (bp_bs p - bw_o p a) mod 2 ^ 11 in (tr, psel (tr - 1) (bp_lw p) 8).

(** rtl/pcie_axi_master_wr.v:507. *)
Definition bo_ready (o : bw_out) : bool := negb (bo_half o).
(** rtl/pcie_axi_master_wr.v:284, 419, 433: a request can be taken in the next clock. *)
Definition bw_room (s : bw_state) (i : bw_in) : bool := (negb (bf_awv (bs_f s)) || bi_awready i) && bo_ready (bs_o s).
(** rtl/pcie_axi_master_wr.v:291, 430, 472: a beat is taken. *)
Definition bw_rx (s : bw_state) (i : bw_in) : bool := bf_ready (bs_f s) && bi_valid i.
(** rtl/pcie_axi_master_wr.v:346: data is transferred. *)
Definition bw_xfer (s : bw_state) (i : bw_in) : bool :=
  match bf_st (bs_f s) with BTransfer => bw_rx s i || negb (bf_ia (bs_f s)) || bf_first (bs_f s) | _ => false end.

(** rtl/pcie_axi_master_wr.v:192, 350, 353: the data, shifted. *)
Definition bw_data (p : bw_param) (f : bw_fsm) (save rx : Z) : Z :=
  ((if bf_first f then save * 2 ^ (32 * bp_w p) else rx * 2 ^ (32 * bp_w p) + save) / 2 ^ ((bp_w p - bf_off f) * 32)) mod 2 ^ (32 * bp_w p).
(** rtl/pcie_axi_master_wr.v:356-360: the strobe without the end of the TLP. *)
Definition bw_strb0 (p : bw_param) (f : bw_fsm) : Z :=
  if bf_first f then (((2 ^ (bp_s p - 4) - 1) * 2 ^ 4 + bf_fbe f) * 2 ^ (bf_off f * 4)) mod 2 ^ bp_s p else 2 ^ bp_s p - 1.
(** rtl/pcie_axi_master_wr.v:356-378: the strobe; >> binds stronger than &. *)
Definition bw_strb (p : bw_param) (f : bw_fsm) : Z :=
  if bf_last f && (bf_op f =? 0) then
    Z.land (bw_strb0 p f) ((bf_lbe f * 2 ^ (bp_s p - 4) + (2 ^ (bp_s p - 4) - 1)) / (if 0 <? bf_lco f then 2 ^ (bp_s p - bf_lco f * 4) else 1))
  else bw_strb0 p f.
(** rtl/pcie_axi_master_wr.v:346-381: the beat for the output FIFO. *)
Definition bw_push (p : bw_param) (s : bw_state) (i : bw_in) : bw_beat := mkBb (bw_data p (bs_f s) (bs_save s) (bi_data i)) (bw_strb p (bs_f s)) (bf_last (bs_f s)).

(** rtl/pcie_axi_master_wr.v:282-341: STATE_IDLE. The registers that are set in each clock (lines 286-289) are set also if no request is taken. *)
Definition bw_idle (p : bw_param) (s : bw_state) (i : bw_in) : bw_fsm :=
  let f := bs_f s in let h := bi_hdr i in
  let a := bh_addr p h mod 2 ^ bp_aw p in let n := bh_len h in
  let fbe := psel h 64 4 in let lbe := if n =? 1 then fbe else psel h 68 4 in let awv := bf_awv f && negb (bi_awready i) in
  if bw_rx s i && bi_sop i then
    let '(tr, al) := bw_burst p n a in let off := psel a 2 (bp_lw p) in let ic := psel (tr - 1) (bp_lw p) 13 in
    let wr := bh_write h in
    mkBf (if wr then BTransfer else if bi_eop i then BIdle else BWait)
      ((a + tr * 4) mod 2 ^ bp_aw p) ((n - tr) mod 2 ^ 11) ic al (negb (ic =? 0)) true (al =? 0) fbe lbe off (psel (off + tr) 0 (bp_lw p))
      (if wr then false else if bi_eop i then bw_room s i else true) a al (wr || awv) (negb wr)
  else mkBf BIdle a n (bf_ic f) (bf_oc f) (bf_ia f) (bf_first f) (bf_last f) fbe lbe (bf_off f) (bf_lco f) (bw_room s i) (bf_awaddr f) (bf_awlen f) awv false.
(** rtl/pcie_axi_master_wr.v:342-425: STATE_TRANSFER. The counters are 32 bit expressions, cut off at 13 bits. *)
Definition bw_transfer (p : bw_param) (s : bw_state) (i : bw_in) : bw_fsm :=
  let f := bs_f s in let awv := bf_awv f && negb (bi_awready i) in let rdy := bo_ready (bs_o s) in
  if bw_xfer s i then
    let use := bf_ia f && negb (bf_first f) in
    let ic := if use then (bf_ic f - 1) mod 2 ^ 13 else bf_ic f in let ia := if use then negb (ic =? 0) else bf_ia f in
    let oc := (bf_oc f - 1) mod 2 ^ 13 in
    if negb (bf_last f) then
      mkBf BTransfer (bf_addr f) (bf_op f) ic oc ia false (oc =? 0) (bf_fbe f) (bf_lbe f) (bf_off f) (bf_lco f) (rdy && ia) (bf_awaddr f) (bf_awlen f) awv false
    else if 0 <? bf_op f then
      let a := bf_addr f in let '(tr, al) := bw_burst p (bf_op f) a in
      let ic2 := psel ((tr - bf_off f - 1) mod 2 ^ 32) (bp_lw p) 13 in
      mkBf BTransfer ((a + tr * 4) mod 2 ^ bp_aw p) ((bf_op f - tr) mod 2 ^ 11) ic2 al (negb (ic2 =? 0)) false (al =? 0) (bf_fbe f) (bf_lbe f) (bf_off f) (psel (bw_o p a + tr) 0 (bp_lw p))
        (rdy && negb (ic2 =? 0)) a al true false
    else mkBf BIdle (bf_addr f) (bf_op f) ic oc ia false (oc =? 0) (bf_fbe f) (bf_lbe f) (bf_off f) (bf_lco f) (bw_room s i) (bf_awaddr f) (bf_awlen f) awv false
  else mkBf BTransfer (bf_addr f) (bf_op f) (bf_ic f) (bf_oc f) (bf_ia f) (bf_first f) (bf_last f) (bf_fbe f) (bf_lbe f) (bf_off f) (bf_lco f) (rdy && bf_ia f && negb (bf_first f)) (bf_awaddr f) (bf_awlen f) awv false.
(** rtl/pcie_axi_master_wr.v:426-442: STATE_WAIT_END. *)
Definition bw_wait (s : bw_state) (i : bw_in) : bw_fsm :=
  let f := bs_f s in let fin := bw_rx s i && bi_eop i in
  mkBf (if fin then BIdle else BWait) (bf_addr f) (bf_op f) (bf_ic f) (bf_oc f) (bf_ia f) (bf_first f) (bf_last f) (bf_fbe f) (bf_lbe f) (bf_off f) (bf_lco f)
    (if fin then bw_room s i else true) (bf_awaddr f) (bf_awlen f) (bf_awv f && negb (bi_awready i)) false.
(** rtl/pcie_axi_master_wr.v:219-444. *)
Definition bw_fsm_next (p : bw_param) (s : bw_state) (i : bw_in) : bw_fsm :=
  match bf_st (bs_f s) with BIdle => bw_idle p s i | BTransfer => bw_transfer p s i | BWait => bw_wait s i end.

(** rtl/pcie_axi_master_wr.v:514-532: the output datapath, without reset. *)
Definition bo_next (o : bw_out) (push : bool) (b : bw_beat) (wready : bool) : bw_out :=
  let pu := negb (ptr_full (bo_wr o) (bo_rd o)) && push in let po := negb (ptr_empty (bo_wr o) (bo_rd o)) && (negb (bo_wv o) || wready) in
  mkBo (if pu then ptr_inc (bo_wr o) else bo_wr o) (if po then ptr_inc (bo_rd o) else bo_rd o) (if pu then upd (bo_mem o) (bo_wr o mod 32) b else bo_mem o)
    (16 <=? (bo_wr o - bo_rd o) mod 64) (po || (bo_wv o && negb wready)) (if po then bo_mem o (bo_rd o mod 32) else bo_beat o).

(** rtl/pcie_axi_master_wr.v:446-474, 514-532: one clock without reset. *)
Definition bw_next (p : bw_param) (s : bw_state) (i : bw_in) : bw_state :=
  mkBs (bw_fsm_next p s i) (if bw_rx s i then bi_data i mod 2 ^ (32 * bp_w p) else bs_save s) (bo_next (bs_o s) (bw_xfer s i) (bw_push p s i) (bi_wready i)).
(** rtl/pcie_axi_master_wr.v:446-485, 514-539: one clock. The counters, the data registers, the FIFO memory and the half full flag are not reset. *)
Definition bw_step (p : bw_param) (s : bw_state) (i : bw_in) : bw_state :=
  let n := bw_next p s i in
  if bi_rst i then
    let f := bs_f n in let o := bs_o n in
    mkBs (mkBf BIdle (bf_addr f) (bf_op f) (bf_ic f) (bf_oc f) (bf_ia f) (bf_first f) (bf_last f) (bf_fbe f) (bf_lbe f) (bf_off f) (bf_lco f) false (bf_awaddr f) (bf_awlen f) false false)
      (bs_save n) (mkBo 0 0 (bo_mem o) (bo_half o) false (bo_beat o))
  else n.

(** rtl/pcie_axi_master_wr.v:56-96, 203-217, 509-512: what is seen at the ports in one clock (the other outputs are constant). *)
Record bw_ev := mkBv { bv_in : bw_in; bv_ready : bool; bv_awv : bool; bv_awaddr : Z; bv_awlen : Z; bv_wv : bool; bv_w : bw_beat; bv_unc : bool }.
(** rtl/pcie_axi_master_wr.v:203-217, 509-512. *)
Definition bw_event (s : bw_state) (i : bw_in) : bw_ev :=
  mkBv i (bf_ready (bs_f s)) (bf_awv (bs_f s)) (bf_awaddr (bs_f s)) (bf_awlen (bs_f s)) (bo_wv (bs_o s)) (bo_beat (bs_o s)) (bf_unc (bs_f s)).
(** rtl/pcie_axi_master_wr.v:446-539: clock after clock. *)
Fixpoint bw_trace (p : bw_param) (s : bw_state) (l : list bw_in) : list bw_ev :=
  match l with [] => [] | i :: r => bw_event s i :: bw_trace p (bw_step p s i) r end.
(** rtl/pcie_axi_master_wr.v:446-539: the last state. *)
Definition bw_run (p : bw_param) (s : bw_state) (l : list bw_in) : bw_state := fold_left (bw_step p) l s.
