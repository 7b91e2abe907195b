(** Model of rtl/dma_client_axis_source.v.  A Verilog vector of width w is an integer in [0, 2^w); a packed array of addresses is a
    function of the segment. *)
From Verif Require Import PyBase RtlModel RtlRamModel RtlDemuxModel RtlRamDemuxModel.

(** rtl/dma_client_axis_source.v:36-70: RAM_ADDR_WIDTH, SEG_COUNT, SEG_BE_WIDTH, the word size (line 123, equal to that of line 127 by
    lines 154-157), AXIS_KEEP_WIDTH, AXIS_KEEP_ENABLE, LEN_WIDTH, AXIS_LAST_ENABLE, AXIS_ID_ENABLE, AXIS_DEST_ENABLE, AXIS_USER_ENABLE. *)
Record cl_param := mkCl { cl_aw : Z; cl_segs : Z; cl_be : Z; cl_ws : Z; cl_kw : Z; cl_ken : bool; cl_lw : Z; cl_last : bool; cl_id : bool; cl_dest : bool; cl_user : bool }.

(** rtl/dma_client_axis_source.v:125: AXIS_KEEP_WIDTH_INT. *)
Definition cl_int (p : cl_param) : Z := if cl_ken p then cl_kw p else 1.
(** rtl/dma_client_axis_source.v:129: PART_COUNT. *)
Definition cl_parts (p : cl_param) : Z := cl_segs p * cl_be p / cl_int p.
(** rtl/dma_client_axis_source.v:130: PART_COUNT_WIDTH. *)
Definition cl_pcw (p : cl_param) : Z := if 1 <? cl_parts p then clog2 (cl_parts p) else 1.
(** rtl/dma_client_axis_source.v:131: PART_OFFSET_WIDTH. *)
Definition cl_pow (p : cl_param) : Z := if 1 <? cl_int p then clog2 (cl_int p) else 1.
(** rtl/dma_client_axis_source.v:132: PARTS_PER_SEG. *)
Definition cl_pps (p : cl_param) : Z := (cl_be p + cl_int p - 1) / cl_int p.
(** rtl/dma_client_axis_source.v:133: SEGS_PER_PART. *)
Definition cl_spp (p : cl_param) : Z := (cl_int p + cl_be p - 1) / cl_be p.
(** rtl/dma_client_axis_source.v:135-136: OFFSET_MASK; OFFSET_WIDTH is PART_OFFSET_WIDTH. *)
Definition cl_omask (p : cl_param) : Z := if 1 <? cl_int p then Z.ones (cl_pow p) else 0.
(** rtl/dma_client_axis_source.v:138: CYCLE_COUNT_WIDTH. *)
Definition cl_ccw (p : cl_param) : Z := cl_lw p - clog2 (cl_int p) + 1.
(** rtl/dma_client_axis_source.v:45: SEG_ADDR_WIDTH. *)
Definition cl_saw (p : cl_param) : Z := cl_aw p - clog2 (cl_segs p * cl_be p).
(** rtl/dma_client_axis_source.v:47, 127: AXIS_DATA_WIDTH. *)
Definition cl_dw (p : cl_param) : Z := cl_int p * cl_ws p.

(** rtl/dma_client_axis_source.v:137, 277: [addr & ADDR_MASK]. *)
Definition cl_align (p : cl_param) (a : Z) : Z := Z.land a (Z.shiftl (Z.ones (cl_aw p)) (clog2 (cl_int p)) mod 2 ^ cl_aw p).
(** rtl/dma_client_axis_source.v:280, 347: the part of a bus word. *)
Definition cl_part (p : cl_param) (a : Z) : Z := Z.land (Z.shiftr a (cl_pow p)) (Z.ones (cl_pcw p)).
(** rtl/dma_client_axis_source.v:279-283, 315-319, 382-386, 411-415: the segments of a part. *)
Definition cl_mask (p : cl_param) (a : Z) : Z :=
  if 1 <? cl_parts p then Z.shiftl (Z.ones (cl_spp p)) (cl_part p a / cl_pps p * cl_spp p) mod 2 ^ cl_segs p else Z.ones (cl_segs p).
(** rtl/dma_client_axis_source.v:294-295: number of cycles less one; the subtraction is in 32 bits or more. *)
Definition cl_cycles (p : cl_param) (len : Z) : Z := Z.shiftr ((len - 1) mod 2 ^ Z.max 32 (Z.max (cl_lw p) (cl_ccw p))) (clog2 (cl_int p)) mod 2 ^ cl_ccw p.
(** rtl/dma_client_axis_source.v:286: the used words of the last cycle. *)
Definition cl_offset (p : cl_param) (len : Z) : Z := Z.land len (cl_omask p).

(** rtl/dma_client_axis_source.v:79-82: tag, id, dest and user of a descriptor. *)
Record cl_meta := mkMe { me_tag : Z; me_id : Z; me_dest : Z; me_user : Z }.
(** rtl/dma_client_axis_source.v:77-79: a descriptor. *)
Record cl_desc := mkDe { de_addr : Z; de_len : Z; de_meta : cl_meta }.
(** rtl/dma_client_axis_source.v:93-100: a beat of the stream: data, keep, last, and id, dest, user. *)
Record cl_beat := mkBe { bt_data : Z; bt_keep : Z; bt_last : bool; bt_id : Z; bt_dest : Z; bt_user : Z }.

(** rtl/dma_client_axis_source.v:72-118: the inputs. *)
Record src_in := mkSi { si_rst : bool; si_desc : cl_desc; si_valid : bool; si_tready : bool; si_cready : Z; si_rdata : Z; si_rvalid : Z; si_enable : bool }.

(** rtl/dma_client_axis_source.v:184, 197-199, 220, 225-226: the registers of the reading side: read_state_reg (true for READ), read_addr_reg,
    read_ram_mask_reg, read_cycle_count_reg, s_axis_read_desc_ready_reg, ram_rd_cmd_addr_reg, ram_rd_cmd_valid_reg. *)
Record src_rd := mkSr { sr_read : bool; sr_addr : Z; sr_mask : Z; sr_cnt : Z; sr_ready : bool; sr_caddr : Z -> Z; sr_cvalid : Z }.
(** rtl/dma_client_axis_source.v:201-208: the descriptor on its way to the output side: axis_cmd_valid_reg, address, offset, cycles, the rest. *)
Record src_cmd := mkSc { sc_valid : bool; sc_addr : Z; sc_off : Z; sc_cnt : Z; sc_meta : cl_meta }.
(** rtl/dma_client_axis_source.v:190, 210-218, 222-223: the registers of the output side: axis_state_reg (true for READ), addr_reg, ram_mask_reg,
    last_cycle_offset_reg, cycle_count_reg, last_cycle_reg, the tag for the status with id, dest and user, the status valid bit. *)
Record src_ax := mkSa { sa_read : bool; sa_addr : Z; sa_mask : Z; sa_off : Z; sa_cnt : Z; sa_lastc : bool; sa_meta : cl_meta; sa_status : bool }.
(** rtl/dma_client_axis_source.v:495-521: the output FIFO and the output registers. *)
Record src_out := mkSo { so_valid : bool; so_beat : cl_beat; so_wr : Z; so_rdp : Z; so_half : bool; so_mem : Z -> cl_beat }.
(** All registers of rtl/dma_client_axis_source.v:184-226, 495-521. *)
Record src_state := mkSs { ss_rd : src_rd; ss_cmd : src_cmd; ss_ax : src_ax; ss_out : src_out }.

(** rtl/dma_client_axis_source.v:275: a descriptor is taken. *)
Definition src_take (s : src_state) (i : src_in) : bool := negb (sr_read (ss_rd s)) && (sr_ready (ss_rd s) && si_valid i).
(** rtl/dma_client_axis_source.v:308: read commands are issued. *)
Definition src_issue (s : src_state) (i : src_in) : bool :=
  sr_read (ss_rd s) && (Z.land (Z.land (sr_cvalid (ss_rd s)) (Z.lnot (si_cready i))) (sr_mask (ss_rd s)) =? 0).
(** rtl/dma_client_axis_source.v:393-396: axis_cmd_ready. *)
Definition src_load (s : src_state) : bool := negb (sa_read (ss_ax s)) && sc_valid (ss_cmd s).
(** rtl/dma_client_axis_source.v:402, 523: read data is taken. *)
Definition src_go (s : src_state) (i : src_in) : bool :=
  sa_read (ss_ax s) && ((Z.land (sa_mask (ss_ax s)) (Z.lnot (si_rvalid i)) =? 0) && negb (so_half (ss_out s))).

(** rtl/dma_client_axis_source.v:249-338, 447-486: the reading side after the clock. *)
Definition src_rd_step (p : cl_param) (s : src_state) (i : src_in) : src_rd :=
  let r := ss_rd s in let a0 := cl_align p (de_addr (si_desc i)) in let a1 := (sr_addr r + cl_int p) mod 2 ^ cl_aw p in
  let av := negb (sc_valid (ss_cmd s)) && si_enable i in
  let cv := Z.land (sr_cvalid r) (Z.lnot (si_cready i)) in
  let take := src_take s i in let iss := src_issue s i in
  mkSr (negb (si_rst i) && (if sr_read r then negb (iss && (sr_cnt r =? 0)) else take))
    (if take then a0 else if iss then a1 else sr_addr r) (if take then cl_mask p a0 else if iss then cl_mask p a1 else sr_mask r)
    (if take then cl_cycles p (de_len (si_desc i)) else if iss then (sr_cnt r - 1) mod 2 ^ cl_ccw p else sr_cnt r)
    (negb (si_rst i) && (if sr_read r then iss && (sr_cnt r =? 0) && av else negb take && av))
    (fun n => if iss && Z.testbit (sr_mask r) n then psel (sr_addr r) (cl_aw p - cl_saw p) (cl_saw p) else sr_caddr r n)
    (if si_rst i then 0 else if iss then Z.lor cv (sr_mask r) else cv).

(** rtl/dma_client_axis_source.v:261-268, 285-297, 464-471, 484: the descriptor register after the clock. *)
Definition src_cmd_step (p : cl_param) (s : src_state) (i : src_in) : src_cmd :=
  let c := ss_cmd s in let d := si_desc i in
  if src_take s i then mkSc (negb (si_rst i)) (cl_align p (de_addr d)) (cl_offset p (de_len d)) (cl_cycles p (de_len d)) (de_meta d)
  else mkSc (negb (si_rst i) && (sc_valid c && negb (src_load s))) (sc_addr c) (sc_off c) (sc_cnt c) (sc_meta c).

(** rtl/dma_client_axis_source.v:340-444, 448-491: the output side after the clock. *)
Definition src_ax_step (p : cl_param) (s : src_state) (i : src_in) : src_ax :=
  let a := ss_ax s in let c := ss_cmd s in let a1 := (sa_addr a + cl_int p) mod 2 ^ cl_aw p in let c1 := (sa_cnt a - 1) mod 2 ^ cl_ccw p in
  if sa_read a then
    if src_go s i then mkSa (negb (si_rst i) && negb (sa_lastc a)) a1 (cl_mask p a1) (sa_off a) c1 (c1 =? 0) (sa_meta a) (negb (si_rst i) && sa_lastc a)
    else mkSa (negb (si_rst i)) (sa_addr a) (sa_mask a) (sa_off a) (sa_cnt a) (sa_lastc a) (sa_meta a) false
  else mkSa (negb (si_rst i) && sc_valid c) (sc_addr c) (cl_mask p (sc_addr c)) (sc_off c) (sc_cnt c) (sc_cnt c =? 0) (sc_meta c) false.

(** rtl/dma_client_axis_source.v:346-356, 417-433: the beat made of the read data. *)
Definition src_beat (p : cl_param) (s : src_state) (i : src_in) : cl_beat :=
  let a := ss_ax s in let m := sa_meta a in
  mkBe (if 1 <? cl_parts p then psel (si_rdata i) (cl_part p (sa_addr a) * cl_dw p) (cl_dw p) else psel (si_rdata i) 0 (cl_dw p))
    (if sa_lastc a && (0 <? sa_off a) then Z.shiftr (Z.ones (cl_int p)) (cl_int p - sa_off a) else Z.ones (cl_int p)) (sa_lastc a)
    (me_id m) (me_dest m) (me_user m).

(** rtl/dma_client_axis_source.v:523, 533-564: the output FIFO after the clock. *)
Definition src_out_step (p : cl_param) (s : src_state) (i : src_in) : src_out :=
  let o := ss_out s in
  let push := negb (ptr_full (so_wr o) (so_rdp o)) && src_go s i in
  let pop := negb (ptr_empty (so_wr o) (so_rdp o)) && (negb (so_valid o) || si_tready i) in
  mkSo (negb (si_rst i) && (pop || (so_valid o && negb (si_tready i)))) (if pop then so_mem o (so_rdp o mod 32) else so_beat o)
    (if si_rst i then 0 else if push then ptr_inc (so_wr o) else so_wr o) (if si_rst i then 0 else if pop then ptr_inc (so_rdp o) else so_rdp o)
    (16 <=? (so_wr o - so_rdp o) mod 64) (if push then upd (so_mem o) (so_wr o mod 32) (src_beat p s i) else so_mem o).

(** rtl/dma_client_axis_source.v:446-492, 533-564: one clock edge. *)
Definition src_step (p : cl_param) (s : src_state) (i : src_in) : src_state :=
  mkSs (src_rd_step p s i) (src_cmd_step p s i) (src_ax_step p s i) (src_out_step p s i).

(** rtl/dma_client_axis_source.v:184-226, 495-505: at power up. *)
Definition src0 : src_state :=
  let m := mkMe 0 0 0 0 in
  mkSs (mkSr false 0 0 0 false (fun _ => 0) 0) (mkSc false 0 0 0 m) (mkSa false 0 0 0 0 false m false) (mkSo false (mkBe 0 0 false 0 0 0) 0 0 false (fun _ => mkBe 0 0 false 0 0 0)).

(** rtl/dma_client_axis_source.v:525-531: the stream output. *)
Definition src_show (p : cl_param) (b : cl_beat) : cl_beat :=
  mkBe (bt_data b) (if cl_ken p then bt_keep b else Z.ones (cl_kw p)) (if cl_last p then bt_last b else true)
    (if cl_id p then bt_id b else 0) (if cl_dest p then bt_dest b else 0) (if cl_user p then bt_user b else 0).

(** rtl/dma_client_axis_source.v:72-118: what is seen at one clock: the inputs, s_axis_read_desc_ready, the status valid bit and tag, the stream,
    the read commands, ram_rd_resp_ready. *)
Record src_ev := mkSe { se_in : src_in; se_ready : bool; se_status : bool; se_tag : Z; se_tvalid : bool; se_beat : cl_beat; se_caddr : Z -> Z; se_cvalid : Z; se_rready : Z }.
(** rtl/dma_client_axis_source.v:239-247, 400-404, 525-531. *)
Definition src_event (p : cl_param) (s : src_state) (i : src_in) : src_ev :=
  mkSe i (sr_ready (ss_rd s)) (sa_status (ss_ax s)) (me_tag (sa_meta (ss_ax s))) (so_valid (ss_out s)) (src_show p (so_beat (ss_out s)))
    (sr_caddr (ss_rd s)) (sr_cvalid (ss_rd s)) (if src_go s i then sa_mask (ss_ax s) else 0).
(** rtl/dma_client_axis_source.v:446-492, 533-564: clocks in turn. *)
Fixpoint src_trace (p : cl_param) (s : src_state) (l : list src_in) : list src_ev :=
  match l with
  | [] => []
  | i :: r => src_event p s i :: src_trace p (src_step p s i) r
  end.
(** rtl/dma_client_axis_source.v:446-492, 533-564: the registers after the clocks. *)
Definition src_run (p : cl_param) (s : src_state) (l : list src_in) : src_state := fold_left (src_step p) l s.
