(** The TLP FIFO: rtl/pcie_tlp_fifo.v and rtl/pcie_tlp_fifo_raw.v with one segment at the input and at the output (IN_TLP_SEG_COUNT = OUT_TLP_SEG_COUNT = 1).
    pcie_tlp_fifo.v then only passes the signals on (pcie_tlp_fifo.v:147-232), without the control output (CTRL_OUT_EN = 0).
    The counts of segments (out_seg_count, out_seg_offset, count_reg) are constants or not used, and left out. *)
From Verif Require Import PyBase.

(** rtl/pcie_tlp_fifo_raw.v:64-73, 266-283: a beat; one entry of the memories. *)
Record fbeat := mkFb { fb_data : Z; fb_strb : Z; fb_hdr : Z; fb_seq : Z; fb_bar : Z; fb_func : Z; fb_err : Z; fb_sop : bool; fb_eop : bool }.
(** rtl/pcie_tlp_fifo_raw.v:58-92, rtl/pcie_tlp_fifo.v:217: the inputs; fi_read is out_read_en (out_tlp_ready of pcie_tlp_fifo). *)
Record fi_in := mkFi { fi_rst : bool; fi_b : fbeat; fi_valid : bool; fi_read : bool }.
(** rtl/pcie_tlp_fifo_raw.v:37, 53, 118-119: ADDR_WIDTH; DEPTH and WATERMARK divided by TLP_STRB_WIDTH, that is in beats. *)
Record fi_param := mkFp { fp_aw : Z; fp_d : Z; fp_wm : Z }.
(** rtl/pcie_tlp_fifo_raw.v:139-211, 266-317: the memory, the pointers (written and complete, written, read), the addresses, what has been read from the memory, the output, the limits. *)
Record fi_st := mkFs { fs_mem : Z -> fbeat; fs_wr : Z; fs_wrc : Z; fs_rd : Z; fs_wa : Z; fs_ra : Z; fs_rv : bool; fs_rb : fbeat; fs_ov : bool; fs_ob : fbeat;
                       fs_full : bool; fs_half : bool; fs_wmk : bool }.

(** rtl/pcie_tlp_fifo_raw.v:139-142: the number of values of a pointer. *)
Definition fp_m (p : fi_param) : Z := 2 ^ (fp_aw p + 1).
(** rtl/pcie_tlp_fifo_raw.v:234, 485: a beat is taken. *)
Definition fi_take (s : fi_st) (i : fi_in) : bool := negb (fs_full s) && fi_valid i.
(** rtl/pcie_tlp_fifo_raw.v:489: the pointer after it. *)
Definition fi_wrc (p : fi_param) (s : fi_st) (i : fi_in) : Z := if fi_take s i then (fs_wrc s + 1) mod fp_m p else fs_wrc s.
(** rtl/pcie_tlp_fifo_raw.v:319-331: the memory. *)
Definition fi_mem (s : fi_st) (i : fi_in) : Z -> fbeat := if fi_take s i then (fun a => if a =? fs_wa s then fi_b i else fs_mem s a) else fs_mem s.
(** rtl/pcie_tlp_fifo_raw.v:579: the output takes the next beat. *)
Definition fi_go (s : fi_st) (i : fi_in) : bool := negb (fs_ov s) || fi_read i.
(** rtl/pcie_tlp_fifo_raw.v:594-596: the memory is read. *)
Definition fi_ren (s : fi_st) (i : fi_in) : bool := (negb (fs_rv s) || fi_go s i) && negb (fs_wr s =? fs_rd s).
(** rtl/pcie_tlp_fifo_raw.v:598. *)
Definition fi_rd (p : fi_param) (s : fi_st) (i : fi_in) : Z := if fi_ren s i then (fs_rd s + 1) mod fp_m p else fs_rd s.
(** rtl/pcie_tlp_fifo_raw.v:378-380: the number of beats, as compared with the limits. *)
Definition fi_count (p : fi_param) (s : fi_st) : Z := (fs_wrc s - fs_rd s) mod fp_m p.

(** rtl/pcie_tlp_fifo_raw.v:333-345, 376-393, 485-525, 578-603, 765-832: one clock. *)
Definition fi_step (p : fi_param) (s : fi_st) (i : fi_in) : fi_st :=
  let wrc := fi_wrc p s i in let rd := fi_rd p s i in
  let wr := if fi_take s i && fb_eop (fi_b i) then wrc else fs_wr s in
  let wa := if fi_take s i then wrc mod 2 ^ fp_aw p else fs_wa s in
  let ra := if fi_ren s i then rd mod 2 ^ fp_aw p else fs_ra s in
  let rb := if fi_ren s i then fs_mem s (fs_ra s) else fs_rb s in
  let rv := if negb (fs_rv s) || fi_go s i then negb (fs_wr s =? fs_rd s) else fs_rv s in
  let ob := if fi_go s i then fs_rb s else fs_ob s in
  let ov := if fi_go s i then fs_rv s else fs_ov s in
  if fi_rst i then mkFs (fi_mem s i) 0 0 0 0 0 false rb false ob false false false
  else mkFs (fi_mem s i) wr wrc rd wa ra rv rb ov ob (fi_count p s >=? fp_d p - 2) (fi_count p s >=? fp_d p / 2) (fi_count p s >=? fp_wm p).
(** rtl/pcie_tlp_fifo_raw.v:765-832: clock after clock: the inputs with the state they meet. *)
Fixpoint fi_trace (p : fi_param) (s : fi_st) (l : list fi_in) : list (fi_in * fi_st) :=
  match l with [] => [] | i :: r => (i, s) :: fi_trace p (fi_step p s i) r end.
(** rtl/pcie_tlp_fifo_raw.v:765-832: the state after all clocks. *)
Definition fi_run (p : fi_param) (s : fi_st) (l : list fi_in) : fi_st := fold_left (fi_step p) l s.
