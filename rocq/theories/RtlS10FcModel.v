(** Model of the credit accounting of rtl/pcie_s10_if_tx.v for one segment: the delay memory, its counter, and the credits left for the multiplexer. *)
From Verif Require Import PyBase RtlModel RtlFcModel.

(** rtl/pcie_s10_if_tx.v:52-53, 115-138, 239-242, 262-267, 555, 666: inputs of one clock: reset, the counts of the multiplexer, seg_cons_next, fifo_tlp_sop, fifo_tlp_hdr,
    the credits of the core (tx_ph_cdts and so on) and max_payload_size.  The counts and seg_cons_next come from parts with models of their own. *)
Record cx_in := mkCx { cx_rst : bool; cx_mux : fc_counts; cx_cons : bool; cx_sop : bool; cx_hdr : Z; cx_cr : fc_counts; cx_mps : Z }.
(** rtl/pcie_s10_if_tx.v:185, 262-286, 484-487: fc_delay_fifo_hdr_mem, fc_delay_fifo_valid_mem, the pointers, seg_cons, the outputs of fc_count_inst, int_tx_fc, adj_tx_fc,
    max_payload_size_fc, have_p_credit, have_np_credit, have_cpl_credit. *)
Record cx_state := mkCs { cs_mh : Z -> Z; cs_mv : Z -> bool; cs_wr : Z; cs_rd : Z; cs_cons : bool; cs_out : fc_counts; cs_int : fc_counts; cs_adj : fc_counts; cs_mpf : Z;
  cs_p : bool; cs_np : bool; cs_cpl : bool }.

(** rtl/pcie_s10_if_tx.v:490-491: a memory after a write. *)
Definition cx_upd {T : Type} (f : Z -> T) (k : Z) (v : T) : Z -> T := fun n => if n =? k then v else f n.
(** rtl/pcie_s10_if_tx.v:504-529: the counter; the TLP comes from the memory, tlp_sop and tlp_ready are always set. *)
Definition cx_cnt (rst v : bool) (h : Z) : fc_counts := fc_step 1 rst h (if v then 1 else 0) 1 true.
(** rtl/pcie_s10_if_tx.v:736-741: header counts have 8 bits, data counts 12. *)
Definition cx_acc (c m o : fc_counts) : fc_counts :=
  mkFc ((fc_ph c + fc_ph m - fc_ph o) mod 2 ^ 8) ((fc_pd c + fc_pd m - fc_pd o) mod 2 ^ 12) ((fc_nph c + fc_nph m - fc_nph o) mod 2 ^ 8)
    ((fc_npd c + fc_npd m - fc_npd o) mod 2 ^ 12) ((fc_cplh c + fc_cplh m - fc_cplh o) mod 2 ^ 8) ((fc_cpld c + fc_cpld m - fc_cpld o) mod 2 ^ 12).
(** rtl/pcie_s10_if_tx.v:743-748: one line; the difference fits the register as the credits do. *)
Definition cx_left (a b : Z) : Z := if b <? a then a - b else 0.
(** rtl/pcie_s10_if_tx.v:743-748. *)
Definition cx_adj (a b : fc_counts) : fc_counts :=
  mkFc (cx_left (fc_ph a) (fc_ph b)) (cx_left (fc_pd a) (fc_pd b)) (cx_left (fc_nph a) (fc_nph b)) (cx_left (fc_npd a) (fc_npd b)) (cx_left (fc_cplh a) (fc_cplh b)) (cx_left (fc_cpld a) (fc_cpld b)).
(** rtl/pcie_s10_if_tx.v:489-502, 710, 736-778: one clock edge.  The difference of the pointers in line 494 is taken in 32 bits, the width of the literal. *)
Definition cx_step (s : cx_state) (i : cx_in) : cx_state :=
  let a := cs_adj s in
  mkCs (cx_upd (cs_mh s) (cs_wr s) (cx_hdr i)) (cx_upd (cs_mv s) (cs_wr s) (cs_cons s && cx_sop i))
    (if cx_rst i then 0 else (cs_wr s + 1) mod 32)
    (if cx_rst i then 0 else if 23 <=? (cs_wr s - cs_rd s) mod 2 ^ 32 then (cs_rd s + 1) mod 32 else cs_rd s)
    (cx_cons i) (cx_cnt (cx_rst i) (cs_mv s (cs_rd s)) (cs_mh s (cs_rd s)))
    (if cx_rst i then fc0 else cx_acc (cs_int s) (cx_mux i) (cs_out s)) (if cx_rst i then fc0 else cx_adj (cx_cr i) (cs_int s))
    (8 * 2 ^ (if 5 <? cx_mps i then 5 else cx_mps i))
    ((4 <? fc_ph a) && (cs_mpf s * 2 <? fc_pd a)) (4 <? fc_nph a) ((4 <? fc_cplh a) && (cs_mpf s * 2 <? fc_cpld a)).
(** rtl/pcie_s10_if_tx.v:489-502, 705-779: clocks in turn. *)
Definition cx_run (s : cx_state) (l : list cx_in) : cx_state := fold_left cx_step l s.
