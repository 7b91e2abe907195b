(** The transmit side of the P-Tile interface: rtl/pcie_ptile_if_tx.v with one segment (SEG_COUNT = TLP_SEG_COUNT = 1). *)
From Verif Require Import PyBase RtlModel RtlFcModel RtlFifoModel RtlFmuxModel.

(** rtl/pcie_ptile_if_tx.v:57-146: the inputs: reset; per port (0 tx_msi_wr_req, 1 tx_cpl, 2 tx_rd_req, 3 tx_wr_req) a beat and valid; tx_st_ready; tx_cdts_limit and its index; max_payload_size. *)
Record tx_in := mkTi { ti_rst : bool; ti_b : Z -> fbeat; ti_valid : Z -> bool; ti_ready : bool; ti_lim : Z; ti_idx : Z; ti_mps : Z }.
(** rtl/pcie_ptile_if_tx.v:198-202: tx_st_valid_reg, tx_st_sop_reg, tx_st_eop_reg, tx_st_data_reg, tx_st_hdr_reg. *)
Record tx_out := mkTo { to_v : bool; to_sop : bool; to_eop : bool; to_data : Z; to_hdr : Z }.
(** rtl/pcie_ptile_if_tx.v:371-443: the six counters: ph, nph, cplh, pd, npd, cpld. *)
Record tx_crd := mkTc { tc_ph : pt_state; tc_nph : pt_state; tc_cplh : pt_state; tc_pd : pt_state; tc_npd : pt_state; tc_cpld : pt_state }.
(** rtl/pcie_ptile_if_tx.v:198-204, 235-238, 309, 371-443: the multiplexer, the output, tx_st_ready_delay_reg[0] and [1], max_payload_size_fc_reg, have_p_credit_reg, have_np_credit_reg, have_cpl_credit_reg, the counters. *)
Record tx_state := mkTs { ts_mux : fm_st; ts_out : tx_out; ts_r0 : bool; ts_r1 : bool; ts_mpf : Z; ts_p : bool; ts_np : bool; ts_cpl : bool; ts_c : tx_crd }.

(** rtl/pcie_ptile_if_tx.v:157, 297-308: the parameters of the multiplexer; [f] is the FIFO (FIFO_DEPTH is 512 words, that is 512/TLP_STRB_WIDTH beats). *)
Definition tx_mp (f : fi_param) : fm_param := mkMp 4 false true f.
(** rtl/pcie_ptile_if_tx.v:240-246, 251-257, 262-268, 273-279, 320-322: the beats of the ports at the multiplexer. *)
Definition tx_beat (n : Z) (b : fbeat) : fbeat :=
  if n =? 2 then mkFb 0 0 (fb_hdr b) (fb_seq b) 0 0 0 true true
  else mkFb (fb_data b) (fb_strb b) (fb_hdr b) (if n =? 3 then fb_seq b else 0) 0 0 0 (fb_sop b) (fb_eop b).
(** rtl/pcie_ptile_if_tx.v:249, 260, 271, 282: mux_pause. *)
Definition tx_pause (s : tx_state) (n : Z) : bool := negb (if n =? 1 then ts_cpl s else if n =? 2 then ts_np s else ts_p s).
(** rtl/pcie_ptile_if_tx.v:309-365, 446, 454-455: the inputs of the multiplexer; out_tlp_ready is tx_st_ready_delay_reg[1]. *)
Definition tx_min (s : tx_state) (i : tx_in) : fm_in := mkMi (ti_rst i) (fun n => tx_beat n (ti_b i n)) (ti_valid i) (tx_pause s) (ts_r1 s).
(** rtl/pcie_ptile_if_tx.v:367-443: the counters after a clock, fed with the credit counts of the multiplexer. The header counters have 12 bits, so the limit is cut at their port (rtl/pcie_ptile_fc_counter.v:43). *)
Definition tx_crd_step (s : tx_state) (i : tx_in) : tx_crd :=
  let f := ms_fc (ts_mux s) in let c := ts_c s in let pin w d := mkPtIn (ti_rst i) (ti_lim i mod 2 ^ w) (ti_idx i) d in
  mkTc (pt_step 12 0 (tc_ph c) (pin 12 (fc_ph f))) (pt_step 12 1 (tc_nph c) (pin 12 (fc_nph f))) (pt_step 12 2 (tc_cplh c) (pin 12 (fc_cplh f)))
       (pt_step 16 4 (tc_pd c) (pin 16 (fc_pd f))) (pt_step 16 5 (tc_npd c) (pin 16 (fc_npd f))) (pt_step 16 6 (tc_cpld c) (pin 16 (fc_cpld f))).
(** rtl/pcie_ptile_if_tx.v:445-463: the output after a clock. *)
Definition tx_out_next (s : tx_state) : tx_out :=
  let o := ms_out (ts_mux s) in
  if ts_r1 s then mkTo (mo_v o) (fb_sop (mo_b o)) (fb_eop (mo_b o)) (fb_data (mo_b o)) (fb_hdr (mo_b o)) else mkTo false false false 0 0.
(** rtl/pcie_ptile_if_tx.v:465-483: one clock. *)
Definition tx_step (f : fi_param) (s : tx_state) (i : tx_in) : tx_state :=
  let o := tx_out_next s in let c := ts_c s in
  mkTs (fm_step (tx_mp f) (ts_mux s) (tx_min s i))
       (if ti_rst i then mkTo false (to_sop o) (to_eop o) (to_data o) (to_hdr o) else o)
       (if ti_rst i then false else ti_ready i) (if ti_rst i then false else ts_r0 s)
       (8 * 2 ^ (if ti_mps i >? 5 then 5 else ti_mps i))
       ((pt_av (tc_ph c) >? 4) && (pt_av (tc_pd c) >? ts_mpf s * 2)) (pt_av (tc_nph c) >? 4) ((pt_av (tc_cplh c) >? 4) && (pt_av (tc_cpld c) >? ts_mpf s * 2))
       (tx_crd_step s i).
(** rtl/pcie_ptile_if_tx.v:465-483: clock after clock: the inputs with the state they meet. *)
Fixpoint tx_trace (f : fi_param) (s : tx_state) (l : list tx_in) : list (tx_in * tx_state) :=
  match l with [] => [] | i :: r => (i, s) :: tx_trace f (tx_step f s i) r end.
(** rtl/pcie_ptile_if_tx.v:465-483: the state after all clocks. *)
Definition tx_run (f : fi_param) (s : tx_state) (l : list tx_in) : tx_state := fold_left (tx_step f) l s.
