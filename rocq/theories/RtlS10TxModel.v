(** Model of the output side of rtl/pcie_s10_if_tx.v for one segment (SEG_COUNT = 1): TLPs are read from pcie_tlp_fifo_raw and laid out on the AVST interface, the
    header in front of the payload.  All selects of the data and the header in this part are multiples of 32 bits, so 256 bits of data are a list of
    eight words, lowest first, and a header is the list of its four words in the order of transmission (tlp_hdr[127:96] first).  The FIFO itself is
    modelled in RtlFifoModel; here it is the list of the beats which can be read, once for its control side and once for its data side. *)
From Verif Require Import PyBase RtlModel.

(** rtl/pcie_s10_if_tx.v:237-254: a beat of the FIFO: data, strobe (eight bits), header, eop. *)
Record xb := mkXb { xb_w : list Z; xb_s : Z; xb_h : list Z; xb_e : bool }.
(** rtl/pcie_s10_if_tx.v:52-53, 58-62, 450-475: inputs of one clock: reset, tx_st_ready; whether the FIFO shows its next beat at the control output; the
    beats which come into the FIFO. *)
Record sx_in := mkSx { sx_rst : bool; sx_rdy : bool; sx_vis : bool; sx_new : list xb }.
(** rtl/pcie_s10_if_tx.v:197-202, 213, 245: registers of the first stage: out_sel, out_sop, out_eop, out_tlp_hdr_4dw, out_tlp_hdr. *)
Record sx_op := mkOp { op_sel : bool; op_sop : bool; op_eop : bool; op_h4 : bool; op_hdr : bool }.
(** rtl/pcie_s10_if_tx.v:208-211: tx_st_data, tx_st_sop, tx_st_eop. *)
Record sx_ob := mkOb { ob_d : list Z; ob_sop : bool; ob_eop : bool }.
(** rtl/pcie_s10_if_tx.v:180-183, 206-213, 245: frame, tlp_hdr_4dw, tlp_split1, the first stage, fifo_read_en, out_shift_tlp_data (four words),
    tx_st and its valid, bit 0 of tx_st_ready_delay, and the two sides of the FIFO.  tlp_split2 is never used. *)
Record sx_state := mkSs { ss_fr : bool; ss_h4 : bool; ss_sp : bool; ss_op : sx_op; ss_ren : bool; ss_sh : list Z; ss_tx : sx_ob; ss_v : bool; ss_r0 : bool; ss_qc : list xb; ss_qd : list xb }.

(** rtl/pcie_s10_if_tx.v:237-242, 248-252: the outputs of an empty FIFO. *)
Definition xb0 : xb := mkXb [] 0 [] false.
(** rtl/pcie_s10_if_tx.v:579: bit 125 of the header. *)
Definition xb_4dw (b : xb) : bool := Z.testbit (nth 0 (xb_h b) 0) 29.
(** rtl/pcie_s10_if_tx.v:580-581, 613: the words of the last beat do not fit behind the header words. *)
Definition xb_extra (h4 : bool) (b : xb) : bool := xb_e b && negb (Z.shiftr (xb_s b) (if h4 then 4 else 5) =? 0).
(** rtl/pcie_s10_if_tx.v:678-692: the data of an output beat: shifted words or the header, then data words. *)
Definition sx_data (h4 hdr : bool) (sh : list Z) (b : xb) : list Z :=
  (if hdr then firstn (if h4 then 4 else 3) (xb_h b) else if h4 then sh else skipn 1 sh) ++ firstn (if h4 then 4 else 5) (xb_w b).
(** rtl/pcie_s10_if_tx.v:591-651: the settings for the next beat from the control side b: tlp_hdr_4dw, then frame, eop, split1 and whether the beat is consumed. *)
Definition sx_h4c (s : sx_state) (b : xb) : bool := if ss_fr s then ss_h4 s else xb_4dw b.
(** rtl/pcie_s10_if_tx.v:592-600, 613-647. *)
Definition sx_next (s : sx_state) (b : xb) : bool * bool * bool * bool :=
  let sp := ss_fr s && ss_sp s in
  if xb_extra (sx_h4c s b) b then (if sp then (false, true, false, true) else (true, false, true, false)) else (negb (xb_e b), xb_e b, sp, true).
(** rtl/pcie_s10_if_tx.v:652-673: a beat is committed: the FIFO shows one and tx_st_ready was set. *)
Definition sx_go (s : sx_state) (i : sx_in) : bool := sx_vis i && negb (match ss_qc s with [] => true | _ => false end) && ss_r0 s.
(** rtl/pcie_s10_if_tx.v:533-779: one clock edge.  Simplified: while the FIFO shows no beat the first stage is loaded from the next one all the same; out_sel is
    clear then and what it has is not used. *)
Definition sx_step (s : sx_state) (i : sx_in) : sx_state :=
  let b := hd xb0 (ss_qc s) in
  let '(fr, e, sp, cn) := sx_next s b in
  let go := sx_go s i in
  let w := hd xb0 (ss_qd s) in
  let o := ss_op s in
  let q l (r : bool) := if sx_rst i then [] else (if r then tl l else l) ++ sx_new i in
  mkSs (negb (sx_rst i) && if go then fr else ss_fr s) (if go then sx_h4c s b else ss_h4 s) (if go then sp else ss_sp s)
    (mkOp (negb (sx_rst i) && go) (negb (ss_fr s)) e (sx_h4c s b) (negb (ss_fr s))) (negb (sx_rst i) && go && cn)
    (if op_sel o then skipn 4 (xb_w w) else ss_sh s)
    (mkOb (sx_data (op_h4 o) (op_hdr o) (ss_sh s) w) (op_sop o) (op_eop o)) (negb (sx_rst i) && op_sel o) (negb (sx_rst i) && sx_rdy i)
    (q (ss_qc s) (go && cn)) (q (ss_qd s) (ss_ren s)).
(** rtl/pcie_s10_if_tx.v:705-779: clocks in turn: the states seen. *)
Fixpoint sx_states (s : sx_state) (l : list sx_in) : list sx_state := s :: match l with [] => [] | i :: r => sx_states (sx_step s i) r end.
(** rtl/pcie_s10_if_tx.v:705-779: the registers after the clocks. *)
Definition sx_run (s : sx_state) (l : list sx_in) : sx_state := fold_left sx_step l s.
