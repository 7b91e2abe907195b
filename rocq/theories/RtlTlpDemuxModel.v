(** Models of the TLP demultiplexers rtl/pcie_tlp_demux.v and rtl/pcie_tlp_demux_bar.v, up to the output registers: with FIFO_ENABLE = 0 these are the
    outputs of the module, otherwise the inputs of a pcie_tlp_fifo for each port, whose ready bits are then the [tdi_ready] of the model.
    A Verilog vector of width w is an integer in [0, 2^w).  [D] stands for the data, strobe, header, sequence number, BAR, function and error
    fields of a segment, which the modules only copy. *)
From Verif Require Import PyBase RtlModel RtlRamModel.

(** rtl/pcie_tlp_demux.v:36-49: PORTS, IN_TLP_SEG_COUNT. *)
Record td_param := mkTp { tp_ports : Z; tp_segs : Z }.

Section demux.
Context {D : Type}.

(** rtl/pcie_tlp_demux.v:63-112: inputs of one clock; the ready bits are out_tlp_ready_int (157). *)
Record td_in := mkTdi { tdi_rst : bool; tdi_data : Z -> D; tdi_valid : Z; tdi_sop : Z; tdi_eop : Z; tdi_ready : Z; tdi_enable : bool; tdi_drop : Z; tdi_select : Z }.

(** rtl/pcie_tlp_demux.v:142-155: select_reg, drop_reg, frame_reg and the output registers. *)
Record td_state := mkTds { tds_sel : Z; tds_drop : bool; tds_frame : bool; tds_valid : Z; tds_sop : Z; tds_eop : Z; tds_data : Z -> D }.

(** rtl/pcie_tlp_demux.v:159: in_tlp_ready. *)
Definition td_in_ready (p : td_param) (s : td_state) (i : td_in) : bool :=
  ((tds_valid s =? 0) || (psel (tdi_ready i) 0 (tp_ports p) =? 2 ^ tp_ports p - 1)) && tdi_enable i.

(** rtl/pcie_tlp_demux.v:253-258: the loop that clears the valid bits of the ports that are ready. *)
Definition td_clear (p : td_param) (v ready : Z) : Z :=
  fold_left (fun v q => if bsel ready q =? 1 then Z.ldiff v (Z.shiftl (Z.ones (tp_segs p)) (tp_segs p * q)) else v) (map Z.of_nat (seq 0 (Z.to_nat (tp_ports p)))) v.

(** rtl/pcie_tlp_demux.v:276-289: select_next and drop_next at the start of a packet. *)
Definition td_pick (p : td_param) (i : td_in) (seg : Z) : Z * bool :=
  let '(sel, drop) := fold_left (fun '(sel, drop) q => if bsel (tdi_select i) (tp_segs p * q + seg) =? 1 then (q, false) else (sel, drop))
    (map Z.of_nat (seq 0 (Z.to_nat (tp_ports p)))) (0, true) in
  (sel, if bsel (tdi_drop i) seg =? 1 then true else drop).

(** rtl/pcie_tlp_demux.v:273-300: one turn of the loop over the segments; select_next, drop_next, frame_next, out_tlp_valid_next. *)
Definition td_seg (p : td_param) (i : td_in) (st : Z * bool * bool * Z) (seg : Z) : Z * bool * bool * Z :=
  let '(sel, drop, frame, v) := st in
  if bsel (tdi_valid i) seg =? 1 then
    let '(sel, drop, frame) := if bsel (tdi_sop i) seg =? 1 then (td_pick p i seg, true) else (sel, drop, frame) in
    let v := if frame && negb drop then Z.setbit v (tp_segs p * sel + seg) else v in
    if bsel (tdi_eop i) seg =? 1 then (sel, false, false, v) else (sel, drop, frame, v)
  else st.

(** rtl/pcie_tlp_demux.v:239-330: one clock edge. *)
Definition td_step (p : td_param) (s : td_state) (i : td_in) : td_state :=
  let v0 := td_clear p (tds_valid s) (tdi_ready i) in
  let r := td_in_ready p s i in
  let '(sel, drop, frame, v) :=
    if r then fold_left (td_seg p i) (map Z.of_nat (seq 0 (Z.to_nat (tp_segs p)))) (tds_sel s, tds_drop s, tds_frame s, v0)
    else (tds_sel s, tds_drop s, tds_frame s, v0) in
  let sop := if r then tdi_sop i else tds_sop s in
  let eop := if r then tdi_eop i else tds_eop s in
  let data := if r then tdi_data i else tds_data s in
  if tdi_rst i then mkTds 0 false false 0 sop eop data else mkTds sel drop frame v sop eop data.

(** rtl/pcie_tlp_demux.v:142-155: at power up. *)
Definition td0 (d : D) : td_state := mkTds 0 false false 0 0 0 (fun _ => d).

(** rtl/pcie_tlp_demux.v:58-112: what is seen at one clock on the ports: the inputs, in_tlp_ready, and the output registers. *)
Record td_ev := mkTde { tde_in : td_in; tde_ready : bool; tde_valid : Z; tde_sop : Z; tde_eop : Z; tde_data : Z -> D }.
(** rtl/pcie_tlp_demux.v:159, 221-230. *)
Definition td_event (p : td_param) (s : td_state) (i : td_in) : td_ev := mkTde i (td_in_ready p s i) (tds_valid s) (tds_sop s) (tds_eop s) (tds_data s).
(** rtl/pcie_tlp_demux.v:306-330: clocks in turn. *)
Fixpoint td_trace (p : td_param) (s : td_state) (l : list td_in) : list td_ev :=
  match l with
  | [] => []
  | i :: r => td_event p s i :: td_trace p (td_step p s i) r
  end.
(** rtl/pcie_tlp_demux.v:306-330: the registers after the clocks. *)
Definition td_run (p : td_param) (s : td_state) (l : list td_in) : td_state := fold_left (td_step p) l s.
End demux.
Arguments td_in : clear implicits.
Arguments td_state : clear implicits.
Arguments td_ev : clear implicits.

(** rtl/pcie_tlp_demux_bar.v:110-121: calcBarIds. *)
Definition calc_bar_ids (ports base stride : Z) : Z :=
  fst (fold_left (fun '(v, bar) i => (put v (i * 3) 3 bar, (bar + stride) mod 8)) (map Z.of_nat (seq 0 (Z.to_nat ports))) (0, base mod 8)).
(** rtl/pcie_tlp_demux_bar.v:123: BAR_IDS_INT. *)
Definition bar_ids_int (ports ids base stride : Z) : Z := if negb (ids =? 0) then ids else calc_bar_ids ports base stride.
(** rtl/pcie_tlp_demux_bar.v:155-167: the select input; bits beyond are 0. *)
Definition bar_select (p : td_param) (ids bar_id : Z) : Z :=
  fold_left (fun v n => fold_left (fun v m => if psel bar_id (n * 3) 3 =? psel ids (m * 3) 3 then Z.setbit v (m * tp_segs p + n) else v)
    (map Z.of_nat (seq 0 (Z.to_nat (tp_ports p)))) v) (map Z.of_nat (seq 0 (Z.to_nat (tp_segs p)))) 0.
