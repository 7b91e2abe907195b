(** Model of the TLP multiplexer rtl/pcie_tlp_mux.v.  A Verilog vector of width w is an integer in [0, 2^w); an array indexed by the
    ports or by the segments is a list.  [D] stands for the data, strobe, header, sequence number, BAR, function and error fields of a
    segment, which the module only copies. *)
From Verif Require Import PyBase RtlModel RtlMuxModel.

(** rtl/pcie_tlp_mux.v:36-51: PORTS, TLP_SEG_COUNT, ARB_TYPE_ROUND_ROBIN, ARB_LSB_HIGH_PRIORITY. *)
Record tm_param := mkTm { tm_n : Z; tm_s : Z; tm_rr : bool; tm_lsb : bool }.

(** [a[i]] and [a[i] = x] for an array, as in rtl/pcie_tlp_mux.v:186, 312. *)
Definition at_ {A} (l : list A) (i : Z) (d : A) : A := nth (Z.to_nat i) l d.
(** rtl/pcie_tlp_mux.v:312: [a[i] = x]. *)
Fixpoint set_at {A} (l : list A) (i : nat) (x : A) : list A :=
  match l, i with
  | [], _ => []
  | _ :: r, O => x :: r
  | y :: r, S i => y :: set_at r i x
  end.
(** [for (i = 0; i < n; i = i + 1)], as in rtl/pcie_tlp_mux.v:186. *)
Definition loop (n : Z) : list Z := map Z.of_nat (seq 0 (Z.to_nat n)).

Section mux.
Context {D : Type}.

(** rtl/pcie_tlp_mux.v:60-71, 88: inputs from one port. *)
Record tm_pin := mkPi { pi_valid : Z; pi_sop : Z; pi_eop : Z; pi_data : Z -> D; pi_pause : bool }.
(** rtl/pcie_tlp_mux.v:54-94: inputs of one clock. *)
Record tm_in := mkTi { ti_rst : bool; ti_port : list tm_pin; ti_ready : bool }.
(** rtl/pcie_tlp_mux.v:133, 138-147: registers of one port: port_seg_offset_reg, in_tlp_valid_reg, in_tlp_sop_reg, in_tlp_eop_reg and the others. *)
Record tm_preg := mkPr { pr_off : Z; pr_valid : Z; pr_sop : Z; pr_eop : Z; pr_data : Z -> D }.
(** A segment on the output: start and end flags, the other fields; with its valid bit (rtl/pcie_tlp_mux.v:338-350). *)
Definition tm_seg : Type := bool * (bool * bool * D).
(** rtl/pcie_tlp_mux.v:121-147, 418-439: all registers; [ts_selv] and [ts_sel] are sel_tlp_seq_valid_reg and the fields whose sequence
    numbers are in sel_tlp_seq_reg.  In the output registers the flag of [skid] says that the vector of valid bits is not 0. *)
Record tm_state := mkTs { ts_frame : bool; ts_port : Z; ts_regs : list tm_preg; ts_selv : Z; ts_sel : list D; ts_out : skid (list tm_seg) }.

Variable d0 : D.
(** A port without input and an empty register, for indices out of range (rtl/pcie_tlp_mux.v:186-210). *)
Definition pi0 : tm_pin := mkPi 0 0 0 (fun _ => d0) false.
(** rtl/pcie_tlp_mux.v:410-413: empty register. *)
Definition pr0 : tm_preg := mkPr 0 0 0 0 (fun _ => d0).

(** rtl/pcie_tlp_mux.v:207-209: in_tlp_valid_full and the like: {in, reg}. *)
Definition full (s : Z) (i r : Z) : Z := psel r 0 s + psel i 0 s * 2 ^ s.
(** rtl/pcie_tlp_mux.v:200-206, 339-345: segment [k] of the full data vectors. *)
Definition full_data (s : Z) (i r : Z -> D) (k : Z) : D := if k <? s then r k else i (k - s).
(** rtl/pcie_tlp_mux.v:244-245: [{2{full}} >> offset], cut to 2*TLP_SEG_COUNT bits. *)
Definition rotate (s v off : Z) : Z := psel (v + v * 2 ^ (2 * s)) off (2 * s).

(** rtl/pcie_tlp_mux.v:252-264, 285-297: the next port in the order of the arbitration. *)
Definition next_port (p : tm_param) (c : Z) : Z :=
  if tm_lsb p then (if c <? tm_n p - 1 then c + 1 else 0) else (if 0 <? c then c - 1 else tm_n p - 1).
(** rtl/pcie_tlp_mux.v:251-273: the port looked at first. *)
Definition first_port (p : tm_param) (port : Z) : Z := if tm_rr p then next_port p port else if tm_lsb p then 0 else tm_n p - 1.

(** rtl/pcie_tlp_mux.v:121-136, 224-240: the variables of the loop over the segments. *)
Record tm_cyc := mkCy { cy_frame : bool; cy_port : Z; cy_off : Z; cy_abort : bool; cy_psv : list Z; cy_pse : list Z; cy_offn : list Z;
  cy_framen : bool; cy_portn : Z; cy_osel : Z; cy_oselc : Z; cy_oport : list Z; cy_oseg : list Z; cy_selv : Z; cy_selvc : Z }.

(** rtl/pcie_tlp_mux.v:274-298: the loop that selects a port. *)
Definition tm_pick (p : tm_param) (c : tm_cyc) (seg : Z) : bool * Z * Z * Z :=
  fst (fold_left (fun '(frame, port, off, selvc, cur) (_ : Z) =>
    let '(frame, port, off, selvc) :=
      if negb frame then
        if bsel (at_ (cy_psv c) cur 0) 0 =? 1 then (true, cur, at_ (cy_offn c) cur 0, Z.setbit selvc (tm_s p * cur + seg))
        else (false, cur, at_ (cy_offn c) cur 0, selvc)
      else (frame, port, off, selvc) in
    (frame, port, off, selvc, next_port p cur))
    (loop (tm_n p)) (false, cy_port c, cy_off c, cy_selvc c, first_port p (cy_port c))).

(** rtl/pcie_tlp_mux.v:248-335: one turn of the loop over the segments; [ready] is out_tlp_ready_int_reg. *)
Definition tm_turn (p : tm_param) (ready : bool) (c : tm_cyc) (seg : Z) : tm_cyc :=
  let '(frame0, port, off, selvc) := if negb (cy_frame c) then tm_pick p c seg else (cy_frame c, cy_port c, cy_off c, cy_selvc c) in
  let valid := bsel (at_ (cy_psv c) port 0) 0 =? 1 in
  let eop := bsel (at_ (cy_pse c) port 0) 0 =? 1 in
  let oselc := Z.setbit (cy_oselc c) seg in
  let oport := cy_oport c ++ [port] in
  let oseg := cy_oseg c ++ [off] in
  let frame1 := if eop then false else frame0 in
  let off1 := (off + 1) mod 2 ^ (clog2 (tm_s p) + 1) in
  let psv := set_at (cy_psv c) (Z.to_nat port) (Z.shiftr (at_ (cy_psv c) port 0) 1) in
  let pse := set_at (cy_pse c) (Z.to_nat port) (Z.shiftr (at_ (cy_pse c) port 0) 1) in
  if frame0 && negb (cy_abort c) then
    if valid then
      if (eop || (seg =? tm_s p - 1)) && ready
      then mkCy frame1 port off1 (cy_abort c) psv pse (set_at (cy_offn c) (Z.to_nat port) off1) frame1 port oselc oselc oport oseg selvc selvc
      else mkCy frame1 port off1 (cy_abort c) psv pse (cy_offn c) (cy_framen c) (cy_portn c) (cy_osel c) oselc oport oseg (cy_selv c) selvc
    else mkCy frame1 port off1 true psv pse (cy_offn c) (cy_framen c) (cy_portn c) (cy_osel c) oselc oport oseg (cy_selv c) selvc
  else mkCy frame1 port off1 (cy_abort c) psv pse (cy_offn c) (cy_framen c) (cy_portn c) (cy_osel c) oselc oport oseg (cy_selv c) selvc.

(** rtl/pcie_tlp_mux.v:182-246: before the loop. *)
Definition tm_start (p : tm_param) (st : tm_state) (i : tm_in) : tm_cyc :=
  let psv := map (fun q => let r := at_ (ts_regs st) q pr0 in let x := at_ (ti_port i) q pi0 in
    if pi_pause x then 0 else rotate (tm_s p) (full (tm_s p) (pi_valid x) (pr_valid r)) (pr_off r)) (loop (tm_n p)) in
  let pse := map (fun q => let r := at_ (ts_regs st) q pr0 in let x := at_ (ti_port i) q pi0 in
    rotate (tm_s p) (full (tm_s p) (pi_eop x) (pr_eop r)) (pr_off r)) (loop (tm_n p)) in
  mkCy (ts_frame st) (ts_port st) (pr_off (at_ (ts_regs st) (ts_port st) pr0)) false psv pse (map pr_off (ts_regs st))
    (ts_frame st) (ts_port st) 0 0 [] [] 0 0.
(** rtl/pcie_tlp_mux.v:248-335: after the loop. *)
Definition tm_cycle (p : tm_param) (st : tm_state) (i : tm_in) : tm_cyc := fold_left (tm_turn p (sk_ready (ts_out st))) (loop (tm_s p)) (tm_start p st i).

(** rtl/pcie_tlp_mux.v:337-353: the output of segment [seg]. *)
Definition tm_mux (p : tm_param) (st : tm_state) (i : tm_in) (c : tm_cyc) (seg : Z) : tm_seg :=
  let q := at_ (cy_oport c) seg 0 in let k := at_ (cy_oseg c) seg 0 in
  let r := at_ (ts_regs st) q pr0 in let x := at_ (ti_port i) q pi0 in
  ((bsel (cy_osel c) seg =? 1) && (bsel (full (tm_s p) (pi_valid x) (pr_valid r)) k =? 1),
   (bsel (full (tm_s p) (pi_sop x) (pr_sop r)) k =? 1, bsel (full (tm_s p) (pi_eop x) (pr_eop r)) k =? 1, full_data (tm_s p) (pi_data x) (pr_data r) k)).

(** rtl/pcie_tlp_mux.v:355-366: in_tlp_valid_next before new input is stored, in_tlp_ready and port_seg_offset_next of a port. *)
Definition tm_left (p : tm_param) (r : tm_preg) (offn : Z) : Z := Z.land (pr_valid r) (psel (Z.shiftl (Z.ones (tm_s p)) offn) 0 (tm_s p)).
(** rtl/pcie_tlp_mux.v:365-366. *)
Definition tm_in_ready (p : tm_param) (r : tm_preg) (offn : Z) : bool := tm_left p r offn =? 0.
(** rtl/pcie_tlp_mux.v:359-363. *)
Definition tm_off (p : tm_param) (r : tm_preg) (offn : Z) : Z :=
  if tm_s p <=? offn then offn - tm_s p else if negb (pr_valid r =? 0) && (tm_left p r offn =? 0) then 0 else offn.
(** rtl/pcie_tlp_mux.v:355-378, 391-415: the registers of a port after the clock. *)
Definition tm_preg_step (p : tm_param) (rst : bool) (r : tm_preg) (x : tm_pin) (offn : Z) : tm_preg :=
  let off := if rst then 0 else tm_off p r offn in
  if tm_in_ready p r offn then mkPr off (if rst then 0 else psel (pi_valid x) 0 (tm_s p)) (pi_sop x) (pi_eop x) (pi_data x)
  else mkPr off (if rst then 0 else tm_left p r offn) (pr_sop r) (pr_eop r) (pr_data r).

(** rtl/pcie_tlp_mux.v:182-416, 457-533: one clock edge. *)
Definition tm_step (p : tm_param) (st : tm_state) (i : tm_in) : tm_state :=
  let c := tm_cycle p st i in
  let b := map (tm_mux p st i c) (loop (tm_s p)) in
  let regs := map (fun q => tm_preg_step p (ti_rst i) (at_ (ts_regs st) q pr0) (at_ (ti_port i) q pi0) (at_ (cy_offn c) q 0)) (loop (tm_n p)) in
  let out := skid_step (ts_out st) (ti_rst i) (ti_ready i) (existsb fst b) b in
  let sel := map (fun x => snd (snd x)) b in
  if ti_rst i then mkTs false 0 regs 0 sel out else mkTs (cy_framen c) (cy_portn c) regs (cy_selv c) sel out.

(** rtl/pcie_tlp_mux.v:121-147, 418-439: at power up; port_seg_offset_reg and in_tlp_valid_reg have no initial value in Verilog and are taken as reset. *)
Definition tm0 (p : tm_param) : tm_state := mkTs false 0 (map (fun _ => pr0) (loop (tm_n p))) 0 [] (mkSk false [] false [] false).

(** rtl/pcie_tlp_mux.v:54-94: what is seen at one clock: the inputs, in_tlp_ready by port, the valid segments on the output, sel_tlp_seq_valid and the fields behind sel_tlp_seq. *)
Record tm_ev := mkTe { te_in : tm_in; te_ready : list bool; te_out : list tm_seg; te_selv : Z; te_sel : list D }.
(** rtl/pcie_tlp_mux.v:175-178, 355-378, 446-455. *)
Definition tm_event (p : tm_param) (st : tm_state) (i : tm_in) : tm_ev :=
  let c := tm_cycle p st i in
  mkTe i (map (fun q => tm_in_ready p (at_ (ts_regs st) q pr0) (at_ (cy_offn c) q 0)) (loop (tm_n p)))
    (if sk_valid (ts_out st) then sk_data (ts_out st) else []) (ts_selv st) (ts_sel st).
(** rtl/pcie_tlp_mux.v:383-416: clocks in turn. *)
Fixpoint tm_trace (p : tm_param) (st : tm_state) (l : list tm_in) : list tm_ev :=
  match l with
  | [] => []
  | i :: r => tm_event p st i :: tm_trace p (tm_step p st i) r
  end.
(** rtl/pcie_tlp_mux.v:383-416: the registers after the clocks. *)
Definition tm_run (p : tm_param) (st : tm_state) (l : list tm_in) : tm_state := fold_left (tm_step p) l st.
End mux.
Arguments tm_pin : clear implicits.
Arguments tm_in : clear implicits.
Arguments tm_preg : clear implicits.
Arguments tm_state : clear implicits.
Arguments tm_ev : clear implicits.
