(** Models of the frame demultiplexers rtl/pcie_us_axis_cq_demux.v and rtl/pcie_us_axis_rc_demux.v.  A Verilog vector of width w
    is an integer in [0, 2^w).  [D] stands for tdata, tkeep and tuser of one beat, which the modules only copy. *)
From Verif Require Import PyBase.

Section vskid.
Context {M : Type}.

(** rtl/pcie_us_axis_cq_demux.v:117, 231-241, rtl/pcie_us_axis_rc_demux.v:107, 179-189: the output registers with one valid bit per
    port, the temporary registers and m_axis_tready_int_reg. *)
Record vskid := mkVk { vk_valid : Z; vk_data : M; vk_tvalid : Z; vk_tdata : M; vk_ready : bool }.

(** rtl/pcie_us_axis_cq_demux.v:255, rtl/pcie_us_axis_rc_demux.v:203: m_axis_tready_int_early. *)
Definition vskid_early (k : vskid) (mready : Z) : bool :=
  negb (Z.land mready (vk_valid k) =? 0) || ((vk_tvalid k =? 0) && (vk_valid k =? 0)).

(** rtl/pcie_us_axis_cq_demux.v:257-315, rtl/pcie_us_axis_rc_demux.v:205-263: one clock edge of the output datapath; [rst], the ready
    bits of the sinks, the internal valid bits and data.  The data registers are not reset. *)
Definition vskid_step (k : vskid) (rst : bool) (mready vint : Z) (dint : M) : vskid :=
  let got := negb (Z.land mready (vk_valid k) =? 0) in
  let '(vnext, tnext, int_out, int_tmp, tmp_out) :=
    if vk_ready k then
      if got || (vk_valid k =? 0) then (vint, vk_tvalid k, true, false, false)
      else (vk_valid k, vint, false, true, false)
    else if got then (vk_tvalid k, 0, false, false, true)
    else (vk_valid k, vk_tvalid k, false, false, false) in
  let d := if int_out then dint else if tmp_out then vk_tdata k else vk_data k in
  let td := if int_tmp then dint else vk_tdata k in
  if rst then mkVk 0 d 0 td false else mkVk vnext d tnext td (vskid_early k mready).
End vskid.
Arguments vskid : clear implicits.

Section demux.
Context {D : Type}.

(** rtl/pcie_us_axis_cq_demux.v:101-120, rtl/pcie_us_axis_rc_demux.v:98-110: select_reg, drop_reg, frame_reg, s_axis_tready_reg, the input
    register temp_s_axis_cq_* (valid, last, the rest; used only when the data width is 64) and the output datapath, whose payload
    is tlast and the rest. *)
Record dm_state := mkDm { dm_sel : Z; dm_drop : bool; dm_frame : bool; dm_tready : bool; dm_tv : bool; dm_tl : bool; dm_td : D; dm_out : vskid (bool * D) }.

(** rtl/pcie_us_axis_cq_demux.v:45-85, rtl/pcie_us_axis_rc_demux.v:46-80: inputs of one clock; [di_mready] are the ready bits of the sinks. *)
Record dm_in := mkDi { di_rst : bool; di_valid : bool; di_last : bool; di_data : D; di_enable : bool; di_drop : bool; di_select : Z; di_mready : Z }.

(** rtl/pcie_us_axis_cq_demux.v:122, rtl/pcie_us_axis_rc_demux.v:112: s_axis_tready; [w64] is AXIS_PCIE_DATA_WIDTH == 64 in the CQ module and
    false for the RC module. *)
Definition dm_ready (w64 : bool) (s : dm_state) (i : dm_in) : bool := (dm_tready s || (w64 && negb (dm_tv s))) && di_enable i.

(** rtl/pcie_us_axis_cq_demux.v:162-171, rtl/pcie_us_axis_rc_demux.v:136-145: the loop over select, from the highest port to the lowest, and drop:
    select_ctl and drop_ctl. *)
Definition dm_pick (n : Z) (i : dm_in) : Z * bool :=
  let '(sel, drop) := fold_left (fun '(sel, drop) j => if Z.testbit (di_select i) j then (j, false) else (sel, drop)) (rev (map Z.of_nat (seq 0 (Z.to_nat n)))) (0, true) in
  (sel, drop || di_drop i).

(** rtl/pcie_us_axis_cq_demux.v:132-185, rtl/pcie_us_axis_rc_demux.v:118-153: select_ctl, drop_ctl, frame_ctl, then select_next, drop_next, frame_next. *)
Definition dm_ctl (w64 : bool) (n : Z) (s : dm_state) (i : dm_in) : (Z * bool * bool) * (Z * bool * bool) :=
  let ready := dm_ready w64 s i in
  let last := if w64 then dm_tv s && ready && dm_tl s else di_valid i && ready && di_last i in
  let '(sn, dn, fn) := (dm_sel s, if last then false else dm_drop s, if last then false else dm_frame s) in
  if negb (dm_frame s) && (negb w64 || dm_tv s) && di_valid i && ready then
    let '(sc, dc) := dm_pick n i in
    ((sc, dc, true), if last then (sn, dn, fn) else (sc, dc, true))
  else ((dm_sel s, dm_drop s, dm_frame s), (sn, dn, fn)).

(** rtl/pcie_us_axis_cq_demux.v:187-228, rtl/pcie_us_axis_rc_demux.v:155-176, and the output datapath: one clock edge.  The RC module leaves out
    [frame_ctl] in line 159, where it is implied by tvalid and tready. *)
Definition dm_step (w64 : bool) (n : Z) (s : dm_state) (i : dm_in) : dm_state :=
  let ready := dm_ready w64 s i in
  let '((sc, dc, fc), (sn, dn, fn)) := dm_ctl w64 n s i in
  let tready_next := vskid_early (dm_out s) (di_mready i) || dc in
  let v := (if w64 then dm_tv s else di_valid i) && ready && negb dc && fc in
  let dint := if w64 then (dm_tl s, dm_td s) else (di_last i, di_data i) in
  let '(tv, tl, td) :=
    if w64 then if ready && di_valid i then (true, di_last i, di_data i) else (dm_tv s && negb (ready && negb dc && fc), dm_tl s, dm_td s)
    else (dm_tv s, dm_tl s, dm_td s) in
  let out := vskid_step (dm_out s) (di_rst i) (di_mready i) (Z.shiftl (Z.b2z v) sc mod 2 ^ n) dint in
  if di_rst i then mkDm 0 false false false tv tl td out else mkDm sn dn fn tready_next tv tl td out.

(** rtl/pcie_us_axis_cq_demux.v:101-119, 231-241, rtl/pcie_us_axis_rc_demux.v:98-109, 179-189: the registers at power up. *)
Definition dm0 (d : D) : dm_state := mkDm 0 false false false false false d (mkVk 0 (false, d) 0 (false, d) false).

(** rtl/pcie_us_axis_cq_demux.v:45-85, rtl/pcie_us_axis_rc_demux.v:46-80: what is seen on the ports at one clock edge: reset, the input with drop and
    select, the outputs (tlast and data are the same on all). *)
Record dm_ev := mkDe { de_rst : bool; de_valid : bool; de_ready : bool; de_last : bool; de_data : D; de_drop : bool; de_select : Z;
  de_mvalid : Z; de_mready : Z; de_mlast : bool; de_mdata : D }.

(** rtl/pcie_us_axis_cq_demux.v:122, 248-252, rtl/pcie_us_axis_rc_demux.v:112, 196-200. *)
Definition dm_event (w64 : bool) (s : dm_state) (i : dm_in) : dm_ev :=
  mkDe (di_rst i) (di_valid i) (dm_ready w64 s i) (di_last i) (di_data i) (di_drop i) (di_select i)
    (vk_valid (dm_out s)) (di_mready i) (fst (vk_data (dm_out s))) (snd (vk_data (dm_out s))).

(** rtl/pcie_us_axis_cq_demux.v:204-315, rtl/pcie_us_axis_rc_demux.v:164-263: clock edges in turn. *)
Fixpoint dm_trace (w64 : bool) (n : Z) (s : dm_state) (l : list dm_in) : list dm_ev :=
  match l with
  | [] => []
  | i :: r => dm_event w64 s i :: dm_trace w64 n (dm_step w64 n s i) r
  end.
(** rtl/pcie_us_axis_cq_demux.v:204-315, rtl/pcie_us_axis_rc_demux.v:164-263: the registers after the clock edges. *)
Definition dm_run (w64 : bool) (n : Z) (s : dm_state) (l : list dm_in) : dm_state := fold_left (dm_step w64 n) l s.
End demux.
Arguments dm_state : clear implicits.
Arguments dm_in : clear implicits.
Arguments dm_ev : clear implicits.
