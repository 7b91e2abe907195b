(** Models of the arbitrating multiplexers rtl/axis_arb_mux.v, rtl/pcie_axi_dma_desc_mux.v and rtl/dma_if_desc_mux.v.
    The three share their control logic, line for line but for the names; it is modelled once.  A Verilog vector of
    width w is an integer in [0, 2^w); the concatenated data inputs of the ports (s_axis_tdata and the like, slices
    [i*W +: W]) are functions of the port number.  PORTS is at least 2. *)
From Verif Require Import PyBase RtlModel.

Section mux.
Context {S M : Type}.

(** rtl/axis_arb_mux.v:133, 210-224, rtl/pcie_axi_dma_desc_mux.v:123, 189-199, rtl/dma_if_desc_mux.v:162, 240-256: the output registers, the temporary
    registers and ready_int_reg. *)
Record skid := mkSk { sk_valid : bool; sk_data : M; sk_tvalid : bool; sk_tdata : M; sk_ready : bool }.

(** rtl/axis_arb_mux.v:240-306, rtl/pcie_axi_dma_desc_mux.v:213-273, rtl/dma_if_desc_mux.v:273-342: one clock edge of the output datapath; [rst],
    the sink's ready, and the internal valid and data.  The data registers are not reset. *)
Definition skid_step (k : skid) (rst ready vint : bool) (dint : M) : skid :=
  let early := ready || (negb (sk_tvalid k) && negb (sk_valid k)) in
  let '(vnext, tnext, int_out, int_tmp, tmp_out) :=
    if sk_ready k then
      if ready || negb (sk_valid k) then (vint, sk_tvalid k, true, false, false)
      else (sk_valid k, vint, false, true, false)
    else if ready then (sk_tvalid k, false, false, false, true)
    else (sk_valid k, sk_tvalid k, false, false, false) in
  let d := if int_out then dint else if tmp_out then sk_tdata k else sk_data k in
  let td := if int_tmp then dint else sk_tdata k in
  if rst then mkSk false d false td false else mkSk vnext d tnext td early.

(** rtl/axis_arb_mux.v:115-139, rtl/pcie_axi_dma_desc_mux.v:104-124, rtl/dma_if_desc_mux.v:137-163: input registers (valid, tlast, the other
    signals by port), the registers of the arbiter, the output datapath.  The descriptor multiplexers have no tlast. *)
Record mux_state := mkMx { mx_valid : Z; mx_last : Z; mx_data : Z -> S; mx_arb : arb_state; mx_skid : skid }.

(** rtl/axis_arb_mux.v:67-93, rtl/pcie_axi_dma_desc_mux.v:55-90, rtl/dma_if_desc_mux.v:65-107: inputs of one clock; [mi_ready] is the ready of the sink. *)
Record mux_in := mkMi { mi_rst : bool; mi_valid : Z; mi_last : Z; mi_data : Z -> S; mi_ready : bool }.

(** rtl/axis_arb_mux.v:154-169, rtl/pcie_axi_dma_desc_mux.v:137-152, rtl/dma_if_desc_mux.v:179-194: parameters of the arbiter. *)
Definition mux_arb (n : Z) (rr lsb : bool) : arb_param := mkArb n rr true true lsb.

(** rtl/axis_arb_mux.v:141, rtl/pcie_axi_dma_desc_mux.v:126, rtl/dma_if_desc_mux.v:165: the ready outputs to the ports. *)
Definition mux_ready (n : Z) (s : mux_state) : Z :=
  Z.lor (Z.land (Z.lnot (mx_valid s)) (2 ^ n - 1)) (if sk_ready (mx_skid s) then as_grant (mx_arb s) else 0).

(** rtl/axis_arb_mux.v:171, rtl/pcie_axi_dma_desc_mux.v:154, rtl/dma_if_desc_mux.v:196: request. *)
Definition mux_request (s : mux_state) (i : mux_in) : Z :=
  let g := as_grant (mx_arb s) in Z.lor (Z.land (mx_valid s) (Z.lnot g)) (Z.land (mi_valid i) g).

(** rtl/axis_arb_mux.v:172, rtl/pcie_axi_dma_desc_mux.v:155, rtl/dma_if_desc_mux.v:197: acknowledge; [use_last] is LAST_ENABLE (false in
    the descriptor multiplexers). *)
Definition mux_ack (n : Z) (use_last : bool) (s : mux_state) : Z :=
  Z.land (Z.land (Z.land (as_grant (mx_arb s)) (mx_valid s)) (if sk_ready (mx_skid s) then 2 ^ n - 1 else 0))
    (if use_last then mx_last s else 2 ^ n - 1).

(** rtl/axis_arb_mux.v:144-151, 174-186, rtl/pcie_axi_dma_desc_mux.v:129-134, 157-167, rtl/dma_if_desc_mux.v:168-176, 199-215: the valid of the internal datapath. *)
Definition mux_vint (s : mux_state) : bool :=
  negb (bsel (mx_valid s) (as_enc (mx_arb s)) =? 0) && sk_ready (mx_skid s) && as_valid (mx_arb s).

(** rtl/axis_arb_mux.v:144-306, rtl/pcie_axi_dma_desc_mux.v:126-273, rtl/dma_if_desc_mux.v:165-342: one clock edge.  [route] computes the
    internal data from the encoded grant and the granted port's registers.  The loop over the ports is a bitwise select
    for the one-bit registers and a function update for the others. *)
Definition mux_step (n : Z) (rr lsb use_last : bool) (route : Z -> bool -> S -> M) (s : mux_state) (i : mux_in) : mux_state :=
  let e := as_enc (mx_arb s) in
  let dint := route e (negb (bsel (mx_last s) e =? 0)) (mx_data s e) in
  let r := mux_ready n s in
  let v' := Z.lor (Z.land (mx_valid s) (Z.lnot r)) (Z.land (mi_valid i) r) in
  let l' := Z.lor (Z.land (mx_last s) (Z.lnot r)) (Z.land (mi_last i) r) in
  mkMx (if mi_rst i then 0 else v') l'
    (fun j => if negb (bsel r j =? 0) then mi_data i j else mx_data s j)
    (arb_step (mux_arb n rr lsb) (mx_arb s) (mkArbIn (mi_rst i) (mux_request s i) (mux_ack n use_last s)))
    (skid_step (mx_skid s) (mi_rst i) (mi_ready i) (mux_vint s) dint).

(** rtl/axis_arb_mux.v:122-139, 210-224: the registers at power up; [ds] and [dm] are the initial data. *)
Definition mux0 (ds : S) (dm : M) : mux_state := mkMx 0 0 (fun _ => ds) arb0 (mkSk false dm false dm false).

(** rtl/axis_arb_mux.v:67-93: what is seen on the ports at one clock edge: reset, valid, ready, tlast and data of the
    inputs, valid, ready and data of the output. *)
Record mux_ev := mkMv { mv_rst : bool; mv_valid : Z; mv_ready : Z; mv_last : Z; mv_data : Z -> S; mv_ovalid : bool; mv_oready : bool; mv_odata : M }.

(** rtl/axis_arb_mux.v:67-93, 231-237: the event of one edge; [out] drives the output data ports from the registers. *)
Definition mux_event (n : Z) (out : M -> M) (s : mux_state) (i : mux_in) : mux_ev :=
  mkMv (mi_rst i) (mi_valid i) (mux_ready n s) (mi_last i) (mi_data i) (sk_valid (mx_skid s)) (mi_ready i) (out (sk_data (mx_skid s))).

(** rtl/axis_arb_mux.v:190-306: clock edges in turn. *)
Fixpoint mux_trace (n : Z) (rr lsb use_last : bool) (route : Z -> bool -> S -> M) (out : M -> M) (s : mux_state) (l : list mux_in) : list mux_ev :=
  match l with
  | [] => []
  | i :: r => mux_event n out s i :: mux_trace n rr lsb use_last route out (mux_step n rr lsb use_last route s i) r
  end.
End mux.
Arguments skid : clear implicits.
Arguments mux_state : clear implicits.
Arguments mux_in : clear implicits.
Arguments mux_ev : clear implicits.

(** [v[hi:hi-w+1] = x] with hi = [W]-1, as in rtl/axis_arb_mux.v:182, rtl/pcie_axi_dma_desc_mux.v:164, rtl/dma_if_desc_mux.v:204, 212. *)
Definition set_top (W w v x : Z) : Z := v mod 2 ^ (W - w) + x mod 2 ^ w * 2 ^ (W - w).

(** rtl/axis_arb_mux.v:34-66: parameters. *)
Record ax_param := mkAxP { xp_n : Z; xp_keep_en : bool; xp_keep_w : Z; xp_id_en : bool; xp_sid_w : Z; xp_mid_w : Z; xp_dest_en : bool; xp_user_en : bool;
  xp_last_en : bool; xp_update : bool; xp_rr : bool; xp_lsb : bool }.
(** rtl/axis_arb_mux.v:74-81: the signals of one input beat other than tlast. *)
Record ax_beat := mkAb { ab_data : Z; ab_keep : Z; ab_id : Z; ab_dest : Z; ab_user : Z }.
(** rtl/axis_arb_mux.v:86-93: the signals of one output beat. *)
Record ax_out := mkAo { ao_data : Z; ao_keep : Z; ao_last : bool; ao_id : Z; ao_dest : Z; ao_user : Z }.

(** rtl/axis_arb_mux.v:174-186. *)
Definition ax_route (p : ax_param) (e : Z) (last : bool) (b : ax_beat) : ax_out :=
  let id := ab_id b mod 2 ^ xp_mid_w p in
  mkAo (ab_data b) (ab_keep b) last (if xp_update p && (xp_n p >? 1) then set_top (xp_mid_w p) (clog2 (xp_n p)) id e else id) (ab_dest b) (ab_user b).
(** rtl/axis_arb_mux.v:231-237. *)
Definition ax_drive (p : ax_param) (o : ax_out) : ax_out :=
  mkAo (ao_data o) (if xp_keep_en p then ao_keep o else 2 ^ xp_keep_w p - 1) (if xp_last_en p then ao_last o else true)
    (if xp_id_en p then ao_id o else 0) (if xp_dest_en p then ao_dest o else 0) (if xp_user_en p then ao_user o else 0).
(** rtl/axis_arb_mux.v:122-139, 210-224. *)
Definition ax0 : mux_state ax_beat ax_out := mux0 (mkAb 0 0 0 0 0) (mkAo 0 0 false 0 0 0).
(** rtl/axis_arb_mux.v:34-308: clock edges in turn. *)
Definition ax_trace (p : ax_param) (l : list (mux_in ax_beat)) : list (mux_ev ax_beat ax_out) :=
  mux_trace (xp_n p) (xp_rr p) (xp_lsb p) (xp_last_en p) (ax_route p) (ax_drive p) ax0 l.

(** rtl/pcie_axi_dma_desc_mux.v:34-54: parameters. *)
Record pd_param := mkPdP { pp_n : Z; pp_stag : Z; pp_mtag : Z; pp_rr : bool; pp_lsb : bool }.
(** rtl/pcie_axi_dma_desc_mux.v:62-66, 80-83: a descriptor. *)
Record pd_desc := mkPd { pd_pcie : Z; pd_axi : Z; pd_len : Z; pd_tag : Z }.
(** rtl/pcie_axi_dma_desc_mux.v:157-167. *)
Definition pd_route (p : pd_param) (e : Z) (last : bool) (d : pd_desc) : pd_desc :=
  let tag := pd_tag d mod 2 ^ pp_mtag p in
  mkPd (pd_pcie d) (pd_axi d) (pd_len d) (if pp_n p >? 1 then set_top (pp_mtag p) (clog2 (pp_n p)) tag e else tag).
(** rtl/pcie_axi_dma_desc_mux.v:111-124, 189-199. *)
Definition pd0 : mux_state pd_desc pd_desc := mux0 (mkPd 0 0 0 0) (mkPd 0 0 0 0).
(** rtl/pcie_axi_dma_desc_mux.v:103-273: clock edges in turn. *)
Definition pd_trace (p : pd_param) (l : list (mux_in pd_desc)) : list (mux_ev pd_desc pd_desc) :=
  mux_trace (pp_n p) (pp_rr p) (pp_lsb p) false (pd_route p) (fun d => d) pd0 l.

(** rtl/dma_if_desc_mux.v:34-64: parameters. *)
Record dd_param := mkDdP { dp_n : Z; dp_ext : bool; dp_msel : Z; dp_imm_en : bool; dp_stag : Z; dp_mtag : Z; dp_rr : bool; dp_lsb : bool }.
(** rtl/dma_if_desc_mux.v:72-79, 93-99: a descriptor. *)
Record dd_desc := mkDd { dd_dma : Z; dd_sel : Z; dd_ram : Z; dd_imm : Z; dd_imm_en : bool; dd_len : Z; dd_tag : Z }.
(** rtl/dma_if_desc_mux.v:199-215. *)
Definition dd_route (p : dd_param) (e : Z) (last : bool) (d : dd_desc) : dd_desc :=
  let sel := dd_sel d mod 2 ^ dp_msel p in
  let tag := dd_tag d mod 2 ^ dp_mtag p in
  mkDd (dd_dma d) (if dp_ext p && (dp_n p >? 1) then set_top (dp_msel p) (clog2 (dp_n p)) sel e else sel) (dd_ram d) (dd_imm d) (dd_imm_en d) (dd_len d)
    (if dp_n p >? 1 then set_top (dp_mtag p) (clog2 (dp_n p)) tag e else tag).
(** rtl/dma_if_desc_mux.v:263-270. *)
Definition dd_drive (p : dd_param) (d : dd_desc) : dd_desc :=
  mkDd (dd_dma d) (dd_sel d) (dd_ram d) (if dp_imm_en p then dd_imm d else 0) (if dp_imm_en p then dd_imm_en d else false) (dd_len d) (dd_tag d).
(** rtl/dma_if_desc_mux.v:144-163, 240-256. *)
Definition dd0 : mux_state dd_desc dd_desc := mux0 (mkDd 0 0 0 0 false 0 0) (mkDd 0 0 0 0 false 0 0).
(** rtl/dma_if_desc_mux.v:136-342: clock edges in turn. *)
Definition dd_trace (p : dd_param) (l : list (mux_in dd_desc)) : list (mux_ev dd_desc dd_desc) :=
  mux_trace (dp_n p) (dp_rr p) (dp_lsb p) false (dd_route p) (dd_drive p) dd0 l.

(** rtl/pcie_axi_dma_desc_mux.v:276-278, rtl/dma_if_desc_mux.v:345-347: status registers: tag, error, valid vector. *)
Record ds_state := mkDs { ds_tag : Z; ds_error : Z; ds_valid : Z }.
(** rtl/pcie_axi_dma_desc_mux.v:284-299, rtl/dma_if_desc_mux.v:353-361: one clock edge of the status demultiplexer: reset, the
    status tag, error and valid inputs; [n] PORTS, [stag] S_TAG_WIDTH, [mtag] M_TAG_WIDTH.  The one-bit valid is extended
    to the PORTS bits of the target before the shift. *)
Definition ds_step (n stag mtag : Z) (rst : bool) (tag err : Z) (valid : bool) : ds_state :=
  mkDs (tag mod 2 ^ stag) err
    (if rst then 0 else Z.shiftl (if valid then 1 else 0) (if n >? 1 then psel tag (mtag - clog2 n) (clog2 n) else 0) mod 2 ^ n).
