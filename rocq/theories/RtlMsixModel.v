(** Model of the MSI-X module rtl/pcie_msix.v: the interrupt state machine, the table and pending bit memories and the AXI lite interface.
    A vector of width w is an integer in [0, 2^w); a memory is a function from the word index. *)
From Verif Require Import PyBase RtlModel RtlRamModel.

(** rtl/pcie_msix.v:36-46: IRQ_INDEX_WIDTH, AXIL_ADDR_WIDTH, AXIL_DATA_WIDTH, TLP_FORCE_64_BIT_ADDR. *)
Record mx_param := mkMx { mx_w : Z; mx_aw : Z; mx_dw : Z; mx_force : bool }.
(** rtl/pcie_msix.v:101: TBL_ADDR_WIDTH. *)
Definition mx_tbw (p : mx_param) : Z := mx_w p + 1.
(** rtl/pcie_msix.v:102: PBA_ADDR_WIDTH (PBA_ADDR_WIDTH_INT, line 103, is not used by the code). *)
Definition mx_pbw (p : mx_param) : Z := if 6 <? mx_w p then mx_w p - 6 else 0.
(** rtl/pcie_msix.v:42: AXIL_STRB_WIDTH. *)
Definition mx_sw (p : mx_param) : Z := mx_dw p / 8.
(** rtl/pcie_msix.v:105: INDEX_SHIFT. *)
Definition mx_ishift : Z := clog2 (64 / 8).
(** rtl/pcie_msix.v:106: WORD_SELECT_SHIFT. *)
Definition mx_wshift (p : mx_param) : Z := clog2 (mx_dw p / 8).
(** rtl/pcie_msix.v:107: WORD_SELECT_WIDTH. *)
Definition mx_wsel (p : mx_param) : Z := if mx_dw p <? 64 then clog2 ((64 + 7) / 8) - clog2 (mx_dw p / 8) else 0.

(** rtl/pcie_msix.v:50-98: inputs of one clock (awprot and arprot are not used). *)
Record mx_in := mkMi { mi_rst : bool;
  mi_awaddr : Z; mi_awvalid : bool; mi_wdata : Z; mi_wstrb : Z; mi_wvalid : bool; mi_bready : bool; mi_araddr : Z; mi_arvalid : bool; mi_rready : bool;
  mi_index : Z; mi_valid : bool; mi_ready : bool; mi_rid : Z; mi_enable : bool; mi_mask : bool }.
(** rtl/pcie_msix.v:139-145: state_reg. *)
Inductive mx_st := Idle | ReadTbl1 | ReadTbl2 | SendTlp.
(** rtl/pcie_msix.v:145-151, 180-187, 201-202: registers of the state machine. *)
Record mx_core := mkCo { co_st : mx_st; co_index : Z; co_addr : Z; co_data : Z; co_vmask : bool; co_ready : bool; co_txdata : Z; co_txhdr : Z; co_txvalid : bool;
  co_enable : bool; co_mask : bool; co_tblrd : Z; co_pbard : Z }.
(** rtl/pcie_msix.v:153, 173-178, 197-204: registers of the AXI lite interface. *)
Record mx_axil := mkAx { ax_last : bool; ax_awready : bool; ax_wready : bool; ax_bvalid : bool; ax_arready : bool; ax_rdata : Z; ax_rvalid : bool;
  ax_tblv : bool; ax_pbav : bool; ax_shift : Z; ax_tblrd : Z; ax_pbard : Z }.
(** rtl/pcie_msix.v:189-195: with tbl_mem and pba_mem. *)
Record mx_state := mkMs { ms_core : mx_core; ms_axil : mx_axil; ms_tbl : Z -> Z; ms_pba : Z -> Z }.

(** rtl/pcie_msix.v:170: assignment to pba_mem_addr of width PBA_ADDR_WIDTH; for PBA_ADDR_WIDTH = 0 the range is [-1:0], that is two bits. *)
Definition pba_addr (p : mx_param) (a : Z) : Z := a mod 2 ^ (if mx_pbw p =? 0 then 2 else mx_pbw p).
(** rtl/pcie_msix.v:195, 422, 532: reading pba_mem; out of range the value is unknown in Verilog, 0 here. *)
Definition pba_get (p : mx_param) (m : Z -> Z) (a : Z) : Z := if a <? 2 ^ mx_pbw p then m a else 0.
(** rtl/pcie_msix.v:195, 420: writing pba_mem; out of range nothing happens. *)
Definition pba_put (p : mx_param) (m : Z -> Z) (a x : Z) : Z -> Z := if a <? 2 ^ mx_pbw p then upd m a x else m.

(** rtl/pcie_msix.v:264-298: tlp_hdr. *)
Definition mx_hdr (p : mx_param) (addr rid : Z) : Z :=
  if negb (psel addr 2 62 / 2 ^ 30 =? 0) || mx_force p
  then 3 * 2 ^ 125 + 1 * 2 ^ 96 + psel rid 0 16 * 2 ^ 80 + 15 * 2 ^ 64 + psel addr 2 62 * 2 ^ 2
  else 2 * 2 ^ 125 + 1 * 2 ^ 96 + psel rid 0 16 * 2 ^ 80 + 15 * 2 ^ 64 + psel (psel addr 2 62) 0 30 * 2 ^ 34.

(** What the state machine does in one clock: the registers before reset, and the accesses to the memories (rtl/pcie_msix.v:241-262). *)
Record mx_do := mkDo { do_st : mx_st; do_index : Z; do_addr : Z; do_data : Z; do_vmask : bool; do_ready : bool; do_tx : option (Z * Z); do_tbl : option Z; do_pba_rd : option Z; do_pba_wr : option (Z * Z) }.
(** rtl/pcie_msix.v:241-395: the combinational part of the state machine; [do_tx] is the new TLP. *)
Definition core_next (p : mx_param) (c : mx_core) (i : mx_in) : mx_do :=
  let W := mx_w p in
  let bit := Z.land (co_index c) 63 in
  match co_st c with
  | Idle =>
    if mi_valid i && co_ready c then
      mkDo ReadTbl1 (mi_index i) (co_addr c) (co_data c) (co_vmask c) false None (Some (mi_index i * 2)) (Some (pba_addr p (mi_index i / 2 ^ 6))) None
    else if negb (mi_valid i) && co_enable c && negb (co_mask c) then
      if bsel (co_pbard c) bit =? 1 then
        mkDo ReadTbl1 (co_index c) (co_addr c) (co_data c) (co_vmask c) false None (Some (co_index c * 2)) (Some (pba_addr p (co_index c / 2 ^ 6))) None
      else
        let n := (if negb (co_pbard c =? 0) then co_index c + 1 else Z.land (co_index c) (Z.shiftl (Z.ones W) 6 mod 2 ^ Z.max W 7) + 64) mod 2 ^ W in
        mkDo Idle n (co_addr c) (co_data c) (co_vmask c) true None None (Some (pba_addr p (n / 2 ^ 6))) None
    else mkDo Idle (co_index c) (co_addr c) (co_data c) (co_vmask c) true None None None None
  | ReadTbl1 => mkDo ReadTbl2 (co_index c) (psel (co_tblrd c) 2 62 * 4) (co_data c) (co_vmask c) false None (Some (co_index c * 2 + 1)) None None
  | ReadTbl2 =>
    let data := psel (co_tblrd c) 0 32 in let vmask := bsel (co_tblrd c) 32 =? 1 in
    if co_enable c && negb (co_mask c) && negb vmask then mkDo SendTlp (co_index c) (co_addr c) data vmask false None None None None
    else mkDo Idle (co_index c) (co_addr c) data vmask true None None None (Some (pba_addr p (co_index c / 2 ^ 5), Z.lor (co_pbard c) (2 ^ bit)))
  | SendTlp =>
    if negb (co_txvalid c) || mi_ready i
    then mkDo Idle ((co_index c + 1) mod 2 ^ W) (co_addr c) (co_data c) (co_vmask c) true (Some (mx_hdr p (co_addr c) (mi_rid i), co_data c)) None None
           (Some (pba_addr p (co_index c / 2 ^ 5), Z.land (co_pbard c) (Z.lnot (2 ^ bit))))
    else mkDo SendTlp (co_index c) (co_addr c) (co_data c) (co_vmask c) false None None None None
  end.
(** rtl/pcie_msix.v:397-432: the registers of the state machine after the clock. *)
Definition core_step (p : mx_param) (c : mx_core) (tbl pba : Z -> Z) (i : mx_in) : mx_core :=
  let d := core_next p c i in
  mkCo (if mi_rst i then Idle else do_st d) (do_index d) (do_addr d) (do_data d) (do_vmask d) (if mi_rst i then false else do_ready d)
    (match do_tx d with Some (_, x) => x | None => co_txdata c end) (match do_tx d with Some (h, _) => h | None => co_txhdr c end)
    (if mi_rst i then false else match do_tx d with Some _ => true | None => co_txvalid c && negb (mi_ready i) end)
    (mi_enable i) (mi_mask i)
    (match do_tbl d with Some a => tbl a | None => co_tblrd c end)
    (match do_pba_wr d, do_pba_rd d with None, Some a => pba_get p pba a | _, _ => co_pbard c end).

(** rtl/pcie_msix.v:206, 209: index of an AXI lite address. *)
Definition ax_index (p : mx_param) (a : Z) : Z := (a / 2 ^ mx_ishift) mod 2 ^ mx_tbw p.
(** rtl/pcie_msix.v:207, 210: word of an AXI lite address. *)
Definition ax_word (p : mx_param) (a : Z) : Z := if mx_dw p <? 64 then (a / 2 ^ mx_wshift p) mod 2 ^ mx_wsel p else 0.
(** rtl/pcie_msix.v:486, 496: the highest address bit. *)
Definition ax_top (p : mx_param) (a : Z) : bool := Z.testbit a (mx_aw p - 1).
(** rtl/pcie_msix.v:438-439, 524-528: the table word after a write: tbl_axil_mem_wr_be and tbl_axil_mem_wr_data byte by byte. *)
Definition ax_merge (p : mx_param) (old addr wdata wstrb : Z) : Z :=
  let be := (wstrb * 2 ^ (ax_word p addr * mx_sw p)) mod 2 ^ 8 in
  fold_right (fun k acc => (if Z.testbit be k then psel wdata (8 * (k mod mx_sw p)) 8 else psel old (8 * k) 8) * 2 ^ (8 * k) + acc) 0 [0; 1; 2; 3; 4; 5; 6; 7].
(** rtl/pcie_msix.v:456: write_eligible. *)
Definition ax_weligible (a : mx_axil) (i : mx_in) : bool := mi_awvalid i && mi_wvalid i && (negb (ax_bvalid a) || mi_bready i) && (negb (ax_awready a) && negb (ax_wready a)).
(** rtl/pcie_msix.v:457: read_eligible. *)
Definition ax_religible (a : mx_axil) (i : mx_in) : bool := mi_arvalid i && (negb (ax_rvalid a) || mi_rready i || negb (ax_tblv a || ax_pbav a)) && negb (ax_arready a).
(** rtl/pcie_msix.v:479: whether a write is done in this clock. *)
Definition ax_write (a : mx_axil) (i : mx_in) : bool := ax_weligible a i && (negb (ax_religible a i) || ax_last a).
(** rtl/pcie_msix.v:489: whether a read is done in this clock. *)
Definition ax_read (a : mx_axil) (i : mx_in) : bool := negb (ax_write a i) && ax_religible a i.
(** rtl/pcie_msix.v:459: whether read data goes to the output. *)
Definition ax_move (a : mx_axil) (i : mx_in) : bool := (ax_tblv a || ax_pbav a) && (negb (ax_rvalid a) || mi_rready i).
(** rtl/pcie_msix.v:435-522, 531-546: the AXI lite registers after the clock. *)
Definition axil_step (p : mx_param) (a : mx_axil) (tbl pba : Z -> Z) (i : mx_in) : mx_axil :=
  let w := ax_write a i in let r := ax_read a i in let m := ax_move a i in
  let t := negb (ax_top p (mi_araddr i)) in
  let src := if ax_tblv a then ax_tblrd a else ax_pbard a in
  mkAx (if mi_rst i then false else if w then false else if r then true else ax_last a)
    (if mi_rst i then false else w) (if mi_rst i then false else w) (if mi_rst i then false else w || (ax_bvalid a && negb (mi_bready i)))
    (if mi_rst i then false else r)
    (if m then psel src (if mx_dw p <? 64 then ax_shift a * mx_dw p else 0) (mx_dw p) else ax_rdata a)
    (if mi_rst i then false else m || (ax_rvalid a && negb (mi_rready i)))
    (if mi_rst i then false else (r && t) || (ax_tblv a && negb m)) (if mi_rst i then false else (r && negb t) || (ax_pbav a && negb m))
    (if r then ax_word p (mi_araddr i) else ax_shift a)
    (if r && t then tbl (ax_index p (mi_araddr i)) else ax_tblrd a)
    (if r && negb t then pba_get p pba (ax_index p (mi_araddr i)) else ax_pbard a).
(** rtl/pcie_msix.v:397-432, 506-547: one clock edge. *)
Definition mx_step (p : mx_param) (s : mx_state) (i : mx_in) : mx_state :=
  let c := ms_core s in let a := ms_axil s in
  mkMs (core_step p c (ms_tbl s) (ms_pba s) i) (axil_step p a (ms_tbl s) (ms_pba s) i)
    (if ax_write a i && negb (ax_top p (mi_awaddr i)) then let k := ax_index p (mi_awaddr i) in upd (ms_tbl s) k (ax_merge p (ms_tbl s k) (mi_awaddr i) (mi_wdata i) (mi_wstrb i)) else ms_tbl s)
    (match do_pba_wr (core_next p c i) with Some (k, x) => pba_put p (ms_pba s) k x | None => ms_pba s end).
(** rtl/pcie_msix.v:145-204, 230-239: at power up. *)
Definition mx0 : mx_state :=
  mkMs (mkCo Idle 0 0 0 false false 0 0 false false false 0 0) (mkAx false false false false false 0 false false false 0 0 0) (fun _ => 0) (fun _ => 0).

(** rtl/pcie_msix.v:50-98, 212-228: (bresp and rresp are 0, strb, sop and eop of the TLP 1) what is seen at one clock: the inputs, the outputs, and the table and the pending bits before the clock edge. *)
Record mx_ev := mkMv { mv_in : mx_in; mv_ready : bool; mv_txvalid : bool; mv_txhdr : Z; mv_txdata : Z; mv_awready : bool; mv_wready : bool; mv_bvalid : bool; mv_arready : bool; mv_rvalid : bool; mv_rdata : Z; mv_tbl : Z -> Z; mv_pba : Z -> Z }.
(** rtl/pcie_msix.v:212-228. *)
Definition mx_event (s : mx_state) (i : mx_in) : mx_ev :=
  let c := ms_core s in let a := ms_axil s in
  mkMv i (co_ready c) (co_txvalid c) (co_txhdr c) (co_txdata c) (ax_awready a) (ax_wready a) (ax_bvalid a) (ax_arready a) (ax_rvalid a) (ax_rdata a) (ms_tbl s) (ms_pba s).
(** rtl/pcie_msix.v:397, 506: clocks in turn. *)
Fixpoint mx_trace (p : mx_param) (s : mx_state) (l : list mx_in) : list mx_ev :=
  match l with
  | [] => []
  | i :: r => mx_event s i :: mx_trace p (mx_step p s i) r
  end.
(** rtl/pcie_msix.v:397, 506: the registers after the clocks. *)
Definition mx_run (p : mx_param) (s : mx_state) (l : list mx_in) : mx_state := fold_left (mx_step p) l s.
