(** Model of the user-side interfaces of the UltraScale+ core (tb/pcie_usp.py)
    that differ from those of the UltraScale core (DevModel.v), and of the
    interrupt and configuration management interfaces of both cores.
    [upstream_recv] of tb/pcie_usp.py:93-206 is the same text as
    tb/pcie_us.py:1789-1902 and its CQ, CC and RQ handling (754-815) the same as
    tb/pcie_us.py:2433-2494, so DevModel.v stands for both. *)
From Verif Require Import PyBase TlpModel UsModel UsStreamModel DevModel CfgModel MsiModel.

(** tb/pcie_usp.py:799-826: one edge: TLPs sent upstream, the sequence numbers shown
    on pcie_rq_seq_num0 and pcie_rq_seq_num1 (with their valid flags), queue left. *)
Definition usp_rq_step (d : dev) (sq : list Z) (l : list tlp_us) : result (list tlp * (option Z * option Z) * list Z) :=
  let! (ts, sq') := rq_loop d l sq in
  match sq' with
  | [] => Ok (ts, (None, None), [])
  | [a] => Ok (ts, (Some a, None), [])
  | a :: b :: r => Ok (ts, (Some a, Some b), r)
  end.

(** tb/pcie_usp.py:751-752, 799-826: edges in turn; the pair shown at each edge. *)
Fixpoint usp_rq_run (d : dev) (sq : list Z) (l : list (list tlp_us)) : result (list tlp * list (option Z * option Z) * list Z) :=
  match l with
  | [] => Ok ([], [], sq)
  | i :: r =>
    let! (ts, o, sq') := usp_rq_step d sq i in
    let! (ts', os, sq'') := usp_rq_run d sq' r in
    Ok (ts ++ ts', o :: os, sq'')
  end.

(** tb/pcie_usp.py:869-873: the loop over the functions from number [k] on. *)
Fixpoint usp_fstatus (k st : Z) (fns : list fn) : Z :=
  match fns with
  | [] => st
  | f :: r =>
    let st := if fn_bme f then Z.lor st (Z.shiftl 0x07 (k * 4)) else st in
    let st := if fn_int_dis f then Z.lor st (Z.shiftl 0x08 (k * 4)) else st in
    usp_fstatus (k + 1) st r
  end.
(** tb/pcie_usp.py:868-874: [cfg_function_status], a signal of 16 bits (274). *)
Definition usp_function_status (fns : list fn) : result Z := sig 16 (usp_fstatus 0 0 fns).
(** tb/pcie_usp.py:890-892: the loop over the functions from number [k] on. *)
Fixpoint usp_rcb (k st : Z) (fns : list fn) : Z :=
  match fns with
  | [] => st
  | f :: r => usp_rcb (k + 1) (if fn_rcb f then Z.lor st (Z.shiftl 1 k) else st) r
  end.
(** tb/pcie_usp.py:889-893: [cfg_rcb_status], a signal of 4 bits (287). *)
Definition usp_rcb_status (fns : list fn) : result Z := sig 4 (usp_rcb 0 0 fns).

(** Python [int.bit_length] of a non-negative number (tb/pcie_usp.py:863). *)
Definition bit_length (n : Z) : Z := if n =? 0 then 0 else Z.log2 n + 1.
(** tb/pcie_usp.py:863: [cfg_negotiated_width], 3 bits (270). *)
Definition usp_negotiated_width (negotiated_link_width : Z) : result Z :=
  sig 3 (Z.min (Z.max (bit_length negotiated_link_width - 1) 0) 4).
(** tb/pcie_usp.py:864: [cfg_current_speed], 2 bits (271). *)
Definition usp_current_speed (current_link_speed : Z) : result Z :=
  sig 2 (Z.min (Z.max (current_link_speed - 1) 0) 3).
(** tb/pcie_usp.py:865: [cfg_max_payload], 2 bits (272). *)
Definition usp_max_payload (max_payload_size : Z) : result Z := sig 2 (Z.land max_payload_size 3).
(** tb/pcie_usp.py:866: [cfg_max_read_req], 3 bits (273). *)
Definition usp_max_read_req (max_read_request_size : Z) : result Z := sig 3 max_read_request_size.
(** tb/pcie_us.py:2548: [cfg_negotiated_width] of the UltraScale core, 4 bits (1961). *)
Definition us_negotiated_width (negotiated_link_width : Z) : result Z := sig 4 negotiated_link_width.
(** tb/pcie_us.py:2549: [cfg_current_speed] of the UltraScale core, 3 bits (1962). *)
Definition us_current_speed (current_link_speed : Z) : result Z :=
  sig 3 (Z.shiftr (Z.shiftl 1 (Z.land current_link_speed 3)) 1).

(** The parts of a function that its interrupt requests use: capability registers
    (tb/pcie.py:1464-1473, 1526-1532), ID and maximum payload size. *)
Record ifn := mkIfn { if_attrs : attrs; if_id : pcie_id; if_mps : Z }.
(** Interrupt inputs of the core: cfg_interrupt_msi_int, cfg_interrupt_msi_function_number,
    cfg_interrupt_msi_attr, cfg_interrupt_msix_int, cfg_interrupt_msix_address,
    cfg_interrupt_msix_data (tb/pcie_us.py:2040-2059, tb/pcie_usp.py:344-363). *)
Record int_in := mkInt { ii_int : Z; ii_fn : Z; ii_attr : Z; ii_msix : bool; ii_addr : Z; ii_data : Z }.

(** tb/pcie_us.py:2728, tb/pcie_usp.py:1004: [[i for i in range(32) if n >> i & 1]]. *)
Definition int_bits (n : Z) : list Z :=
  filter (fun i => negb (Z.land (Z.shiftr n i) 1 =? 0)) (map Z.of_nat (seq 0 32)).

(** tb/pcie_us.py:2723-2731, tb/pcie_usp.py:999-1007: the MSI request at one edge: TLPs sent
    and cfg_interrupt_msi_sent (cfg_interrupt_msi_fail is never set). *)
Definition msi_request (fs : list ifn) (i : int_in) : result (list tlp * bool) :=
  if ii_int i =? 0 then Ok ([], false)
  else match int_bits (ii_int i) with
       | [b] => if ii_fn i <? zlen fs then
                  let! f := py_index fs (ii_fn i) in
                  let! ts := issue_msi_interrupt (if_attrs f) (if_id f) (if_mps f) b (ii_attr i) 0 in
                  Ok (ts, true)
                else Ok ([], false)
       | _ => Ok ([], false)
       end.

(** tb/pcie_us.py:2770-2775, tb/pcie_usp.py:1046-1049: the MSI-X request at one edge: TLPs
    sent and the sent flag. *)
Definition msix_request (fs : list ifn) (i : int_in) : result (list tlp * bool) :=
  if ii_msix i && (ii_fn i <? zlen fs) then
    let! f := py_index fs (ii_fn i) in
    let! ts := issue_msix_interrupt (if_attrs f) (if_id f) (if_mps f) (ii_addr i) (ii_data i) (ii_attr i) 0 in
    Ok (ts, true)
  else Ok ([], false).

(** tb/pcie_us.py:2723-2775: one edge of the UltraScale core: TLPs sent,
    cfg_interrupt_msi_sent, cfg_interrupt_msix_sent. *)
Definition us_int_step (fs : list ifn) (i : int_in) : result (list tlp * bool * bool) :=
  let! (a, sa) := msi_request fs i in
  let! (b, sb) := msix_request fs i in
  Ok (a ++ b, sa, sb).

(** tb/pcie_usp.py:999-1049: one edge of the UltraScale+ core: TLPs sent and
    cfg_interrupt_msi_sent, which both kinds of request set. *)
Definition usp_int_step (fs : list ifn) (i : int_in) : result (list tlp * bool) :=
  let! (a, sa) := msi_request fs i in
  let! (b, sb) := msix_request fs i in
  Ok (a ++ b, sa || sb).

(** tb/pcie_us.py:2741-2747, tb/pcie_usp.py:1017-1023: [cfg_interrupt_msi_data] for the
    selected function; 0b1111 selects nothing. *)
Definition msi_data_out (fs : list ifn) (sel : Z) : result Z :=
  if sel =? 15 then Ok 0
  else if sel <? zlen fs then
    let! f := py_index fs sel in sig 32 (if_attrs f A_msi_mask_bits)
  else Ok 0.

(** Python [l[i] = x] for an index in range (tb/pcie_us.py:2750). *)
Fixpoint list_upd {A} (n : nat) (x : A) (l : list A) : list A :=
  match l, n with
  | [], _ => []
  | _ :: r, O => x :: r
  | y :: r, S m => y :: list_upd m x r
  end.

(** tb/pcie_us.py:2748-2750, tb/pcie_usp.py:1024-1026: pending bits written by user logic. *)
Definition msi_pending_in (fs : list ifn) (enable : bool) (num status : Z) : result (list ifn) :=
  if enable && (num <? zlen fs) then
    let! f := py_index fs num in
    Ok (list_upd (Z.to_nat num) (mkIfn (set_attr (if_attrs f) A_msi_pending_bits status) (if_id f) (if_mps f)) fs)
  else Ok fs.

(** Configuration management inputs (tb/pcie_us.py:1949-1955, tb/pcie_usp.py:257-264):
    address, function number (UltraScale+ only), read, write, write data, byte enables. *)
Record mgmt_in := mkMgmt { mi_addr : Z; mi_fn : Z; mi_read : bool; mi_write : bool; mi_data : Z; mi_be : Z }.
(** tb/pcie_us.py:2515-2536, tb/pcie_usp.py:844-851: its registers cfg_mgmt_read_write_done
    and cfg_mgmt_read_data. *)
Record mgmt_st := mkMgmtSt { mg_done : bool; mg_rdata : Z }.

(** tb/pcie_us.py:2525, 2535, tb/pcie_usp.py:847, 850: [self.functions[function]] for a
    register access; [rd] and [wr] are read_config_register and
    write_config_register of a function (C19, C46, C67). *)
Definition mgmt_access {R} (rd : R -> Z -> result Z) (wr : R -> Z -> Z -> Z -> result R) (fs : list R)
    (function reg : Z) (write : bool) (data be rdata : Z) : result (list R * Z) :=
  let! f := py_index fs function in
  if write then let! f' := wr f reg data be in Ok (list_upd (Z.to_nat function) f' fs, rdata)
  else let! v := rd f reg in let! v := sig 32 v in Ok (fs, v).

(** tb/pcie_us.py:2515-2536: one edge of the UltraScale core. *)
Definition us_mgmt_step {R} (rd : R -> Z -> result Z) (wr : R -> Z -> Z -> Z -> result R)
    (fs : list R) (s : mgmt_st) (i : mgmt_in) : result (list R * mgmt_st) :=
  if mg_done s then Ok (fs, mkMgmtSt false (mg_rdata s))
  else if mi_read i || mi_write i then
    if negb (Z.land (mi_addr i) (Z.shiftl 1 18) =? 0) then Ok (fs, mkMgmtSt true (mg_rdata s))
    else
      let function := Z.land (Z.shiftr (mi_addr i) 10) 0x7f in
      let reg_num := Z.land (mi_addr i) 0x3ff in
      let! (fs', v) := mgmt_access rd wr fs function reg_num (negb (mi_read i)) (mi_data i) (mi_be i) (mg_rdata s) in
      Ok (fs', mkMgmtSt true v)
  else Ok (fs, s).

(** tb/pcie_usp.py:842-851: one edge of the UltraScale+ core. *)
Definition usp_mgmt_step {R} (rd : R -> Z -> result Z) (wr : R -> Z -> Z -> Z -> result R)
    (fs : list R) (s : mgmt_st) (i : mgmt_in) : result (list R * mgmt_st) :=
  if mg_done s then Ok (fs, mkMgmtSt false (mg_rdata s))
  else if mi_read i || mi_write i then
    let! (fs', v) := mgmt_access rd wr fs (mi_fn i) (mi_addr i) (negb (mi_read i)) (mi_data i) (mi_be i) (mg_rdata s) in
    Ok (fs', mkMgmtSt true v)
  else Ok (fs, s).
