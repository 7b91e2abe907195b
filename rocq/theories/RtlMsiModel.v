(** Models of the MSI shims rtl/pcie_us_msi.v and rtl/pcie_s10_msi.v.  A Verilog vector of width w is an
    integer in [0, 2^w). *)
From Verif Require Import PyBase RtlModel.

(** rtl/pcie_us_msi.v:69-77, rtl/pcie_s10_msi.v:64-72: registers; [ms_int] is msi_int_reg, a vector in the first and a
    number in the second; [ms_arb] are the registers of the arbiter. *)
Record ms_state := mkMs { ms_active : bool; ms_irq : Z; ms_last : Z; ms_act : Z; ms_mask : Z; ms_int : Z; ms_arb : arb_state }.

(** rtl/pcie_us_msi.v:69-77, rtl/pcie_s10_msi.v:64-72: initial values. *)
Definition ms0 : ms_state := mkMs false 0 0 0 0 0 arb0.

(** rtl/pcie_us_msi.v:97-103, rtl/pcie_s10_msi.v:87-93: parameters of the arbiter; [n] is MSI_COUNT. *)
Definition ms_arb_param (n : Z) : arb_param := mkArb n true true true true.

(** rtl/pcie_us_msi.v:90, rtl/pcie_s10_msi.v:79: message_enable_mask in 32 bits. *)
Definition ms_enable_mask (mm : Z) : Z := if mm >? 4 then 2 ^ 32 - 1 else Z.shiftr (2 ^ 32 - 1) (32 - Z.shiftl 1 mm).

(** rtl/pcie_us_msi.v:38-66: inputs of one clock: msi_irq, cfg_interrupt_msi_enable, bits [2:0] of
    cfg_interrupt_msi_mmenable, cfg_interrupt_msi_data, cfg_interrupt_msi_sent, cfg_interrupt_msi_fail. *)
Record us_in := mkUi { ui_rst : bool; ui_irq : Z; ui_enable : Z; ui_mm : Z; ui_data : Z; ui_sent : bool; ui_fail : bool }.

(** rtl/pcie_us_msi.v:119: msi_irq_mask_next, truncated to MSI_COUNT bits. *)
Definition us_mask (n : Z) (i : us_in) : Z :=
  Z.land (Z.land (Z.lnot (ui_data i)) (ms_enable_mask (ui_mm i))) (if Z.odd (ui_enable i) then 2 ^ 32 - 1 else 0) mod 2 ^ n.

(** rtl/pcie_us_msi.v:114-139: the combinational block: active_next, msi_irq_active_next, msi_int_next, acknowledge. *)
Definition us_comb (s : ms_state) (i : us_in) : bool * Z * Z * Z :=
  let a := ms_arb s in
  let act := Z.lor (ms_act s) (Z.land (ms_irq s) (Z.lnot (ms_last s))) in
  if negb (ms_active s) then
    if negb (ui_enable i =? 0) && as_valid a then (true, act, as_grant a, 0) else (ms_active s, act, 0, 0)
  else if ui_sent i || ui_fail i then
    (false, if ui_sent i then Z.land act (Z.lnot (as_grant a)) else act, 0, as_grant a)
  else (ms_active s, act, 0, 0).

(** rtl/pcie_us_msi.v:96-112, 141-157: one clock edge. *)
Definition us_step (n : Z) (s : ms_state) (i : us_in) : ms_state :=
  let a := ms_arb s in
  let '(active, act, int, ack) := us_comb s i in
  let req := Z.land (Z.land (ms_act s) (ms_mask s)) (Z.lnot (as_grant a)) in
  let arb := arb_step (ms_arb_param n) a (mkArbIn (ui_rst i) req ack) in
  if ui_rst i then mkMs false 0 0 0 0 0 arb
  else mkMs active (ui_irq i) (ms_irq s) act (us_mask n i) int arb.

(** rtl/pcie_s10_msi.v:38-61: inputs of one clock: msi_irq, cfg_msi_enable, cfg_multiple_msi_enable, cfg_msi_mask,
    app_msi_ack. *)
Record s10_in := mkSi { si_rst : bool; si_irq : Z; si_enable : bool; si_mm : Z; si_mask : Z; si_ack : bool }.

(** rtl/pcie_s10_msi.v:109: msi_irq_mask_next, truncated to MSI_COUNT bits. *)
Definition s10_mask (n : Z) (i : s10_in) : Z :=
  Z.land (Z.land (Z.lnot (si_mask i)) (ms_enable_mask (si_mm i))) (if si_enable i then 2 ^ 32 - 1 else 0) mod 2 ^ n.

(** rtl/pcie_s10_msi.v:104-127: the combinational block: active_next, msi_irq_active_next, msi_int_next (5 bits),
    acknowledge. *)
Definition s10_comb (s : ms_state) (i : s10_in) : bool * Z * Z * Z :=
  let a := ms_arb s in
  let act := Z.lor (ms_act s) (Z.land (ms_irq s) (Z.lnot (ms_last s))) in
  if negb (ms_active s) then
    if si_enable i && as_valid a then (true, act, as_enc a mod 2 ^ 5, 0) else (ms_active s, act, ms_int s, 0)
  else if si_ack i then (false, Z.land act (Z.lnot (as_grant a)), ms_int s, as_grant a)
  else (ms_active s, act, ms_int s, 0).

(** rtl/pcie_s10_msi.v:86-102, 129-145: one clock edge. *)
Definition s10_step (n : Z) (s : ms_state) (i : s10_in) : ms_state :=
  let a := ms_arb s in
  let '(active, act, int, ack) := s10_comb s i in
  let req := Z.land (Z.land (ms_act s) (ms_mask s)) (Z.lnot (as_grant a)) in
  let arb := arb_step (ms_arb_param n) a (mkArbIn (si_rst i) req ack) in
  if si_rst i then mkMs false 0 0 0 0 0 arb
  else mkMs active (si_irq i) (ms_irq s) act (s10_mask n i) int arb.

(** rtl/pcie_us_msi.v:38-66, rtl/pcie_s10_msi.v:38-61: what is seen at one clock edge: the interrupt request inputs, the vector
    of a message newly handed to the core, the core's answer, the messages allowed (mask register and number of
    messages enabled), enable. *)
Record ms_ev := mkMe { me_irq : Z; me_issue : option Z; me_sent : bool; me_fail : bool; me_allow : Z -> bool; me_en : bool }.

(** rtl/pcie_us_msi.v:38-66: the events of one edge; cfg_interrupt_msi_int is one-hot. *)
Definition us_event (i : us_in) (s' : ms_state) : ms_ev :=
  mkMe (ui_irq i) (if ms_int s' =? 0 then None else Some (Z.log2 (ms_int s'))) (ui_sent i) (ui_fail i)
    (fun j => negb (Z.testbit (ui_data i) j) && (j <? 2 ^ (Z.min 5 (ui_mm i)))) (Z.odd (ui_enable i)).

(** rtl/pcie_s10_msi.v:38-61: the events of one edge: a message is handed over by raising app_msi_req. *)
Definition s10_event (s : ms_state) (i : s10_in) (s' : ms_state) : ms_ev :=
  mkMe (si_irq i) (if ms_active s' && negb (ms_active s) then Some (ms_int s') else None) (si_ack i) false
    (fun j => negb (Z.testbit (si_mask i) j) && (j <? 2 ^ (Z.min 5 (si_mm i)))) (si_enable i).

(** rtl/pcie_us_msi.v:141-157: clock edges in turn. *)
Fixpoint us_run (n : Z) (s : ms_state) (l : list us_in) : ms_state * list ms_ev :=
  match l with
  | [] => (s, [])
  | i :: r => let s' := us_step n s i in let '(s'', e) := us_run n s' r in (s'', us_event i s' :: e)
  end.

(** rtl/pcie_s10_msi.v:129-145: clock edges in turn. *)
Fixpoint s10_run (n : Z) (s : ms_state) (l : list s10_in) : ms_state * list ms_ev :=
  match l with
  | [] => (s, [])
  | i :: r => let s' := s10_step n s i in let '(s'', e) := s10_run n s' r in (s'', s10_event s i s' :: e)
  end.
