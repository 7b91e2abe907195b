(** Property theorems C19, C24, C46 (configuration registers and MSI). *)
From Coq Require Import Lia.
From Verif Require Import PyBase TlpModel SplitModel SplitSpec CfgModel CfgSpec CfgProofs CfgLayout MsiModel MsiProofs.

(** C19, PCI Express capability: after any sequence of register writes (any
    data, any byte enables) every bit outside [pcie_bad] has the value the
    access kind of the specification gives it.  Missing: the six bits of
    [pcie_bad], for which the property is false (next theorem). *)
Theorem C19_pcie_writes_partial : forall ops s reg i, 0 <= i < 32 -> pcie_bad reg i = false ->
  Z.testbit (read_pcie_cap_register (pcie_writes s ops) reg) i =
  spec_bits pcie_kind (fun r j => Z.testbit (read_pcie_cap_register s r) j) ops reg i.
Proof. exact pcie_history. Qed.
Print Assumptions C19_pcie_writes_partial.
Example C19_pcie_example : pcie_bad 2 5 = false /\
  read_pcie_cap_register (pcie_writes (fun _ => 1) [(2, 0x50e3, 15); (2, 0xffff, 2); (10, 0xffffffff, 1)]) 2 = 0x3f7fe3.
Proof. split; vm_compute; reflexivity. Qed.

(** C19 is false of exactly the bits of [pcie_bad]: each has a state and a
    write after which it does not read as specified. *)
Theorem C19_pcie_bad_bits : forall reg i, pcie_bad reg i = true -> exists s data mask,
  Z.testbit (read_pcie_cap_register (fst (write_pcie_cap_register s reg data mask)) reg) i <>
  spec_bit (pcie_kind reg i) (Z.testbit mask (i / 8)) (Z.testbit data i) (Z.testbit (read_pcie_cap_register s reg) i).
Proof.
  intros reg i H. unfold pcie_bad in H.
  assert (C : (reg = 2 /\ i = 20) \/ (reg = 2 /\ i = 21) \/ (reg = 4 /\ i = 3) \/ (reg = 4 /\ i = 4) \/ (reg = 12 /\ i = 6) \/ (reg = 12 /\ i = 21)) by lia.
  destruct C as [[-> ->]|[[-> ->]|[[-> ->]|[[-> ->]|[[-> ->]|[-> ->]]]]]].
  - exists (fun _ => 1), 0x100000, 15. vm_compute. discriminate.
  - exists (fun _ => 1), 0x200000, 15. vm_compute. discriminate.
  - exists (fun _ => 0), 8, 15. vm_compute. discriminate.
  - exists (fun _ => 0), 16, 15. vm_compute. discriminate.
  - exists (fun _ => 0), 64, 15. vm_compute. discriminate.
  - exists (fun _ => 1), 0x200000, 15. vm_compute. discriminate.
Qed.
Print Assumptions C19_pcie_bad_bits.
Example C19_pcie_bad_example : pcie_bad 4 3 = true.
Proof. reflexivity. Qed.
Theorem C19_pcie_writes_refuted : exists s reg data mask i, 0 <= i < 32 /\
  Z.testbit (read_pcie_cap_register (fst (write_pcie_cap_register s reg data mask)) reg) i <>
  spec_bit (pcie_kind reg i) (Z.testbit mask (i / 8)) (Z.testbit data i) (Z.testbit (read_pcie_cap_register s reg) i).
Proof. exists (fun _ => 0), 4, 8, 15, 3. split; [lia|]. vm_compute. discriminate. Qed.
Print Assumptions C19_pcie_writes_refuted.

(** C19: the only register write that raises is Link Control 2 with a link
    equalization request pending (UnboundLocalError, line 1337). *)
Theorem C19_pcie_write_raises : forall s reg data mask,
  snd (write_pcie_cap_register s reg data mask) <> None <-> reg = 12 /\ s A_link_equalization_request <> 0.
Proof. exact pcie_raises. Qed.
Print Assumptions C19_pcie_write_raises.
Example C19_raises_example : snd (write_pcie_cap_register (fun _ => 1) 12 0 15) = Some UnboundLocalError.
Proof. reflexivity. Qed.

(** C19, header registers (command/status, register 3, interrupt line).
    Missing: the interrupt pin, which is writable although read-only. *)
Theorem C19_header_writes_partial : forall ops s, header_ok s ->
  exists s', run_writes write_header s ops = Ok s' /\ header_ok s' /\
  forall r i, 0 <= i < 32 /\ header_bad r i = false ->
    Z.testbit (read_header s' r) i = spec_bits header_kind (fun r j => Z.testbit (read_header s r) j) ops r i.
Proof. exact header_history. Qed.
Print Assumptions C19_header_writes_partial.
Example C19_header_example : header_ok (fun _ => 1) /\
  (let! s := run_writes write_header (fun _ => 1) [(1, 0xffffffff, 3); (1, 0x81000000, 12); (3, 0x12345678, 9)] in
   Ok (read_header s 1, read_header s 3)) = Ok (0x78180544, 0x12010178).
Proof. split; [repeat split; vm_compute; congruence|vm_compute; reflexivity]. Qed.
Theorem C19_interrupt_pin_refuted : exists s data mask s', header_ok s /\ write_header s 15 data mask = Ok s' /\
  Z.testbit (read_header s' 15) 9 <>
  spec_bit (header_kind 15 9) (Z.testbit mask 1) (Z.testbit data 9) (Z.testbit (read_header s 15) 9).
Proof.
  exists (fun _ => 1), 0x200, 15. eexists. split; [repeat split; vm_compute; congruence|]. split; [reflexivity|]. vm_compute. discriminate.
Qed.
Print Assumptions C19_interrupt_pin_refuted.

(** C19, MSI capability, all four layouts (32/64 bit, with and without
    per-vector masking). *)
Theorem C19_msi_writes : forall w64 pvm ops s, msi_flags w64 pvm s -> Forall (fun op => 0 <= snd op < 16) ops ->
  exists s', run_writes write_msi_cap_register s ops = Ok s' /\ msi_flags w64 pvm s' /\
  forall r i, 0 <= i < 32 -> Z.testbit (msi_rd s' r) i = spec_bits (msi_kind w64 pvm) (fun r j => Z.testbit (msi_rd s r) j) ops r i.
Proof. exact msi_history. Qed.
Print Assumptions C19_msi_writes.
Example C19_msi_example : msi_flags true true (fun _ => 1) /\
  Forall (fun op : Z * Z * Z => 0 <= snd op < 16) [(1, 0xfee00fff, 15); (2, 0xabcd, 2); (3, 0x123456, 15); (0, 0x500000, 4)] /\
  (let! s := run_writes write_msi_cap_register (fun _ => 1) [(1, 0xfee00fff, 15); (2, 0xabcd, 2); (3, 0x123456, 15); (0, 0x500000, 4)] in
   Ok (map (msi_rd s) [0; 1; 2; 3; 4; 5])) = Ok [0x1d20000; 0xfee00ffc; 0xab00; 0x3456; 1; 1].
Proof. split; [split; reflexivity|]. split; [repeat constructor; cbn; lia|vm_compute; reflexivity]. Qed.

(** C19, MSI-X capability. *)
Theorem C19_msix_writes : forall ops s,
  exists s', run_writes (fun s r d m => Ok (write_msix_cap_register s r d m)) s ops = Ok s' /\
  forall r i, 0 <= i < 32 -> Z.testbit (msix_rd s' r) i = spec_bits msix_kind (fun r j => Z.testbit (msix_rd s r) j) ops r i.
Proof. exact msix_history. Qed.
Print Assumptions C19_msix_writes.
Example C19_msix_example :
  (let! s := run_writes (fun s r d m => Ok (write_msix_cap_register s r d m)) (fun _ => 0) [(0, 0xffffffff, 8); (1, 5, 15)] in
   Ok (map (msix_rd s) [0; 1])) = Ok [0xc0000000; 0].
Proof. vm_compute. reflexivity. Qed.

(** C46: every field of the PCI Express capability reads at its specified
    position and all other bits read as zero.  Missing: the low 18 bits of Link
    Capabilities. *)
Theorem C46_pcie_layout_partial : forall s reg i, 0 <= i < 32 -> layout_bad reg i = false ->
  Z.testbit (read_pcie_cap_register s reg) i = layout_bit s reg i.
Proof. exact pcie_layout. Qed.
Print Assumptions C46_pcie_layout_partial.
Example C46_example : layout_bad 12 9 = false /\ layout_bit (fun a => if attr_id a =? attr_id A_transmit_margin then 4 else 0) 12 9 = true.
Proof. split; reflexivity. Qed.

(** C46 is false of Link Capabilities (lines 1101-1104 shift right): a x8 link
    is not reported. *)
Theorem C46_link_capabilities_refuted : exists s i, 0 <= i < 32 /\
  Z.testbit (read_pcie_cap_register s 3) i <> layout_bit s 3 i.
Proof. exists (fun a => if attr_id a =? attr_id A_max_link_width then 8 else 0), 7. split; [lia|]. vm_compute. discriminate. Qed.
Print Assumptions C46_link_capabilities_refuted.

(** C24: issuing MSI [number] sends exactly one legal write of one DWORD to the
    programmed address, carrying the programmed data with its low bits replaced
    by [number]. *)
Theorem C24_msi_message : forall s rid mps number attr tc,
  0 <= mps -> s A_msi_enable <> 0 -> s A_bus_master_enable <> 0 ->
  0 <= s A_msi_multiple_message_enable <= 16 -> 0 <= number < 2^(s A_msi_multiple_message_enable) ->
  number < 2^(s A_msi_multiple_message_capable) -> 0 <= s A_msi_message_data < 2^16 -> (s A_msi_message_address) mod 4 = 0 ->
  exists t, issue_msi_interrupt s rid mps number attr tc = Ok [t] /\
    t_address t = s A_msi_message_address /\ t_length t = 1 /\ t_first_be t = 15 /\ t_last_be t = 0 /\
    t_data t = [s A_msi_message_data - s A_msi_message_data mod 2^(s A_msi_multiple_message_enable) + number] /\
    get_data t = Ok (le_bytes 4 (s A_msi_message_data - s A_msi_message_data mod 2^(s A_msi_multiple_message_enable) + number)) /\
    mem_write_legal (128 * 2^mps) t /\ from_transfer rid attr tc t /\ tlp_check t = true.
Proof. exact msi_issue. Qed.
Print Assumptions C24_msi_message.
Definition ex_msi (a : attr) : Z :=
  if attr_id a =? attr_id A_msi_message_address then 0xfee00000 else if attr_id a =? attr_id A_msi_message_data then 0x4321
  else if attr_id a =? attr_id A_msi_multiple_message_enable then 3 else if attr_id a =? attr_id A_msi_multiple_message_capable then 5 else 1.
Example C24_example : 0 <= ex_msi A_msi_message_data < 2^16 /\ ex_msi A_msi_message_address mod 4 = 0 /\
  (let! ts := issue_msi_interrupt ex_msi (mkId 1 0 0) 0 6 0 0 in Ok (map (fun t => (t_address t, t_data t)) ts)) = Ok [(0xfee00000, [0x4326])].
Proof. split; [vm_compute; split; congruence|]. split; vm_compute; reflexivity. Qed.

(** C24: disabled or out of range, nothing is sent. *)
Theorem C24_msi_rejected : forall s rid mps number attr tc,
  s A_msi_enable = 0 \/ number < 0 \/ 2^(s A_msi_multiple_message_enable) <= number \/ 2^(s A_msi_multiple_message_capable) <= number ->
  issue_msi_interrupt s rid mps number attr tc = Ok [].
Proof. exact msi_rejects. Qed.
Print Assumptions C24_msi_rejected.
Example C24_rejected_example : 2^(ex_msi A_msi_multiple_message_enable) <= 8.
Proof. vm_compute. congruence. Qed.

(** C24: the whole path.  The root complex programs the capability with its MSI
    region and message number [limit]; interrupt [number] of the device then
    signals exactly message [limit + number] at the root complex. *)
Theorem C24_msi_delivery : forall s low base limit rid mps number attr tc known fired,
  0 <= mps -> 0 <= low < 2^16 -> 0 <= base < 2^64 -> base mod 4 = 0 -> 0 <= limit -> limit mod 32 = 0 -> limit + 32 <= 2^16 ->
  0 <= s A_msi_multiple_message_capable <= 5 -> 0 <= s A_msi_message_address -> s A_bus_master_enable <> 0 ->
  (s A_msi_64bit_address_capable = 0 -> base < 2^32 /\ s A_msi_message_address < 2^32) ->
  0 <= number < 2^(s A_msi_multiple_message_capable) -> known (limit + number) = true ->
  exists s' t, configure_msi s low base limit = Ok s' /\ issue_msi_interrupt s' rid mps number attr tc = Ok [t] /\
    rc_handle_msi_write known base t fired = Ok (fired ++ [limit + number]).
Proof. exact msi_end_to_end. Qed.
Print Assumptions C24_msi_delivery.
Example C24_delivery_example :
  (let! s := configure_msi ex_msi 0x5005 0x300000004 0x60 in
   let! ts := issue_msi_interrupt s (mkId 2 0 0) 1 31 0 0 in
   match ts with [t] => rc_handle_msi_write (fun n => (0x60 <=? n) && (n <? 0x80)) 0x300000004 t [1] | _ => Err OutOfFuel end) = Ok [1; 0x7f].
Proof. vm_compute. reflexivity. Qed.
