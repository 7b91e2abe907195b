(** Model of MSI generation, MSI configuration by the root complex and MSI
    reception (/repo/tb/pcie.py). *)
From Verif Require Import PyBase TlpModel SplitModel CfgModel.

(** tb/pcie.py:1464-1473 [MSICapability.issue_msi_interrupt]; the TLPs sent.
    The two early returns send nothing. *)
Definition issue_msi_interrupt (s : attrs) (rid : pcie_id) (mps number attr tc : Z) : result (list tlp) :=
  if s A_msi_enable =? 0 then Ok []
  else if (number <? 0) || (number >=? 2 ^ s A_msi_multiple_message_enable) || (number >=? 2 ^ s A_msi_multiple_message_capable) then Ok []
  else
    let data := Z.lor (Z.land (s A_msi_message_data) (Z.lnot (2 ^ s A_msi_multiple_message_enable - 1))) number in
    let! d := pack_u32 data in
    function_mem_write (negb (s A_bus_master_enable =? 0)) rid mps (s A_msi_message_address) d attr tc.

(** tb/pcie.py:1526-1532 [MSIXCapability.issue_msix_interrupt]. *)
Definition issue_msix_interrupt (s : attrs) (rid : pcie_id) (mps addr data attr tc : Z) : result (list tlp) :=
  if s A_msix_enable =? 0 then Ok [] else
  let! d := pack_u32 data in
  function_mem_write (negb (s A_bus_master_enable =? 0)) rid mps addr d attr tc.

(** tb/pcie.py:4142-4163, the configuration accesses of [RootComplex.configure_msi]
    to one device.  [low] is the low half of the capability header as returned
    by the configuration read (capability ID and next pointer).  Configuration
    requests are taken to reach the device's capability, one register write
    with all byte enables per [capability_write_dword]. *)
Definition configure_msi (s : attrs) (low msi_addr msg_limit : Z) : result attrs :=
  let msg_ctrl := Z.lor (Z.land (read_msi_0 s) 0xffff0000) low in
  let msi_64bit := Z.land (Z.shiftr msg_ctrl 23) 1 in
  let msi_mmcap := Z.land (Z.shiftr msg_ctrl 17) 7 in
  let! s := write_msi_cap_register s 1 (Z.land msi_addr 0xfffffffc) 15 in
  let! s :=
    if negb (msi_64bit =? 0) then
      let! s := write_msi_cap_register s 2 (Z.land (Z.shiftr msi_addr 32) 0xffffffff) 15 in
      write_msi_cap_register s 3 msg_limit 15
    else write_msi_cap_register s 2 msg_limit 15 in
  write_msi_cap_register s 0
    (Z.lor (Z.lor (Z.land msg_ctrl (Z.lnot (Z.shiftl 7 20))) (Z.shiftl 1 16)) (Z.shiftl msi_mmcap 20)) 15.

(** tb/pcie.py:4112-4124 [RootComplex.msi_region_write]: [known] is the key set of
    msi_signals; the state is the list of message numbers signalled so far. *)
Definition msi_region_write (known : Z -> bool) (fired : list Z) (addr : Z) (data : list Z) : result (list Z) :=
  if negb (addr =? 0) then Err AssertionError
  else if negb (zlen data =? 4) then Err AssertionError
  else let! number := unpack_u32 data in
       if known number then Ok (fired ++ [number]) else Err AssertionError.

(** tb/pcie.py:3330-3342, 3586-3645: [handle_mem_write_tlp] of the root complex
    for its 4-byte MSI region at [base] (allocated at line 4128).  Only this
    region is represented; other addresses are ignored. *)
Definition rc_handle_msi_write (known : Z -> bool) (base : Z) (t : tlp) (fired : list Z) : result (list Z) :=
  if (base <=? t_address t) && (t_address t <? base + 4) then
    if t_length t * 4 >? 0x1000 - Z.land (t_address t) 0xfff then Ok fired else
    let! data := get_data t in
    be_write (fun fired o d =>
      let addr := t_address t + o in
      if (base <=? addr) && (addr <? base + 4) then msi_region_write known fired (addr - base) d
      else Err (PyException 3333)) t data fired
  else Ok fired.
