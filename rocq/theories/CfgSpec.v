(** Independent specification of configuration registers: the access kind of
    every bit, from the PCI Express Base Specification tables (7.8.3-7.8.20),
    and what a masked write does to a bit of each kind. *)
From Verif Require Import PyBase CfgModel.

Inductive kind := RW | W1C | RO.

Definition within (lo hi i : Z) : bool := (lo <=? i) && (i <=? hi).

(** PCI Express capability structure, register (DWORD) index and bit. *)
Definition pcie_kind (reg i : Z) : kind :=
  if reg =? 2 then   (* Device Control / Device Status *)
    if within 0 14 i then RW else if within 16 19 i then W1C else RO
  else if reg =? 4 then   (* Link Control / Link Status *)
    if within 0 1 i || within 3 4 i || within 6 11 i then RW else if within 30 31 i then W1C else RO
  else if reg =? 6 then   (* Slot Control / Slot Status *)
    if within 0 12 i then RW else if within 16 20 i || (i =? 24) then W1C else RO
  else if reg =? 7 then   (* Root Control / Root Capabilities *)
    if within 0 4 i then RW else RO
  else if reg =? 8 then   (* Root Status *)
    if i =? 16 then W1C else RO
  else if reg =? 10 then  (* Device Control 2 *)
    if within 0 10 i || within 13 15 i then RW else RO
  else if reg =? 12 then  (* Link Control 2 / Link Status 2 *)
    if within 0 15 i then RW else if i =? 21 then W1C else RO
  else RO.

(** PCI header registers 1 (Command/Status), 3 and 15. *)
Definition header_kind (reg i : Z) : kind :=
  if reg =? 1 then
    if (i =? 2) || (i =? 6) || (i =? 8) || (i =? 10) then RW else if (i =? 24) || within 27 31 i then W1C else RO
  else if reg =? 3 then if within 0 15 i || within 24 31 i then RW else RO
  else if reg =? 15 then if within 0 7 i then RW else RO   (* Interrupt Line; the pin is read-only *)
  else RO.

(** MSI capability; [w64], [pvm]: 64-bit address and per-vector masking. *)
Definition msi_kind (w64 pvm : bool) (reg i : Z) : kind :=
  if reg =? 0 then if (i =? 16) || within 20 22 i then RW else RO
  else if reg =? 1 then if within 2 31 i then RW else RO
  else if (reg =? 2) && w64 then RW
  else if reg =? (if w64 then 3 else 2) then if within 0 15 i then RW else RO
  else if (reg =? (if w64 then 4 else 3)) && pvm then RW
  else RO.

(** MSI-X capability. *)
Definition msix_kind (reg i : Z) : kind :=
  if reg =? 0 then if within 30 31 i then RW else RO else RO.

(** A bit after a write: its byte enable, the written bit, the old bit. *)
Definition spec_bit (k : kind) (be data old : bool) : bool :=
  match k with
  | RW => if be then data else old
  | W1C => if be && data then false else old
  | RO => old
  end.

(** Bits of a register file after a sequence of writes (register, data, byte
    enables). *)
Fixpoint spec_bits (kd : Z -> Z -> kind) (old : Z -> Z -> bool) (ops : list (Z * Z * Z)) (reg i : Z) : bool :=
  match ops with
  | [] => old reg i
  | (r, d, m) :: ops =>
    spec_bits kd (fun reg i => if reg =? r then spec_bit (kd reg i) (Z.testbit m (i / 8)) (Z.testbit d i) (old reg i) else old reg i) ops reg i
  end.

(** The bits of the PCI Express capability that do not behave as specified. *)
Definition pcie_bad (reg i : Z) : bool :=
  (reg =? 2) && ((i =? 20) || (i =? 21)) ||   (* read-only status bits that writes clear *)
  (reg =? 4) && ((i =? 3) || (i =? 4)) ||     (* RCB written from bit 4, link disable not writable *)
  (reg =? 12) && ((i =? 6) || (i =? 21)).     (* selectable de-emphasis and equalization request not writable *)

(** The bits of the header that do not behave as specified: the read-only
    interrupt pin is writable. *)
Definition header_bad (reg i : Z) : bool := (reg =? 15) && within 8 15 i.

(** Byte-wide header fields hold bytes. *)
Definition header_ok (s : attrs) : Prop :=
  is_byte (s A_cache_ln) /\ is_byte (s A_lat_timer) /\ is_byte (s A_header_type) /\ is_byte (s A_bist) /\
  is_byte (s A_intr_line) /\ is_byte (s A_intr_pin).

(** A field of a register: a flag at a bit, an integer field, or a constant. *)
Inductive field := FFlag (pos : Z) (a : attr) | FInt (pos width : Z) (a : attr) | FConst (pos width value : Z).

(** Register layout of the PCI Express capability structure (Base
    Specification 7.8): every bit not listed reads as zero. *)
Definition pcie_fields (reg : Z) : list field :=
  if reg =? 0 then [
    FConst 16 4 2;
    FInt 20 4 A_pcie_device_type;
    FFlag 24 A_pcie_slot_implemented;
    FInt 25 5 A_interrupt_message_number]
  else if reg =? 1 then [
    FInt 0 3 A_max_payload_size_supported;
    FInt 3 2 A_phantom_functions_supported;
    FFlag 5 A_extended_tag_supported;
    FInt 6 3 A_endpoint_l0s_acceptable_latency;
    FInt 9 3 A_endpoint_l1_acceptable_latency;
    FFlag 15 A_role_based_error_reporting;
    FInt 18 8 A_captured_slot_power_limit_value;
    FInt 26 2 A_captured_slot_power_limit_scale;
    FFlag 28 A_function_level_reset_capability]
  else if reg =? 2 then [
    FFlag 0 A_correctable_error_reporting_enable;
    FFlag 1 A_non_fatal_error_reporting_enable;
    FFlag 2 A_fatal_error_reporting_enable;
    FFlag 3 A_unsupported_request_reporting_enable;
    FFlag 4 A_enable_relaxed_ordering;
    FInt 5 3 A_max_payload_size;
    FFlag 8 A_extended_tag_field_enable;
    FFlag 9 A_phantom_functions_enable;
    FFlag 10 A_aux_power_pm_enable;
    FFlag 11 A_enable_no_snoop;
    FInt 12 3 A_max_read_request_size;
    FFlag 16 A_correctable_error_detected;
    FFlag 17 A_nonfatal_error_detected;
    FFlag 18 A_fatal_error_detected;
    FFlag 19 A_unsupported_request_detected;
    FFlag 20 A_aux_power_detected;
    FFlag 21 A_transactions_pending]
  else if reg =? 3 then [
    FInt 0 4 A_max_link_speed;
    FInt 4 6 A_max_link_width;
    FInt 10 2 A_aspm_support;
    FInt 12 3 A_l0s_exit_latency;
    FInt 15 3 A_l1_exit_latency;
    FFlag 18 A_clock_power_management;
    FFlag 19 A_surprise_down_error_reporting_capability;
    FFlag 20 A_data_link_layer_link_active_reporting_capable;
    FFlag 21 A_link_bandwidth_notification_capability;
    FFlag 22 A_aspm_optionality_compliance;
    FInt 24 8 A_port_number]
  else if reg =? 4 then [
    FInt 0 2 A_aspm_control;
    FFlag 3 A_read_completion_boundary;
    FFlag 4 A_link_disable;
    FFlag 6 A_common_clock_configuration;
    FFlag 7 A_extended_synch;
    FFlag 8 A_enable_clock_power_management;
    FFlag 9 A_hardware_autonomous_width_disable;
    FFlag 10 A_link_bandwidth_management_interrupt_enable;
    FFlag 11 A_link_autonomous_bandwidth_interrupt_enable;
    FInt 16 4 A_current_link_speed;
    FInt 20 6 A_negotiated_link_width;
    FFlag 27 A_link_training;
    FFlag 28 A_slot_clock_configuration;
    FFlag 29 A_data_link_layer_link_active;
    FFlag 30 A_link_bandwidth_management_status;
    FFlag 31 A_link_autonomous_bandwidth_status]
  else if reg =? 5 then [
    FFlag 0 A_attention_button_present;
    FFlag 1 A_power_controller_present;
    FFlag 2 A_mrl_sensor_present;
    FFlag 3 A_attention_indicator_present;
    FFlag 4 A_power_indicator_present;
    FFlag 5 A_hot_plug_surprise;
    FFlag 6 A_hot_plug_capable;
    FInt 7 8 A_slot_power_limit_value;
    FInt 15 2 A_slot_power_limit_scale;
    FFlag 17 A_electromechanical_interlock_present;
    FFlag 18 A_no_command_completed_support;
    FInt 19 13 A_physical_slot_number]
  else if reg =? 6 then [
    FFlag 0 A_attention_button_pressed_enable;
    FFlag 1 A_power_fault_detected_enable;
    FFlag 2 A_mrl_sensor_changed_enable;
    FFlag 3 A_presence_detect_changed_enable;
    FFlag 4 A_command_completed_interrupt_enable;
    FFlag 5 A_hot_plug_interrupt_enable;
    FInt 6 2 A_attention_indicator_control;
    FInt 8 2 A_power_indicator_control;
    FFlag 10 A_power_controller_control;
    FFlag 11 A_electromechanical_interlock_control;
    FFlag 12 A_data_link_layer_state_changed_enable;
    FFlag 16 A_attention_button_pressed;
    FFlag 17 A_power_fault_detected;
    FFlag 18 A_mrl_sensor_changed;
    FFlag 19 A_presence_detect_changed;
    FFlag 20 A_command_completed;
    FFlag 21 A_mrl_sensor_state;
    FFlag 22 A_presence_detect_state;
    FFlag 23 A_electromechanical_interlock_status;
    FFlag 24 A_data_link_layer_state_changed]
  else if reg =? 7 then [
    FFlag 0 A_system_error_on_correctable_error_enable;
    FFlag 1 A_system_error_on_non_fatal_error_enable;
    FFlag 2 A_system_error_on_fatal_error_enable;
    FFlag 3 A_pme_interrupt_enable;
    FFlag 4 A_crs_software_visibility_enable;
    FFlag 16 A_crs_software_visibility]
  else if reg =? 8 then [
    FInt 0 16 A_pme_requester_id;
    FFlag 16 A_pme_status;
    FFlag 17 A_pme_pending]
  else if reg =? 9 then [
    FInt 0 4 A_completion_timeout_ranges_supported;
    FFlag 4 A_completion_timeout_disable_supported;
    FFlag 5 A_ari_forwarding_supported;
    FFlag 6 A_atomic_op_forwarding_supported;
    FFlag 7 A_atomic_op_32_bit_completer_supported;
    FFlag 8 A_atomic_op_64_bit_completer_supported;
    FFlag 9 A_cas_128_bit_completer_supported;
    FFlag 10 A_no_ro_enabled_pr_pr_passing;
    FFlag 11 A_ltr_mechanism_supported;
    FInt 12 2 A_tph_completer_supported;
    FInt 18 2 A_obff_supported;
    FFlag 20 A_extended_fmt_field_supported;
    FFlag 21 A_end_end_tlp_prefix_supported;
    FInt 22 2 A_max_end_end_tlp_prefix]
  else if reg =? 10 then [
    FInt 0 4 A_completion_timeout_value;
    FFlag 4 A_completion_timeout_disable;
    FFlag 5 A_ari_forwarding_enable;
    FFlag 6 A_atomic_op_requester_enable;
    FFlag 7 A_atomic_op_egress_blocking;
    FFlag 8 A_ido_request_enable;
    FFlag 9 A_ido_completion_enable;
    FFlag 10 A_ltr_mechanism_enable;
    FInt 13 2 A_obff_enable;
    FFlag 15 A_end_end_tlp_prefix_blocking]
  else if reg =? 11 then [
    FInt 1 7 A_supported_link_speeds;
    FFlag 8 A_crosslink_supported]
  else if reg =? 12 then [
    FInt 0 4 A_target_link_speed;
    FFlag 4 A_enter_compliance;
    FFlag 5 A_hardware_autonomous_speed_disable;
    FFlag 6 A_selectable_de_emphasis;
    FInt 7 3 A_transmit_margin;
    FFlag 10 A_enter_modified_compliance;
    FFlag 11 A_compliance_sos;
    FInt 12 4 A_compliance_preset_de_emphasis;
    FFlag 16 A_current_de_emphasis_level;
    FFlag 17 A_equalization_complete;
    FFlag 18 A_equalization_phase_1_successful;
    FFlag 19 A_equalization_phase_2_successful;
    FFlag 20 A_equalization_phase_3_successful;
    FFlag 21 A_link_equalization_request]
  else [].

(** The value of bit [i] according to a field, when the field covers it. *)
Definition field_bit (s : attrs) (f : field) (i : Z) : bool :=
  match f with
  | FFlag p a => (i =? p) && negb (s a =? 0)
  | FInt p w a => (p <=? i) && (i <? p + w) && Z.testbit (s a) (i - p)
  | FConst p w v => (p <=? i) && (i <? p + w) && Z.testbit v (i - p)
  end.
Definition layout_bit (s : attrs) (reg i : Z) : bool := existsb (fun f => field_bit s f i) (pcie_fields reg).

(** The fields that are not where they should be: the low 18 bits of Link
    Capabilities. *)
Definition layout_bad (reg i : Z) : bool := (reg =? 3) && (i <? 18).
