(** Model of the configuration registers of a function
    (PCIECapability, MSICapability, MSIXCapability, PMCapability and the common
    header of Function in /repo/tb/pcie.py).  The attributes of the Python
    object are a total map from attribute names to integers; False is 0, True
    is 1. *)
From Verif Require Import PyBase TlpModel.

(** tb/pcie.py:825-827, 857-1024, 1350-1358, 1481-1487, 1559-1589: the attributes
    of the register file, one constructor [A_name] per [self.name]. *)
Inductive attr : Type :=
| A_pcie_device_type
| A_pcie_slot_implemented
| A_interrupt_message_number
| A_max_payload_size_supported
| A_phantom_functions_supported
| A_extended_tag_supported
| A_endpoint_l0s_acceptable_latency
| A_endpoint_l1_acceptable_latency
| A_role_based_error_reporting
| A_captured_slot_power_limit_value
| A_captured_slot_power_limit_scale
| A_function_level_reset_capability
| A_correctable_error_reporting_enable
| A_non_fatal_error_reporting_enable
| A_fatal_error_reporting_enable
| A_unsupported_request_reporting_enable
| A_enable_relaxed_ordering
| A_max_payload_size
| A_extended_tag_field_enable
| A_phantom_functions_enable
| A_aux_power_pm_enable
| A_enable_no_snoop
| A_max_read_request_size
| A_correctable_error_detected
| A_nonfatal_error_detected
| A_fatal_error_detected
| A_unsupported_request_detected
| A_aux_power_detected
| A_transactions_pending
| A_max_link_speed
| A_max_link_width
| A_aspm_support
| A_l0s_exit_latency
| A_l1_exit_latency
| A_clock_power_management
| A_surprise_down_error_reporting_capability
| A_data_link_layer_link_active_reporting_capable
| A_link_bandwidth_notification_capability
| A_aspm_optionality_compliance
| A_port_number
| A_aspm_control
| A_read_completion_boundary
| A_link_disable
| A_common_clock_configuration
| A_extended_synch
| A_enable_clock_power_management
| A_hardware_autonomous_width_disable
| A_link_bandwidth_management_interrupt_enable
| A_link_autonomous_bandwidth_interrupt_enable
| A_current_link_speed
| A_negotiated_link_width
| A_link_training
| A_slot_clock_configuration
| A_data_link_layer_link_active
| A_link_bandwidth_management_status
| A_link_autonomous_bandwidth_status
| A_attention_button_present
| A_power_controller_present
| A_mrl_sensor_present
| A_attention_indicator_present
| A_power_indicator_present
| A_hot_plug_surprise
| A_hot_plug_capable
| A_slot_power_limit_value
| A_slot_power_limit_scale
| A_electromechanical_interlock_present
| A_no_command_completed_support
| A_physical_slot_number
| A_attention_button_pressed_enable
| A_power_fault_detected_enable
| A_mrl_sensor_changed_enable
| A_presence_detect_changed_enable
| A_command_completed_interrupt_enable
| A_hot_plug_interrupt_enable
| A_attention_indicator_control
| A_power_indicator_control
| A_power_controller_control
| A_electromechanical_interlock_control
| A_data_link_layer_state_changed_enable
| A_attention_button_pressed
| A_power_fault_detected
| A_mrl_sensor_changed
| A_presence_detect_changed
| A_command_completed
| A_mrl_sensor_state
| A_presence_detect_state
| A_electromechanical_interlock_status
| A_data_link_layer_state_changed
| A_system_error_on_correctable_error_enable
| A_system_error_on_non_fatal_error_enable
| A_system_error_on_fatal_error_enable
| A_pme_interrupt_enable
| A_crs_software_visibility_enable
| A_crs_software_visibility
| A_pme_requester_id
| A_pme_status
| A_pme_pending
| A_completion_timeout_ranges_supported
| A_completion_timeout_disable_supported
| A_ari_forwarding_supported
| A_atomic_op_forwarding_supported
| A_atomic_op_32_bit_completer_supported
| A_atomic_op_64_bit_completer_supported
| A_cas_128_bit_completer_supported
| A_no_ro_enabled_pr_pr_passing
| A_ltr_mechanism_supported
| A_tph_completer_supported
| A_obff_supported
| A_extended_fmt_field_supported
| A_end_end_tlp_prefix_supported
| A_max_end_end_tlp_prefix
| A_completion_timeout_value
| A_completion_timeout_disable
| A_ari_forwarding_enable
| A_atomic_op_requester_enable
| A_atomic_op_egress_blocking
| A_ido_request_enable
| A_ido_completion_enable
| A_ltr_mechanism_enable
| A_obff_enable
| A_end_end_tlp_prefix_blocking
| A_supported_link_speeds
| A_crosslink_supported
| A_target_link_speed
| A_enter_compliance
| A_hardware_autonomous_speed_disable
| A_selectable_de_emphasis
| A_transmit_margin
| A_enter_modified_compliance
| A_compliance_sos
| A_compliance_preset_de_emphasis
| A_current_de_emphasis_level
| A_equalization_complete
| A_equalization_phase_1_successful
| A_equalization_phase_2_successful
| A_equalization_phase_3_successful
| A_link_equalization_request
| A_bus_master_enable
| A_parity_error_response
| A_serr_enable
| A_interrupt_disable
| A_interrupt_status
| A_capabilities_list
| A_master_data_parity_error
| A_signaled_target_abort
| A_received_target_abort
| A_received_master_abort
| A_signaled_system_error
| A_detected_parity_error
| A_msi_enable
| A_msi_multiple_message_capable
| A_msi_multiple_message_enable
| A_msi_64bit_address_capable
| A_msi_per_vector_mask_capable
| A_msix_table_size
| A_msix_function_mask
| A_msix_enable
| A_msix_table_bar_indicator_register
| A_msix_table_offset
| A_msix_pba_bar_indicator_register
| A_msix_pba_offset
| A_cache_ln
| A_lat_timer
| A_bist
| A_header_type
| A_intr_line
| A_intr_pin
| A_vendor_id
| A_device_id
| A_rev_id
| A_class_code
| A_cap_ptr
| A_msi_message_address
| A_msi_message_data
| A_msi_mask_bits
| A_msi_pending_bits
| A_pm_capabilities
| A_pm_control_status
| A_pm_data.

(** tb/pcie.py:857-1024: a number for each attribute name, used to compare them. *)
Definition attr_id (a : attr) : Z :=
  match a with
  | A_pcie_device_type => 0
  | A_pcie_slot_implemented => 1
  | A_interrupt_message_number => 2
  | A_max_payload_size_supported => 3
  | A_phantom_functions_supported => 4
  | A_extended_tag_supported => 5
  | A_endpoint_l0s_acceptable_latency => 6
  | A_endpoint_l1_acceptable_latency => 7
  | A_role_based_error_reporting => 8
  | A_captured_slot_power_limit_value => 9
  | A_captured_slot_power_limit_scale => 10
  | A_function_level_reset_capability => 11
  | A_correctable_error_reporting_enable => 12
  | A_non_fatal_error_reporting_enable => 13
  | A_fatal_error_reporting_enable => 14
  | A_unsupported_request_reporting_enable => 15
  | A_enable_relaxed_ordering => 16
  | A_max_payload_size => 17
  | A_extended_tag_field_enable => 18
  | A_phantom_functions_enable => 19
  | A_aux_power_pm_enable => 20
  | A_enable_no_snoop => 21
  | A_max_read_request_size => 22
  | A_correctable_error_detected => 23
  | A_nonfatal_error_detected => 24
  | A_fatal_error_detected => 25
  | A_unsupported_request_detected => 26
  | A_aux_power_detected => 27
  | A_transactions_pending => 28
  | A_max_link_speed => 29
  | A_max_link_width => 30
  | A_aspm_support => 31
  | A_l0s_exit_latency => 32
  | A_l1_exit_latency => 33
  | A_clock_power_management => 34
  | A_surprise_down_error_reporting_capability => 35
  | A_data_link_layer_link_active_reporting_capable => 36
  | A_link_bandwidth_notification_capability => 37
  | A_aspm_optionality_compliance => 38
  | A_port_number => 39
  | A_aspm_control => 40
  | A_read_completion_boundary => 41
  | A_link_disable => 42
  | A_common_clock_configuration => 43
  | A_extended_synch => 44
  | A_enable_clock_power_management => 45
  | A_hardware_autonomous_width_disable => 46
  | A_link_bandwidth_management_interrupt_enable => 47
  | A_link_autonomous_bandwidth_interrupt_enable => 48
  | A_current_link_speed => 49
  | A_negotiated_link_width => 50
  | A_link_training => 51
  | A_slot_clock_configuration => 52
  | A_data_link_layer_link_active => 53
  | A_link_bandwidth_management_status => 54
  | A_link_autonomous_bandwidth_status => 55
  | A_attention_button_present => 56
  | A_power_controller_present => 57
  | A_mrl_sensor_present => 58
  | A_attention_indicator_present => 59
  | A_power_indicator_present => 60
  | A_hot_plug_surprise => 61
  | A_hot_plug_capable => 62
  | A_slot_power_limit_value => 63
  | A_slot_power_limit_scale => 64
  | A_electromechanical_interlock_present => 65
  | A_no_command_completed_support => 66
  | A_physical_slot_number => 67
  | A_attention_button_pressed_enable => 68
  | A_power_fault_detected_enable => 69
  | A_mrl_sensor_changed_enable => 70
  | A_presence_detect_changed_enable => 71
  | A_command_completed_interrupt_enable => 72
  | A_hot_plug_interrupt_enable => 73
  | A_attention_indicator_control => 74
  | A_power_indicator_control => 75
  | A_power_controller_control => 76
  | A_electromechanical_interlock_control => 77
  | A_data_link_layer_state_changed_enable => 78
  | A_attention_button_pressed => 79
  | A_power_fault_detected => 80
  | A_mrl_sensor_changed => 81
  | A_presence_detect_changed => 82
  | A_command_completed => 83
  | A_mrl_sensor_state => 84
  | A_presence_detect_state => 85
  | A_electromechanical_interlock_status => 86
  | A_data_link_layer_state_changed => 87
  | A_system_error_on_correctable_error_enable => 88
  | A_system_error_on_non_fatal_error_enable => 89
  | A_system_error_on_fatal_error_enable => 90
  | A_pme_interrupt_enable => 91
  | A_crs_software_visibility_enable => 92
  | A_crs_software_visibility => 93
  | A_pme_requester_id => 94
  | A_pme_status => 95
  | A_pme_pending => 96
  | A_completion_timeout_ranges_supported => 97
  | A_completion_timeout_disable_supported => 98
  | A_ari_forwarding_supported => 99
  | A_atomic_op_forwarding_supported => 100
  | A_atomic_op_32_bit_completer_supported => 101
  | A_atomic_op_64_bit_completer_supported => 102
  | A_cas_128_bit_completer_supported => 103
  | A_no_ro_enabled_pr_pr_passing => 104
  | A_ltr_mechanism_supported => 105
  | A_tph_completer_supported => 106
  | A_obff_supported => 107
  | A_extended_fmt_field_supported => 108
  | A_end_end_tlp_prefix_supported => 109
  | A_max_end_end_tlp_prefix => 110
  | A_completion_timeout_value => 111
  | A_completion_timeout_disable => 112
  | A_ari_forwarding_enable => 113
  | A_atomic_op_requester_enable => 114
  | A_atomic_op_egress_blocking => 115
  | A_ido_request_enable => 116
  | A_ido_completion_enable => 117
  | A_ltr_mechanism_enable => 118
  | A_obff_enable => 119
  | A_end_end_tlp_prefix_blocking => 120
  | A_supported_link_speeds => 121
  | A_crosslink_supported => 122
  | A_target_link_speed => 123
  | A_enter_compliance => 124
  | A_hardware_autonomous_speed_disable => 125
  | A_selectable_de_emphasis => 126
  | A_transmit_margin => 127
  | A_enter_modified_compliance => 128
  | A_compliance_sos => 129
  | A_compliance_preset_de_emphasis => 130
  | A_current_de_emphasis_level => 131
  | A_equalization_complete => 132
  | A_equalization_phase_1_successful => 133
  | A_equalization_phase_2_successful => 134
  | A_equalization_phase_3_successful => 135
  | A_link_equalization_request => 136
  | A_bus_master_enable => 137
  | A_parity_error_response => 138
  | A_serr_enable => 139
  | A_interrupt_disable => 140
  | A_interrupt_status => 141
  | A_capabilities_list => 142
  | A_master_data_parity_error => 143
  | A_signaled_target_abort => 144
  | A_received_target_abort => 145
  | A_received_master_abort => 146
  | A_signaled_system_error => 147
  | A_detected_parity_error => 148
  | A_msi_enable => 149
  | A_msi_multiple_message_capable => 150
  | A_msi_multiple_message_enable => 151
  | A_msi_64bit_address_capable => 152
  | A_msi_per_vector_mask_capable => 153
  | A_msix_table_size => 154
  | A_msix_function_mask => 155
  | A_msix_enable => 156
  | A_msix_table_bar_indicator_register => 157
  | A_msix_table_offset => 158
  | A_msix_pba_bar_indicator_register => 159
  | A_msix_pba_offset => 160
  | A_cache_ln => 161
  | A_lat_timer => 162
  | A_bist => 163
  | A_header_type => 164
  | A_intr_line => 165
  | A_intr_pin => 166
  | A_vendor_id => 167
  | A_device_id => 168
  | A_rev_id => 169
  | A_class_code => 170
  | A_cap_ptr => 171
  | A_msi_message_address => 172
  | A_msi_message_data => 173
  | A_msi_mask_bits => 174
  | A_msi_pending_bits => 175
  | A_pm_capabilities => 176
  | A_pm_control_status => 177
  | A_pm_data => 178
  end.

(** tb/pcie.py:857-1024: the object's attribute values. *)
Definition attrs := attr -> Z.

(** tb/pcie.py:1250: the assignment [self.a = v]. *)
Definition set_attr (s : attrs) (a : attr) (v : Z) : attrs :=
  fun b => if attr_id a =? attr_id b then v else s b.

(** tb/pcie.py:1250: the assignment [if c: self.a = v]. *)
Definition set_if (c : bool) (s : attrs) (a : attr) (v : Z) : attrs :=
  fun b => if attr_id a =? attr_id b then (if c then v else s b) else s b.

(** tb/pcie.py:1250: the condition [x & m]. *)
Definition has (x m : Z) : bool := negb (Z.land x m =? 0).

(** tb/pcie.py:1250: the value [(data & 1 << k != 0)]. *)
Definition bit_set (data k : Z) : Z := if has data (Z.shiftl 1 k) then 1 else 0.

(** tb/pcie.py:1061: [if self.a: val |= x]. *)
Definition or_if (a val x : Z) : Z := if a =? 0 then val else Z.lor val x.

(** tb/pcie.py:1057-1063, [read_pcie_cap_register], register 0. *)
Definition read_pcie_0 (s : attrs) : Z :=
  let val := (Z.shiftl 2 16) in
  let val := Z.lor val (Z.shiftl (Z.land (s A_pcie_device_type) 0xf) 20) in
  let val := or_if (s A_pcie_slot_implemented) val (Z.shiftl 1 24) in
  let val := Z.lor val (Z.shiftl (Z.land (s A_interrupt_message_number) 0x1f) 25) in
  val.

(** tb/pcie.py:1064-1075, [read_pcie_cap_register], register 1. *)
Definition read_pcie_1 (s : attrs) : Z :=
  let val := (Z.land (s A_max_payload_size_supported) 0x7) in
  let val := Z.lor val (Z.shiftl (Z.land (s A_phantom_functions_supported) 0x3) 3) in
  let val := or_if (s A_extended_tag_supported) val (Z.shiftl 1 5) in
  let val := Z.lor val (Z.shiftl (Z.land (s A_endpoint_l0s_acceptable_latency) 0x7) 6) in
  let val := Z.lor val (Z.shiftl (Z.land (s A_endpoint_l1_acceptable_latency) 7) 9) in
  let val := or_if (s A_role_based_error_reporting) val (Z.shiftl 1 15) in
  let val := Z.lor val (Z.shiftl (Z.land (s A_captured_slot_power_limit_value) 0xff) 18) in
  let val := Z.lor val (Z.shiftl (Z.land (s A_captured_slot_power_limit_scale) 0x3) 26) in
  let val := or_if (s A_function_level_reset_capability) val (Z.shiftl 1 28) in
  val.

(** tb/pcie.py:1076-1097, [read_pcie_cap_register], register 2. *)
Definition read_pcie_2 (s : attrs) : Z :=
  let val := 0 in
  let val := or_if (s A_correctable_error_reporting_enable) val (Z.shiftl 1 0) in
  let val := or_if (s A_non_fatal_error_reporting_enable) val (Z.shiftl 1 1) in
  let val := or_if (s A_fatal_error_reporting_enable) val (Z.shiftl 1 2) in
  let val := or_if (s A_unsupported_request_reporting_enable) val (Z.shiftl 1 3) in
  let val := or_if (s A_enable_relaxed_ordering) val (Z.shiftl 1 4) in
  let val := Z.lor val (Z.shiftl (Z.land (s A_max_payload_size) 0x7) 5) in
  let val := or_if (s A_extended_tag_field_enable) val (Z.shiftl 1 8) in
  let val := or_if (s A_phantom_functions_enable) val (Z.shiftl 1 9) in
  let val := or_if (s A_aux_power_pm_enable) val (Z.shiftl 1 10) in
  let val := or_if (s A_enable_no_snoop) val (Z.shiftl 1 11) in
  let val := Z.lor val (Z.shiftl (Z.land (s A_max_read_request_size) 0x7) 12) in
  let val := or_if (s A_correctable_error_detected) val (Z.shiftl 1 16) in
  let val := or_if (s A_nonfatal_error_detected) val (Z.shiftl 1 17) in
  let val := or_if (s A_fatal_error_detected) val (Z.shiftl 1 18) in
  let val := or_if (s A_unsupported_request_detected) val (Z.shiftl 1 19) in
  let val := or_if (s A_aux_power_detected) val (Z.shiftl 1 20) in
  let val := or_if (s A_transactions_pending) val (Z.shiftl 1 21) in
  val.

(** tb/pcie.py:1098-1111, [read_pcie_cap_register], register 3. *)
Definition read_pcie_3 (s : attrs) : Z :=
  let val := (Z.land (s A_max_link_speed) 0xf) in
  let val := Z.lor val (Z.shiftr (Z.land (s A_max_link_width) 0x3f) 4) in
  let val := Z.lor val (Z.shiftr (Z.land (s A_aspm_support) 0x3) 10) in
  let val := Z.lor val (Z.shiftr (Z.land (s A_l0s_exit_latency) 0x7) 12) in
  let val := Z.lor val (Z.shiftr (Z.land (s A_l1_exit_latency) 0x7) 15) in
  let val := or_if (s A_clock_power_management) val (Z.shiftl 1 18) in
  let val := or_if (s A_surprise_down_error_reporting_capability) val (Z.shiftl 1 19) in
  let val := or_if (s A_data_link_layer_link_active_reporting_capable) val (Z.shiftl 1 20) in
  let val := or_if (s A_link_bandwidth_notification_capability) val (Z.shiftl 1 21) in
  let val := or_if (s A_aspm_optionality_compliance) val (Z.shiftl 1 22) in
  let val := Z.lor val (Z.shiftl (Z.land (s A_port_number) 0xff) 24) in
  val.

(** tb/pcie.py:1112-1131, [read_pcie_cap_register], register 4. *)
Definition read_pcie_4 (s : attrs) : Z :=
  let val := (Z.land (s A_aspm_control) 0x3) in
  let val := or_if (s A_read_completion_boundary) val (Z.shiftl 1 3) in
  let val := or_if (s A_link_disable) val (Z.shiftl 1 4) in
  let val := or_if (s A_common_clock_configuration) val (Z.shiftl 1 6) in
  let val := or_if (s A_extended_synch) val (Z.shiftl 1 7) in
  let val := or_if (s A_enable_clock_power_management) val (Z.shiftl 1 8) in
  let val := or_if (s A_hardware_autonomous_width_disable) val (Z.shiftl 1 9) in
  let val := or_if (s A_link_bandwidth_management_interrupt_enable) val (Z.shiftl 1 10) in
  let val := or_if (s A_link_autonomous_bandwidth_interrupt_enable) val (Z.shiftl 1 11) in
  let val := Z.lor val (Z.shiftl (Z.land (s A_current_link_speed) 0xf) 16) in
  let val := Z.lor val (Z.shiftl (Z.land (s A_negotiated_link_width) 0x3f) 20) in
  let val := or_if (s A_link_training) val (Z.shiftl 1 27) in
  let val := or_if (s A_slot_clock_configuration) val (Z.shiftl 1 28) in
  let val := or_if (s A_data_link_layer_link_active) val (Z.shiftl 1 29) in
  let val := or_if (s A_link_bandwidth_management_status) val (Z.shiftl 1 30) in
  let val := or_if (s A_link_autonomous_bandwidth_status) val (Z.shiftl 1 31) in
  val.

(** tb/pcie.py:1132-1147, [read_pcie_cap_register], register 5. *)
Definition read_pcie_5 (s : attrs) : Z :=
  let val := 0 in
  let val := or_if (s A_attention_button_present) val 1 in
  let val := or_if (s A_power_controller_present) val (Z.shiftl 1 1) in
  let val := or_if (s A_mrl_sensor_present) val (Z.shiftl 1 2) in
  let val := or_if (s A_attention_indicator_present) val (Z.shiftl 1 3) in
  let val := or_if (s A_power_indicator_present) val (Z.shiftl 1 4) in
  let val := or_if (s A_hot_plug_surprise) val (Z.shiftl 1 5) in
  let val := or_if (s A_hot_plug_capable) val (Z.shiftl 1 6) in
  let val := Z.lor val (Z.shiftl (Z.land (s A_slot_power_limit_value) 0xff) 7) in
  let val := Z.lor val (Z.shiftl (Z.land (s A_slot_power_limit_scale) 0x3) 15) in
  let val := or_if (s A_electromechanical_interlock_present) val (Z.shiftl 1 17) in
  let val := or_if (s A_no_command_completed_support) val (Z.shiftl 1 18) in
  let val := Z.lor val (Z.shiftl (Z.land (s A_physical_slot_number) 0x1fff) 19) in
  val.

(** tb/pcie.py:1148-1172, [read_pcie_cap_register], register 6. *)
Definition read_pcie_6 (s : attrs) : Z :=
  let val := 0 in
  let val := or_if (s A_attention_button_pressed_enable) val (Z.shiftl 1 0) in
  let val := or_if (s A_power_fault_detected_enable) val (Z.shiftl 1 1) in
  let val := or_if (s A_mrl_sensor_changed_enable) val (Z.shiftl 1 2) in
  let val := or_if (s A_presence_detect_changed_enable) val (Z.shiftl 1 3) in
  let val := or_if (s A_command_completed_interrupt_enable) val (Z.shiftl 1 4) in
  let val := or_if (s A_hot_plug_interrupt_enable) val (Z.shiftl 1 5) in
  let val := Z.lor val (Z.shiftl (Z.land (s A_attention_indicator_control) 0x3) 6) in
  let val := Z.lor val (Z.shiftl (Z.land (s A_power_indicator_control) 0x3) 8) in
  let val := or_if (s A_power_controller_control) val (Z.shiftl 1 10) in
  let val := or_if (s A_electromechanical_interlock_control) val (Z.shiftl 1 11) in
  let val := or_if (s A_data_link_layer_state_changed_enable) val (Z.shiftl 1 12) in
  let val := or_if (s A_attention_button_pressed) val (Z.shiftl 1 16) in
  let val := or_if (s A_power_fault_detected) val (Z.shiftl 1 17) in
  let val := or_if (s A_mrl_sensor_changed) val (Z.shiftl 1 18) in
  let val := or_if (s A_presence_detect_changed) val (Z.shiftl 1 19) in
  let val := or_if (s A_command_completed) val (Z.shiftl 1 20) in
  let val := or_if (s A_mrl_sensor_state) val (Z.shiftl 1 21) in
  let val := or_if (s A_presence_detect_state) val (Z.shiftl 1 22) in
  let val := or_if (s A_electromechanical_interlock_status) val (Z.shiftl 1 23) in
  let val := or_if (s A_data_link_layer_state_changed) val (Z.shiftl 1 24) in
  val.

(** tb/pcie.py:1173-1183, [read_pcie_cap_register], register 7. *)
Definition read_pcie_7 (s : attrs) : Z :=
  let val := 0 in
  let val := or_if (s A_system_error_on_correctable_error_enable) val (Z.shiftl 1 0) in
  let val := or_if (s A_system_error_on_non_fatal_error_enable) val (Z.shiftl 1 1) in
  let val := or_if (s A_system_error_on_fatal_error_enable) val (Z.shiftl 1 2) in
  let val := or_if (s A_pme_interrupt_enable) val (Z.shiftl 1 3) in
  let val := or_if (s A_crs_software_visibility_enable) val (Z.shiftl 1 4) in
  let val := or_if (s A_crs_software_visibility) val (Z.shiftl 1 16) in
  val.

(** tb/pcie.py:1184-1189, [read_pcie_cap_register], register 8. *)
Definition read_pcie_8 (s : attrs) : Z :=
  let val := (Z.land (s A_pme_requester_id) 0xffff) in
  let val := or_if (s A_pme_status) val (Z.shiftl 1 16) in
  let val := or_if (s A_pme_pending) val (Z.shiftl 1 17) in
  val.

(** tb/pcie.py:1190-1206, [read_pcie_cap_register], register 9. *)
Definition read_pcie_9 (s : attrs) : Z :=
  let val := (Z.land (s A_completion_timeout_ranges_supported) 0xf) in
  let val := or_if (s A_completion_timeout_disable_supported) val (Z.shiftl 1 4) in
  let val := or_if (s A_ari_forwarding_supported) val (Z.shiftl 1 5) in
  let val := or_if (s A_atomic_op_forwarding_supported) val (Z.shiftl 1 6) in
  let val := or_if (s A_atomic_op_32_bit_completer_supported) val (Z.shiftl 1 7) in
  let val := or_if (s A_atomic_op_64_bit_completer_supported) val (Z.shiftl 1 8) in
  let val := or_if (s A_cas_128_bit_completer_supported) val (Z.shiftl 1 9) in
  let val := or_if (s A_no_ro_enabled_pr_pr_passing) val (Z.shiftl 1 10) in
  let val := or_if (s A_ltr_mechanism_supported) val (Z.shiftl 1 11) in
  let val := Z.lor val (Z.shiftl (Z.land (s A_tph_completer_supported) 0x3) 12) in
  let val := Z.lor val (Z.shiftl (Z.land (s A_obff_supported) 0x3) 18) in
  let val := or_if (s A_extended_fmt_field_supported) val (Z.shiftl 1 20) in
  let val := or_if (s A_end_end_tlp_prefix_supported) val (Z.shiftl 1 21) in
  let val := Z.lor val (Z.shiftl (Z.land (s A_max_end_end_tlp_prefix) 0x3) 22) in
  val.

(** tb/pcie.py:1207-1220, [read_pcie_cap_register], register 10. *)
Definition read_pcie_10 (s : attrs) : Z :=
  let val := (Z.land (s A_completion_timeout_value) 0xf) in
  let val := or_if (s A_completion_timeout_disable) val (Z.shiftl 1 4) in
  let val := or_if (s A_ari_forwarding_enable) val (Z.shiftl 1 5) in
  let val := or_if (s A_atomic_op_requester_enable) val (Z.shiftl 1 6) in
  let val := or_if (s A_atomic_op_egress_blocking) val (Z.shiftl 1 7) in
  let val := or_if (s A_ido_request_enable) val (Z.shiftl 1 8) in
  let val := or_if (s A_ido_completion_enable) val (Z.shiftl 1 9) in
  let val := or_if (s A_ltr_mechanism_enable) val (Z.shiftl 1 10) in
  let val := Z.lor val (Z.shiftl (Z.land (s A_obff_enable) 0x3) 13) in
  let val := or_if (s A_end_end_tlp_prefix_blocking) val (Z.shiftl 1 15) in
  val.

(** tb/pcie.py:1221-1225, [read_pcie_cap_register], register 11. *)
Definition read_pcie_11 (s : attrs) : Z :=
  let val := (Z.shiftl (Z.land (s A_supported_link_speeds) 0x7f) 1) in
  let val := or_if (s A_crosslink_supported) val (Z.shiftl 1 8) in
  val.

(** tb/pcie.py:1226-1243, [read_pcie_cap_register], register 12. *)
Definition read_pcie_12 (s : attrs) : Z :=
  let val := (Z.land (s A_target_link_speed) 0xf) in
  let val := or_if (s A_enter_compliance) val (Z.shiftl 1 4) in
  let val := or_if (s A_hardware_autonomous_speed_disable) val (Z.shiftl 1 5) in
  let val := or_if (s A_selectable_de_emphasis) val (Z.shiftl 1 6) in
  let val := Z.lor val (Z.shiftl (Z.land (s A_transmit_margin) 0x7) 7) in
  let val := or_if (s A_enter_modified_compliance) val (Z.shiftl 1 10) in
  let val := or_if (s A_compliance_sos) val (Z.shiftl 1 11) in
  let val := Z.lor val (Z.shiftl (Z.land (s A_compliance_preset_de_emphasis) 0xf) 12) in
  let val := or_if (s A_current_de_emphasis_level) val (Z.shiftl 1 16) in
  let val := or_if (s A_equalization_complete) val (Z.shiftl 1 17) in
  let val := or_if (s A_equalization_phase_1_successful) val (Z.shiftl 1 18) in
  let val := or_if (s A_equalization_phase_2_successful) val (Z.shiftl 1 19) in
  let val := or_if (s A_equalization_phase_3_successful) val (Z.shiftl 1 20) in
  let val := or_if (s A_link_equalization_request) val (Z.shiftl 1 21) in
  val.

(** tb/pcie.py:1056-1245 [read_pcie_cap_register]. *)
Definition read_pcie_cap_register (s : attrs) (reg : Z) : Z :=
  if reg =? 0 then read_pcie_0 s
  else if reg =? 1 then read_pcie_1 s
  else if reg =? 2 then read_pcie_2 s
  else if reg =? 3 then read_pcie_3 s
  else if reg =? 4 then read_pcie_4 s
  else if reg =? 5 then read_pcie_5 s
  else if reg =? 6 then read_pcie_6 s
  else if reg =? 7 then read_pcie_7 s
  else if reg =? 8 then read_pcie_8 s
  else if reg =? 9 then read_pcie_9 s
  else if reg =? 10 then read_pcie_10 s
  else if reg =? 11 then read_pcie_11 s
  else if reg =? 12 then read_pcie_12 s
  else 0.

(** tb/pcie.py:1248-1268, [write_pcie_cap_register], register 2. *)
Definition write_pcie_2 (s : attrs) (data mask : Z) : attrs :=
  let s := set_if (has mask 0x1) s A_correctable_error_reporting_enable (bit_set data 0) in
  let s := set_if (has mask 0x1) s A_non_fatal_error_reporting_enable (bit_set data 1) in
  let s := set_if (has mask 0x1) s A_fatal_error_reporting_enable (bit_set data 2) in
  let s := set_if (has mask 0x1) s A_unsupported_request_reporting_enable (bit_set data 3) in
  let s := set_if (has mask 0x1) s A_enable_relaxed_ordering (bit_set data 4) in
  let s := set_if (has mask 0x1) s A_max_payload_size (Z.land (Z.shiftr data 5) 0x7) in
  let s := set_if (has mask 0x2) s A_extended_tag_field_enable (bit_set data 8) in
  let s := set_if (has mask 0x2) s A_phantom_functions_enable (bit_set data 9) in
  let s := set_if (has mask 0x2) s A_aux_power_pm_enable (bit_set data 10) in
  let s := set_if (has mask 0x2) s A_enable_no_snoop (bit_set data 11) in
  let s := set_if (has mask 0x2) s A_max_read_request_size (Z.land (Z.shiftr data 12) 0x7) in
  (* initiate_function_level_reset: pass *)
  let s := set_if (has mask 0x4 && has data (Z.shiftl 1 16)) s A_correctable_error_detected 0 in
  let s := set_if (has mask 0x4 && has data (Z.shiftl 1 17)) s A_nonfatal_error_detected 0 in
  let s := set_if (has mask 0x4 && has data (Z.shiftl 1 18)) s A_fatal_error_detected 0 in
  let s := set_if (has mask 0x4 && has data (Z.shiftl 1 19)) s A_unsupported_request_detected 0 in
  let s := set_if (has mask 0x4 && has data (Z.shiftl 1 20)) s A_aux_power_detected 0 in
  let s := set_if (has mask 0x4 && has data (Z.shiftl 1 21)) s A_transactions_pending 0 in
  s.

(** tb/pcie.py:1269-1282, [write_pcie_cap_register], register 4. *)
Definition write_pcie_4 (s : attrs) (data mask : Z) : attrs :=
  let s := set_if (has mask 0x1) s A_aspm_control (Z.land data 3) in
  let s := set_if (has mask 0x1) s A_read_completion_boundary (bit_set data 4) in
  (* initiate_retrain_link: pass *)
  let s := set_if (has mask 0x1) s A_common_clock_configuration (bit_set data 6) in
  let s := set_if (has mask 0x1) s A_extended_synch (bit_set data 7) in
  let s := set_if (has mask 0x2) s A_enable_clock_power_management (bit_set data 8) in
  let s := set_if (has mask 0x2) s A_hardware_autonomous_width_disable (bit_set data 9) in
  let s := set_if (has mask 0x2) s A_link_bandwidth_management_interrupt_enable (bit_set data 10) in
  let s := set_if (has mask 0x2) s A_link_autonomous_bandwidth_interrupt_enable (bit_set data 11) in
  let s := set_if (has mask 0x8 && has data (Z.shiftl 1 30)) s A_link_bandwidth_management_status 0 in
  let s := set_if (has mask 0x8 && has data (Z.shiftl 1 31)) s A_link_autonomous_bandwidth_status 0 in
  s.

(** tb/pcie.py:1283-1302, [write_pcie_cap_register], register 6. *)
Definition write_pcie_6 (s : attrs) (data mask : Z) : attrs :=
  let s := set_if (has mask 0x1) s A_attention_button_pressed_enable (bit_set data 0) in
  let s := set_if (has mask 0x1) s A_power_fault_detected_enable (bit_set data 1) in
  let s := set_if (has mask 0x1) s A_mrl_sensor_changed_enable (bit_set data 2) in
  let s := set_if (has mask 0x1) s A_presence_detect_changed_enable (bit_set data 3) in
  let s := set_if (has mask 0x1) s A_command_completed_interrupt_enable (bit_set data 4) in
  let s := set_if (has mask 0x1) s A_hot_plug_interrupt_enable (bit_set data 5) in
  let s := set_if (has mask 0x1) s A_attention_indicator_control (Z.land (Z.shiftr data 6) 0x3) in
  let s := set_if (has mask 0x2) s A_power_indicator_control (Z.land (Z.shiftr data 8) 0x3) in
  let s := set_if (has mask 0x2) s A_power_controller_control (bit_set data 10) in
  let s := set_if (has mask 0x2) s A_electromechanical_interlock_control (bit_set data 11) in
  let s := set_if (has mask 0x2) s A_data_link_layer_state_changed_enable (bit_set data 12) in
  let s := set_if (has mask 0x4 && has data (Z.shiftl 1 16)) s A_attention_button_pressed 0 in
  let s := set_if (has mask 0x4 && has data (Z.shiftl 1 17)) s A_power_fault_detected 0 in
  let s := set_if (has mask 0x4 && has data (Z.shiftl 1 18)) s A_mrl_sensor_changed 0 in
  let s := set_if (has mask 0x4 && has data (Z.shiftl 1 19)) s A_presence_detect_changed 0 in
  let s := set_if (has mask 0x4 && has data (Z.shiftl 1 20)) s A_command_completed 0 in
  let s := set_if (has mask 0x8 && has data (Z.shiftl 1 24)) s A_data_link_layer_state_changed 0 in
  s.

(** tb/pcie.py:1303-1309, [write_pcie_cap_register], register 7. *)
Definition write_pcie_7 (s : attrs) (data mask : Z) : attrs :=
  let s := set_if (has mask 0x1) s A_system_error_on_correctable_error_enable (bit_set data 0) in
  let s := set_if (has mask 0x1) s A_system_error_on_non_fatal_error_enable (bit_set data 1) in
  let s := set_if (has mask 0x1) s A_system_error_on_fatal_error_enable (bit_set data 2) in
  let s := set_if (has mask 0x1) s A_pme_interrupt_enable (bit_set data 3) in
  let s := set_if (has mask 0x1) s A_crs_software_visibility_enable (bit_set data 4) in
  s.

(** tb/pcie.py:1310-1312, [write_pcie_cap_register], register 8. *)
Definition write_pcie_8 (s : attrs) (data mask : Z) : attrs :=
  let s := set_if (has mask 0x4 && has data (Z.shiftl 1 16)) s A_pme_status 0 in
  s.

(** tb/pcie.py:1313-1324, [write_pcie_cap_register], register 10. *)
Definition write_pcie_10 (s : attrs) (data mask : Z) : attrs :=
  let s := set_if (has mask 0x1) s A_completion_timeout_value (Z.land data 0xf) in
  let s := set_if (has mask 0x1) s A_completion_timeout_disable (bit_set data 4) in
  let s := set_if (has mask 0x1) s A_ari_forwarding_enable (bit_set data 5) in
  let s := set_if (has mask 0x1) s A_atomic_op_requester_enable (bit_set data 6) in
  let s := set_if (has mask 0x1) s A_atomic_op_egress_blocking (bit_set data 7) in
  let s := set_if (has mask 0x2) s A_ido_request_enable (bit_set data 8) in
  let s := set_if (has mask 0x2) s A_ido_completion_enable (bit_set data 9) in
  let s := set_if (has mask 0x2) s A_ltr_mechanism_enable (bit_set data 10) in
  let s := set_if (has mask 0x2) s A_obff_enable (Z.land (Z.shiftr data 13) 0x3) in
  let s := set_if (has mask 0x2) s A_end_end_tlp_prefix_blocking (bit_set data 15) in
  s.

(** tb/pcie.py:1326-1337, [write_pcie_cap_register], register 12.  Line 1337 uses the
    undefined name [val]: UnboundLocalError when a link equalization request is
    pending (the returned state is that after the writes above it). *)
Definition write_pcie_12 (s : attrs) (data mask : Z) : attrs * option pyexn :=
  let s := set_if (has mask 0x1) s A_target_link_speed (Z.land data 0xf) in
  let s := set_if (has mask 0x1) s A_enter_compliance (bit_set data 4) in
  let s := set_if (has mask 0x1) s A_hardware_autonomous_speed_disable (bit_set data 5) in
  let s := set_if (has mask 0x1) s A_transmit_margin (Z.lor (Z.land (s A_transmit_margin) 0x6) (Z.land (Z.shiftr data 7) 0x1)) in
  let s := set_if (has mask 0x2) s A_transmit_margin (Z.lor (Z.land (s A_transmit_margin) 0x1) (Z.land (Z.shiftr data 7) 0x6)) in
  let s := set_if (has mask 0x2) s A_enter_modified_compliance (bit_set data 10) in
  let s := set_if (has mask 0x2) s A_compliance_sos (bit_set data 11) in
  let s := set_if (has mask 0x2) s A_compliance_preset_de_emphasis (Z.land (Z.shiftr data 12) 0xff) in
  (s, if s A_link_equalization_request =? 0 then None else Some UnboundLocalError).

(** tb/pcie.py:1247-1337 [write_pcie_cap_register]: the attributes afterwards and the
    exception raised, if any. *)
Definition write_pcie_cap_register (s : attrs) (reg data mask : Z) : attrs * option pyexn :=
  if reg =? 2 then (write_pcie_2 s data mask, None)
  else if reg =? 4 then (write_pcie_4 s data mask, None)
  else if reg =? 6 then (write_pcie_6 s data mask, None)
  else if reg =? 7 then (write_pcie_7 s data mask, None)
  else if reg =? 8 then (write_pcie_8 s data mask, None)
  else if reg =? 10 then (write_pcie_10 s data mask, None)
  else if reg =? 12 then write_pcie_12 s data mask
  else (s, None).

(** tb/pcie.py:1641-1657, [Function.read_config_register], register 1. *)
Definition read_config_1 (s : attrs) : Z :=
  let val := 0 in
  let val := or_if (s A_bus_master_enable) val (Z.shiftl 1 2) in
  let val := or_if (s A_parity_error_response) val (Z.shiftl 1 6) in
  let val := or_if (s A_serr_enable) val (Z.shiftl 1 8) in
  let val := or_if (s A_interrupt_disable) val (Z.shiftl 1 10) in
  let val := or_if (s A_interrupt_status) val (Z.shiftl 1 19) in
  let val := or_if (s A_capabilities_list) val (Z.shiftl 1 20) in
  let val := or_if (s A_master_data_parity_error) val (Z.shiftl 1 24) in
  let val := or_if (s A_signaled_target_abort) val (Z.shiftl 1 27) in
  let val := or_if (s A_received_target_abort) val (Z.shiftl 1 28) in
  let val := or_if (s A_received_master_abort) val (Z.shiftl 1 29) in
  let val := or_if (s A_signaled_system_error) val (Z.shiftl 1 30) in
  let val := or_if (s A_detected_parity_error) val (Z.shiftl 1 31) in
  val.

(** tb/pcie.py:1667-1679, [Function.write_config_register], register 1. *)
Definition write_config_1 (s : attrs) (data mask : Z) : attrs :=
  let s := set_if (has mask 0x1) s A_bus_master_enable (bit_set data 2) in
  let s := set_if (has mask 0x1) s A_parity_error_response (bit_set data 6) in
  let s := set_if (has mask 0x2) s A_serr_enable (bit_set data 8) in
  let s := set_if (has mask 0x2) s A_interrupt_disable (bit_set data 10) in
  let s := set_if (has mask 0x8 && has data (Z.shiftl 1 24)) s A_master_data_parity_error 0 in
  let s := set_if (has mask 0x8 && has data (Z.shiftl 1 27)) s A_signaled_target_abort 0 in
  let s := set_if (has mask 0x8 && has data (Z.shiftl 1 28)) s A_received_target_abort 0 in
  let s := set_if (has mask 0x8 && has data (Z.shiftl 1 29)) s A_received_master_abort 0 in
  let s := set_if (has mask 0x8 && has data (Z.shiftl 1 30)) s A_signaled_system_error 0 in
  let s := set_if (has mask 0x8 && has data (Z.shiftl 1 31)) s A_detected_parity_error 0 in
  s.

(** tb/pcie.py:1421-1429, [read_msi_cap_register], register 0. *)
Definition read_msi_0 (s : attrs) : Z :=
  let val := 0 in
  let val := or_if (s A_msi_enable) val (Z.shiftl 1 16) in
  let val := Z.lor val (Z.shiftl (Z.land (s A_msi_multiple_message_capable) 0x7) 17) in
  let val := Z.lor val (Z.shiftl (Z.land (s A_msi_multiple_message_enable) 0x7) 20) in
  let val := or_if (s A_msi_64bit_address_capable) val (Z.shiftl 1 23) in
  let val := or_if (s A_msi_per_vector_mask_capable) val (Z.shiftl 1 24) in
  val.

(** tb/pcie.py:1447-1450, [write_msi_cap_register], register 0. *)
Definition write_msi_0 (s : attrs) (data mask : Z) : attrs :=
  let s := set_if (has mask 0x4) s A_msi_enable (bit_set data 16) in
  let s := set_if (has mask 0x4) s A_msi_multiple_message_enable (Z.land (Z.shiftr data 20) 0x7) in
  s.

(** tb/pcie.py:1504-1509, [read_msix_cap_register], register 0. *)
Definition read_msix_0 (s : attrs) : Z :=
  let val := (Z.shiftl (Z.land (s A_msix_table_size) 0x7ff) 16) in
  let val := or_if (s A_msix_function_mask) val (Z.shiftl 1 30) in
  let val := or_if (s A_msix_enable) val (Z.shiftl 1 31) in
  val.

(** tb/pcie.py:1510-1514, [read_msix_cap_register], register 1. *)
Definition read_msix_1 (s : attrs) : Z :=
  let val := (Z.land (s A_msix_table_bar_indicator_register) 0x7) in
  let val := Z.lor val (Z.land (s A_msix_table_offset) 0xfffffff8) in
  val.

(** tb/pcie.py:1515-1519, [read_msix_cap_register], register 2. *)
Definition read_msix_2 (s : attrs) : Z :=
  let val := (Z.land (s A_msix_pba_bar_indicator_register) 0x7) in
  let val := Z.lor val (Z.land (s A_msix_pba_offset) 0xfffffff8) in
  val.

(** tb/pcie.py:1521-1525 [write_msix_cap_register]. *)
Definition write_msix_cap_register (s : attrs) (reg data mask : Z) : attrs :=
  if reg =? 0 then
  let s := set_if (has mask 0x8) s A_msix_function_mask (bit_set data 30) in
  let s := set_if (has mask 0x8) s A_msix_enable (bit_set data 31) in
  s else s.

(** tb/pcie.py:1638-1664 [Function.read_config_register] below the capability
    registers (registers 0-15). *)
Definition read_header (s : attrs) (reg : Z) : Z :=
  if reg =? 0 then Z.lor (Z.shiftl (s A_device_id) 16) (s A_vendor_id)
  else if reg =? 1 then read_config_1 s
  else if reg =? 2 then Z.lor (Z.shiftl (s A_class_code) 8) (s A_rev_id)
  else if reg =? 3 then
    Z.lor (Z.lor (Z.lor (Z.shiftl (s A_bist) 24) (Z.shiftl (s A_header_type) 16)) (Z.shiftl (s A_lat_timer) 8)) (s A_cache_ln)
  else if reg =? 13 then s A_cap_ptr
  else if reg =? 15 then Z.lor (Z.shiftl (s A_intr_pin) 8) (s A_intr_line)
  else 0.

(** tb/pcie.py:1666-1686 [Function.write_config_register] below the capability
    registers (registers 0-15). *)
Definition write_header (s : attrs) (reg data mask : Z) : result attrs :=
  if reg =? 1 then Ok (write_config_1 s data mask)
  else if reg =? 3 then
    let! v := byte_mask_update (s A_cache_ln) (Z.land mask 1) data (-1) in
    let s := set_attr s A_cache_ln v in
    let! v := byte_mask_update (s A_lat_timer) (Z.land (Z.shiftr mask 1) 1) (Z.shiftr data 8) (-1) in
    let s := set_attr s A_lat_timer v in
    let! v := byte_mask_update (s A_bist) (Z.land (Z.shiftr mask 3) 1) (Z.shiftr data 24) (-1) in
    Ok (set_attr s A_bist v)
  else if reg =? 15 then
    let! v := byte_mask_update (s A_intr_line) (Z.land mask 1) data (-1) in
    let s := set_attr s A_intr_line v in
    let! v := byte_mask_update (s A_intr_pin) (Z.land (Z.shiftr mask 1) 1) (Z.shiftr data 8) (-1) in
    Ok (set_attr s A_intr_pin v)
  else Ok s.

(** tb/pcie.py:1420-1444 [read_msi_cap_register]; None when the function falls
    off its end (unimplemented registers). *)
Definition read_msi_cap_register (s : attrs) (reg : Z) : option Z :=
  let w64 := negb (s A_msi_64bit_address_capable =? 0) in
  let pvm := negb (s A_msi_per_vector_mask_capable =? 0) in
  if reg =? 0 then Some (read_msi_0 s)
  else if reg =? 1 then Some (Z.land (s A_msi_message_address) 0xfffffffc)
  else if (reg =? 2) && w64 then Some (Z.land (Z.shiftr (s A_msi_message_address) 32) 0xffffffff)
  else if reg =? (if w64 then 3 else 2) then Some (Z.land (s A_msi_message_data) 0xffff)
  else if (reg =? (if w64 then 4 else 3)) && pvm then Some (Z.land (s A_msi_mask_bits) 0xffffffff)
  else if (reg =? (if w64 then 5 else 4)) && pvm then Some (Z.land (s A_msi_pending_bits) 0xffffffff)
  else None.

(** tb/pcie.py:1446-1462 [write_msi_cap_register]. *)
Definition write_msi_cap_register (s : attrs) (reg data mask : Z) : result attrs :=
  let w64 := negb (s A_msi_64bit_address_capable =? 0) in
  let pvm := negb (s A_msi_per_vector_mask_capable =? 0) in
  if reg =? 0 then Ok (write_msi_0 s data mask)
  else if reg =? 1 then
    let! v := byte_mask_update (s A_msi_message_address) mask data (-1) in
    Ok (set_attr s A_msi_message_address (Z.land v 0xfffffffffffffffc))
  else if (reg =? 2) && w64 then
    let! v := byte_mask_update (s A_msi_message_address) (Z.shiftl mask 4) (Z.shiftl data 32) (-1) in
    Ok (set_attr s A_msi_message_address (Z.land v 0xfffffffffffffffc))
  else if reg =? (if w64 then 3 else 2) then
    let! v := byte_mask_update (s A_msi_message_data) (Z.land mask 0x3) data (-1) in
    Ok (set_attr s A_msi_message_data (Z.land v 0xffff))
  else if (reg =? (if w64 then 4 else 3)) && pvm then
    let! v := byte_mask_update (s A_msi_mask_bits) mask data (-1) in
    Ok (set_attr s A_msi_mask_bits (Z.land v 0xffffffff))
  else Ok s.

(** tb/pcie.py:1503-1519 [read_msix_cap_register]; None past register 2. *)
Definition read_msix_cap_register (s : attrs) (reg : Z) : option Z :=
  if reg =? 0 then Some (read_msix_0 s)
  else if reg =? 1 then Some (read_msix_1 s)
  else if reg =? 2 then Some (read_msix_2 s)
  else None.

(** tb/pcie.py:842-844 [read_pm_cap_register]; None past register 1. *)
Definition read_pm_cap_register (s : attrs) (reg : Z) : option Z :=
  if reg =? 0 then Some (Z.shiftl (s A_pm_capabilities) 16)
  else if reg =? 1 then Some (Z.lor (Z.shiftl (s A_pm_data) 24) (s A_pm_control_status))
  else None.

(** tb/pcie.py:846-848 [write_pm_cap_register]: does nothing. *)
Definition write_pm_cap_register (s : attrs) (reg data mask : Z) : attrs := s.
