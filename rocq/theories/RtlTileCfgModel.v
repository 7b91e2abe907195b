(** The configuration interfaces of the Intel tiles: rtl/pcie_s10_cfg.v (Stratix 10 H-Tile and L-Tile) and rtl/pcie_ptile_cfg.v (P-Tile).
    Outputs are named without the prefix cfg_. The assignments are given as tables, register by register. *)
From Coq Require Import String.
From Verif Require Import PyBase RtlModel.
Local Open Scope string_scope.
Local Open Scope Z_scope.

(** rtl/pcie_s10_cfg.v:42-50, rtl/pcie_ptile_cfg.v:40-48: the inputs rst, tl_cfg_ctl, tl_cfg_add and tl_cfg_func. *)
Record cfg_in := mkCi { ci_rst : bool; ci_ctl : Z; ci_add : Z; ci_func : Z }.
(** rtl/pcie_s10_cfg.v:112-244, rtl/pcie_ptile_cfg.v:150-315: one assignment cfg_name[tl_cfg_func*stride+off +: width] <= tl_cfg_ctl[hi:lo]; an index without factor has stride 1. *)
Record cfg_asg := mkCa { ca_name : string; ca_stride : Z; ca_off : Z; ca_width : Z; ca_hi : Z; ca_lo : Z }.
(** rtl/pcie_s10_cfg.v:55-104, rtl/pcie_ptile_cfg.v:53-143: the state, all outputs by name. *)
Definition cfg_state := string -> Z.

(** rtl/pcie_s10_cfg.v:55-104: the outputs and their widths for one function (the factor of PF_COUNT). *)
Definition s10_ports : list (string * Z) :=
  [("memory_space_en", 1); ("ido_cpl_en", 1); ("perr_en", 1); ("serr_en", 1); ("fatal_err_rpt_en", 1); ("nonfatal_err_rpt_en", 1);
   ("corr_err_rpt_en", 1); ("unsupported_req_rpt_en", 1); ("bus_master_en", 1); ("ext_tag_en", 1); ("max_read_request_size", 3); ("max_payload_size", 3);
   ("ido_request_en", 1); ("no_snoop_en", 1); ("relaxed_ordering_en", 1); ("device_num", 5); ("bus_num", 8); ("pm_no_soft_rst", 1);
   ("rcb_ctrl", 1); ("irq_disable", 1); ("pcie_cap_irq_msg_num", 5); ("sys_pwr_ctrl", 1); ("sys_atten_ind_ctrl", 2); ("sys_pwr_ind_ctrl", 2);
   ("num_vf", 16); ("ats_stu", 5); ("ats_cache_en", 1); ("ari_forward_en", 1); ("atomic_request_en", 1); ("tph_st_mode", 3);
   ("tph_en", 2); ("vf_en", 1); ("an_link_speed", 4); ("an_link_width", 6); ("start_vf_index", 11); ("msi_address", 64);
   ("msi_mask", 32); ("send_f_err", 1); ("send_nf_err", 1); ("send_cor_err", 1); ("aer_irq_msg_num", 5); ("msix_func_mask", 1);
   ("msix_enable", 1); ("multiple_msi_enable", 3); ("64bit_msi", 1); ("msi_enable", 1); ("msi_data", 16); ("aer_uncor_err_mask", 32);
   ("aer_corr_err_mask", 32); ("aer_uncor_err_severity", 32)].

(** rtl/pcie_ptile_cfg.v:53-143: the outputs and their widths for one function (the factor of PF_COUNT). *)
Definition pt_ports : list (string * Z) :=
  [("memory_space_en", 1); ("ido_cpl_en", 1); ("perr_en", 1); ("serr_en", 1); ("fatal_err_rpt_en", 1); ("nonfatal_err_rpt_en", 1);
   ("corr_err_rpt_en", 1); ("unsupported_req_rpt_en", 1); ("bus_master_en", 1); ("ext_tag_en", 1); ("max_read_request_size", 3); ("max_payload_size", 3);
   ("ido_request_en", 1); ("no_snoop_en", 1); ("relaxed_ordering_en", 1); ("device_num", 5); ("bus_num", 8); ("pm_no_soft_rst", 1);
   ("rcb_ctrl", 1); ("irq_disable", 1); ("pcie_cap_irq_msg_num", 5); ("sys_pwr_ctrl", 1); ("sys_atten_ind_ctrl", 2); ("sys_pwr_ind_ctrl", 2);
   ("num_vf", 16); ("atomic_egress_block", 1); ("ats_stu", 5); ("ats_cache_en", 1); ("ari_forward_en", 1); ("atomic_request_en", 1);
   ("tph_st_mode", 3); ("tph_en", 2); ("vf_en", 1); ("an_link_speed", 4); ("start_vf_index", 11); ("msi_address", 64);
   ("msi_mask", 32); ("send_f_err", 1); ("send_nf_err", 1); ("send_cor_err", 1); ("aer_irq_msg_num", 5); ("msi_ext_data_en", 1);
   ("msix_func_mask", 1); ("msix_enable", 1); ("multiple_msi_enable", 3); ("64bit_msi", 1); ("msi_enable", 1); ("msi_data", 32);
   ("aer_uncor_err_mask", 32); ("aer_corr_err_mask", 32); ("aer_uncor_err_severity", 32); ("acs_egress_ctrl_vec", 8); ("acs_func_grp_en", 1); ("acs_p2p_direct_tranl_en", 1);
   ("acs_egress_ctrl_en", 1); ("acs_up_forward_en", 1); ("acs_p2p_compl_redirect_en", 1); ("acs_p2p_req_redirect_en", 1); ("acs_at_blocking_en", 1); ("acs_validation_en", 1);
   ("10b_tag_req_en", 1); ("vf_10b_tag_req_en", 1); ("prs_response_failure", 1); ("prs_uprgi", 1); ("prs_stopped", 1); ("prs_reset", 1);
   ("prs_enable", 1); ("ari_func_grp", 3); ("prs_outstanding_allocation", 32); ("disable_ltr_clr_msg", 1); ("ltr_m_en", 1); ("fc_ph_cdts_inf", 1);
   ("fc_pd_cdts_inf", 1); ("fc_ch_cdts_inf", 1); ("fc_cd_cdts_inf", 1); ("end2end_tlp_pfx_blck", 1); ("pf_pasid_en", 1); ("pf_pasid_execute_perm_en", 1);
   ("pf_pasid_priv_mode_en", 1); ("atten_button_pressed_en", 1); ("cfg_pwr_fault_det_en", 1); ("mrl_sensor_chged_en", 1); ("pre_det_chged_en", 1); ("hp_int_en", 1);
   ("cmd_cpled_int_en", 1); ("dll_state_change_en", 1); ("hp_slot_ctrl_access", 1); ("br_ctrl_serren", 1); ("ltr_max_latency", 32); ("tc_enable", 8);
   ("an_link_width", 6)].

(** rtl/pcie_s10_cfg.v:112-123: register 0x00. *)
Definition s10l_00 : list cfg_asg :=
  [mkCa "ido_request_en" 1 0 1 31 31;
   mkCa "no_snoop_en" 1 0 1 30 30;
   mkCa "relaxed_ordering_en" 1 0 1 29 29;
   mkCa "device_num" 5 0 5 28 24;
   mkCa "bus_num" 8 0 8 23 16;
   mkCa "memory_space_en" 1 0 1 15 15;
   mkCa "ido_cpl_en" 1 0 1 14 14;
   mkCa "an_link_width" 6 0 6 13 8;
   mkCa "bus_master_en" 1 0 1 7 7;
   mkCa "ext_tag_en" 1 0 1 6 6;
   mkCa "max_read_request_size" 3 0 3 5 3;
   mkCa "max_payload_size" 3 0 3 2 0].

(** rtl/pcie_s10_cfg.v:126-137: register 0x01. *)
Definition s10l_01 : list cfg_asg :=
  [mkCa "send_f_err" 1 0 1 31 31;
   mkCa "send_nf_err" 1 0 1 30 30;
   mkCa "send_cor_err" 1 0 1 29 29;
   mkCa "aer_irq_msg_num" 5 0 5 28 24;
   mkCa "an_link_width" 6 0 6 23 18;
   mkCa "pm_no_soft_rst" 1 0 1 17 17;
   mkCa "rcb_ctrl" 1 0 1 16 16;
   mkCa "irq_disable" 1 0 1 13 13;
   mkCa "pcie_cap_irq_msg_num" 5 0 5 12 8;
   mkCa "sys_pwr_ctrl" 1 0 1 4 4;
   mkCa "sys_atten_ind_ctrl" 2 0 2 3 2;
   mkCa "sys_pwr_ind_ctrl" 2 0 2 1 0].

(** rtl/pcie_s10_cfg.v:140-149: register 0x02. *)
Definition s10l_02 : list cfg_asg :=
  [mkCa "start_vf_index" 11 0 11 31 24;
   mkCa "num_vf" 16 0 16 23 16;
   mkCa "an_link_speed" 4 0 4 15 12;
   mkCa "ats_stu" 5 0 5 11 7;
   mkCa "ats_cache_en" 1 0 1 6 6;
   mkCa "ari_forward_en" 1 0 1 5 5;
   mkCa "atomic_request_en" 1 0 1 4 4;
   mkCa "tph_st_mode" 3 0 3 3 2;
   mkCa "tph_en" 2 0 2 1 1;
   mkCa "vf_en" 1 0 1 0 0].

(** rtl/pcie_s10_cfg.v:152-152: register 0x03. *)
Definition s10l_03 : list cfg_asg :=
  [mkCa "msi_address" 64 0 32 31 0].

(** rtl/pcie_s10_cfg.v:155-155: register 0x04. *)
Definition s10l_04 : list cfg_asg :=
  [mkCa "msi_address" 64 32 32 31 0].

(** rtl/pcie_s10_cfg.v:158-158: register 0x05. *)
Definition s10l_05 : list cfg_asg :=
  [mkCa "msi_mask" 32 0 32 31 0].

(** rtl/pcie_s10_cfg.v:161-166: register 0x06. *)
Definition s10l_06 : list cfg_asg :=
  [mkCa "msi_data" 16 0 16 31 16;
   mkCa "msix_func_mask" 1 0 1 6 6;
   mkCa "msix_enable" 1 0 1 5 5;
   mkCa "multiple_msi_enable" 3 0 3 4 2;
   mkCa "64bit_msi" 1 0 1 1 1;
   mkCa "msi_enable" 1 0 1 0 0].

(** rtl/pcie_s10_cfg.v:169-170: register 0x07. *)
Definition s10l_07 : list cfg_asg :=
  [mkCa "an_link_speed" 4 0 4 9 6;
   mkCa "an_link_width" 6 0 6 5 0].

(** rtl/pcie_s10_cfg.v:110: the case statement for the L-Tile; a is the low four bits of the address. *)
Definition s10l_case (a : Z) : list cfg_asg :=
  if a =? 0 then s10l_00 else
  if a =? 1 then s10l_01 else
  if a =? 2 then s10l_02 else
  if a =? 3 then s10l_03 else
  if a =? 4 then s10l_04 else
  if a =? 5 then s10l_05 else
  if a =? 6 then s10l_06 else
  if a =? 7 then s10l_07 else [].

(** rtl/pcie_s10_cfg.v:176-192: register 0x00. *)
Definition s10h_00 : list cfg_asg :=
  [mkCa "ido_request_en" 1 0 1 31 31;
   mkCa "no_snoop_en" 1 0 1 30 30;
   mkCa "relaxed_ordering_en" 1 0 1 29 29;
   mkCa "device_num" 5 0 5 28 24;
   mkCa "bus_num" 8 0 8 23 16;
   mkCa "memory_space_en" 1 0 1 15 15;
   mkCa "ido_cpl_en" 1 0 1 14 14;
   mkCa "perr_en" 1 0 1 13 13;
   mkCa "serr_en" 1 0 1 12 12;
   mkCa "fatal_err_rpt_en" 1 0 1 11 11;
   mkCa "nonfatal_err_rpt_en" 1 0 1 10 10;
   mkCa "corr_err_rpt_en" 1 0 1 9 9;
   mkCa "unsupported_req_rpt_en" 1 0 1 8 8;
   mkCa "bus_master_en" 1 0 1 7 7;
   mkCa "ext_tag_en" 1 0 1 6 6;
   mkCa "max_read_request_size" 3 0 3 5 3;
   mkCa "max_payload_size" 3 0 3 2 0].

(** rtl/pcie_s10_cfg.v:195-202: register 0x01. *)
Definition s10h_01 : list cfg_asg :=
  [mkCa "num_vf" 16 0 16 31 16;
   mkCa "pm_no_soft_rst" 1 0 1 15 15;
   mkCa "rcb_ctrl" 1 0 1 14 14;
   mkCa "irq_disable" 1 0 1 13 13;
   mkCa "pcie_cap_irq_msg_num" 5 0 5 12 8;
   mkCa "sys_pwr_ctrl" 1 0 1 4 4;
   mkCa "sys_atten_ind_ctrl" 2 0 2 3 2;
   mkCa "sys_pwr_ind_ctrl" 2 0 2 1 0].

(** rtl/pcie_s10_cfg.v:205-213: register 0x02. *)
Definition s10h_02 : list cfg_asg :=
  [mkCa "an_link_speed" 4 0 4 31 28;
   mkCa "start_vf_index" 11 0 11 27 17;
   mkCa "ats_stu" 5 0 5 13 9;
   mkCa "ats_cache_en" 1 0 1 8 8;
   mkCa "ari_forward_en" 1 0 1 7 7;
   mkCa "atomic_request_en" 1 0 1 6 6;
   mkCa "tph_st_mode" 3 0 3 5 3;
   mkCa "tph_en" 2 0 2 2 1;
   mkCa "vf_en" 1 0 1 0 0].

(** rtl/pcie_s10_cfg.v:216-216: register 0x03. *)
Definition s10h_03 : list cfg_asg :=
  [mkCa "msi_address" 64 0 32 31 0].

(** rtl/pcie_s10_cfg.v:219-219: register 0x04. *)
Definition s10h_04 : list cfg_asg :=
  [mkCa "msi_address" 64 32 32 31 0].

(** rtl/pcie_s10_cfg.v:222-222: register 0x05. *)
Definition s10h_05 : list cfg_asg :=
  [mkCa "msi_mask" 32 0 32 31 0].

(** rtl/pcie_s10_cfg.v:225-234: register 0x06. *)
Definition s10h_06 : list cfg_asg :=
  [mkCa "msi_data" 16 0 16 31 16;
   mkCa "send_f_err" 1 0 1 15 15;
   mkCa "send_nf_err" 1 0 1 14 14;
   mkCa "send_cor_err" 1 0 1 13 13;
   mkCa "aer_irq_msg_num" 5 0 5 12 8;
   mkCa "msix_func_mask" 1 0 1 6 6;
   mkCa "msix_enable" 1 0 1 5 5;
   mkCa "multiple_msi_enable" 3 0 3 4 2;
   mkCa "64bit_msi" 1 0 1 1 1;
   mkCa "msi_enable" 1 0 1 0 0].

(** rtl/pcie_s10_cfg.v:237-237: register 0x07. *)
Definition s10h_07 : list cfg_asg :=
  [mkCa "aer_uncor_err_mask" 32 0 32 31 0].

(** rtl/pcie_s10_cfg.v:240-240: register 0x08. *)
Definition s10h_08 : list cfg_asg :=
  [mkCa "aer_corr_err_mask" 32 0 32 31 0].

(** rtl/pcie_s10_cfg.v:243-243: register 0x09. *)
Definition s10h_09 : list cfg_asg :=
  [mkCa "aer_uncor_err_severity" 32 0 32 31 0].

(** rtl/pcie_s10_cfg.v:174: the case statement for the H-Tile. *)
Definition s10h_case (a : Z) : list cfg_asg :=
  if a =? 0 then s10h_00 else
  if a =? 1 then s10h_01 else
  if a =? 2 then s10h_02 else
  if a =? 3 then s10h_03 else
  if a =? 4 then s10h_04 else
  if a =? 5 then s10h_05 else
  if a =? 6 then s10h_06 else
  if a =? 7 then s10h_07 else
  if a =? 8 then s10h_08 else
  if a =? 9 then s10h_09 else [].

(** rtl/pcie_ptile_cfg.v:150-161: register 0x00. *)
Definition pt_00 : list cfg_asg :=
  [mkCa "memory_space_en" 1 0 1 15 15;
   mkCa "ido_cpl_en" 1 0 1 14 14;
   mkCa "perr_en" 1 0 1 13 13;
   mkCa "serr_en" 1 0 1 12 12;
   mkCa "fatal_err_rpt_en" 1 0 1 11 11;
   mkCa "nonfatal_err_rpt_en" 1 0 1 10 10;
   mkCa "corr_err_rpt_en" 1 0 1 9 9;
   mkCa "unsupported_req_rpt_en" 1 0 1 8 8;
   mkCa "bus_master_en" 1 0 1 7 7;
   mkCa "ext_tag_en" 1 0 1 6 6;
   mkCa "max_read_request_size" 3 0 3 5 3;
   mkCa "max_payload_size" 3 0 3 2 0].

(** rtl/pcie_ptile_cfg.v:164-168: register 0x01. *)
Definition pt_01 : list cfg_asg :=
  [mkCa "ido_request_en" 1 0 1 15 15;
   mkCa "no_snoop_en" 1 0 1 14 14;
   mkCa "relaxed_ordering_en" 1 0 1 13 13;
   mkCa "device_num" 5 0 5 12 8;
   mkCa "bus_num" 8 0 8 7 0].

(** rtl/pcie_ptile_cfg.v:171-177: register 0x02. *)
Definition pt_02 : list cfg_asg :=
  [mkCa "pm_no_soft_rst" 1 0 1 15 15;
   mkCa "rcb_ctrl" 1 0 1 14 14;
   mkCa "irq_disable" 1 0 1 13 13;
   mkCa "pcie_cap_irq_msg_num" 5 0 5 12 8;
   mkCa "sys_pwr_ctrl" 1 0 1 4 4;
   mkCa "sys_atten_ind_ctrl" 2 0 2 3 2;
   mkCa "sys_pwr_ind_ctrl" 2 0 2 1 0].

(** rtl/pcie_ptile_cfg.v:180-180: register 0x03. *)
Definition pt_03 : list cfg_asg :=
  [mkCa "num_vf" 16 0 16 15 0].

(** rtl/pcie_ptile_cfg.v:183-190: register 0x04. *)
Definition pt_04 : list cfg_asg :=
  [mkCa "atomic_egress_block" 1 0 1 14 14;
   mkCa "ats_stu" 5 0 5 13 9;
   mkCa "ats_cache_en" 1 0 1 8 8;
   mkCa "ari_forward_en" 1 0 1 7 7;
   mkCa "atomic_request_en" 1 0 1 6 6;
   mkCa "tph_st_mode" 3 0 3 5 3;
   mkCa "tph_en" 2 0 2 2 1;
   mkCa "vf_en" 1 0 1 0 0].

(** rtl/pcie_ptile_cfg.v:193-194: register 0x05. *)
Definition pt_05 : list cfg_asg :=
  [mkCa "an_link_speed" 4 0 4 15 12;
   mkCa "start_vf_index" 11 0 11 11 1].

(** rtl/pcie_ptile_cfg.v:197-197: register 0x06. *)
Definition pt_06 : list cfg_asg :=
  [mkCa "msi_address" 64 0 16 15 0].

(** rtl/pcie_ptile_cfg.v:200-200: register 0x07. *)
Definition pt_07 : list cfg_asg :=
  [mkCa "msi_address" 64 16 16 15 0].

(** rtl/pcie_ptile_cfg.v:203-203: register 0x08. *)
Definition pt_08 : list cfg_asg :=
  [mkCa "msi_address" 64 32 16 15 0].

(** rtl/pcie_ptile_cfg.v:206-206: register 0x09. *)
Definition pt_09 : list cfg_asg :=
  [mkCa "msi_address" 64 48 16 15 0].

(** rtl/pcie_ptile_cfg.v:209-209: register 0x0A. *)
Definition pt_0a : list cfg_asg :=
  [mkCa "msi_mask" 32 0 16 15 0].

(** rtl/pcie_ptile_cfg.v:212-212: register 0x0B. *)
Definition pt_0b : list cfg_asg :=
  [mkCa "msi_mask" 32 16 16 15 0].

(** rtl/pcie_ptile_cfg.v:215-224: register 0x0C. *)
Definition pt_0c : list cfg_asg :=
  [mkCa "send_f_err" 1 0 1 15 15;
   mkCa "send_nf_err" 1 0 1 14 14;
   mkCa "send_cor_err" 1 0 1 13 13;
   mkCa "aer_irq_msg_num" 5 0 5 12 8;
   mkCa "msi_ext_data_en" 1 0 1 7 7;
   mkCa "msix_func_mask" 1 0 1 6 6;
   mkCa "msix_enable" 1 0 1 5 5;
   mkCa "multiple_msi_enable" 3 0 3 4 2;
   mkCa "64bit_msi" 1 0 1 1 1;
   mkCa "msi_enable" 1 0 1 0 0].

(** rtl/pcie_ptile_cfg.v:227-227: register 0x0D. *)
Definition pt_0d : list cfg_asg :=
  [mkCa "msi_data" 32 0 16 15 0].

(** rtl/pcie_ptile_cfg.v:230-230: register 0x0E. *)
Definition pt_0e : list cfg_asg :=
  [mkCa "aer_uncor_err_mask" 32 0 16 15 0].

(** rtl/pcie_ptile_cfg.v:233-233: register 0x0F. *)
Definition pt_0f : list cfg_asg :=
  [mkCa "aer_uncor_err_mask" 32 32 16 15 0].

(** rtl/pcie_ptile_cfg.v:236-236: register 0x10. *)
Definition pt_10 : list cfg_asg :=
  [mkCa "aer_corr_err_mask" 32 0 16 15 0].

(** rtl/pcie_ptile_cfg.v:239-239: register 0x11. *)
Definition pt_11 : list cfg_asg :=
  [mkCa "aer_corr_err_mask" 32 32 16 15 0].

(** rtl/pcie_ptile_cfg.v:242-242: register 0x12. *)
Definition pt_12 : list cfg_asg :=
  [mkCa "aer_uncor_err_severity" 32 0 16 15 0].

(** rtl/pcie_ptile_cfg.v:245-245: register 0x13. *)
Definition pt_13 : list cfg_asg :=
  [mkCa "aer_uncor_err_severity" 32 32 16 15 0].

(** rtl/pcie_ptile_cfg.v:248-256: register 0x14. *)
Definition pt_14 : list cfg_asg :=
  [mkCa "acs_egress_ctrl_vec" 8 0 8 15 8;
   mkCa "acs_func_grp_en" 1 0 1 7 7;
   mkCa "acs_p2p_direct_tranl_en" 1 0 1 6 6;
   mkCa "acs_egress_ctrl_en" 1 0 1 5 5;
   mkCa "acs_up_forward_en" 1 0 1 4 4;
   mkCa "acs_p2p_compl_redirect_en" 1 0 1 3 3;
   mkCa "acs_p2p_req_redirect_en" 1 0 1 2 2;
   mkCa "acs_at_blocking_en" 1 0 1 1 1;
   mkCa "acs_validation_en" 1 0 1 0 0].

(** rtl/pcie_ptile_cfg.v:259-266: register 0x15. *)
Definition pt_15 : list cfg_asg :=
  [mkCa "10b_tag_req_en" 1 0 1 14 14;
   mkCa "vf_10b_tag_req_en" 1 0 1 13 13;
   mkCa "prs_response_failure" 1 0 1 12 12;
   mkCa "prs_uprgi" 1 0 1 11 11;
   mkCa "prs_stopped" 1 0 1 10 10;
   mkCa "prs_reset" 1 0 1 9 9;
   mkCa "prs_enable" 1 0 1 8 8;
   mkCa "ari_func_grp" 3 0 3 2 0].

(** rtl/pcie_ptile_cfg.v:269-269: register 0x16. *)
Definition pt_16 : list cfg_asg :=
  [mkCa "prs_outstanding_allocation" 32 0 16 15 0].

(** rtl/pcie_ptile_cfg.v:272-272: register 0x17. *)
Definition pt_17 : list cfg_asg :=
  [mkCa "prs_outstanding_allocation" 32 16 16 15 0].

(** rtl/pcie_ptile_cfg.v:275-284: register 0x18. *)
Definition pt_18 : list cfg_asg :=
  [mkCa "disable_ltr_clr_msg" 1 0 1 9 9;
   mkCa "ltr_m_en" 1 0 1 8 8;
   mkCa "fc_ph_cdts_inf" 1 0 1 7 7;
   mkCa "fc_pd_cdts_inf" 1 0 1 6 6;
   mkCa "fc_ch_cdts_inf" 1 0 1 5 5;
   mkCa "fc_cd_cdts_inf" 1 0 1 4 4;
   mkCa "end2end_tlp_pfx_blck" 1 0 1 3 3;
   mkCa "pf_pasid_en" 1 0 1 2 2;
   mkCa "pf_pasid_execute_perm_en" 1 0 1 1 1;
   mkCa "pf_pasid_priv_mode_en" 1 0 1 0 0].

(** rtl/pcie_ptile_cfg.v:287-295: register 0x19. *)
Definition pt_19 : list cfg_asg :=
  [mkCa "atten_button_pressed_en" 1 0 1 8 8;
   mkCa "cfg_pwr_fault_det_en" 1 0 1 7 7;
   mkCa "mrl_sensor_chged_en" 1 0 1 6 6;
   mkCa "pre_det_chged_en" 1 0 1 5 5;
   mkCa "hp_int_en" 1 0 1 4 4;
   mkCa "cmd_cpled_int_en" 1 0 1 3 3;
   mkCa "dll_state_change_en" 1 0 1 2 2;
   mkCa "hp_slot_ctrl_access" 1 0 1 1 1;
   mkCa "br_ctrl_serren" 1 0 1 0 0].

(** rtl/pcie_ptile_cfg.v:298-298: register 0x1A. *)
Definition pt_1a : list cfg_asg :=
  [mkCa "ltr_max_latency" 32 0 16 15 0].

(** rtl/pcie_ptile_cfg.v:301-301: register 0x1B. *)
Definition pt_1b : list cfg_asg :=
  [mkCa "ltr_max_latency" 32 16 16 15 0].

(** rtl/pcie_ptile_cfg.v:304-305: register 0x1C. *)
Definition pt_1c : list cfg_asg :=
  [mkCa "tc_enable" 8 0 8 15 8;
   mkCa "an_link_width" 6 0 6 5 0].

(** rtl/pcie_ptile_cfg.v:308-308: register 0x1D. *)
Definition pt_1d : list cfg_asg :=
  [mkCa "msi_data" 32 16 16 15 0].

(** rtl/pcie_ptile_cfg.v:148: the case statement; 0x1E and 0x1F set nothing. *)
Definition pt_case (a : Z) : list cfg_asg :=
  if a =? 0 then pt_00 else
  if a =? 1 then pt_01 else
  if a =? 2 then pt_02 else
  if a =? 3 then pt_03 else
  if a =? 4 then pt_04 else
  if a =? 5 then pt_05 else
  if a =? 6 then pt_06 else
  if a =? 7 then pt_07 else
  if a =? 8 then pt_08 else
  if a =? 9 then pt_09 else
  if a =? 10 then pt_0a else
  if a =? 11 then pt_0b else
  if a =? 12 then pt_0c else
  if a =? 13 then pt_0d else
  if a =? 14 then pt_0e else
  if a =? 15 then pt_0f else
  if a =? 16 then pt_10 else
  if a =? 17 then pt_11 else
  if a =? 18 then pt_12 else
  if a =? 19 then pt_13 else
  if a =? 20 then pt_14 else
  if a =? 21 then pt_15 else
  if a =? 22 then pt_16 else
  if a =? 23 then pt_17 else
  if a =? 24 then pt_18 else
  if a =? 25 then pt_19 else
  if a =? 26 then pt_1a else
  if a =? 27 then pt_1b else
  if a =? 28 then pt_1c else
  if a =? 29 then pt_1d else [].

(** rtl/pcie_s10_cfg.v:55-104, rtl/pcie_ptile_cfg.v:53-143: the width of an output for one function. *)
Fixpoint cfg_w (ports : list (string * Z)) (n : string) : Z :=
  match ports with [] => 0 | (m, w) :: t => if String.eqb n m then w else cfg_w t n end.

(** rtl/pcie_s10_cfg.v:112-244, rtl/pcie_ptile_cfg.v:150-315: v[lo +: w] <= x for a vector of tot bits: x is cut or extended with zeros to w bits; bits outside of the vector are not written. *)
Definition ins_bits (v lo w x tot : Z) : Z :=
  Z.land (Z.lor (Z.ldiff v (Z.shiftl (Z.ones w) lo)) (Z.shiftl (Z.land x (Z.ones w)) lo)) (Z.ones tot).

(** rtl/pcie_s10_cfg.v:112-244, rtl/pcie_ptile_cfg.v:150-315: one assignment for function f. *)
Definition cfg_assign (ports : list (string * Z)) (pf f ctl : Z) (s : cfg_state) (a : cfg_asg) : cfg_state :=
  fun n => if String.eqb n (ca_name a)
           then ins_bits (s n) (f * ca_stride a + ca_off a) (ca_width a) (psel ctl (ca_lo a) (ca_hi a - ca_lo a + 1)) (pf * cfg_w ports n)
           else s n.

(** rtl/pcie_s10_cfg.v:37, rtl/pcie_ptile_cfg.v:33: the three modules: H-Tile (L_TILE 0), L-Tile and P-Tile. *)
Inductive cfg_tile := HTile | LTile | PTile.
(** rtl/pcie_s10_cfg.v:55-104, rtl/pcie_ptile_cfg.v:53-143: the outputs of a module. *)
Definition cfg_ports (t : cfg_tile) : list (string * Z) := match t with PTile => pt_ports | _ => s10_ports end.
(** rtl/pcie_s10_cfg.v:109-246, rtl/pcie_ptile_cfg.v:148-316: the assignments for an address. *)
Definition cfg_case (t : cfg_tile) (a : Z) : list cfg_asg :=
  match t with HTile => s10h_case a | LTile => s10l_case (psel a 0 4) | PTile => pt_case a end.

(** rtl/pcie_s10_cfg.v:107-301, rtl/pcie_ptile_cfg.v:146-412: a clock; the assignments of the reset come last. *)
Definition cfg_step (t : cfg_tile) (pf : Z) (s : cfg_state) (i : cfg_in) : cfg_state :=
  if ci_rst i then fun _ => 0
  else if ci_func i <? pf then fold_left (cfg_assign (cfg_ports t) pf (ci_func i) (ci_ctl i)) (cfg_case t (ci_add i)) s
  else s.

(** rtl/pcie_s10_cfg.v:107-301, rtl/pcie_ptile_cfg.v:146-412: a number of clocks. *)
Definition cfg_run (t : cfg_tile) (pf : Z) (s : cfg_state) (ins : list cfg_in) : cfg_state := fold_left (cfg_step t pf) ins s.
