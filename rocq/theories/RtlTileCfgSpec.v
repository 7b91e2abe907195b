(** What the outputs of the configuration interfaces are to show. The registers that the hard block reports are written down as rows of fields, from the highest bit
    down; the places of the fields in a word follow from their widths. A report is a clock with an address, a function and a word. *)
From Coq Require Import String.
From Verif Require Import PyBase RtlTileCfgModel.
Local Open Scope string_scope.
Local Open Scope Z_scope.

(** A part of a word: bits hi to lo of a named field, or unused bits. *)
Inductive cell := F (n : string) (hi lo : Z) | R (k : Z).
Definition B (n : string) : cell := F n 0 0.

(** Where in a word whose bits from top on are used up bit b of field n is. *)
Fixpoint place (c : list cell) (top : Z) (n : string) (b : Z) : option Z :=
  match c with
  | [] => None
  | R k :: t => place t (top - k) n b
  | F m hi lo :: t =>
      if String.eqb n m && (lo <=? b) && (b <=? hi) then Some (top - (hi - lo + 1) + (b - lo)) else place t (top - (hi - lo + 1)) n b
  end.

Definition h_rows : list (list cell) :=
  [ [B "ido_request_en"; B "no_snoop_en"; B "relaxed_ordering_en"; F "device_num" 4 0; F "bus_num" 7 0; B "memory_space_en"; B "ido_cpl_en"; B "perr_en"; B "serr_en";
     B "fatal_err_rpt_en"; B "nonfatal_err_rpt_en"; B "corr_err_rpt_en"; B "unsupported_req_rpt_en"; B "bus_master_en"; B "ext_tag_en"; F "max_read_request_size" 2 0; F "max_payload_size" 2 0];
    [F "num_vf" 15 0; B "pm_no_soft_rst"; B "rcb_ctrl"; B "irq_disable"; F "pcie_cap_irq_msg_num" 4 0; R 3; B "sys_pwr_ctrl"; F "sys_atten_ind_ctrl" 1 0; F "sys_pwr_ind_ctrl" 1 0];
    [F "an_link_speed" 3 0; F "start_vf_index" 10 0; R 3; F "ats_stu" 4 0; B "ats_cache_en"; B "ari_forward_en"; B "atomic_request_en"; F "tph_st_mode" 2 0; F "tph_en" 1 0; B "vf_en"];
    [F "msi_address" 31 0]; [F "msi_address" 63 32]; [F "msi_mask" 31 0];
    [F "msi_data" 15 0; B "send_f_err"; B "send_nf_err"; B "send_cor_err"; F "aer_irq_msg_num" 4 0; R 1; B "msix_func_mask"; B "msix_enable"; F "multiple_msi_enable" 2 0; B "64bit_msi"; B "msi_enable"];
    [F "aer_uncor_err_mask" 31 0]; [F "aer_corr_err_mask" 31 0]; [F "aer_uncor_err_severity" 31 0] ].

Definition l_rows : list (list cell) :=
  [ [B "ido_request_en"; B "no_snoop_en"; B "relaxed_ordering_en"; F "device_num" 4 0; F "bus_num" 7 0; B "memory_space_en"; B "ido_cpl_en"; F "an_link_width" 5 0;
     B "bus_master_en"; B "ext_tag_en"; F "max_read_request_size" 2 0; F "max_payload_size" 2 0];
    [B "send_f_err"; B "send_nf_err"; B "send_cor_err"; F "aer_irq_msg_num" 4 0; F "an_link_width" 5 0; B "pm_no_soft_rst"; B "rcb_ctrl"; R 2; B "irq_disable"; F "pcie_cap_irq_msg_num" 4 0; R 3;
     B "sys_pwr_ctrl"; F "sys_atten_ind_ctrl" 1 0; F "sys_pwr_ind_ctrl" 1 0];
    [F "start_vf_index" 7 0; F "num_vf" 7 0; F "an_link_speed" 3 0; F "ats_stu" 4 0; B "ats_cache_en"; B "ari_forward_en"; B "atomic_request_en"; F "tph_st_mode" 1 0; F "tph_en" 0 0; B "vf_en"];
    [F "msi_address" 31 0]; [F "msi_address" 63 32]; [F "msi_mask" 31 0];
    [F "msi_data" 15 0; R 9; B "msix_func_mask"; B "msix_enable"; F "multiple_msi_enable" 2 0; B "64bit_msi"; B "msi_enable"];
    [R 22; F "an_link_speed" 3 0; F "an_link_width" 5 0] ].

Definition p_rows : list (list cell) :=
  [ [B "memory_space_en"; B "ido_cpl_en"; B "perr_en"; B "serr_en"; B "fatal_err_rpt_en"; B "nonfatal_err_rpt_en"; B "corr_err_rpt_en"; B "unsupported_req_rpt_en"; B "bus_master_en"; B "ext_tag_en";
     F "max_read_request_size" 2 0; F "max_payload_size" 2 0];
    [B "ido_request_en"; B "no_snoop_en"; B "relaxed_ordering_en"; F "device_num" 4 0; F "bus_num" 7 0];
    [B "pm_no_soft_rst"; B "rcb_ctrl"; B "irq_disable"; F "pcie_cap_irq_msg_num" 4 0; R 3; B "sys_pwr_ctrl"; F "sys_atten_ind_ctrl" 1 0; F "sys_pwr_ind_ctrl" 1 0];
    [F "num_vf" 15 0];
    [R 1; B "atomic_egress_block"; F "ats_stu" 4 0; B "ats_cache_en"; B "ari_forward_en"; B "atomic_request_en"; F "tph_st_mode" 2 0; F "tph_en" 1 0; B "vf_en"];
    [F "an_link_speed" 3 0; F "start_vf_index" 10 0; R 1];
    [F "msi_address" 15 0]; [F "msi_address" 31 16]; [F "msi_address" 47 32]; [F "msi_address" 63 48]; [F "msi_mask" 15 0]; [F "msi_mask" 31 16];
    [B "send_f_err"; B "send_nf_err"; B "send_cor_err"; F "aer_irq_msg_num" 4 0; B "msi_ext_data_en"; B "msix_func_mask"; B "msix_enable"; F "multiple_msi_enable" 2 0; B "64bit_msi"; B "msi_enable"];
    [F "msi_data" 15 0];
    [F "aer_uncor_err_mask" 15 0]; [F "aer_uncor_err_mask" 31 16]; [F "aer_corr_err_mask" 15 0]; [F "aer_corr_err_mask" 31 16]; [F "aer_uncor_err_severity" 15 0]; [F "aer_uncor_err_severity" 31 16];
    [F "acs_egress_ctrl_vec" 7 0; B "acs_func_grp_en"; B "acs_p2p_direct_tranl_en"; B "acs_egress_ctrl_en"; B "acs_up_forward_en"; B "acs_p2p_compl_redirect_en"; B "acs_p2p_req_redirect_en";
     B "acs_at_blocking_en"; B "acs_validation_en"];
    [R 1; B "10b_tag_req_en"; B "vf_10b_tag_req_en"; B "prs_response_failure"; B "prs_uprgi"; B "prs_stopped"; B "prs_reset"; B "prs_enable"; R 5; F "ari_func_grp" 2 0];
    [F "prs_outstanding_allocation" 15 0]; [F "prs_outstanding_allocation" 31 16];
    [R 6; B "disable_ltr_clr_msg"; B "ltr_m_en"; B "fc_ph_cdts_inf"; B "fc_pd_cdts_inf"; B "fc_ch_cdts_inf"; B "fc_cd_cdts_inf"; B "end2end_tlp_pfx_blck"; B "pf_pasid_en"; B "pf_pasid_execute_perm_en";
     B "pf_pasid_priv_mode_en"];
    [R 7; B "atten_button_pressed_en"; B "cfg_pwr_fault_det_en"; B "mrl_sensor_chged_en"; B "pre_det_chged_en"; B "hp_int_en"; B "cmd_cpled_int_en"; B "dll_state_change_en"; B "hp_slot_ctrl_access"; B "br_ctrl_serren"];
    [F "ltr_max_latency" 15 0]; [F "ltr_max_latency" 31 16];
    [F "tc_enable" 7 0; R 2; F "an_link_width" 5 0];
    [F "msi_data" 31 16] ].

Definition rows (t : cfg_tile) : list (list cell) := match t with HTile => h_rows | LTile => l_rows | PTile => p_rows end.
(** The length of a word and the number of addresses; the L-Tile has four address bits. *)
Definition wordlen (t : cfg_tile) : Z := match t with PTile => 16 | _ => 32 end.
Definition reg (t : cfg_tile) (a : Z) : Z := match t with LTile => a mod 16 | _ => a end.
(** Bit b of field n in the word of register r. *)
Definition bit_of (t : cfg_tile) (r : Z) (n : string) (b : Z) : option Z := place (nth (Z.to_nat r) (rows t) []) (wordlen t) n b.

(** The word of the last report of register r for function f since the last reset; cur before. *)
Fixpoint word (t : cfg_tile) (f r : Z) (ins : list cfg_in) (cur : Z) : Z :=
  match ins with
  | [] => cur
  | i :: l => word t f r l (if ci_rst i then 0 else if (ci_func i =? f) && (reg t (ci_add i) =? r) then ci_ctl i else cur)
  end.
(** Bit b of field n in the last report for function f that has it. *)
Fixpoint shown (t : cfg_tile) (f : Z) (n : string) (b : Z) (ins : list cfg_in) (cur : bool) : bool :=
  match ins with
  | [] => cur
  | i :: l => shown t f n b l
                (if ci_rst i then false
                 else if ci_func i =? f then match bit_of t (reg t (ci_add i)) n b with Some k => Z.testbit (ci_ctl i) k | None => cur end
                 else cur)
  end.

(** The reports are words of the right length; addresses have five bits. *)
Definition report (t : cfg_tile) (i : cfg_in) : Prop := 0 <= ci_func i /\ 0 <= ci_add i < 32 /\ 0 <= ci_ctl i < 2 ^ wordlen t.
(** Bit b of field n of function f in the outputs. *)
Definition out_bit (t : cfg_tile) (s : cfg_state) (f : Z) (n : string) (b : Z) : bool := Z.testbit (s n) (f * cfg_w (cfg_ports t) n + b).
(** A field of the module has a bit b. *)
Definition has_bit (t : cfg_tile) (n : string) (b : Z) : Prop := 0 <= b < cfg_w (cfg_ports t) n.
