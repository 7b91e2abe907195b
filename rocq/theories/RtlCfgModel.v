(** Model of rtl/pcie_us_cfg.v: reads of the device control registers through the configuration management interface. *)
From Verif Require Import PyBase RtlModel RtlRamModel.

(** rtl/pcie_us_cfg.v:36-43: the parameters PF_COUNT, VF_COUNT, VF_OFFSET and PCIE_CAP_OFFSET. F_COUNT is not overridden; READ_* are not used by the code. *)
Record uc_param := mkUc { uc_pf : Z; uc_vf : Z; uc_voff : Z; uc_cap : Z }.
(** rtl/pcie_us_cfg.v:39. *)
Definition uc_f (p : uc_param) : Z := uc_pf p + uc_vf p.
(** rtl/pcie_us_cfg.v:71, 118: [DEV_CTRL_OFFSET >> 2], stored in ten bits. *)
Definition uc_addr (p : uc_param) : Z := Z.shiftr (uc_cap p + 8) 2 mod 1024.

(** rtl/pcie_us_cfg.v:46-66: the inputs. *)
Record uc_in := mkUi { ui_rst : bool; ui_data : Z; ui_done : bool }.
(** rtl/pcie_us_cfg.v:73-87: the registers. The vectors of slices are functions of the slice number. The write data and the byte enables are never assigned and left out. *)
Record uc_state := mkUs { us_ext : Z -> Z; us_mrrs : Z -> Z; us_mps : Z -> Z; us_addr : Z; us_fn : Z; us_write : bool; us_read : bool; us_data : Z; us_done : bool; us_delay : Z; us_cnt : Z }.
(** rtl/pcie_us_cfg.v:73-87: initial values. *)
Definition uc0 : uc_state := mkUs (fun _ => 0) (fun _ => 0) (fun _ => 0) 0 0 false false 0 false 255 0.

(** rtl/pcie_us_cfg.v:127-137: the next function. *)
Definition uc_next_func (p : uc_param) (s : uc_state) : Z * Z :=
  if us_cnt s =? uc_f p - 1 then (0, 0)
  else if us_cnt s =? uc_pf p - 1 then ((us_cnt s + 1) mod 256, uc_voff p mod 256)
  else ((us_cnt s + 1) mod 256, (us_fn s + 1) mod 256).

(** rtl/pcie_us_cfg.v:100-141 and 143-158: one clock without reset. *)
Definition uc_next (p : uc_param) (s : uc_state) (i : uc_in) : uc_state :=
  let write := us_write s && negb (ui_done i) in
  let read := us_read s && negb (ui_done i) in
  if us_delay s >? 0 then
    mkUs (us_ext s) (us_mrrs s) (us_mps s) (us_addr s) (us_fn s) write read (ui_data i) (ui_done i) (us_delay s - 1) (us_cnt s)
  else if us_done s then
    mkUs (upd (us_ext s) (us_cnt s) (psel (us_data s) 8 1)) (upd (us_mrrs s) (us_cnt s) (psel (us_data s) 12 3)) (upd (us_mps s) (us_cnt s) (psel (us_data s) 5 3))
      (uc_addr p) (snd (uc_next_func p s)) write false (ui_data i) (ui_done i) 255 (fst (uc_next_func p s))
  else
    mkUs (us_ext s) (us_mrrs s) (us_mps s) (uc_addr p) (us_fn s) write true (ui_data i) (ui_done i) (us_delay s) (us_cnt s).
(** rtl/pcie_us_cfg.v:143-173: one clock. The data register is not reset. *)
Definition uc_step (p : uc_param) (s : uc_state) (i : uc_in) : uc_state :=
  let n := uc_next p s i in
  if ui_rst i then mkUs (fun _ => 0) (fun _ => 0) (fun _ => 0) 0 0 false false (us_data n) false 255 0 else n.

(** rtl/pcie_us_cfg.v:46-66, 89-98: what is seen at the ports in one clock. *)
Record uc_ev := mkUv { uv_in : uc_in; uv_ext : Z -> Z; uv_mrrs : Z -> Z; uv_mps : Z -> Z; uv_addr : Z; uv_fn : Z; uv_write : bool; uv_read : bool }.
(** rtl/pcie_us_cfg.v:89-98. *)
Definition uc_event (s : uc_state) (i : uc_in) : uc_ev := mkUv i (us_ext s) (us_mrrs s) (us_mps s) (us_addr s) (us_fn s) (us_write s) (us_read s).
(** rtl/pcie_us_cfg.v:143-173: clock after clock. *)
Fixpoint uc_trace (p : uc_param) (s : uc_state) (l : list uc_in) : list uc_ev :=
  match l with [] => [] | i :: r => uc_event s i :: uc_trace p (uc_step p s i) r end.
