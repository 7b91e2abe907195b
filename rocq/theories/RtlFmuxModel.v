(** The TLP FIFO multiplexer: rtl/pcie_tlp_fifo_mux.v, with the FIFOs with control output of rtl/pcie_tlp_fifo_raw.v (CTRL_OUT_EN = 1), for one segment
    at the inputs and at the output (IN_TLP_SEG_COUNT = OUT_TLP_SEG_COUNT = 1).  Segment offsets and counts are constants then and left out. *)
From Verif Require Import PyBase RtlModel RtlFcModel RtlFifoModel.

(** rtl/pcie_tlp_fifo_mux.v:37, 51-57: PORTS, ARB_TYPE_ROUND_ROBIN, ARB_LSB_HIGH_PRIORITY, the FIFOs. *)
Record fm_param := mkMp { mp_n : Z; mp_rr : bool; mp_lsb : bool; mp_f : fi_param }.
(** rtl/pcie_tlp_fifo_mux.v:61-76, 91, 106: the inputs: reset; per port a beat, valid and pause; out_tlp_ready. *)
Record fm_in := mkMi { mi_rst : bool; mi_b : Z -> fbeat; mi_valid : Z -> bool; mi_pause : Z -> bool; mi_ready : bool }.
(** rtl/pcie_tlp_fifo_mux.v:505-542: output FIFO (pointers, half full, memory) and the output register. *)
Record fm_out := mkMo { mo_wr : Z; mo_rd : Z; mo_half : bool; mo_mem : Z -> fbeat; mo_v : bool; mo_b : fbeat }.
(** rtl/pcie_tlp_fifo_mux.v:139-157, 184, 199-298: per port the FIFO, seen from its output and from its control output; frame_reg, port_reg, out_sel_reg, out_sel_port_reg, fifo_read_en_reg,
    sel_tlp_seq_valid_reg, out_sel_tlp_seq_reg, out_sel_tlp_seq_valid_reg, the credit counts, the output.
    The two views of a FIFO have a copy each of what they share: the memory and the write pointers (see [df_step]). *)
Record fm_st := mkMs { ms_d : Z -> fi_st; ms_c : Z -> fi_st; ms_frame : bool; ms_port : Z; ms_sel : bool; ms_selp : Z; ms_ren : Z -> bool;
                       ms_sq : Z -> bool; ms_osq : Z; ms_osqv : Z -> bool; ms_fc : fc_counts; ms_out : fm_out }.

(** rtl/pcie_tlp_fifo_raw.v:234: in_tlp_ready with the control output. *)
Definition df_ready (d c : fi_st) : bool := negb (fs_full d || fs_full c).
(** rtl/pcie_tlp_fifo_raw.v:376-393, 578-626: what one of the two read sides with its own full flag sees of the inputs: a beat is valid for it if the other one is not full; [x] is the other one, [r] its read enable. *)
Definition df_in (rst : bool) (b : fbeat) (v : bool) (x : fi_st) (r : bool) : fi_in := mkFi rst b (v && negb (fs_full x)) r.
(** rtl/pcie_tlp_fifo_raw.v:376-393, 485-525, 578-626, 765-832: one clock of a FIFO with control output. The second read side (605-626) has the same logic as the first (579-603), so both are
    a [fi_step]; the write side is the same in both, since both take the beat if neither is full. The control output has strb, hdr, sop and eop only. *)
Definition df_step (p : fi_param) (d c : fi_st) (rst : bool) (b : fbeat) (v rd rc : bool) : fi_st * fi_st :=
  (fi_step p d (df_in rst b v c rd), fi_step p c (df_in rst b v d rc)).

(** rtl/pcie_tlp_fifo_mux.v:393-405: the next port. *)
Definition fm_succ (p : fm_param) (c : Z) : Z := if mp_lsb p then (if c <? mp_n p - 1 then c + 1 else 0) else (if 0 <? c then c - 1 else mp_n p - 1).
(** rtl/pcie_tlp_fifo_mux.v:357-379: the port to start with. *)
Definition fm_start (p : fm_param) (c : Z) : Z := if mp_rr p then fm_succ p c else if mp_lsb p then 0 else mp_n p - 1.
(** rtl/pcie_tlp_fifo_mux.v:386: this port can start. *)
Definition fm_can (s : fm_st) (i : fm_in) (c : Z) : bool := negb (mi_pause i c) && fs_ov (ms_c s c).
(** rtl/pcie_tlp_fifo_mux.v:380-406: the loop over the ports; port_cyc and frame_cyc. [k]+1 turns are left. *)
Fixpoint fm_scan (p : fm_param) (s : fm_st) (i : fm_in) (k : nat) (c : Z) : Z * bool :=
  if fm_can s i c then (c, true) else match k with O => (c, false) | S k => fm_scan p s i k (fm_succ p c) end.
(** rtl/pcie_tlp_fifo_mux.v:354-412: port_cyc and frame. *)
Definition fm_arb (p : fm_param) (s : fm_st) (i : fm_in) : Z * bool :=
  if ms_frame s then (ms_port s, true) else fm_scan p s i (Z.to_nat (mp_n p - 1)) (fm_start p (ms_port s)).
(** rtl/pcie_tlp_fifo_mux.v:428-434, 544: a beat is read in this clock. *)
Definition fm_go (p : fm_param) (s : fm_st) (i : fm_in) : bool := snd (fm_arb p s i) && fs_ov (ms_c s (fst (fm_arb p s i))) && negb (mo_half (ms_out s)).
(** rtl/pcie_tlp_fifo_mux.v:438-439: fifo_read_en_next, fifo_ctrl_read_en. *)
Definition fm_read (p : fm_param) (s : fm_st) (i : fm_in) (n : Z) : bool := fm_go p s i && (n =? fst (fm_arb p s i)).
(** rtl/pcie_tlp_fifo_mux.v:452-463: the beat for the output FIFO, and out_tlp_valid_int. *)
Definition fm_b (s : fm_st) : fbeat := fs_ob (ms_d s (ms_selp s)).
(** rtl/pcie_tlp_fifo_mux.v:459-461: out_tlp_valid_int. *)
Definition fm_v (s : fm_st) : bool := ms_sel s && fs_ov (ms_d s (ms_selp s)).

(** rtl/pcie_tlp_fifo_mux.v:124, 516-521: OUTPUT_FIFO_ADDR_WIDTH is 5, the pointers have 6 bits; full. *)
Definition mo_full (o : fm_out) : bool := mo_wr o =? (mo_rd o + 32) mod 64.
(** rtl/pcie_tlp_fifo_mux.v:576: the output register takes a beat. *)
Definition mo_pop (o : fm_out) (ready : bool) : bool := negb (mo_wr o =? mo_rd o) && (negb (mo_v o) || ready).
(** rtl/pcie_tlp_fifo_mux.v:557-599: one clock of the output; half full is not reset. *)
Definition mo_step (o : fm_out) (rst v ready : bool) (b : fbeat) : fm_out :=
  let w := negb (mo_full o) && v in
  let mem := if w then (fun a => if a =? mo_wr o mod 32 then b else mo_mem o a) else mo_mem o in
  let half := (mo_wr o - mo_rd o) mod 64 >=? 16 in
  let ob := if mo_pop o ready then mo_mem o (mo_rd o mod 32) else mo_b o in
  if rst then mkMo 0 0 half mem false ob
  else mkMo (if w then (mo_wr o + 1) mod 64 else mo_wr o) (if mo_pop o ready then (mo_rd o + 1) mod 64 else mo_rd o) half mem
            (if mo_pop o ready then true else if ready then false else mo_v o) ob.

(** rtl/pcie_tlp_fifo_mux.v:199-266: the FIFOs of the ports, generated for each n below PORTS: a table of the values of f (so that they are computed once); f itself elsewhere. *)
Definition fm_tab (n : Z) (f : Z -> fi_st) : Z -> fi_st :=
  let l := map (fun k => f (Z.of_nat k)) (seq 0 (Z.to_nat n)) in fun k => if k <? 0 then f k else match nth_error l (Z.to_nat k) with Some x => x | None => f k end.

(** rtl/pcie_tlp_fifo_mux.v:199-298, 302-502, 557-599: one clock. The credits of a TLP are counted with its beat (273-298). *)
Definition fm_step (p : fm_param) (s : fm_st) (i : fm_in) : fm_st :=
  let a := fm_arb p s i in let rst := mi_rst i in
  let f n := df_step (mp_f p) (ms_d s n) (ms_c s n) rst (mi_b i n) (mi_valid i n) (ms_ren s n) (fm_read p s i n) in
  let d := fm_tab (mp_n p) (fun n => fst (f n)) in let c := fm_tab (mp_n p) (fun n => snd (f n)) in
  let fc := fc_step 1 rst (fb_hdr (fm_b s)) (if fm_v s then 1 else 0) (if fb_sop (fm_b s) then 1 else 0) true in
  let o := mo_step (ms_out s) rst (fm_v s) (mi_ready i) (fm_b s) in
  if rst then mkMs d c false 0 false (fst a) (fun _ => false) (fun _ => false) (fb_seq (fm_b s)) (fun _ => false) fc o
  else mkMs d c (if fm_go p s i then negb (fb_eop (fs_ob (ms_c s (fst a)))) else ms_frame s) (if fm_go p s i then fst a else ms_port s)
            (fm_go p s i) (fst a) (fm_read p s i) (fun n => negb (ms_frame s) && fm_read p s i n) (fb_seq (fm_b s)) (ms_sq s) fc o.
(** rtl/pcie_tlp_fifo_mux.v:472-599: clock after clock: the inputs with the state they meet. *)
Fixpoint fm_trace (p : fm_param) (s : fm_st) (l : list fm_in) : list (fm_in * fm_st) :=
  match l with [] => [] | i :: r => (i, s) :: fm_trace p (fm_step p s i) r end.
(** rtl/pcie_tlp_fifo_mux.v:472-599: the state after all clocks. *)
Definition fm_run (p : fm_param) (s : fm_st) (l : list fm_in) : fm_st := fold_left (fm_step p) l s.
