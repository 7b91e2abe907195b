(** Model of rtl/irq_rate_limit.v.  A Verilog vector of width w is an integer in [0, 2^w). *)
From Verif Require Import PyBase.

(** rtl/irq_rate_limit.v:64-68: the states. *)
Inductive rl_fsm := RInit | RIdle | RIn | ROut.

(** rtl/irq_rate_limit.v:78-83: a word of the timer memory: pending bit [0], running bit [1] and
    deadline [18:2]. *)
Record rl_word := mkRw { rw_pend : bool; rw_run : bool; rw_dead : Z }.

(** rtl/irq_rate_limit.v:70-88, 103-104: registers; [rl_mem] is mem_reg. *)
Record rl_state := mkRl {
  rl_fsm_reg : rl_fsm;
  rl_cur : Z;
  rl_irq : Z;
  rl_mem : Z -> rl_word;
  rl_rd : rl_word;
  rl_rdv : bool;
  rl_in_ready : bool;
  rl_out_index : Z;
  rl_out_valid : bool;
  rl_presc : Z;
  rl_time : Z }.

(** rtl/irq_rate_limit.v:40-61: inputs of one clock. *)
Record rl_in := mkRi { ri_rst : bool; ri_index : Z; ri_valid : bool; ri_out_ready : bool; ri_prescale : Z; ri_min : Z }.

(** rtl/irq_rate_limit.v:106-118: prescaler and time counter (17 bits) after an edge. *)
Definition rl_timer (s : rl_state) (i : rl_in) : Z * Z :=
  if ri_rst i then (0, 0)
  else if negb (rl_presc s =? 0) then (rl_presc s - 1, rl_time s) else (ri_prescale i, (rl_time s + 1) mod 2 ^ 17).

(** rtl/irq_rate_limit.v:163: the timer test.  Its operands are extended to the 32 bits of the
    literal 0, so that the subtraction wraps at 2^32, not at 2^17. *)
Definition rl_expired (dead time : Z) : bool := negb (Z.shiftr ((dead - time) mod 2 ^ 32) 16 =? 0).

(** rtl/irq_rate_limit.v:83, 255-257: one write of mem_reg. *)
Definition rl_upd (m : Z -> rl_word) (a : Z) (w : rl_word) : Z -> rl_word := fun x => if x =? a then w else m x.

(** rtl/irq_rate_limit.v:120-242: the values of the always block: state, cur_index, irq_index, in_irq_ready,
    mem_rd_data_valid; the interrupt generated (out_irq_valid_next set, out_irq_index_next); the memory
    write or read. *)
Record rl_comb := mkRc { rc_fsm : rl_fsm; rc_cur : Z; rc_irq : Z; rc_ready : bool; rc_rdv : bool; rc_gen : option Z; rc_wr : option (Z * rl_word); rc_rd : option Z }.

(** rtl/irq_rate_limit.v:120-242: the combinational block; [w] is IRQ_INDEX_WIDTH. *)
Definition rl_next (w : Z) (s : rl_state) (i : rl_in) : rl_comb :=
  let cur := rl_cur s in let irq := rl_irq s in
  let free := negb (rl_out_valid s) || ri_out_ready i in
  let restart := mkRw false (negb (ri_min i =? 0)) ((rl_time s + ri_min i) mod 2 ^ 17) in
  match rl_fsm_reg s with
  | RInit =>
    let cur' := (cur + 1) mod 2 ^ w in
    mkRc (if negb (cur' =? 0) then RInit else RIdle) cur' irq false (rl_rdv s) None (Some (cur, mkRw false false 0)) None
  | RIdle =>
    if ri_valid i && rl_in_ready s then
      mkRc RIn cur (ri_index i) false true None None (Some (ri_index i))
    else if rl_rdv s && rw_run (rl_rd s) && rl_expired (rw_dead (rl_rd s)) (rl_time s) then
      mkRc ROut cur irq false (rl_rdv s) None None None
    else
      mkRc RIdle ((cur + 1) mod 2 ^ w) cur true true None None (Some cur)
  | RIn =>
    if rw_run (rl_rd s) then
      mkRc RIdle cur irq true false None (Some (irq, mkRw true true (rw_dead (rl_rd s)))) None
    else if free then
      mkRc RIdle cur irq true false (Some irq) (Some (irq, restart)) None
    else mkRc RIn cur irq false (rl_rdv s) None None None
  | ROut =>
    if rw_pend (rl_rd s) then
      if free then mkRc RIdle cur irq true false (Some irq) (Some (irq, restart)) None
      else mkRc ROut cur irq false (rl_rdv s) None None None
    else mkRc RIdle cur irq true false None (Some (irq, mkRw false false 0)) None
  end.

(** rtl/irq_rate_limit.v:106-118, 244-270: one clock edge. *)
Definition rl_step (w : Z) (s : rl_state) (i : rl_in) : rl_state :=
  let c := rl_next w s i in
  let '(p, t) := rl_timer s i in
  let m := match rc_wr c with Some (a, d) => rl_upd (rl_mem s) a d | None => rl_mem s end in
  let rd := match rc_wr c, rc_rd c with None, Some a => rl_mem s a | _, _ => rl_rd s end in
  let oi := match rc_gen c with Some x => x | None => rl_out_index s end in
  let ov := match rc_gen c with Some _ => true | None => rl_out_valid s && negb (ri_out_ready i) end in
  if ri_rst i then mkRl RInit 0 (rc_irq c) m rd false false oi false p t
  else mkRl (rc_fsm c) (rc_cur c) (rc_irq c) m rd (rc_rdv c) (rc_ready c) oi ov p t.

(** rtl/irq_rate_limit.v:114-117, 263-269: the state after a reset; memory, read data and indices are left as they were. *)
Definition rl_reset (m : Z -> rl_word) (rd : rl_word) (irq oi : Z) : rl_state := mkRl RInit 0 irq m rd false false oi false 0 0.

(** rtl/irq_rate_limit.v:34-61: what can be seen at one clock edge: the request taken, the interrupt
    newly presented on the output, the time counter's tick, the interval asked for. *)
Record rl_ev := mkRe { re_acc : option Z; re_pres : option Z; re_tick : bool; re_min : Z }.

(** rtl/irq_rate_limit.v:34-61: the events of one edge, from the ports before and after it; the tick is
    line 109-112. *)
Definition rl_event (s : rl_state) (i : rl_in) (s' : rl_state) : rl_ev :=
  mkRe (if ri_valid i && rl_in_ready s then Some (ri_index i) else None)
       (if rl_out_valid s' && (negb (rl_out_valid s) || ri_out_ready i) then Some (rl_out_index s') else None)
       (rl_presc s =? 0) (ri_min i).

(** rtl/irq_rate_limit.v:106-270: clock edges in turn. *)
Fixpoint rl_run (w : Z) (s : rl_state) (l : list rl_in) : rl_state * list rl_ev :=
  match l with
  | [] => (s, [])
  | i :: r => let s' := rl_step w s i in let '(s'', e) := rl_run w s' r in (s'', rl_event s i s' :: e)
  end.
