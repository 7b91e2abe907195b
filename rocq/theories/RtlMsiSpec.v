(** What the MSI shims must do (C84), in terms of their traces. *)
From Verif Require Import PyBase RtlMsiModel.

(** The message handed to the core and not yet answered. *)
Definition out_step (o : option Z) (e : ms_ev) : option Z :=
  match o with
  | None => me_issue e
  | Some j => if me_sent e || me_fail e then None else Some j
  end.
Definition outstanding (tr : list ms_ev) : option Z := fold_left out_step tr None.

(** The core confirms at [e] that message [j] was sent. *)
Definition completes (j : Z) (tr : list ms_ev) (e : ms_ev) : Prop := outstanding tr = Some j /\ me_sent e = true.

(** The core answers at [e] to message [j]: sent or failed. *)
Definition answers (j : Z) (tr : list ms_ev) (e : ms_ev) : Prop := outstanding tr = Some j /\ me_sent e || me_fail e = true.

(** Interrupt request [j] at the last edge of a trace (low before the first). *)
Definition level (j : Z) (tr : list ms_ev) : bool := match rev tr with e :: _ => Z.testbit (me_irq e) j | [] => false end.
Definition rises (j : Z) (tr : list ms_ev) (e : ms_ev) : Prop := level j tr = false /\ Z.testbit (me_irq e) j = true.

(** Request [j] has risen and no message for it was confirmed since. *)
Definition unanswered (j : Z) (tr : list ms_ev) : Prop :=
  exists a e b, tr = a ++ e :: b /\ rises j a e /\ forall b1 x b2, b = b1 ++ x :: b2 -> ~ completes j (a ++ e :: b1) x.

(** Input vectors. *)
Definition us_ok (n : Z) (i : us_in) : Prop :=
  ui_rst i = false /\ 0 <= ui_irq i < 2 ^ n /\ 0 <= ui_enable i < 2 ^ 4 /\ 0 <= ui_mm i < 2 ^ 3 /\ 0 <= ui_data i < 2 ^ 32.
Definition s10_ok (n : Z) (i : s10_in) : Prop :=
  si_rst i = false /\ 0 <= si_irq i < 2 ^ n /\ 0 <= si_mm i < 2 ^ 3 /\ 0 <= si_mask i < 2 ^ 32.

(** An edge at which message [j] is allowed and MSI is on. *)
Definition open_for (j : Z) (e : ms_ev) : Prop := me_en e = true /\ me_allow e j = true.
