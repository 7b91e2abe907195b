(** What the interrupt rate limiter must do (C83), in terms of its trace. *)
From Verif Require Import PyBase RtlIrqModel.

(** Ticks of the time counter. *)
Definition ticks (tr : list rl_ev) : Z := zlen (filter re_tick tr).

Definition accepts (j : Z) (e : rl_ev) : Prop := re_acc e = Some j.
Definition presents (j : Z) (e : rl_ev) : Prop := re_pres e = Some j.

(** A request for [j] was taken after the last time [j] was presented. *)
Definition owed (j : Z) (tr : list rl_ev) : Prop :=
  exists a e b, tr = a ++ e :: b /\ accepts j e /\ Forall (fun x => ~ presents j x) (e :: b).

Definition in_ok (w : Z) (i : rl_in) : Prop :=
  ri_rst i = false /\ 0 <= ri_index i < 2 ^ w /\ 0 <= ri_prescale i < 2 ^ 16 /\ 0 <= ri_min i < 2 ^ 16.

(** Presentations with the tick count at which they happened. *)
Fixpoint pres_times (t : Z) (tr : list rl_ev) : list (Z * Z) :=
  match tr with
  | [] => []
  | e :: r => (match re_pres e with Some j => [(j, t)] | None => [] end) ++ pres_times (t + if re_tick e then 1 else 0) r
  end.

(** Inputs with no request and a ready output. *)
Definition quiet (w : Z) (i : rl_in) : Prop := in_ok w i /\ ri_valid i = false /\ ri_out_ready i = true.
