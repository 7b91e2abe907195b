(** What a FIFO for TLPs is to do, in terms of its ports. *)
From Verif Require Import PyBase RtlFifoModel.

(** in_tlp_ready; the beats taken at the input (valid and ready) and at the output (valid and ready). *)
Definition ready (s : fi_st) : bool := negb (fs_full s).
Definition taken (e : fi_in * fi_st) : list fbeat := if fi_valid (fst e) && ready (snd e) then [fi_b (fst e)] else [].
Definition given (e : fi_in * fi_st) : list fbeat := if fs_ov (snd e) && fi_read (fst e) then [fs_ob (snd e)] else [].

(** The beats of complete TLPs, and those of the TLP that is not complete; o has the beats of it so far. *)
Fixpoint whole (o l : list fbeat) : list fbeat :=
  match l with [] => [] | b :: t => if fb_eop b then (o ++ [b]) ++ whole [] t else whole (o ++ [b]) t end.
Fixpoint open_of (o l : list fbeat) : list fbeat :=
  match l with [] => o | b :: t => if fb_eop b then open_of [] t else open_of (o ++ [b]) t end.

Definition running (i : fi_in) : Prop := fi_rst i = false.
(** Nothing comes, and the output is taken. *)
Definition draining (i : fi_in) : Prop := fi_rst i = false /\ fi_valid i = false /\ fi_read i = true.
Definition fp_ok (p : fi_param) : Prop := 0 <= fp_aw p /\ 2 <= fp_d p <= 2 ^ fp_aw p.
