(** C83: the interrupt rate limiter. *)
From Verif Require Import PyBase RtlIrqModel RtlIrqSpec RtlIrqProofs.

(** Two presentations of [j] in a row are more than the minimum interval apart (in ticks of the time
    counter), when the deadline does not carry out of the 17 bits of the time counter. *)
Theorem C83_interval_partial : forall w m rd irq oi l, 0 <= w -> Forall (in_ok w) l ->
  forall l1 e1 l2 e2 l3 j, snd (rl_run w (rl_reset m rd irq oi) l) = l1 ++ e1 :: l2 ++ e2 :: l3 ->
  presents j e1 -> presents j e2 -> Forall (fun e => ~ presents j e) l2 -> 0 < re_min e1 -> ticks l1 mod 2 ^ 17 + re_min e1 < 2 ^ 17 ->
  ticks l1 + re_min e1 < ticks (l1 ++ e1 :: l2).
Proof. exact interval. Qed.
Print Assumptions C83_interval_partial.

(** Nothing is presented that was not requested since its last presentation. *)
Theorem C83_no_spurious : forall w m rd irq oi l, 0 <= w -> Forall (in_ok w) l ->
  forall l1 e l2 j, snd (rl_run w (rl_reset m rd irq oi) l) = l1 ++ e :: l2 -> presents j e -> owed j l1.
Proof. exact no_spurious. Qed.
Print Assumptions C83_no_spurious.

(** A request taken is presented, if the requests cease, the output is ready and there are at most 2^14
    interrupts.  Missing: delivery while requests keep coming. *)
Theorem C83_delivered_partial : forall w m rd irq oi l s tr j, 0 <= w <= 14 -> Forall (in_ok w) l ->
  rl_run w (rl_reset m rd irq oi) l = (s, tr) -> 0 <= j < 2 ^ w -> owed j tr ->
  forall f, (forall k, quiet w (f k)) -> exists n, Exists (presents j) (snd (rl_run w s (map f (seq 0 n)))).
Proof. exact delivered. Qed.
Print Assumptions C83_delivered_partial.

(** The time counter ticks once every prescale+1 clocks. *)
Theorem C83_prescale : forall w p m rd irq oi l, 0 <= p -> Forall (fun i => ri_rst i = false /\ ri_prescale i = p) l ->
  zlen l <= (p + 1) * ticks (snd (rl_run w (rl_reset m rd irq oi) l)) < zlen l + (p + 1).
Proof.
  intros. destruct (rl_run w (rl_reset m rd irq oi) l) as [s tr] eqn:E. now apply (prescale_count w p m rd irq oi l H H0 s tr).
Qed.
Print Assumptions C83_prescale.

(** Requests: 0 twice. *)
Definition ex_in (v : bool) (x mi : Z) : rl_in := mkRi false x v true 0 mi.
Definition ex_l (mi : Z) (n : nat) : list rl_in :=
  repeat (ex_in false 0 mi) n ++ [ex_in true 0 mi; ex_in false 0 mi; ex_in true 0 mi] ++ repeat (ex_in false 0 mi) 40.
Definition ex_tr (mi : Z) (n : nat) : list rl_ev := snd (rl_run 1 (rl_reset st_word0 (mkRw false false 0) 0 0) (ex_l mi n)).

(** With interval 20 the second presentation is 22 ticks after the first. *)
Example C83_ex_interval : pres_times 0 (ex_tr 20 3) = [(0, 4); (0, 26)].
Proof. vm_compute. reflexivity. Qed.
Example C83_ex_in_ok : Forall (in_ok 1) (ex_l 20 3).
Proof. unfold ex_l. cbn [repeat app]. repeat constructor; cbn; lia. Qed.
Example C83_ex_split : exists l1 e1 l2 e2 l3, ex_tr 20 3 = l1 ++ e1 :: l2 ++ e2 :: l3 /\ presents 0 e1 /\ presents 0 e2 /\ Forall (fun e => ~ presents 0 e) l2 /\
  0 < re_min e1 /\ ticks l1 mod 2 ^ 17 + re_min e1 < 2 ^ 17 /\ owed 0 l1.
Proof.
  pose (t := ex_tr 20 3). exists (firstn 4 t), (nth 4 t (mkRe None None false 0)), (firstn 21 (skipn 5 t)), (nth 26 t (mkRe None None false 0)), (skipn 27 t).
  split; [vm_compute; reflexivity|]. split; [vm_compute; reflexivity|]. split; [vm_compute; reflexivity|].
  split; [vm_compute; repeat constructor; discriminate|]. split; [vm_compute; reflexivity|]. split; [vm_compute; reflexivity|].
  exists (firstn 3 t), (nth 3 t (mkRe None None false 0)), []. split; [vm_compute; reflexivity|]. split; [vm_compute; reflexivity|]. vm_compute. repeat constructor. discriminate.
Qed.
Example C83_ex_quiet : forall k : nat, quiet 1 (ex_in false 0 (Z.of_nat (k mod 7))).
Proof. intros k. pose proof (Nat.mod_upper_bound k 7 ltac:(lia)). repeat split; cbn [ri_index ri_prescale ri_min ex_in]; lia. Qed.

(** The minimum interval is not kept when the deadline passes 2^17: interrupt 0 is presented twice within
    a few ticks although the interval asked for is 1000. *)
Theorem C83_wrap_refuted : exists w l t1 t2, Forall (in_ok w) l /\ Forall (fun i => ri_min i = 1000) l /\
  pres_times 0 (snd (rl_run w (rl_reset st_word0 (mkRw false false 0) 0 0) l)) = [(0, t1); (0, t2)] /\ t2 < t1 + 1000.
Proof.
  exists 1, (ex_l 1000 (Z.to_nat 131000)), 131001, 131006.
  assert (A : forall (P : rl_in -> Prop) (i : rl_in) n, P i -> Forall P (repeat i n)) by (intros P i n H; induction n; constructor; assumption).
  split; [|split; [|split; [vm_compute; reflexivity|lia]]].
  - unfold ex_l. apply Forall_app. split; [apply A; repeat split; cbn; lia|]. repeat constructor; cbn; lia.
  - unfold ex_l. apply Forall_app. split; [apply A; reflexivity|]. repeat constructor.
Qed.
Print Assumptions C83_wrap_refuted.

(** A steady stream of requests for interrupt 1 keeps interrupt 0, already taken, from ever being
    presented, however long its interval is over. *)
Theorem C83_starve_refuted : exists l s tr i, Forall (in_ok 1) (i :: l) /\ rl_run 1 (rl_reset st_word0 (mkRw false false 0) 0 0) l = (s, tr) /\ owed 0 tr /\
  ri_out_ready i = true /\
  forall n, Forall (fun e => ~ presents 0 e) (snd (rl_run 1 s (repeat i n))) /\ ticks (snd (rl_run 1 s (repeat i n))) = Z.of_nat n.
Proof.
  destruct starve as (s & tr & A & B & C). exists st_pre, s, tr, (st_in true 1). split; [repeat constructor; cbn; lia|]. auto.
Qed.
Print Assumptions C83_starve_refuted.
