(** C84: the MSI shims of the UltraScale and Stratix 10 cores. *)
From Verif Require Import PyBase RtlModel RtlMsiModel RtlMsiSpec RtlMsiProofs RtlMsiProofs2.

(** UltraScale: a message is handed to the core only when none is outstanding, and only for a request
    that has risen since the last message confirmed for it. *)
Theorem C84_us_no_spurious : forall n l, 2 <= n <= 32 -> Forall (us_ok n) l ->
  forall l1 e l2 j, snd (us_run n ms0 l) = l1 ++ e :: l2 -> me_issue e = Some j -> 0 <= j < n /\ outstanding l1 = None /\ unanswered j l1.
Proof.
  intros n l Hn F l1 e l2 j E H. destruct (us_run n ms0 l) as [s tr] eqn:ER. destruct (us_inv n l Hn F s tr ER) as (_ & S & _). destruct (S l1 e l2 j E H) as (A & B & C & _). auto.
Qed.
Print Assumptions C84_us_no_spurious.

(** cfg_interrupt_msi_int has at most one bit set. *)
Theorem C84_us_one_hot : forall n l, 2 <= n <= 32 -> Forall (us_ok n) l ->
  let v := ms_int (fst (us_run n ms0 l)) in v = 0 \/ exists j, 0 <= j < n /\ v = 2 ^ j.
Proof. intros n l Hn F. destruct (us_run n ms0 l) as [s tr] eqn:ER. apply (us_inv n l Hn F s tr ER). Qed.
Print Assumptions C84_us_one_hot.

(** Every request that has risen is answered by a message, as long as it is not masked and the core answers
    the messages handed to it. *)
Theorem C84_us_delivered : forall n l s tr j, 2 <= n <= 32 -> Forall (us_ok n) l -> us_run n ms0 l = (s, tr) -> 0 <= j < n -> unanswered j tr ->
  forall f, (forall k, us_ok n (f k) /\ Z.odd (ui_enable (f k)) = true /\ Z.testbit (ui_data (f k)) j = false /\ j < 2 ^ Z.min 5 (ui_mm (f k))) ->
  (forall k, outstanding (tr ++ snd (us_run n s (map f (seq 0 k)))) <> None -> exists m, ui_sent (f (k + m)%nat) || ui_fail (f (k + m)%nat) = true) ->
  exists k t e, snd (us_run n s (map f (seq 0 (S k)))) = t ++ [e] /\ answers j (tr ++ t) e.
Proof. exact us_delivered. Qed.
Print Assumptions C84_us_delivered.

(** A message handed over was allowed two edges before, if MSI was on one edge before.  Missing: the
    case of MSI off in between. *)
Theorem C84_us_mask_partial : forall n l, 2 <= n <= 32 -> Forall (us_ok n) l ->
  forall l1 e0 e1 e l2 j, snd (us_run n ms0 l) = l1 ++ e0 :: e1 :: e :: l2 -> me_issue e = Some j -> me_en e1 = true -> open_for j e0.
Proof.
  intros n l Hn F l1 e0 e1 e l2 j E H H1. destruct (us_run n ms0 l) as [s tr] eqn:ER. destruct (us_inv n l Hn F s tr ER) as (_ & S & _).
  destruct (S (l1 ++ [e0; e1]) e l2 j) as (_ & _ & _ & l' & a & b & E2 & O); [rewrite <- app_assoc; exact E|assumption|].
  change [e0; e1] with ([e0] ++ [e1]) in E2. change [a; b] with ([a] ++ [b]) in E2. rewrite !app_assoc in E2. apply app_inj_tail in E2. destruct E2 as [E2 <-]. apply app_inj_tail in E2. destruct E2 as [_ <-]. auto.
Qed.
Print Assumptions C84_us_mask_partial.

(** Stratix 10. *)
Theorem C84_s10_no_spurious : forall n l, 2 <= n <= 32 -> Forall (s10_ok n) l ->
  forall l1 e l2 j, snd (s10_run n ms0 l) = l1 ++ e :: l2 -> me_issue e = Some j -> 0 <= j < n /\ outstanding l1 = None /\ unanswered j l1.
Proof.
  intros n l Hn F l1 e l2 j E H. destruct (s10_run n ms0 l) as [s tr] eqn:ER. destruct (s10_inv n l Hn F s tr ER) as (_ & S & _). destruct (S l1 e l2 j E H) as (A & B & C & _). auto.
Qed.
Print Assumptions C84_s10_no_spurious.

(** app_msi_req is up, and app_msi_num is the message, exactly while a message is outstanding. *)
Theorem C84_s10_held : forall n l, 2 <= n <= 32 -> Forall (s10_ok n) l ->
  let '(s, tr) := s10_run n ms0 l in outstanding tr = if ms_active s then Some (ms_int s) else None.
Proof. intros n l Hn F. destruct (s10_run n ms0 l) as [s tr] eqn:ER. exact (s10_ports n l Hn F s tr ER). Qed.
Print Assumptions C84_s10_held.

Theorem C84_s10_delivered : forall n l s tr j, 2 <= n <= 32 -> Forall (s10_ok n) l -> s10_run n ms0 l = (s, tr) -> 0 <= j < n -> unanswered j tr ->
  forall f, (forall k, s10_ok n (f k) /\ si_enable (f k) = true /\ Z.testbit (si_mask (f k)) j = false /\ j < 2 ^ Z.min 5 (si_mm (f k))) ->
  (forall k, outstanding (tr ++ snd (s10_run n s (map f (seq 0 k)))) <> None -> exists m, si_ack (f (k + m)%nat) = true) ->
  exists k t e, snd (s10_run n s (map f (seq 0 (S k)))) = t ++ [e] /\ answers j (tr ++ t) e.
Proof. exact s10_delivered. Qed.
Print Assumptions C84_s10_delivered.

Theorem C84_s10_mask_partial : forall n l, 2 <= n <= 32 -> Forall (s10_ok n) l ->
  forall l1 e0 e1 e l2 j, snd (s10_run n ms0 l) = l1 ++ e0 :: e1 :: e :: l2 -> me_issue e = Some j -> me_en e1 = true -> open_for j e0.
Proof.
  intros n l Hn F l1 e0 e1 e l2 j E H H1. destruct (s10_run n ms0 l) as [s tr] eqn:ER. destruct (s10_inv n l Hn F s tr ER) as (_ & S & _).
  destruct (S (l1 ++ [e0; e1]) e l2 j) as (_ & _ & _ & l' & a & b & E2 & O); [rewrite <- app_assoc; exact E|assumption|].
  change [e0; e1] with ([e0] ++ [e1]) in E2. change [a; b] with ([a] ++ [b]) in E2. rewrite !app_assoc in E2. apply app_inj_tail in E2. destruct E2 as [E2 <-]. apply app_inj_tail in E2. destruct E2 as [_ <-]. auto.
Qed.
Print Assumptions C84_s10_mask_partial.

(** Two requests rise together; the first message fails and is repeated after the second. *)
Definition ex_u (irq : Z) (sent fail : bool) : us_in := mkUi false irq 1 2 0 sent fail.
Definition ex_ul : list us_in :=
  [ex_u 6 false false; ex_u 6 false false; ex_u 0 false false; ex_u 0 false false; ex_u 0 false false; ex_u 0 false true; ex_u 0 false false; ex_u 0 true false;
   ex_u 0 false false; ex_u 0 true false; ex_u 0 false false].
Example C84_ex_us : Forall (us_ok 4) ex_ul /\ map me_issue (snd (us_run 4 ms0 ex_ul)) = [None; None; None; Some 1; None; None; Some 2; None; Some 1; None; None].
Proof. split; [unfold ex_ul; repeat constructor; cbn; lia|vm_compute; reflexivity]. Qed.
Example C84_ex_us_unanswered : unanswered 1 (snd (us_run 4 ms0 (firstn 4 ex_ul))).
Proof.
  destruct (us_run 4 ms0 (firstn 4 ex_ul)) as [s tr] eqn:E. assert (F : Forall (us_ok 4) (firstn 4 ex_ul)) by (cbn; repeat constructor; cbn; lia).
  apply (v_un _ _ _ (proj1 (us_inv 4 _ ltac:(lia) F s tr E)) 1); [lia|]. replace s with (fst (us_run 4 ms0 (firstn 4 ex_ul))) by (rewrite E; reflexivity). vm_compute. reflexivity.
Qed.
Definition ex_s (irq : Z) (en ack : bool) (mask : Z) : s10_in := mkSi false irq en 2 mask ack.
Definition ex_sl : list s10_in := [ex_s 6 true false 0; ex_s 6 true false 0; ex_s 0 true false 0; ex_s 0 true false 0; ex_s 0 true true 0; ex_s 0 true false 0; ex_s 0 true true 0; ex_s 0 true false 0].
Example C84_ex_s10 : Forall (s10_ok 4) ex_sl /\ map me_issue (snd (s10_run 4 ms0 ex_sl)) = [None; None; None; Some 1; None; Some 2; None; None].
Proof. split; [unfold ex_sl; repeat constructor; cbn; lia|vm_compute; reflexivity]. Qed.
Example C84_ex_open : forall k : nat, let i := ex_u 0 (Nat.even k) false in us_ok 4 i /\ Z.odd (ui_enable i) = true /\ Z.testbit (ui_data i) 1 = false /\ 1 < 2 ^ Z.min 5 (ui_mm i).
Proof. intros k. repeat split; cbn; lia. Qed.

(** A message is handed over although it has been masked for ten edges: the grant given before MSI was
    switched off is kept. *)
Definition st_u (en data : Z) : us_in := mkUi false 1 en 2 data false false.
Theorem C84_us_mask_refuted : exists pre post, Forall (us_ok 4) (pre ++ post) /\ Forall (fun i => Z.testbit (ui_data i) 0 = true) post /\
  map me_issue (snd (us_run 4 (fst (us_run 4 ms0 pre)) post)) = repeat None 10 ++ [Some 0].
Proof.
  exists [st_u 1 0; st_u 1 0; st_u 1 0], (repeat (st_u 0 15) 10 ++ [st_u 1 15]).
  split; [cbn [repeat app]; repeat constructor; cbn; lia|]. split; [cbn [repeat app]; repeat constructor|vm_compute; reflexivity].
Qed.
Print Assumptions C84_us_mask_refuted.

(** Likewise with MSI of function 0 off throughout: another function's enable bit releases the message. *)
Theorem C84_us_disabled_refuted : exists pre post, Forall (us_ok 4) (pre ++ post) /\ Forall (fun i => Z.odd (ui_enable i) = false) post /\
  map me_issue (snd (us_run 4 (fst (us_run 4 ms0 pre)) post)) = repeat None 10 ++ [Some 0].
Proof.
  exists [st_u 1 0; st_u 1 0; st_u 1 0], (repeat (st_u 0 0) 10 ++ [st_u 2 0]).
  split; [cbn [repeat app]; repeat constructor; cbn; lia|]. split; [cbn [repeat app]; repeat constructor|vm_compute; reflexivity].
Qed.
Print Assumptions C84_us_disabled_refuted.

Theorem C84_s10_mask_refuted : exists pre post, Forall (s10_ok 4) (pre ++ post) /\ Forall (fun i => Z.testbit (si_mask i) 0 = true) post /\
  map me_issue (snd (s10_run 4 (fst (s10_run 4 ms0 pre)) post)) = repeat None 10 ++ [Some 0].
Proof.
  exists [ex_s 1 true false 0; ex_s 1 true false 0; ex_s 1 true false 0], (repeat (ex_s 1 false false 15) 10 ++ [ex_s 1 true false 15]).
  split; [cbn [repeat app]; repeat constructor; cbn; lia|]. split; [cbn [repeat app]; repeat constructor|vm_compute; reflexivity].
Qed.
Print Assumptions C84_s10_mask_refuted.
