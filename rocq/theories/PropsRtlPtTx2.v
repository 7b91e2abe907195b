From Verif Require Import PyBase RtlModel RtlFcModel RtlFcSpec RtlFifoModel RtlFifoSpec RtlFmuxModel RtlFmuxSpec RtlPtTxModel RtlPtTxSpec RtlPtTxProofs3 PropsRtlPtTx.

(** C132, with each new limit shown in two clocks in a row. *)
Theorem C132_budget_twice : forall f s i l al j, fp_ok f -> ti_rst i = true -> Forall t_running l ->
  (forall n, 0 <= n < 4 -> t_framed (t_kind n) true (flat_map (t_taken n) (tx_trace f (tx_step f s i) l))) -> j = 0 \/ j = 1 \/ j = 2 ->
  t_shown j 0 l al -> t_twice j 0 l al -> t_heads j (flat_map t_sent (tx_trace f (tx_step f s i) l)) <= last al 0.
Proof. exact tx_budget. Qed.

(** Writes of one beat at port 3 in the first 12 clocks; the limits are 8 headers and 600 data credits, each shown for d clocks in turn. *)
Definition zhdr : Z := 0x40 * 2 ^ 120 + 1 * 2 ^ 96.
Definition zin (v : bool) (k : Z) : tx_in := mkTi false (fun m => yb 1 zhdr 0 true true) (fun m => v && (m =? 3)) true (if k <? 4 then 8 else 600) k 0.
Definition zl (d : Z) : list tx_in := map (fun k => zin (k <? 12) ((k / d + 4) mod 8)) (map Z.of_nat (seq 0 60)).
Definition za (d : Z) : list Z := map (fun k => if k <? 4 * d then 0 else 8) (map Z.of_nat (seq 0 60)).

(** Eleven are sent although the core allowed eight. *)
Theorem C132_budget_refuted : exists f s i l al j, fp_ok f /\ ti_rst i = true /\ Forall t_running l /\
  (forall n, 0 <= n < 4 -> t_framed (t_kind n) true (flat_map (t_taken n) (tx_trace f (tx_step f s i) l))) /\ j = 0 /\
  t_shown j 0 l al /\ last al 0 = 8 /\ t_heads j (flat_map t_sent (tx_trace f (tx_step f s i) l)) = 11.
Proof.
  exists yf, y0, yrst, (zl 1), (za 1), 0. split; [split; cbn; lia|]. split; [reflexivity|]. split; [apply Forall_forall; intros x Hx; unfold zl in Hx; apply in_map_iff in Hx; destruct Hx as (k & <- & _); reflexivity|].
  split; [|split; [reflexivity|split; [vm_compute; repeat split; intros; discriminate|split; vm_compute; reflexivity]]].
  intros n Hn. assert (H : n = 0 \/ n = 1 \/ n = 2 \/ n = 3) by lia. destruct H as [->|[->|[->| ->]]]; vm_compute; repeat split; intros; discriminate.
Qed.

Example C132_example : (forall n, 0 <= n < 4 -> t_framed (t_kind n) true (flat_map (t_taken n) (tx_trace yf (tx_step yf y0 yrst) (zl 2)))) /\
  t_shown 0 0 (zl 2) (za 2) /\ t_twice 0 0 (zl 2) (za 2) /\ last (za 2) 0 = 8 /\ t_heads 0 (flat_map t_sent (tx_trace yf (tx_step yf y0 yrst) (zl 2))) = 7.
Proof.
  split; [|split; [vm_compute; repeat split; intros; discriminate|split; [vm_compute; repeat split; intros; congruence|split; vm_compute; reflexivity]]].
  intros n Hn. assert (H : n = 0 \/ n = 1 \/ n = 2 \/ n = 3) by lia. destruct H as [->|[->|[->| ->]]]; vm_compute; repeat split; intros; discriminate.
Qed.

Print Assumptions C132_budget_twice.
Print Assumptions C132_budget_refuted.
