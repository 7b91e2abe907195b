(** C85: the frame multiplexer axis_arb_mux.  C86: the descriptor multiplexers. *)
From Verif Require Import PyBase RtlModel RtlSpec RtlMuxModel RtlMuxSpec RtlMuxProofs3.

(** The output is a merge of the frames of the ports. *)
Theorem C85_merge : forall p l, ax_ok p -> Forall (mux_in_ok (xp_n p)) l -> exists src, merged (xp_n p) (xp_last_en p) (ax_image p) (ax_trace p l) src.
Proof. exact ax_merge. Qed.
Print Assumptions C85_merge.

(** An offer not taken is kept. *)
Theorem C85_stable : forall p l, ax_ok p -> Forall (mux_in_ok (xp_n p)) l -> stable (ax_trace p l).
Proof. exact ax_stable. Qed.
Print Assumptions C85_stable.

(** With round robin, every beat taken from a port reaches the sink. *)
Theorem C85_delivered : forall p l f N q k, ax_ok p -> xp_rr p = true -> Forall (mux_in_ok (xp_n p)) l -> (forall k, mux_in_ok (xp_n p) (f k)) -> no_rst f -> sink_fair f ->
  sources_fair (xp_n p) (xp_last_en p) (fun k => ax_trace p (inputs l f k)) f N -> 0 <= q < xp_n p ->
  exists k' src, merged (xp_n p) (xp_last_en p) (ax_image p) (ax_trace p (inputs l f k')) src /\ prefix (accepted q (ax_trace p (inputs l f k))) (from q src).
Proof. exact ax_delivered. Qed.
Print Assumptions C85_delivered.

(** Without round robin (the default) it need not. *)
Theorem C85_priority_refuted : exists p f q, ax_ok p /\ (forall k, mux_in_ok (xp_n p) (f k)) /\ no_rst f /\ sink_fair f /\
  sources_fair (xp_n p) (xp_last_en p) (fun k => ax_trace p (inputs [] f k)) f 0 /\ 0 <= q < xp_n p /\
  accepted q (ax_trace p (inputs [] f 1)) <> [] /\ forall k src, merged (xp_n p) (xp_last_en p) (ax_image p) (ax_trace p (inputs [] f k)) src -> from q src = [].
Proof. exact ax_starve. Qed.
Print Assumptions C85_priority_refuted.

(** Two ports, the sink ready every other clock: a frame of port 0, then one of port 1, tid marked with the port. *)
Definition ep : ax_param := mkAxP 2 true 4 true 8 9 false true true true true true.
Definition ei (k : nat) : mux_in ax_beat :=
  mkMi false 3 (if Nat.even k then 0 else 3) (fun j => mkAb (100 * j + Z.of_nat k) 15 7 0 1) (Nat.odd k).
Example C85_ex_ok : ax_ok ep /\ Forall (mux_in_ok (xp_n ep)) (map ei (seq 0 14)).
Proof. split; [repeat split; cbn; lia|]. repeat constructor; cbn; unfold vec; cbn; lia. Qed.
Example C85_ex_run : map (fun o => (ao_data o, ao_last o, ao_id o)) (delivered (ax_trace ep (map ei (seq 0 14)))) =
  [(0, false, 7); (2, false, 7); (3, true, 7); (100, false, 263); (106, false, 263); (108, false, 263)] /\
  map (fun x => ab_data (snd x)) (accepted 1 (ax_trace ep (map ei (seq 0 14)))) = [100; 106; 108; 110; 112].
Proof. vm_compute. split; reflexivity. Qed.
(** The hypotheses of delivery hold together: frames of one beat, everybody ready. *)
Example C85_ex_fair : exists p f, ax_ok p /\ xp_rr p = true /\ (forall k, mux_in_ok (xp_n p) (f k)) /\ no_rst f /\ sink_fair f /\
  sources_fair (xp_n p) (xp_last_en p) (fun k => ax_trace p (inputs [] f k)) f 0 /\ accepted 1 (ax_trace p (inputs [] f 3)) <> [].
Proof.
  exists (mkAxP 2 true 4 true 8 9 false true false true true true), (fun k => mkMi false 3 0 (fun j => mkAb j 15 7 0 1) true). split; [repeat split; cbn; lia|]. split; [reflexivity|].
  split; [intros k; split; cbn; unfold vec; cbn; lia|]. split; [intros k; reflexivity|]. split; [intros k; exists O; reflexivity|]. split; [apply fair_false|vm_compute; discriminate].
Qed.

Theorem C86_pcie_merge : forall p l, pd_ok p -> Forall (mux_in_ok (pp_n p)) l -> exists src, merged (pp_n p) false (fun q _ d => pd_image p q d) (pd_trace p l) src.
Proof. exact pd_merge. Qed.
Print Assumptions C86_pcie_merge.

Theorem C86_pcie_stable : forall p l, pd_ok p -> Forall (mux_in_ok (pp_n p)) l -> stable (pd_trace p l).
Proof. exact pd_stable. Qed.
Print Assumptions C86_pcie_stable.

Theorem C86_pcie_delivered : forall p l f q k, pd_ok p -> pp_rr p = true -> Forall (mux_in_ok (pp_n p)) l -> (forall k, mux_in_ok (pp_n p) (f k)) -> no_rst f -> sink_fair f -> 0 <= q < pp_n p ->
  exists k' src, merged (pp_n p) false (fun q _ d => pd_image p q d) (pd_trace p (inputs l f k')) src /\ prefix (accepted q (pd_trace p (inputs l f k))) (from q src).
Proof. exact pd_delivered. Qed.
Print Assumptions C86_pcie_delivered.

Theorem C86_dma_merge : forall p l, dd_ok p -> Forall (mux_in_ok (dp_n p)) l -> exists src, merged (dp_n p) false (fun q _ d => dd_image p q d) (dd_trace p l) src.
Proof. exact dd_merge. Qed.
Print Assumptions C86_dma_merge.

Theorem C86_dma_stable : forall p l, dd_ok p -> Forall (mux_in_ok (dp_n p)) l -> stable (dd_trace p l).
Proof. exact dd_stable. Qed.
Print Assumptions C86_dma_stable.

Theorem C86_dma_delivered : forall p l f q k, dd_ok p -> dp_rr p = true -> Forall (mux_in_ok (dp_n p)) l -> (forall k, mux_in_ok (dp_n p) (f k)) -> no_rst f -> sink_fair f -> 0 <= q < dp_n p ->
  exists k' src, merged (dp_n p) false (fun q _ d => dd_image p q d) (dd_trace p (inputs l f k')) src /\ prefix (accepted q (dd_trace p (inputs l f k))) (from q src).
Proof. exact dd_delivered. Qed.
Print Assumptions C86_dma_delivered.

(** The status for a descriptor goes to the port it came from, with the tag that port gave it, and to no other. *)
Theorem C86_pcie_status : forall p q d err, pd_ok p -> 0 <= q < pp_n p -> 0 <= pd_tag d < 2 ^ pp_stag p ->
  ds_step (pp_n p) (pp_stag p) (pp_mtag p) false (pd_tag (pd_image p q d)) err true = mkDs (pd_tag d) err (2 ^ q).
Proof. intros p q d err (H1 & H2 & H3) Hq Ht. apply status_back; assumption. Qed.
Print Assumptions C86_pcie_status.

Theorem C86_dma_status : forall p q d err, dd_ok p -> 0 <= q < dp_n p -> 0 <= dd_tag d < 2 ^ dp_stag p ->
  ds_step (dp_n p) (dp_stag p) (dp_mtag p) false (dd_tag (dd_image p q d)) err true = mkDs (dd_tag d) err (2 ^ q).
Proof. intros p q d err (H1 & H2 & H3 & _) Hq Ht. apply status_back; assumption. Qed.
Print Assumptions C86_dma_status.

(** No status is made up, and none goes to two ports. *)
Theorem C86_status_one : forall n stag mtag rst tag err v, 2 <= n -> let s := ds_step n stag mtag rst tag err v in
  ds_valid s = 0 \/ v = true /\ rst = false /\ exists q, 0 <= q < n /\ ds_valid s = 2 ^ q.
Proof. exact status_one. Qed.
Print Assumptions C86_status_one.

Definition ep2 : dd_param := mkDdP 3 true 4 true 8 10 true true.
Definition ei2 (k : nat) : mux_in dd_desc := mkMi false 7 0 (fun j => mkDd (1000 * j) 1 64 5 true 16 (10 * j + Z.of_nat k)) true.
Example C86_ex_ok : dd_ok ep2 /\ Forall (mux_in_ok (dp_n ep2)) (map ei2 (seq 0 7)) /\ no_rst ei2 /\ sink_fair ei2.
Proof. split; [repeat split; cbn; lia|]. split; [repeat constructor; cbn; unfold vec; cbn; lia|]. split; [intros k; reflexivity|intros k; exists O; reflexivity]. Qed.
Example C86_ex_run : map (fun d => (dd_dma d, dd_sel d, dd_tag d)) (delivered (dd_trace ep2 (map ei2 (seq 0 7)))) =
  [(0, 1, 0); (1000, 5, 266); (2000, 9, 532); (0, 1, 2)].
Proof. vm_compute. reflexivity. Qed.
Example C86_ex_status : ds_step 3 8 10 false 266 0 true = mkDs 10 0 2.
Proof. vm_compute. reflexivity. Qed.
Example C86_ex_pcie : pd_ok (mkPdP 2 8 9 true true) /\ map pd_tag (delivered (pd_trace (mkPdP 2 8 9 true true) (repeat (mkMi false 3 0 (fun j => mkPd 0 0 4 (j + 7)) true) 6))) = [7; 264; 7].
Proof. split; [repeat split; cbn; lia|vm_compute; reflexivity]. Qed.
