From Verif Require Import PyBase RtlModel RtlFcModel RtlFcSpec RtlFifoModel RtlFifoSpec RtlFmuxModel RtlFmuxSpec RtlFmuxProofs5 RtlPtTxModel RtlPtTxSpec RtlPtTxProofs RtlPtTxProofs2.

(** C127. *)
Theorem C127_nogap : forall p s r l i, mp_ok p -> mi_rst r = true -> Forall m_running l -> m_running i ->
  let s1 := fm_run p (fm_step p s r) l in mo_v (ms_out s1) = true -> fb_eop (mo_b (ms_out s1)) = false -> mo_v (ms_out (fm_step p s1 i)) = true.
Proof. exact mux_nogap. Qed.

(** C128. *)
Theorem C128_delivered : forall f s i l, fp_ok f -> ti_rst i = true -> Forall t_running l -> let tr := tx_trace f (tx_step f s i) l in
  exists ev, (exists rest, map snd ev = flat_map t_sent tr ++ rest /\ (length rest <= 20)%nat) /\
    (forall n, exists rest, whole [] (flat_map (t_taken n) tr) = of_port n ev ++ rest /\ Z.of_nat (length rest) <= fp_d f + 1) /\ together None ev.
Proof. exact tx_ok. Qed.

(** C129. *)
Theorem C129_rules : forall f s i l, fp_ok f -> ti_rst i = true -> Forall t_running l -> t_rules false false false false (tx_trace f (tx_step f s i) l).
Proof. exact tx_rules. Qed.

(** C130. *)
Theorem C130_credit : forall f s r l h i j n, fp_ok f -> ti_rst r = true -> Forall t_running l -> t_running h -> t_running i -> t_running j ->
  ms_osqv (ts_mux (tx_run f (tx_step f s r) (l ++ [h; i; j]))) n = true -> 0 <= n < 4 /\ t_credit (tx_run f (tx_step f s r) l) n.
Proof. exact tx_credit. Qed.

(** C131. *)
Theorem C131_covered : forall f s i l, fp_ok f -> ti_rst i = true -> Forall t_running l ->
  (forall n, 0 <= n < 4 -> t_framed (t_kind n) true (flat_map (t_taken n) (tx_trace f (tx_step f s i) l))) -> t_covered (tx_run f (tx_step f s i) l).
Proof. exact tx_covered. Qed.

(** Sixteen beats for a port; the limits 40 and 80 credits come in the first clocks; a write of two beats (port 3) and a read request (port 2); tx_st_ready low for a clock between the two beats. *)
Definition yb (d h q : Z) (sop eop : bool) : fbeat := mkFb d 1 h q 0 0 0 sop eop.
Definition yf : fi_param := mkFp 4 16 8.
Definition y0 : tx_state :=
  let f := mkFs (fun _ => yb 0 0 0 false false) 3 1 2 0 1 true (yb 9 9 9 true true) true (yb 9 9 9 true true) true false false in
  mkTs (mkMs (fun _ => f) (fun _ => f) true 1 true 1 (fun _ => true) (fun _ => true) 5 (fun _ => true) fc0 (mkMo 7 3 true (fun _ => yb 8 8 8 true true) true (yb 8 8 8 true true)))
       (mkTo true true true 7 7) true true 0 true true true (mkTc pt0 pt0 pt0 pt0 pt0 pt0).
Definition yrst : tx_in := mkTi true (fun _ => yb 0 0 0 true true) (fun _ => true) true 3 0 0.
(** Headers: a write of 4 words, a read. *)
Definition yw : Z := 0x40 * 2 ^ 120 + 4 * 2 ^ 96.
Definition yr : Z := 1 * 2 ^ 96.
Definition yin (b : fbeat) (n : Z) (r : bool) (k : Z) : tx_in := mkTi false (fun m => b) (fun m => m =? n) r (if k <? 4 then 40 else 80) k 0.
Definition yl : list tx_in :=
  map (fun k => yin (yb 0 0 0 true true) 9 true k) [0; 1; 2; 4; 5; 6; 7; 7; 7] ++ [yin (yb 31 yw 5 true false) 3 true 7; yin (yb 32 0 0 false true) 3 true 7; yin (yb 77 yr 6 false false) 2 true 7] ++
  repeat (yin (yb 0 0 0 true true) 9 true 7) 3 ++ [yin (yb 0 0 0 true true) 9 false 7] ++ repeat (yin (yb 0 0 0 true true) 9 true 7) 9.
Definition ytr := tx_trace yf (tx_step yf y0 yrst) yl.
Example C127_example : existsb (fun e => mo_v (ms_out (ts_mux (snd e))) && negb (fb_eop (mo_b (ms_out (ts_mux (snd e)))))) ytr = true /\ mp_ok (tx_mp yf).
Proof. split; [vm_compute; reflexivity|]. split; [cbn; lia|split; cbn; lia]. Qed.
Example C128_example : fp_ok yf /\ ti_rst yrst = true /\ forallb (fun i => negb (ti_rst i)) yl = true /\ map (fun b => (fb_data b, fb_hdr b)) (flat_map t_sent ytr) = [(31, yw); (32, 0); (0, yr)] /\
  map fb_data (flat_map (t_taken 2) ytr) = [0] /\ map fb_data (flat_map (t_taken 3) ytr) = [31; 32].
Proof. split; [split; cbn; lia|]. vm_compute. repeat split. Qed.
Example C129_example : map (fun e => (ti_ready (fst e), to_v (ts_out (snd e)), to_eop (ts_out (snd e)))) (firstn 6 (skipn 15 ytr)) =
  [(false, false, true); (true, false, true); (true, true, false); (true, false, false); (true, true, true); (true, true, true)].
Proof. vm_compute. reflexivity. Qed.
Example C130_example : ms_osqv (ts_mux (tx_run yf (tx_step yf y0 yrst) (firstn 15 yl))) 3 = true /\ ms_osqv (ts_mux (tx_run yf (tx_step yf y0 yrst) (firstn 17 yl))) 2 = true.
Proof. vm_compute. repeat split. Qed.
Example C131_example : (forall n, 0 <= n < 4 -> t_framed (t_kind n) true (flat_map (t_taken n) ytr)) /\
  map (fun l => let m := tx_run yf (tx_step yf y0 yrst) l in (fc_ph (ms_fc (ts_mux m)), pt_av (tc_ph (ts_c m)))) [firstn 15 yl; firstn 16 yl] = [(1, 40); (0, 40)].
Proof.
  split; [|vm_compute; reflexivity]. intros n Hn. assert (H : n = 0 \/ n = 1 \/ n = 2 \/ n = 3) by lia. destruct H as [->|[->|[->| ->]]]; vm_compute; repeat split; intros; discriminate.
Qed.

Print Assumptions C127_nogap.
Print Assumptions C128_delivered.
Print Assumptions C129_rules.
Print Assumptions C130_credit.
Print Assumptions C131_covered.
