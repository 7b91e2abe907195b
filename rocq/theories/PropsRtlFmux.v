From Verif Require Import PyBase RtlFcModel RtlFifoModel RtlFifoSpec RtlFmuxModel RtlFmuxSpec RtlFmuxProofs3 RtlFmuxProofs4.

(** C124. ev: the beats in the order of the output, with their ports. *)
Theorem C124_delivered : forall p s i l, mp_ok p -> mi_rst i = true -> Forall m_running l -> let tr := fm_trace p (fm_step p s i) l in
  exists ev, (exists rest, map snd ev = flat_map m_given tr ++ rest /\ (length rest <= 19)%nat) /\
    (forall n, exists rest, whole [] (flat_map (m_taken n) tr) = of_port n ev ++ rest /\ Z.of_nat (length rest) <= fp_d (mp_f p) + 1) /\ together None ev.
Proof. exact mux_ok. Qed.
Theorem C124_drained : forall p s i l d, mp_ok p -> mi_rst i = true -> Forall m_running l -> Forall m_draining d -> 8 * mp_n p * (fp_d (mp_f p) + 2) + 79 <= Z.of_nat (length d) ->
  exists ev, map snd ev = flat_map m_given (fm_trace p (fm_step p s i) (l ++ d)) /\
    (forall n, 0 <= n < mp_n p -> whole [] (flat_map (m_taken n) (fm_trace p (fm_step p s i) l)) = of_port n ev) /\ together None ev.
Proof. exact mux_drain. Qed.
Theorem C124_kept : forall p s i, m_running i -> mo_v (ms_out s) = true -> mi_ready i = false ->
  mo_v (ms_out (fm_step p s i)) = true /\ mo_b (ms_out (fm_step p s i)) = mo_b (ms_out s).
Proof. exact mux_kept. Qed.

(** C125. A TLP began in clock i, as sel_tlp_seq_valid says two clocks later. *)
Theorem C125_pause : forall p s r l i j n, mp_ok p -> mi_rst r = true -> Forall m_running l -> m_running i -> m_running j ->
  let s1 := fm_run p (fm_step p s r) l in ms_osqv (fm_run p (fm_step p s r) (l ++ [i; j])) n = true ->
  0 <= n < mp_n p /\ mi_pause i n = false /\ m_offers s1 n = true /\
  (mp_rr p = false -> forall m, m_before p m n -> mi_pause i m = true \/ m_offers s1 m = false).
Proof. exact mux_pause. Qed.

(** C126. *)
Theorem C126_seq : forall p s i l, mp_ok p -> mi_rst i = true -> Forall m_running l -> let tr := fm_trace p (fm_step p s i) l in
  forall n, exists rest, map fb_seq (firsts true (whole [] (flat_map (m_taken n) tr))) = flat_map (m_seq n) tr ++ rest /\ Z.of_nat (length rest) <= fp_d (mp_f p) + 3.
Proof. exact mux_seq. Qed.

(** Two ports with four beats each, port 0 first: port 1 has a TLP of two beats, complete one clock before the TLP of port 0; port 1 is held for some clocks. *)
Definition xb (d q : Z) (sop eop : bool) : fbeat := mkFb d 1 0 q 0 0 0 sop eop.
Definition xp : fm_param := mkMp 2 false true (mkFp 2 4 2).
Definition x0 : fm_st := let f := mkFs (fun _ => xb 0 0 false false) 3 1 2 0 1 true (xb 9 9 true true) true (xb 9 9 true true) true false false in
  mkMs (fun _ => f) (fun _ => f) true 1 true 1 (fun _ => true) (fun _ => true) 5 (fun _ => true) fc0 (mkMo 7 3 true (fun _ => xb 8 8 true true) true (xb 8 8 true true)).
Definition xin (b0 b1 : fbeat) (v0 v1 h1 r : bool) : fm_in := mkMi false (fun n => if n =? 0 then b0 else b1) (fun n => if n =? 0 then v0 else (n =? 1) && v1) (fun n => (n =? 1) && h1) r.
Definition xrst : fm_in := mkMi true (fun _ => xb 0 0 true true) (fun _ => true) (fun _ => false) true.
Definition xl : list fm_in :=
  [xin (xb 1 0 true true) (xb 21 3 true false) false true true true; xin (xb 1 0 true true) (xb 22 0 false true) false true true true;
   xin (xb 11 4 true true) (xb 0 0 true true) true false true true] ++ repeat (xin (xb 0 0 true true) (xb 0 0 true true) false false true true) 3 ++
  repeat (xin (xb 0 0 true true) (xb 0 0 true true) false false false true) 9.
Definition xtr := fm_trace xp (fm_step xp x0 xrst) xl.
Example C124_example : mp_ok xp /\ mi_rst xrst = true /\ forallb (fun i => negb (mi_rst i)) xl = true /\ map fb_data (flat_map m_given xtr) = [11; 21; 22] /\
  map fb_data (flat_map (m_taken 0) xtr) = [11] /\ map fb_data (flat_map (m_taken 1) xtr) = [21; 22].
Proof. split; [split; [cbn; lia|split; cbn; lia]|]. vm_compute. repeat split. Qed.
Example C125_example : let s1 := fm_run xp (fm_step xp x0 xrst) (firstn 5 xl) in
  ms_osqv (fm_run xp (fm_step xp x0 xrst) (firstn 7 xl)) 0 = true /\ m_offers s1 1 = true.
Proof. vm_compute. repeat split. Qed.
Example C126_example : flat_map (m_seq 0) xtr = [4] /\ flat_map (m_seq 1) xtr = [3].
Proof. vm_compute. repeat split. Qed.

Print Assumptions C124_delivered.
Print Assumptions C124_drained.
Print Assumptions C124_kept.
Print Assumptions C125_pause.
Print Assumptions C126_seq.
