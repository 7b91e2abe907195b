(** C137, C138: credit accounting of the H-Tile transmit side. *)
From Verif Require Import PyBase RtlModel RtlFcModel RtlFcSpec RtlS10FcModel RtlS10FcSpec RtlS10FcProofs.

(** * C137 *)
(** After three clocks of reset each count is what the multiplexer has sent on less what left the FIFO 24 clocks ago or earlier (in 8 and 12 bits). *)
Theorem C137_account_partial : forall s r l, c_reset r -> Forall c_running l -> c_short l ->
  let t := counts_of (c_old l) in let c := cs_int (cx_run s (r ++ l)) in
  fc_ph c = (c_sum fc_ph l - fc_ph t) mod 2 ^ 8 /\ fc_pd c = (c_sum fc_pd l - fc_pd t) mod 2 ^ 12 /\
  fc_nph c = (c_sum fc_nph l - fc_nph t) mod 2 ^ 8 /\ fc_npd c = (c_sum fc_npd l - fc_npd t) mod 2 ^ 12 /\
  fc_cplh c = (c_sum fc_cplh l - fc_cplh t) mod 2 ^ 8 /\ fc_cpld c = (c_sum fc_cpld l - fc_cpld t) mod 2 ^ 12.
Proof. exact account. Qed.
Print Assumptions C137_account_partial.

Definition cr9 : fc_counts := mkFc 255 2000 255 2000 255 2000.
Definition idle : cx_in := mkCx false fc0 false false 0 cr9 1.
Definition rst1 : cx_in := mkCx true fc0 false false 0 cr9 1.
Definition hwr : Z := (0x40000000 + 5) * 2 ^ 96.
(** A write of five words is counted at the multiplexer, taken, and leaves the FIFO. *)
Definition wr1 : list cx_in := [mkCx false (mkFc 1 2 0 0 0 0) false false 0 cr9 1; mkCx false fc0 true false 0 cr9 1; mkCx false fc0 false true hwr cr9 1].
Definition c0 : cx_state := mkCs (fun _ => 0) (fun _ => true) 7 9 true fc0 cr9 fc0 0 true true true.
Definition lw (k : nat) : list cx_in := repeat idle 3 ++ wr1 ++ repeat idle k.
Example C137_example : c_reset (repeat rst1 3) /\ Forall c_running (lw 30) /\ c_short (lw 30) /\
  concat (c_left false (lw 30)) = [(0x40, 5)] /\
  map (fun k => let c := cs_int (cx_run c0 (repeat rst1 3 ++ lw k)) in (fc_ph c, fc_pd c)) [0; 10; 23; 24; 30]%nat = [(1, 2); (1, 2); (1, 2); (0, 0); (0, 0)].
Proof.
  split; [exists rst1, rst1, rst1; repeat split|]. split; [unfold lw, wr1; cbn; repeat constructor|]. split; [|split; vm_compute; reflexivity].
  unfold c_short. replace (concat (c_left false (lw 30))) with [(0x40, 5)] by (vm_compute; reflexivity). constructor; [|constructor]. intros _. vm_compute. discriminate.
Qed.
(** One clock of reset is not enough.  A write leaves the FIFO in the clock of slot 0 of the delay memory; later there is a reset of one clock.  Then a TLP which was not counted
    is subtracted, the count is 255, and while nothing is sent the gate for writes stays shut although the core always has up to 255 credits. *)
Theorem C137_reset_refuted : exists s l, Forall c_running (repeat idle 30 ++ wr1 ++ repeat idle 7) /\ l = repeat rst1 3 ++ (repeat idle 30 ++ wr1 ++ repeat idle 7) ++ [rst1] ++ repeat idle 40 /\
  fc_ph (cs_int (cx_run s l)) = 255 /\
  forall l2, Forall (fun i => cx_rst i = false /\ cx_cons i = false /\ fc_ph (cx_mux i) = 0 /\ fc_ph (cx_cr i) <= 255) l2 -> cs_p (cx_run s (l ++ l2)) = false.
Proof.
  exists c0. eexists. split; [|split; [reflexivity|split; [vm_compute; reflexivity|]]].
  - unfold wr1; cbn; repeat constructor.
  - intros l2 F. unfold cx_run. rewrite fold_left_app. fold (cx_run c0 (repeat rst1 3 ++ (repeat idle 30 ++ wr1 ++ repeat idle 7) ++ [rst1] ++ repeat idle 40)).
    set (s1 := cx_run c0 _). assert (L : locked s1).
    { split; [apply all32; vm_compute; reflexivity|]. split; [vm_compute; split; [discriminate|reflexivity]|]. split; [vm_compute; split; [discriminate|reflexivity]|].
      split; [vm_compute; reflexivity|]. split; [vm_compute; reflexivity|]. split; [vm_compute; reflexivity|]. split; vm_compute; reflexivity. }
    clearbody s1. destruct (locked_run l2 s1 F L) as (_ & _ & _ & _ & _ & _ & _ & H). exact H.
Qed.
Print Assumptions C137_reset_refuted.

(** * C138 *)
(** A gate is open two clocks after the core has shown more than four header credits, and more than two largest payloads of data credits, beyond the counts. *)
Theorem C138_gates : forall s i j, cx_rst i = false -> 0 <= cx_mps i ->
  let t := cx_step (cx_step s i) j in let m := 2 * (8 * 2 ^ Z.min 5 (cx_mps i)) in
  cs_p t = (fc_ph (cs_int s) + 4 <? fc_ph (cx_cr i)) && (fc_pd (cs_int s) + m <? fc_pd (cx_cr i)) /\
  cs_np t = (fc_nph (cs_int s) + 4 <? fc_nph (cx_cr i)) /\
  cs_cpl t = (fc_cplh (cs_int s) + 4 <? fc_cplh (cx_cr i)) && (fc_cpld (cs_int s) + m <? fc_cpld (cx_cr i)).
Proof. exact gates. Qed.
Print Assumptions C138_gates.
(** If the core has subtracted from its limits the TLPs which left the FIFO 24 clocks ago or earlier, and perhaps (k) newer ones, an open gate means that more than
    four headers, and the data of two largest payloads, are left after all TLPs which have gone through the multiplexer. *)
Theorem C138_safe : forall s r l i j a (k : fc_counts), c_reset r -> Forall c_running l -> c_short l -> cx_rst i = false -> 0 <= cx_mps i ->
  let o := counts_of (c_old l) in let t := cx_run s (r ++ l ++ [i; j]) in
  (0 <= fc_ph k -> 0 <= c_sum fc_ph l - fc_ph o < 256 -> fc_ph (cx_cr i) = fc_ph a - (fc_ph o + fc_ph k) -> cs_p t = true -> c_sum fc_ph l + 4 < fc_ph a) /\
  (0 <= fc_nph k -> 0 <= c_sum fc_nph l - fc_nph o < 256 -> fc_nph (cx_cr i) = fc_nph a - (fc_nph o + fc_nph k) -> cs_np t = true -> c_sum fc_nph l + 4 < fc_nph a) /\
  (0 <= fc_cplh k -> 0 <= c_sum fc_cplh l - fc_cplh o < 256 -> fc_cplh (cx_cr i) = fc_cplh a - (fc_cplh o + fc_cplh k) -> cs_cpl t = true -> c_sum fc_cplh l + 4 < fc_cplh a) /\
  (0 <= fc_pd k -> 0 <= c_sum fc_pd l - fc_pd o < 4096 -> fc_pd (cx_cr i) = fc_pd a - (fc_pd o + fc_pd k) -> cs_p t = true -> c_sum fc_pd l + 2 * (8 * 2 ^ Z.min 5 (cx_mps i)) < fc_pd a) /\
  (0 <= fc_cpld k -> 0 <= c_sum fc_cpld l - fc_cpld o < 4096 -> fc_cpld (cx_cr i) = fc_cpld a - (fc_cpld o + fc_cpld k) -> cs_cpl t = true -> c_sum fc_cpld l + 2 * (8 * 2 ^ Z.min 5 (cx_mps i)) < fc_cpld a).
Proof. exact safe. Qed.
Print Assumptions C138_safe.
(** The write is under way: with five credits shown the gate is shut, with six it is open. *)
Example C138_example : let f n := cs_p (cx_run c0 (repeat rst1 3 ++ lw 5 ++ [mkCx false fc0 false false 0 (mkFc n 2000 0 0 0 0) 1; idle])) in
  c_sum fc_ph (lw 5) = 1 /\ fc_ph (counts_of (c_old (lw 5))) = 0 /\ f 5 = false /\ f 6 = true.
Proof. vm_compute. repeat split; reflexivity. Qed.
