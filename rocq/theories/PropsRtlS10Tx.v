(** C135, C136: the output side of pcie_s10_if_tx. *)
From Verif Require Import PyBase RtlModel RtlS10TxModel RtlS10TxSpec RtlS10TxProofs.

Theorem C135_laid : forall s r l ts, sx_rst r = true -> Forall sx_running l -> flat_map sx_new l = concat (map fst ts) -> Forall (fun t => tlp_ok (fst t) (snd t)) ts -> let s0 := sx_step s r in
  exists outs rest, Forall2 (fun t o => laid (fst t) (snd t) o) ts outs /\ concat outs = sx_sent (sx_states s0 l) ++ rest /\ (length rest <= 2 * length (ss_qc (sx_run s0 l)) + 1)%nat.
Proof. exact sx_laid. Qed.

Theorem C136_latency : forall s i j k, sx_running i -> sx_running j -> sx_running k ->
  ss_v (sx_step (sx_step (sx_step s i) j) k) = sx_rdy i && sx_vis j && negb (match ss_qc (sx_step s i) with [] => true | _ => false end).
Proof. exact sx_latency. Qed.

(** A TLP of 3 header words and 8 + 6 words, one of 4 header words without payload, and one of 4 header words and 4 words; ready in two of three clocks. *)
Definition x1 : list xb := [mkXb [10; 11; 12; 13; 14; 15; 16; 17] 255 [1; 2; 3; 4] false; mkXb [20; 21; 22; 23; 24; 25; 26; 27] 63 [0; 0; 0; 0] true].
Definition x2 : list xb := [mkXb [0; 0; 0; 0; 0; 0; 0; 0] 0 [2 ^ 29; 5; 6; 7] true].
Definition x3 : list xb := [mkXb [30; 31; 32; 33; 0; 0; 0; 0] 15 [2 ^ 29 + 1; 8; 9; 10] true].
Definition xs0 : sx_state := mkSs true true true (mkOp true true true true true) true [7; 7; 7; 7] (mkOb [] true true) true true x2 x1.
Definition xr : sx_in := mkSx true true true [].
Definition xl : list sx_in := map (fun k => mkSx false (negb (Nat.eqb (k mod 3) 2)) true (if Nat.eqb k 0 then x1 else if Nat.eqb k 2 then x2 ++ x3 else [])) (seq 0 14).
Example C135_example : sx_rst xr = true /\ Forall sx_running xl /\ flat_map sx_new xl = concat (map fst [(x1, 6%nat); (x2, 0%nat); (x3, 4%nat)]) /\
  Forall (fun t => tlp_ok (fst t) (snd t)) [(x1, 6%nat); (x2, 0%nat); (x3, 4%nat)] /\
  map (fun b => (ob_d b, ob_sop b, ob_eop b)) (sx_sent (sx_states (sx_step xs0 xr) xl)) =
  [([1; 2; 3; 10; 11; 12; 13; 14], true, false); ([15; 16; 17; 20; 21; 22; 23; 24], false, false); ([25; 26; 27; 20; 21; 22; 23; 24], false, true);
   ([2 ^ 29; 5; 6; 7; 0; 0; 0; 0], true, true); ([2 ^ 29 + 1; 8; 9; 10; 30; 31; 32; 33], true, true)].
Proof.
  split; [reflexivity|]. split; [apply Forall_forall; intros i Hi; unfold xl in Hi; apply in_map_iff in Hi; destruct Hi as (k & <- & _); reflexivity|]. split; [reflexivity|]. split; [|vm_compute; reflexivity].
  repeat constructor; cbn [fst snd].
  - exists [mkXb [10; 11; 12; 13; 14; 15; 16; 17] 255 [1; 2; 3; 4] false], (mkXb [20; 21; 22; 23; 24; 25; 26; 27] 63 [0; 0; 0; 0] true). split; [reflexivity|]. split; [repeat constructor|]. repeat split. repeat constructor.
  - exists [], (mkXb [0; 0; 0; 0; 0; 0; 0; 0] 0 [2 ^ 29; 5; 6; 7] true). split; [reflexivity|]. split; [constructor|]. repeat split. repeat constructor.
  - exists [], (mkXb [30; 31; 32; 33; 0; 0; 0; 0] 15 [2 ^ 29 + 1; 8; 9; 10] true). split; [reflexivity|]. split; [constructor|]. repeat split. repeat constructor.
Qed.
Example C136_example : map (fun s => ss_v s) (sx_states (sx_step xs0 xr) xl) = [false; false; false; true; true; false; true; true; false; true; false; false; false; false; false].
Proof. vm_compute. reflexivity. Qed.

Print Assumptions C135_laid.
Print Assumptions C136_latency.
