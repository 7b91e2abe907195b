(** C39: the segmented TLP interface. *)
From Verif Require Import PyBase TlpModel SplitModel PcieIfModel PcieIfStreamModel PcieIfStreamSpec PcieIfStreamProofs4.

(** A 512 bit interface of two segments with all signals. *)
Definition cfg_512 : icfg := mkCfg 2 8 6 true true true true true true true true true true true true.
(** A write of 17 DWORDs (three segments) and a read request. *)
Definition fr_write : frame :=
  mkFrame 3 (0x40000011000000ff * 2 ^ 64 + 0x1000) [0x1010101; 0x2020202; 0x3030303; 0x4040404; 0x5050505; 0x6060606; 0x7070707; 0x8080808; 0x9090909; 0xa0a0a0a; 0xb0b0b0b; 0xc0c0c0c; 0xd0d0d0d; 0xe0e0e0e; 0xf0f0f0f; 0x10101010; 0x11111111] 1 0x1234 [1; 2; 3; 4; 5; 6; 7; 8; 9; 10; 11; 12; 13; 14; 15; 0; 1] 2 (Some 5) 1 0 7 33.
Definition fr_read : frame := mkFrame 0 (0x00000008000000ff * 2 ^ 64 + 0x2000) [] 0 0 [] 1 None 2 0 0 34.

Definition fr_abort : frame := mkFrame 0 (0x00000008000000ff * 2 ^ 64 + 0x2000) [] 0 0 [] 1 None 2 1 0 34.

Example ex_wf_write : frame_wf cfg_512 fr_write.
Proof.
  constructor; cbn [fr_write f_hdr f_tlp_prfx f_hdr_par f_tlp_prfx_par f_bar_id f_func_num f_vf_num f_error f_seq f_data f_parity cfg_512 ic_seqw];
    lazymatch goal with |- _ <= _ < _ => split; vm_compute; congruence | |- Forall _ _ => repeat constructor; vm_compute; congruence | _ => vm_compute; reflexivity end.
Qed.
Example ex_wf_read : frame_wf cfg_512 fr_read /\ frame_wf cfg_512 fr_abort.
Proof.
  split; constructor; cbn [fr_read fr_abort f_hdr f_tlp_prfx f_hdr_par f_tlp_prfx_par f_bar_id f_func_num f_vf_num f_error f_seq f_data f_parity cfg_512 ic_seqw];
    lazymatch goal with |- _ <= _ < _ => split; vm_compute; congruence | |- Forall _ _ => constructor | |- True => exact I | _ => vm_compute; reflexivity end.
Qed.
Example ex_cfg : icfg_ok cfg_512.
Proof. unfold icfg_ok; cbn; lia. Qed.

(** Every history, schedule and backpressure pattern: no assertion of the sink fails
    and the frames received are the first of the frames sent, in order, each once. *)
Theorem C39_in_order : forall cfg evs, icfg_ok cfg -> Forall (frame_wf cfg) (sent evs) ->
  exists s rest, if_run cfg evs if0 = Ok s /\ map (carried cfg) (sent evs) = k_out (if_snk s) ++ rest.
Proof. exact stream_prefix. Qed.
Print Assumptions C39_in_order.

(** Once the interface is not held any more, all of them arrive. *)
Theorem C39_complete : forall cfg evs, icfg_ok cfg -> Forall (frame_wf cfg) (sent evs) ->
  exists n0, forall n, (n0 <= n)%nat -> exists s, if_run cfg (evs ++ free_cycles n) if0 = Ok s /\ k_out (if_snk s) = map (carried cfg) (sent evs).
Proof. exact stream_complete. Qed.
Print Assumptions C39_complete.

(** With all sideband signals present a frame without abort flag is carried as it is. *)
Theorem C39_carried : forall cfg f, pr_data cfg && pr_error cfg && pr_prfx cfg && pr_seq cfg && pr_vfa cfg && pr_func cfg && pr_vfn cfg &&
   pr_bar cfg && pr_dpar cfg && pr_hpar cfg && pr_ppar cfg = true -> f_tlp_abort f = 0 -> carried cfg f = f.
Proof. exact carried_all. Qed.
Print Assumptions C39_carried.

(** The abort flag of a frame is not transferred. *)
Theorem C39_abort_refuted : exists cfg f s, icfg_ok cfg /\ frame_wf cfg f /\
  if_run cfg (ESend f :: free_cycles 4) if0 = Ok s /\ k_out (if_snk s) <> [f].
Proof.
  exists cfg_512, fr_abort. eexists. split; [exact ex_cfg|]. split; [apply ex_wf_read|].
  split; [vm_compute; reflexivity|]. vm_compute. discriminate.
Qed.
Print Assumptions C39_abort_refuted.

(** Both frames, with the source and the sink pausing at first. *)
Example ex_run : exists s, if_run cfg_512 ([ESend fr_write; ERun; EEdge true false; ESend fr_read; ERun; EEdge false true; EEdge false false] ++ free_cycles 6) if0 = Ok s /\
  k_out (if_snk s) = [fr_write; fr_read].
Proof. eexists. split; vm_compute; reflexivity. Qed.

(** On the second transfer the last segment of the write and the read share a cycle. *)
Example ex_pack : exists s, if_run cfg_512 ([ESend fr_write; ESend fr_read; ERun; ERun; ERun; EEdge false true; ERun; EEdge false true]) if0 = Ok s /\
  tr_valid (if_bus s) = 3 /\ tr_sop (if_bus s) = 2 /\ tr_eop (if_bus s) = 3 /\ tr_strb (if_bus s) = 1.
Proof. eexists. split; vm_compute; auto. Qed.
