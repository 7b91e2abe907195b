(** C101, C102: the reader of the device control registers. *)
From Verif Require Import PyBase RtlModel RtlCfgModel RtlCfgSpec RtlCfgProofs.

(** * C101 *)
Theorem C101_follows : forall p l, uc_ok p -> uc_follows p um0 (uc_trace p uc0 l).
Proof. exact uc_follows_ok. Qed.
Print Assumptions C101_follows.
(** Two physical and two virtual functions from number 64; the register is at 0xC8. *)
Example C101_example : uc_ok uc_p1 /\ forallb (fun e => negb (ui_done (uv_in e)) || uv_read e) (uc_trace uc_p1 uc0 uc_l1) = true /\
  map (fun e => (uv_addr e, uv_fn e)) (filter (fun e => uv_read e && ui_done (uv_in e) && negb (ui_data (uv_in e) =? 9)) (uc_trace uc_p1 uc0 uc_l1)) = [(50, 0); (50, 1); (50, 64); (50, 65)] /\
  map (fun e => (map (uv_ext e) [0; 1; 2; 3], map (uv_mrrs e) [0; 1; 2; 3], map (uv_mps e) [0; 1; 2; 3])) (skipn 1292 (uc_trace uc_p1 uc0 uc_l1)) = [([1; 1; 0; 0], [5; 0; 2; 0], [1; 1; 0; 2])].
Proof. split; [cbv; intuition discriminate|]. repeat split; vm_compute; reflexivity. Qed.
(** An answer that was not asked for is taken for that of the next read: the assumption is needed. *)
Example C101_unasked : existsb uv_read (uc_trace uc_p1 uc0 uc_l2) = false /\ existsb (fun e => uv_ext e 0 =? 1) (uc_trace uc_p1 uc0 uc_l2) = true.
Proof. split; vm_compute; reflexivity. Qed.

(** * C102 *)
(** Every 258 clocks in which the core does not keep the module waiting one more function is read, in turn. *)
Theorem C102_count : forall p l, uc_ok p -> let tr := uc_trace p uc0 l in Forall asked tr -> Forall (fun e => ui_rst (uv_in e) = false) tr ->
  um_reads (um_after p tr) = uc_goods p um0 tr / 258 /\ um_k (um_after p tr) = um_reads (um_after p tr) mod (uc_pf p + uc_vf p).
Proof. exact (fun p l O A Q => uc_count_ok p l O A Q). Qed.
Print Assumptions C102_count.
Example C102_example : let tr := uc_trace uc_p1 uc0 uc_l1 in Forall asked tr /\ Forall (fun e => ui_rst (uv_in e) = false) tr /\ uc_goods uc_p1 um0 tr = 1288 /\ um_reads (um_after uc_p1 tr) = 4.
Proof.
  cbn zeta. assert (H : forallb (fun e => (negb (ui_done (uv_in e)) || uv_read e) && negb (ui_rst (uv_in e))) (uc_trace uc_p1 uc0 uc_l1) = true) by (vm_compute; reflexivity).
  rewrite forallb_forall in H. split; [|split; [|split; vm_compute; reflexivity]]; apply Forall_forall; intros e E; apply H, andb_true_iff in E; destruct E as [E1 E2].
  - intros D. rewrite D in E1. exact E1.
  - now apply negb_true_iff.
Qed.
