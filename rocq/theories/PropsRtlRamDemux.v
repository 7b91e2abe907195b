(** C89 and C90: the RAM demultiplexers. *)
From Verif Require Import PyBase RtlModel RtlRamModel RtlDemuxModel RtlRamDemuxModel RtlRamDemuxSpec RtlRamDemuxProofs RtlRamDemuxProofs2 RtlRamDemuxProofs3 RtlRamDemuxProofs4 RtlRamDemuxProofs5.
From Coq Require Import Lia.

(** Two ports, a select input of one bit for the port and two bits for the rest. *)
Definition c89_c sel (c : Z) cr rv rr := mkRd (mkXi false true sel c cr) rv (fun q => 100 + q) rr.
Definition c89_n cr rv rr := mkRd (mkXi false false 0 0 cr) rv (fun q => 200 + q) rr.
Definition c89_l := [c89_n 0 0 false; c89_c 5 11 1 0 false; c89_c 2 12 3 0 false; c89_c 1 13 3 2 true; c89_n 3 3 true; c89_n 3 3 true; c89_n 3 3 false; c89_n 3 3 true; c89_n 3 0 true; c89_n 3 0 true; c89_n 3 0 true].
Notation c89_tr := (rd_trace c89_p (rd0 (0, 0)) c89_l).

Theorem C89_routed : forall D p (d : Z * D) l, x_ok p -> r_routed p (rd_trace p (rd0 d) l).
Proof. intros D p d l H. exact (rd_routed p H d l). Qed.
Print Assumptions C89_routed.
Example C89_routed_ex : x_ok c89_p /\ r_asked c89_p c89_tr = [(1, (1, 11)); (0, (2, 12)); (0, (1, 13))] /\ r_sent c89_p c89_tr = [(1, (1, 11)); (0, (2, 12)); (0, (1, 13))].
Proof. split; [unfold x_ok; cbn; lia | vm_compute; auto]. Qed.

Theorem C89_ordered : forall D p (d : Z * D) l, x_ok p -> r_ordered p (rd_trace p (rd0 d) l).
Proof. intros D p d l H. exact (rd_ordered p H d l). Qed.
Print Assumptions C89_ordered.
Example C89_ordered_ex : r_got c89_p c89_tr = [(1, 101); (0, 200); (0, 200)].
Proof. vm_compute. reflexivity. Qed.

Theorem C89_passed : forall D p (d : Z * D) l, x_ok p -> r_passed p (rd_trace p (rd0 d) l).
Proof. intros D p d l H. exact (rd_passed p H d l). Qed.
Print Assumptions C89_passed.
Example C89_passed_ex : r_answers c89_tr = [101; 200; 200].
Proof. vm_compute. reflexivity. Qed.

Theorem C89_own : forall D p (d : Z * D) l, x_ok p -> r_causal p (rd_trace p (rd0 d) l) -> r_own p (rd_trace p (rd0 d) l).
Proof. intros D p d l H. exact (rd_own p H d l). Qed.
Print Assumptions C89_own.
Example C89_own_ex : r_causal c89_p c89_tr /\ length (r_answers c89_tr) = 3%nat.
Proof.
  split; [|vm_compute; reflexivity]. intros q.
  assert (E1 : r_got c89_p c89_tr = [(1, 101); (0, 200); (0, 200)]) by (vm_compute; reflexivity).
  assert (E2 : r_sent c89_p c89_tr = [(1, (1, 11)); (0, (2, 12)); (0, (1, 13))]) by (vm_compute; reflexivity).
  rewrite E1, E2. unfold of_port. rewrite !map_length. cbn [filter fst]. destruct (1 =? q), (0 =? q); cbn [length]; lia.
Qed.

Theorem C89_kept : forall D p (d : Z * D) l, x_ok p -> r_kept p (rd_trace p (rd0 d) l).
Proof. intros D p d l H. exact (rd_kept p H d l). Qed.
Print Assumptions C89_kept.
Example C89_kept_ex : map rde_cvalid c89_tr = [0; 0; 2; 1; 1; 0; 0; 0; 0; 0; 0] /\ map rde_valid c89_tr = [false; false; false; false; false; true; true; true; true; false; false].
Proof. vm_compute. auto. Qed.

(** Both ports answer at once and the client asks at every clock. *)
Definition c89_f (k : nat) := c89_c (if Nat.even k then 5 else 2) (Z.of_nat k) 3 3 true.
Theorem C89_served : forall D p (d : Z * D) l f, x_ok p -> r_fair p (fun k => rd_trace p (rd0 d) (r_inputs l f k)) f ->
  forall k, exists m, (length (r_asked p (rd_trace p (rd0 d) (r_inputs l f k))) <= length (r_answers (rd_trace p (rd0 d) (r_inputs l f (k + m)))))%nat.
Proof. intros D p d l f H. exact (rd_served p H d l f). Qed.
Print Assumptions C89_served.
Example C89_served_ex : r_fair c89_p (fun k => rd_trace c89_p (rd0 (0, 0)) (r_inputs c89_l c89_f k)) c89_f.
Proof.
  constructor; try reflexivity.
  - intros k x H. apply r_asked_in in H. destruct H as [s ->]. unfold exists_port, port_of. apply Z.ltb_lt. change (Z.log2_up (xp_ports c89_p)) with 1. change (xp_ports c89_p) with 2. apply Z.mod_pos_bound. lia.
  - intros q k Q. exists 0%nat. cbn in Q. assert (q = 0 \/ q = 1) as [->| ->] by lia; reflexivity.
  - intros q k Q _. exists 0%nat. cbn in Q. assert (q = 0 \/ q = 1) as [->| ->] by lia; reflexivity.
  - intros q k Q _ _. cbn in Q. assert (q = 0 \/ q = 1) as [->| ->] by lia; reflexivity.
  - intros k. exists 0%nat. reflexivity.
Qed.

Theorem C89_ready : forall D p (d : Z * D) l f, x_ok p -> r_fair p (fun k => rd_trace p (rd0 d) (r_inputs l f k)) f ->
  forall k, exists m a e, rd_trace p (rd0 d) (r_inputs l f (S (k + m))) = a ++ [e] /\ rde_ready e = true.
Proof. intros D p d l f H. exact (rd_ready_seen p H d l f). Qed.
Print Assumptions C89_ready.
Example C89_ready_ex : map rde_ready (rd_trace c89_p (rd0 (0, 0)) (r_inputs c89_l c89_f 3)) = [false; true; true; true; true; true; true; true; true; true; true; true; true; true].
Proof. vm_compute. reflexivity. Qed.

(** Without the assumption on the client an answer can be lost for ever: three ports, a command for the fourth, and a command for port 0. *)
Definition c89_q := mkXp 3 2 4.
Definition c89_ql := [c89_n 7 7 true; c89_c 12 1 7 7 true; c89_c 0 2 7 7 true; c89_n 7 7 true; c89_n 7 7 true].
Theorem C89_any_port_refuted : exists p (d : Z * Z) l f, x_ok p
  /\ (forall k, xi_rst (rd_cmd (f k)) = false /\ xi_valid (rd_cmd (f k)) = false /\ rd_rready (f k) = true)
  /\ (forall k q, 0 <= q < xp_ports p -> Z.testbit (xi_cready (rd_cmd (f k))) q = true /\ Z.testbit (rd_rvalid (f k)) q = true)
  /\ forall k, let tr := rd_trace p (rd0 d) (r_inputs l f k) in r_sent p tr = [(0, (0, 2))] /\ r_answers tr = [].
Proof.
  exists c89_q, (0, 0), c89_ql, (fun _ => c89_n 7 7 true). split; [unfold x_ok; cbn; lia|]. split; [auto|]. split.
  - intros k q Q. cbn in Q. assert (q = 0 \/ q = 1 \/ q = 2) as [->|[->| ->]] by lia; split; reflexivity.
  - intros k. cbn zeta. unfold r_inputs. rewrite rtrace_app, (rd_fix c89_q) by (vm_compute; reflexivity).
    unfold r_sent, r_answers. rewrite !since_repeat; [vm_compute; auto | vm_compute; reflexivity ..].
Qed.
Print Assumptions C89_any_port_refuted.

(** The inputs of a segment are its part of each bus. *)
Theorem C89_wired : forall p segs aw dw n b q, x_ok p -> 0 <= n < segs -> 0 <= q < xp_ports p -> 0 <= aw -> 0 <= dw ->
  let i := rd_seg p segs aw dw n b in
  xi_valid (rd_cmd i) = Z.testbit (rb_valid b) n /\ rd_rready i = Z.testbit (rb_rready b) n
  /\ Z.testbit (xi_cready (rd_cmd i)) q = Z.testbit (rb_cready b) (q * segs + n) /\ Z.testbit (rd_rvalid i) q = Z.testbit (rb_rvalid b) (q * segs + n)
  /\ (forall k, 0 <= k < xp_m p -> Z.testbit (xi_sel (rd_cmd i)) k = Z.testbit (rb_sel b) (n * xp_m p + k))
  /\ (forall k, 0 <= k < aw -> Z.testbit (xi_cmd (rd_cmd i)) k = Z.testbit (rb_addr b) (n * aw + k))
  /\ (forall k, 0 <= k < dw -> Z.testbit (rd_rdata i q) k = Z.testbit (rb_rdata b) ((q * segs + n) * dw + k)).
Proof. intros p segs aw dw n b q H1 H2 H3 H4 H5. exact (rd_wired p segs aw dw n b q H1 H2 H3 H4 H5). Qed.
Print Assumptions C89_wired.
Example C89_wired_ex : let i := rd_seg c89_p 2 4 8 1 (mkRb false 0x2d 0xa5 2 8 0x44332211 4 2) in
  (xi_valid (rd_cmd i), xi_sel (rd_cmd i), xi_cmd (rd_cmd i), xi_cready (rd_cmd i), rd_rvalid i, (rd_rdata i 0, rd_rdata i 1), rd_rready i) = (true, 5, 10, 2, 0, (0x22, 0x44), true).
Proof. vm_compute. reflexivity. Qed.

(** * Writes *)
Notation c90_tr := (wr_trace c89_p (wr0 (0, 0)) c90_l).

Theorem C90_routed : forall D p (d : Z * D) l, x_ok p -> w_routed p (wr_trace p (wr0 d) l).
Proof. intros D p d l H. exact (wr_routed p H d l). Qed.
Print Assumptions C90_routed.
Example C90_routed_ex : w_asked c89_p c90_tr = [(1, (1, 11)); (0, (2, 12)); (0, (1, 13))] /\ w_sent c89_p c90_tr = [(1, (1, 11)); (0, (2, 12)); (0, (1, 13))].
Proof. vm_compute. auto. Qed.

Theorem C90_sound : forall D p (d : Z * D) l, x_ok p -> w_sound p (wr_trace p (wr0 d) l).
Proof. intros D p d l H. exact (wr_sound p H d l). Qed.
Print Assumptions C90_sound.
Example C90_sound_ex : map wre_done c90_tr = [false; false; false; false; false; false; false; false; true] /\ w_dones c89_p c90_tr = [(0, tt); (0, tt); (1, tt)].
Proof. vm_compute. auto. Qed.

Theorem C90_kept : forall D p (d : Z * D) l, x_ok p -> w_kept p (wr_trace p (wr0 d) l).
Proof. intros D p d l H. exact (wr_kept p H d l). Qed.
Print Assumptions C90_kept.
Example C90_kept_ex : map wre_cvalid c90_tr = [0; 0; 2; 2; 1; 1; 0; 0; 0].
Proof. vm_compute. auto. Qed.

Theorem C90_served : forall D p (d : Z * D) l f, x_ok p -> w_fair p (fun k => wr_trace p (wr0 d) (w_inputs l f k)) f ->
  forall k, exists m, (length (w_asked p (wr_trace p (wr0 d) (w_inputs l f k))) <= length (w_told (wr_trace p (wr0 d) (w_inputs l f (k + m)))))%nat.
Proof. intros D p d l f H. exact (wr_served p H d l f). Qed.
Print Assumptions C90_served.
(** Three writes, one of them told of at the end of the first part. *)
Example C90_served_ex : w_fair c89_p (fun k => wr_trace c89_p (wr0 (0, 0)) (w_inputs c90_l c90_f k)) c90_f /\ length (w_told c90_tr) = 1%nat.
Proof.
  split; [|vm_compute; reflexivity]. constructor; try reflexivity.
  - intros k x H. apply w_asked_in in H. destruct H as [s ->]. unfold exists_port, port_of. apply Z.ltb_lt. change (Z.log2_up (xp_ports c89_p)) with 1. change (xp_ports c89_p) with 2. apply Z.mod_pos_bound. lia.
  - intros q k Q. exists 0%nat. cbn in Q. assert (q = 0 \/ q = 1) as [->| ->] by lia; reflexivity.
  - exact c90_causal.
  - intros q k Q. exists 0%nat. apply c90_does.
Qed.

Theorem C90_ready : forall D p (d : Z * D) l f, x_ok p -> w_fair p (fun k => wr_trace p (wr0 d) (w_inputs l f k)) f ->
  forall k, exists m a e, wr_trace p (wr0 d) (w_inputs l f (S (k + m))) = a ++ [e] /\ wre_ready e = true.
Proof. intros D p d l f H. exact (wr_ready_seen p H d l f). Qed.
Print Assumptions C90_ready.
Example C90_ready_ex : map wre_ready c90_tr = [false; true; true; false; true; true; true; true; true].
Proof. vm_compute. reflexivity. Qed.

Theorem C90_wired : forall p segs bw aw dw n b q, x_ok p -> 0 <= n < segs -> 0 <= q < xp_ports p -> 0 <= bw -> 0 <= aw -> 0 <= dw ->
  let i := wr_seg p segs bw aw dw n b in
  xi_valid (wr_cmd i) = Z.testbit (wb_valid b) n
  /\ Z.testbit (xi_cready (wr_cmd i)) q = Z.testbit (wb_cready b) (q * segs + n) /\ Z.testbit (wr_done i) q = Z.testbit (wb_done b) (q * segs + n)
  /\ (forall k, 0 <= k < xp_m p -> Z.testbit (xi_sel (wr_cmd i)) k = Z.testbit (wb_sel b) (n * xp_m p + k))
  /\ (forall k, 0 <= k < bw -> Z.testbit (fst (fst (xi_cmd (wr_cmd i)))) k = Z.testbit (wb_be b) (n * bw + k))
  /\ (forall k, 0 <= k < aw -> Z.testbit (snd (fst (xi_cmd (wr_cmd i)))) k = Z.testbit (wb_addr b) (n * aw + k))
  /\ (forall k, 0 <= k < dw -> Z.testbit (snd (xi_cmd (wr_cmd i))) k = Z.testbit (wb_data b) (n * dw + k)).
Proof. intros p segs bw aw dw n b q H1 H2 H3 H4 H5 H6. exact (wr_wired p segs bw aw dw n b q H1 H2 H3 H4 H5 H6). Qed.
Print Assumptions C90_wired.
Example C90_wired_ex : let i := wr_seg c89_p 2 1 4 8 1 (mkWb false 0x2d 2 0xa5 0x2211 2 8 4) in
  (xi_valid (wr_cmd i), xi_sel (wr_cmd i), xi_cmd (wr_cmd i), xi_cready (wr_cmd i), wr_done i) = (true, 5, (1, 10, 0x22), 2, 0).
Proof. vm_compute. reflexivity. Qed.
