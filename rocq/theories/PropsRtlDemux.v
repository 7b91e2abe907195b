(** C87: the frame demultiplexers pcie_us_axis_cq_demux and pcie_us_axis_rc_demux. *)
From Verif Require Import PyBase RtlDemuxModel RtlDemuxSpec RtlDemuxProofs3.

(** Frames reach their ports whole and in order if no frame to be sent begins right after a dropped one while an output is held
    up; for a data width of 64, if no frame is dropped and the reset comes first. *)
Theorem C87_route_partial : forall (D : Type) (d : D) w64 n l, 1 <= n -> fit w64 n (dm_trace w64 n (dm0 d) l) -> routed w64 n (dm_trace w64 n (dm0 d) l).
Proof. intros. now apply dm_routed. Qed.
Print Assumptions C87_route_partial.

(** Every beat of them is delivered. *)
Theorem C87_delivered_partial : forall (D : Type) (d : D) w64 n l f k, 1 <= n -> dm_fair n f -> (forall k, fit w64 n (dm_trace w64 n (dm0 d) (dm_inputs l f k))) ->
  exists k' c, sent n (dm_trace w64 n (dm0 d) (dm_inputs l f k')) = expected w64 (taken n (dm_trace w64 n (dm0 d) (dm_inputs l f k))) ++ c.
Proof. intros. now apply dm_delivered. Qed.
Print Assumptions C87_delivered_partial.

(** An offer not taken is kept: always. *)
Theorem C87_kept : forall (D : Type) (d : D) w64 n l, 1 <= n -> kept n (dm_trace w64 n (dm0 d) l).
Proof. intros. now apply dm_kept. Qed.
Print Assumptions C87_kept.

(** The input is ready again and again: always. *)
Theorem C87_ready : forall (D : Type) (d : D) w64 n l f k, 1 <= n -> dm_fair n f ->
  exists m a e, dm_trace w64 n (dm0 d) (dm_inputs l f (S (k + m))) = a ++ [e] /\ de_ready e = true.
Proof. intros D d w64 n l f k Hn F. destruct (ready_again n Hn w64 d l f F k) as [m M]. exists m, (dm_trace w64 n (dm0 d) (dm_inputs l f (k + m))), (dm_event w64 (dm_run w64 n (dm0 d) (dm_inputs l f (k + m))) (f (k + m)%nat)). split; [now apply tr_S|exact M]. Qed.
Print Assumptions C87_ready.

Definition idle (m : Z) : dm_in Z := mkDi false false false 0 true false 0 m.
Definition put (last : bool) (x : Z) (drop : bool) (sel m : Z) : dm_in Z := mkDi false true last x true drop sel m.

(** Widths over 64: frame 1 is held up at port 0, frame 2 is dropped, and the first beat of the next frame (3, 4) is taken and lost. *)
Definition lost : list (dm_in Z) := [idle 0; put true 1 false 1 0; put true 2 true 1 0; put false 3 false 1 0; put true 4 false 1 3; put true 4 false 1 3; idle 3; idle 3].
Theorem C87_lost_refuted : exists l, Forall (fun i => di_rst i = false /\ di_enable i = true) l /\
  expected false (taken 2 (dm_trace false 2 (dm0 0) l)) = [(0, (true, 1)); (0, (false, 3)); (0, (true, 4))] /\
  sent 2 (dm_trace false 2 (dm0 0) l) = [(0, (true, 1)); (0, (true, 4))] /\ ~ routed false 2 (dm_trace false 2 (dm0 0) l).
Proof.
  exists lost. split; [repeat constructor|]. assert (E : expected false (taken 2 (dm_trace false 2 (dm0 0) lost)) = [(0, (true, 1)); (0, (false, 3)); (0, (true, 4))]) by (vm_compute; reflexivity).
  assert (S : sent 2 (dm_trace false 2 (dm0 0) lost) = [(0, (true, 1)); (0, (true, 4))]) by (vm_compute; reflexivity).
  split; [exact E|]. split; [exact S|]. intros (x & X & _). rewrite E, S in X. discriminate.
Qed.
Print Assumptions C87_lost_refuted.

(** Width 64: the frame (1, 2) is dropped; its last beat stays in the input register and is sent to port 0 before the next frame (3, 4). *)
Definition stale : list (dm_in Z) := [idle 3; put false 1 true 1 3; put true 2 true 1 3; idle 3; idle 3; put false 3 false 1 3; put true 4 false 1 3; idle 3; idle 3; idle 3].
Theorem C87_stale_refuted : exists l, Forall (fun i => di_rst i = false /\ di_enable i = true /\ di_mready i = 3) l /\
  expected true (taken 2 (dm_trace true 2 (dm0 0) l)) = [(0, (false, 3)); (0, (true, 4))] /\
  sent 2 (dm_trace true 2 (dm0 0) l) = [(0, (true, 2)); (0, (false, 3)); (0, (true, 4))] /\ ~ routed true 2 (dm_trace true 2 (dm0 0) l).
Proof.
  exists stale. split; [repeat constructor|]. assert (E : expected true (taken 2 (dm_trace true 2 (dm0 0) stale)) = [(0, (false, 3)); (0, (true, 4))]) by (vm_compute; reflexivity).
  assert (S : sent 2 (dm_trace true 2 (dm0 0) stale) = [(0, (true, 2)); (0, (false, 3)); (0, (true, 4))]) by (vm_compute; reflexivity).
  split; [exact E|]. split; [exact S|]. intros (x & X & _). rewrite E, S in X. discriminate.
Qed.
Print Assumptions C87_stale_refuted.

(** Check [no_drop] of a given run, prefix by prefix. *)
Ltac prefixes l :=
  let a := fresh in let b := fresh in let X := fresh in let H := fresh in intros a b X;
  assert (H : In a (map (fun k => firstn k (dm_trace true 2 (dm0 0) l)) (seq 0 10)));
  [apply in_map_iff; exists (length a); rewrite X; split; [rewrite firstn_app, Nat.sub_diag, firstn_all; apply app_nil_r|];
   apply in_seq; apply (f_equal (@length _)) in X; rewrite app_length in X; vm_compute (length (dm_trace _ _ _ _)) in X; lia|];
  clear X; let M := fresh in let EM := fresh in remember (map _ _) as M eqn:EM in H; vm_compute in EM; subst M; cbn [In] in H;
  let f := fresh in let I := fresh in let Y := fresh in
  repeat (destruct H as [<-|H]; [intros f I; vm_compute in I; repeat (destruct I as [<-|I]; [split; [intros Y; vm_compute in Y |- *; try lia; tauto || (repeat (destruct Y as [Y|Y]; [discriminate|]); contradiction)|intros Y; vm_compute in Y |- *; (discriminate || lia)]|]); contradiction|]); contradiction.

(** Width 64: a beat taken before a reset is sent after it; nothing is dropped. *)
Definition rst_run : list (dm_in Z) :=
  [idle 3; put false 1 false 1 3; mkDi true false false 0 true false 0 3; idle 3; put false 3 false 1 3; put true 4 false 1 3; idle 3; idle 3; idle 3].
Theorem C87_reset_refuted : exists l, Forall (fun i => di_drop i = false /\ di_enable i = true /\ di_mready i = 3 /\ (di_rst i = true -> di_valid i = false)) l /\
  no_drop 2 (dm_trace true 2 (dm0 0) l) /\ expected true (taken 2 (dm_trace true 2 (dm0 0) l)) = [(0, (false, 3)); (0, (true, 4))] /\
  sent 2 (dm_trace true 2 (dm0 0) l) = [(0, (false, 1)); (0, (false, 3)); (0, (true, 4))] /\ ~ routed true 2 (dm_trace true 2 (dm0 0) l).
Proof.
  exists rst_run. split; [repeat constructor; discriminate|]. assert (E : expected true (taken 2 (dm_trace true 2 (dm0 0) rst_run)) = [(0, (false, 3)); (0, (true, 4))]) by (vm_compute; reflexivity).
  assert (S : sent 2 (dm_trace true 2 (dm0 0) rst_run) = [(0, (false, 1)); (0, (false, 3)); (0, (true, 4))]) by (vm_compute; reflexivity). split.
  - clear E S. prefixes rst_run.
  - split; [exact E|]. split; [exact S|]. intros (x & X & _). rewrite E, S in X. discriminate.
Qed.
Print Assumptions C87_reset_refuted.

(** The hypotheses hold: sinks always ready, two frames to two ports with a dropped one between them. *)
Lemma ready_fit (n : Z) (tr : list (dm_ev Z)) : Forall (fun e => forall q, 0 <= q < n -> Z.testbit (de_mready e) q = true) tr -> fit false n tr.
Proof.
  intros F a e1 e2 b E _ (q & Hq & _ & H). exfalso. rewrite Forall_forall in F. rewrite (F e1) in H; [discriminate| |assumption]. rewrite E. apply in_app_iff. right. now left.
Qed.
Definition two : list (dm_in Z) := [idle 3; put false 1 false 1 3; put true 2 false 0 3; put true 3 true 2 3; put false 4 false 2 3; put true 5 false 0 3].
Lemma all_ready l s : Forall (fun i => di_mready i = 3) l -> Forall (fun e => forall q, 0 <= q < 2 -> Z.testbit (de_mready e) q = true) (dm_trace false 2 s l : list (dm_ev Z)).
Proof.
  revert s. induction l as [|i l IH]; intros s F; [constructor|]. inversion F as [|? ? F1 F2]; subst. cbn [dm_trace]. constructor; [|now apply IH].
  cbn [dm_event de_mready]. rewrite F1. intros q Hq. assert (Q : q = 0 \/ q = 1) by lia. destruct Q as [-> | ->]; reflexivity.
Qed.
Example C87_ex_wide : fit false 2 (dm_trace false 2 (dm0 0) two) /\ sent 2 (dm_trace false 2 (dm0 0) (two ++ [idle 3])) = [(0, (false, 1)); (0, (true, 2)); (1, (false, 4)); (1, (true, 5))].
Proof. split; [apply ready_fit, all_ready; repeat constructor|vm_compute; reflexivity]. Qed.
Example C87_ex_live : dm_fair 2 (fun _ => idle 3) /\ (forall k, fit false 2 (dm_trace false 2 (dm0 0) (dm_inputs two (fun _ => idle 3) k))).
Proof.
  split.
  - constructor; [reflexivity|reflexivity|]. intros q k Hq. exists O. cbn [di_mready idle]. assert (Q : q = 0 \/ q = 1) by lia. destruct Q as [-> | ->]; reflexivity.
  - intros k. apply ready_fit, all_ready. unfold dm_inputs. apply Forall_app. split; [repeat constructor|]. apply Forall_forall. intros x Hx. apply in_map_iff in Hx. destruct Hx as (y & <- & _). reflexivity.
Qed.
(** Width 64, a sink that holds things up. *)
Definition narrow : list (dm_in Z) := [idle 0; put false 1 false 0 0; put false 2 false 2 0; put true 3 false 0 0; put false 4 false 0 2; put false 4 false 0 2; put true 5 false 1 2].

Example C87_ex_narrow : fit true 2 (dm_trace true 2 (dm0 0) narrow) /\
  sent 2 (dm_trace true 2 (dm0 0) (narrow ++ [idle 3; idle 3; idle 3; idle 3])) = [(1, (false, 1)); (1, (false, 2)); (1, (true, 3)); (0, (false, 4)); (0, (true, 5))].
Proof.
  split; [split|vm_compute; reflexivity].
  - prefixes narrow.
  - intros a e b X R. exfalso. assert (I : In e (dm_trace true 2 (dm0 0) narrow)) by (rewrite X; apply in_app_iff; right; now left).
    vm_compute in I. repeat (destruct I as [<-|I]; [discriminate|]). contradiction.
Qed.
