(** C94, C95, C96: the MSI-X module. *)
From Verif Require Import PyBase RtlModel RtlMsixModel RtlMsixSpec RtlMsixProofs RtlMsixProofs2 RtlMsixProofs3 RtlMsixProofs4 RtlMsixProofs5 RtlMsixProofs6.

(** * C94 *)
Theorem C94_memory : forall p s l, ax_ok p -> ax_fresh p s -> (forall i, In i l -> ax_wide p i /\ mi_rst i = false) -> ax_held (mx_trace p s l) ->
  am_checks p (mkAm (byte_of (ms_tbl s)) [] 0 (ms_pba s)) (mx_trace p s l).
Proof. exact memory_ok. Qed.
Print Assumptions C94_memory.
Theorem C94_kept : forall p s l, r_kept_ax (mx_trace p s l).
Proof. intros p s l. exact (kept_ok p l s). Qed.
Print Assumptions C94_kept.
Theorem C94_served : forall p l, aw_served (mx_trace p mx0 l) /\ ar_served (mx_trace p mx0 l).
Proof. intros p l. exact (conj (aw_ok p l) (ar_ok p l)). Qed.
Print Assumptions C94_served.

(** A write of two bytes at 4 of the table, a read of it, a read of the pending bits; both reads are answered. *)
Definition ax_demo : list mx_in :=
  let w := mkMi false 20 true 0xaabbccdd 6 true true 0 false true 0 false true 5 true false in
  let r a := mkMi false 0 false 0 0 false true a true true 0 false true 5 true false in
  let n := mkMi false 0 false 0 0 false true 0 false true 0 false true 5 true false in
  [w; w; r 20; r 20; r 32768; r 32768; n; n].
Example C94_example : ax_ok mx_default /\ ax_fresh mx_default mx0 /\ (forall i, In i ax_demo -> ax_wide mx_default i /\ mi_rst i = false) /\ ax_held (mx_trace mx_default mx0 ax_demo)
  /\ map (fun e => (mv_awready e, mv_arready e, mv_bvalid e, mv_rvalid e, mv_rdata e)) (mx_trace mx_default mx0 ax_demo)
     = [(false, false, false, false, 0); (true, false, true, false, 0); (false, false, false, false, 0); (false, true, false, false, 0); (false, false, false, true, 0xbbcc00); (false, true, false, false, 0xbbcc00);
        (false, false, false, true, 0); (false, false, false, false, 0)].
Proof.
  split; [unfold ax_ok; cbn; lia|]. split; [left; reflexivity|]. split; [intros i Hi; cbn in Hi; repeat (destruct Hi as [<-|Hi]; [split; [unfold ax_wide; cbn; lia|reflexivity]|]); destruct Hi|].
  split; [apply heldb_ok; vm_compute; reflexivity|vm_compute; reflexivity].
Qed.

(** * C95 *)
(** Wanted, of all requests: the module does what the specification allows. Proved for requests for the first 32 vectors; for others it is false (below). *)
Theorem C95_follows_partial : forall p l, mx_ok p -> (forall i, In i l -> mx_wide p i /\ mx_low i) -> exists acts, follows (mx_force p) mon0 (mx_trace p mx0 l) acts.
Proof. intros p l Hp Hl. exists (acts_of p mx0 l). exact (rel_follows p l Hp Hl mon0 mx0 (mrel0 p Hp)). Qed.
Print Assumptions C95_follows_partial.
Theorem C95_no_spurious_partial : forall p l, mx_ok p -> (forall i, In i l -> mx_wide p i /\ mx_low i) -> no_spurious (mx_force p) (mx_trace p mx0 l).
Proof. intros p l Hp Hl. exact (follows_spurious _ _ _ (low_trace p l mx0 Hl) (rel_follows p l Hp Hl mon0 mx0 (mrel0 p Hp))). Qed.
Print Assumptions C95_no_spurious_partial.
Theorem C95_no_loss_partial : forall p l, mx_ok p -> (forall i, In i l -> mx_wide p i /\ mx_low i) -> no_loss (mx_force p) (mx_trace p mx0 l).
Proof. intros p l Hp Hl. exact (follows_loss _ _ _ (low_trace p l mx0 Hl) (rel_follows p l Hp Hl mon0 mx0 (mrel0 p Hp))). Qed.
Print Assumptions C95_no_loss_partial.
Theorem C95_kept : forall p s l, tlp_kept (mx_trace p s l).
Proof. intros p s l. exact (tlp_kept_ok p l s). Qed.
Print Assumptions C95_kept.
(** With the default parameters: vector 32 is requested while the function is masked. Its pending bit is not set, and nothing is sent. *)
Theorem C95_lost_refuted : exists p l, mx_ok p /\ (forall i, In i l -> mx_wide p i /\ mi_rst i = false) /\ ~ no_loss (mx_force p) (mx_trace p mx0 l).
Proof.
  exists mx_default, mx_run32. split; [discriminate|]. split; [|exact lost]. intros i Hi. apply run96_wide. apply in_or_app. left. exact Hi.
Qed.
Print Assumptions C95_lost_refuted.
(** Later the message of vector 96, which was not requested, is sent. *)
Theorem C95_spurious_refuted : exists p l, mx_ok p /\ (forall i, In i l -> mx_wide p i /\ mi_rst i = false) /\ ~ no_spurious (mx_force p) (mx_trace p mx0 l).
Proof. exists mx_default, mx_run96. split; [discriminate|]. split; [exact run96_wide|exact spurious]. Qed.
Print Assumptions C95_spurious_refuted.

(** The address of vector 3 is written, the vector is requested and its message sent. *)
Definition mx_demo : list mx_in := [mi_write false 48 0xfee00000 15; mi_idle false; mi_write false 56 0x4021 15; mi_idle false; mi_req false 3; mi_idle false; mi_idle false; mi_idle false; mi_idle false].
Example C95_example : mx_ok mx_default /\ (forall i, In i mx_demo -> mx_wide mx_default i /\ mx_low i)
  /\ map offered (mx_trace mx_default mx0 mx_demo) = [None; None; None; None; None; None; None; None; Some (msg_hdr false 5 0xfee00000, 0x4021)]
  /\ msg_hdr false 5 0xfee00000 = 0x400000010005000ffee0000000000000.
Proof.
  split; [discriminate|]. split; [intros i Hi; cbn in Hi; repeat (destruct Hi as [<-|Hi]; [unfold mx_wide, mx_low; cbn; lia|]); destruct Hi|]. split; vm_compute; reflexivity.
Qed.

(** * C96 *)
(** Wanted: a request whose vector is not masked is delivered. Proved for requests for the first 32 vectors when no vector is masked; with masked vectors it is false (below). *)
Theorem C96_delivered_partial : forall p, mx_ok p -> delivers p (Z.to_nat (5 * 2 ^ mx_w p + 8)).
Proof. exact delivers_ok. Qed.
Print Assumptions C96_delivered_partial.
(** Two vectors, vector 0 masked and pending: the pending vector 1, not masked, is never delivered. *)
Theorem C96_starved_refuted : exists p v, mx_ok p /\ starves p v.
Proof. exists mx_two, 1. split; [discriminate|exact starves_one]. Qed.
Print Assumptions C96_starved_refuted.

(** Vector 1 is requested while the function is masked, and delivered afterwards. *)
Example C96_example : let a := [mi_idle true; mi_idle true] in let i := mi_req true 1 in let b := [mi_idle true; mi_idle true; mi_idle true] in let l := repeat (mi_idle false) 18 in
  (forall x, In x (a ++ i :: b ++ l) -> mx_wide mx_two x /\ mx_low x) /\ accepted (mx_event (mx_run mx_two mx0 a) i) = Some 1 /\ (forall x, In x (i :: b ++ l) -> mi_rst x = false)
  /\ (forall x, In x l -> lively x) /\ forallb (fun e => negb (entry_masked (mv_tbl e) 1)) (mx_trace mx_two (mx_run mx_two mx0 (a ++ i :: b)) l) = true /\ (Z.to_nat (5 * 2 ^ mx_w mx_two + 8) <= readies l)%nat
  /\ map offered (mx_trace mx_two (mx_run mx_two mx0 (a ++ i :: b)) (firstn 8 l)) = [None; None; None; None; None; None; None; Some (msg_hdr false 5 0, 0)].
Proof.
  cbv zeta. split; [intros x Hx; cbn in Hx; repeat (destruct Hx as [<-|Hx]; [unfold mx_wide, mx_low; cbn; lia|]); destruct Hx|]. split; [vm_compute; reflexivity|].
  split; [intros x Hx; cbn in Hx; repeat (destruct Hx as [<-|Hx]; [reflexivity|]); destruct Hx|]. split; [intros x Hx; apply repeat_spec in Hx; subst x; repeat split|].
  split; [vm_compute; reflexivity|]. split; [vm_compute; lia|vm_compute; reflexivity].
Qed.
