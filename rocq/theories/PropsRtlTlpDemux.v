(** C91: the TLP demultiplexers. *)
From Verif Require Import PyBase RtlModel RtlTlpDemuxModel RtlTlpDemuxSpec RtlTlpDemuxProofs RtlTlpDemuxProofs2.

(** Every port gets the segments of the packets for it, in order, none lost, invented or changed; at most one beat is on its way. *)
Theorem C91_routed : forall D p (d : D) l, td_ok p -> t_routed p (td_trace p (td0 d) l).
Proof. intros D p d l H. exact (td_routed p H l d). Qed.
Print Assumptions C91_routed.

(** Packets arrive whole. *)
Theorem C91_packets : forall D p (d : D) l, td_ok p -> t_packets p (td_trace p (td0 d) l).
Proof. intros D p d l H. exact (td_packets p H l d). Qed.
Print Assumptions C91_packets.

(** What a port does not take stays as it is. *)
Theorem C91_kept : forall D p (d : D) l, td_ok p -> t_kept p (td_trace p (td0 d) l).
Proof. intros D p d l H. exact (td_kept p H l d). Qed.
Print Assumptions C91_kept.

(** When a beat is taken. *)
Theorem C91_ready : forall D p (d : D) l, td_ok p -> t_ready p (td_trace p (td0 d) l).
Proof. intros D p d l H. exact (td_ready p H l d). Qed.
Print Assumptions C91_ready.

(** With ports that are ready again and again everything is delivered. *)
Theorem C91_served : forall D p (d : D) l f q k, td_ok p -> t_fair p f -> 0 <= q < tp_ports p ->
  exists m rest, t_given p q (td_trace p (td0 d) (t_inputs l f (k + m))) = to_port q None (t_taken p (td_trace p (td0 d) (t_inputs l f k))) ++ rest.
Proof. intros D p d l f q k H F Q. exact (td_served p H d l f F q k Q). Qed.
Print Assumptions C91_served.

(** And while enabled the next beat is taken. *)
Theorem C91_ready_again : forall D p (d : D) l f k, td_ok p -> t_fair p f -> (forall j, tdi_enable (f j) = true) ->
  exists m, td_in_ready p (td_run p (td0 d) (t_inputs l f (k + m))) (f (k + m)%nat) = true.
Proof. intros D p d l f k H F E. exact (td_ready_again p H d l f F E k). Qed.
Print Assumptions C91_ready_again.

(** With the BAR select: a packet goes to the port whose BAR number it carries, and to none if there is no such port. *)
Theorem C91_bar : forall D p (i : td_in D) ids bar g q, td_ok p -> bars_distinct p ids -> tdi_drop i = 0 -> tdi_select i = bar_select p ids bar -> 0 <= g < tp_segs p ->
  (choice p i g = Some q <-> 0 <= q < tp_ports p /\ bar3 ids q = bar3 bar g).
Proof. intros D p i ids bar g q H. exact (bar_choice p i ids bar g q). Qed.
Print Assumptions C91_bar.

(** The default BAR numbers. *)
Theorem C91_bar_ids : forall ports base stride m, 0 <= ports -> 0 <= m < ports -> bar3 (bar_ids_int ports 0 base stride) m = (base + m * stride) mod 8.
Proof. intros ports base stride m. exact (calc_bars ports base stride m). Qed.
Print Assumptions C91_bar_ids.

(** Two ports for BARs 1 and 2, two segments: a packet of two segments for BAR 2, one for BAR 1 and one for BAR 5; port 0 is slow. *)
Definition xp : td_param := mkTp 2 2.
Definition xids : Z := bar_ids_int 2 0 1 1.
Definition xin (v sop eop bars ready d0 : Z) : td_in Z := mkTdi false (fun g => d0 + g) v sop eop ready true 0 (bar_select xp xids bars).
Definition xl : list (td_in Z) := [xin 3 1 2 18 3 10; xin 3 3 3 (1 + 8 * 5) 3 20; xin 3 1 2 18 2 30; xin 3 1 2 18 2 30; xin 3 1 2 18 1 30; xin 3 1 2 18 0 30; xin 0 0 0 0 3 0].
Example xp_ok : td_ok xp. Proof. split; discriminate. Qed.
Example xids_distinct : bars_distinct xp xids.
Proof.
  intros m m' H H' E. change (tp_ports xp) with 2 in *. assert (M : m = 0 \/ m = 1) by lia. assert (M' : m' = 0 \/ m' = 1) by lia.
  destruct M as [-> | ->], M' as [-> | ->]; try reflexivity; vm_compute in E; discriminate.
Qed.
Definition xps : list (list (@segment Z * option Z)) :=
  [[((true, false, 10), Some 1); ((false, true, 11), Some 1)]; [((true, true, 20), Some 0)]; [((true, true, 21), None)]; [((true, false, 30), Some 1); ((false, true, 31), Some 1)]].
Example C91_trace : let tr := td_trace xp (td0 0) xl in
  (t_given xp 0 tr, t_given xp 1 tr) = ([(true, true, 20)], [(true, false, 10); (false, true, 11); (true, false, 30); (false, true, 31)]) /\
  map (fun e => tde_ready e) tr = [true; true; false; false; false; true; true] /\ map (fun e => tde_valid e) tr = [0; 12; 1; 1; 1; 0; 12] /\
  t_taken xp tr = concat xps.
Proof. repeat split; vm_compute; reflexivity. Qed.
Example C91_packet_list : Forall packet xps.
Proof.
  constructor; [|constructor; [|constructor; [|constructor; [|constructor]]]].
  - exists ((true, false, 10), Some 1), [((false, true, 11), Some 1)]. repeat split; [now repeat constructor|]. exists [((true, false, 10), Some 1)], ((false, true, 11), Some 1). repeat split. now repeat constructor.
  - exists ((true, true, 20), Some 0), []. repeat split; [now repeat constructor|]. exists [], ((true, true, 20), Some 0). repeat split. now repeat constructor.
  - exists ((true, true, 21), None), []. repeat split; [now repeat constructor|]. exists [], ((true, true, 21), None). repeat split. now repeat constructor.
  - exists ((true, false, 30), Some 1), [((false, true, 31), Some 1)]. repeat split; [now repeat constructor|]. exists [((true, false, 30), Some 1)], ((false, true, 31), Some 1). repeat split. now repeat constructor.
Qed.
Example C91_fair : t_fair xp (fun k => xin 3 1 2 18 (if Nat.even k then 1 else 2) 30).
Proof.
  split; [reflexivity|]. intros q k H. change (tp_ports xp) with 2 in H. assert (M : q = 0 \/ q = 1) by lia. destruct (Nat.even k) eqn:E, M as [-> | ->].
  - exists O. rewrite Nat.add_0_r, E. reflexivity.
  - exists 1%nat. rewrite Nat.add_1_r, Nat.even_succ, <- Nat.negb_even, E. reflexivity.
  - exists 1%nat. rewrite Nat.add_1_r, Nat.even_succ, <- Nat.negb_even, E. reflexivity.
  - exists O. rewrite Nat.add_0_r, E. reflexivity.
Qed.
Example C91_bar_case : map (fun m => bar3 xids m) [0; 1] = [1; 2] /\ choice xp (xin 3 1 2 18 3 10) 0 = Some 1 /\ choice xp (xin 3 3 3 (1 + 8 * 5) 3 20) 1 = None.
Proof. repeat split. Qed.
