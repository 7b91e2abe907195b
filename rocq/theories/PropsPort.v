(** C78, C79: links between ports. *)
From Verif Require Import PyBase PortModel PortSpec PortProofs PortProofs2.

(** * C78 *)
(** Whatever the order in which the simulator runs events of equal time, the TLPs delivered
    so far are a prefix of what an ideal serial line delivers for the sends made so far, with
    the same times; with nothing scheduled any more all of them have been delivered. *)
Theorem C78_serial_partial : forall (A : Type) (d : A -> Z) ld, (forall a, 1 <= d a) -> 0 <= ld -> forall l s, tx_run d ld tx0 l = Some s ->
  exists rest, serial d ld 0 (sent d ld tx0 l) = tx_out s ++ rest /\ (tx_pend s = [] -> rest = []).
Proof. exact (fun A d ld Hd Hl => link_serial d ld Hd Hl). Qed.
(** A link never gets stuck: the scheduled events can be run, and when they are all run everything
    sent has been delivered. *)
Theorem C78_completes_partial : forall (A : Type) (d : A -> Z) ld, (forall a, 1 <= d a) -> 0 <= ld -> forall l s, tx_run d ld tx0 l = Some s ->
  exists l' s', Forall (fun o => exists i, o = Run i) l' /\ tx_run d ld tx0 (l ++ l') = Some s' /\ tx_pend s' = [] /\ tx_out s' = serial d ld 0 (sent d ld tx0 l).
Proof. exact (fun A d ld Hd Hl => link_completes d ld Hd Hl). Qed.
(** ... after finitely many events, in whatever order they run. *)
Theorem C78_terminates : forall (A : Type) (d : A -> Z) ld l s s', tx_run d ld s l = Some s' -> Forall (fun o => exists i, o = Run i) l -> (length l <= work s)%nat.
Proof. exact (fun A d ld => drain_all d ld). Qed.
(** The condition holds for every link up to Gen 3 x16 (the default maximum). *)
Theorem C78_default_links : forall speed width wire, 1 <= speed <= 3 -> 1 <= width <= 16 -> 24 <= wire -> exists t, wire_time speed width wire = Some t /\ 1 <= t.
Proof. exact wire_time_pos. Qed.

(** TLPs named by their wire size on a Gen 3 x16 link: 1036, 24 and 40 bytes, the first two sent together. *)
Definition d16 (a : Z) : Z := match wire_time 3 16 a with Some t => t | None => 0 end.
Definition ops16 : list (op Z) := [Send 1036; Send 24; Run 0; Wait 3; Run 0; Send 40; Run 0; Run 1; Run 1; Run 2; Run 2; Run 0; Run 0; Run 0].
Example C78_example : exists s, tx_run d16 10 tx0 ops16 = Some s /\ tx_pend s = [] /\ tx_out s = serial d16 10 0 [(0, 1036); (0, 24); (65, 40)] /\ map snd (tx_out s) = [1036; 24; 40].
Proof. eexists. split; [vm_compute; reflexivity|]. vm_compute. auto. Qed.

(** On a Gen 3 x32 link a TLP without data takes less than one time unit, two TLPs arrive at the same
    time, and the one sent last can be delivered first. *)
Definition d32 (a : Z * Z) : Z := match wire_time 3 32 (fst a) with Some t => t | None => 0 end.
Theorem C78_order_refuted : exists (l : list (op (Z * Z))) s, tx_run d32 10 tx0 l = Some s /\ tx_pend s = [] /\
  map snd (sent d32 10 tx0 l) = [(24, 1); (24, 2)] /\ map snd (tx_out s) = [(24, 2); (24, 1)].
Proof. exists [Send (24, 1); Send (24, 2); Run 0; Run 0; Run 0; Run 1; Run 1; Run 1; Run 0]. eexists. split; [vm_compute; reflexivity|]. vm_compute. auto. Qed.

(** * C79 *)
(** After any sequence of connections the links are consistent. *)
Theorem C79_links : forall l ps, Forall (fun p => p_other p = []) ps -> Forall (fun c => fst c <> snd c) l -> links_ok (connects ps l).
Proof. exact (fun l ps F1 F2 => links_run l ps F2 (links_fresh ps F1)). Qed.
(** A connection between ports that can take it is made, on both sides, and touches nothing else. *)
Theorem C79_connect : forall ps i j p q, i <> j -> nth_error ps i = Some p -> nth_error ps j = Some q -> can_link p j -> can_link q i ->
  exists ps', connect ps i j = (ps', None) /\ length ps' = length ps /\ (exists p', nth_error ps' i = Some p' /\ p_other p' = p_other p ++ [j]) /\ (exists q', nth_error ps' j = Some q' /\ p_other q' = p_other q ++ [i]) /\
    forall k, k <> i -> k <> j -> nth_error ps' k = nth_error ps k.
Proof. exact connect_links. Qed.
(** Any other connection is refused and changes nothing. *)
Theorem C79_refused : forall ps i j p q, nth_error ps i = Some p -> nth_error ps j = Some q -> ~ can_link p j \/ ~ can_link q i -> connect ps i j = (ps, Some (PyException 30)).
Proof. exact connect_refused. Qed.

Definition ps3 : list port := [new_port true 3 16 5; new_port false 1 4 7; new_port false 3 8 5; new_port false 3 16 5].
Example C79_example : Forall (fun p => p_other p = []) ps3 /\ map p_other (connects ps3 [(0, 1); (2, 0); (2, 3); (1, 3)]%nat) = [[1; 2]; [0]; [0]; []]%nat /\
  map p_curs (connects ps3 [(0, 1); (2, 0); (2, 3)]%nat) = [3; 1; 3; 1] /\ snd (connect (connects ps3 [(0, 1); (2, 0)]%nat) 2 3) = Some (PyException 30).
Proof. split; [repeat constructor|]. vm_compute. auto. Qed.

(** Connecting a port to itself is refused but leaves it connected to itself. *)
Theorem C79_self_refuted : exists ps', connect [new_port false 3 16 5] 0 0 = (ps', Some (PyException 30)) /\ map p_other ps' = [[0%nat]].
Proof. eexists. vm_compute. auto. Qed.
(** A bus port has only one speed: connecting a fast port after a slow one makes it send to the slow one
    at the fast speed. *)
Theorem C79_bus_speed_refuted : exists ps l, Forall (fun p => p_other p = []) ps /\ map p_other (connects ps l) = [[1; 2]; [0]; [0]]%nat /\ map p_curs (connects ps l) = [3; 1; 3].
Proof. exists [new_port true 3 16 5; new_port false 1 4 7; new_port false 3 8 5], [(0, 1); (0, 2)]%nat. split; [repeat constructor|]. vm_compute. auto. Qed.

Print Assumptions C78_serial_partial.
Print Assumptions C78_completes_partial.
Print Assumptions C78_terminates.
Print Assumptions C78_default_links.
Print Assumptions C78_order_refuted.
Print Assumptions C79_links.
Print Assumptions C79_connect.
Print Assumptions C79_refused.
Print Assumptions C79_self_refuted.
Print Assumptions C79_bus_speed_refuted.
