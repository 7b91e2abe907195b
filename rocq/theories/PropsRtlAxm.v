(** C103, C104: the minimal AXI lite master. *)
From Verif Require Import PyBase RtlModel RtlAxmModel RtlAxmSpec RtlAxmProofs RtlAxmProofs2 RtlAxmProofs3.

(** * C103 *)
(** Wanted: am_follows_all, that is for all TLPs. Proved for all TLPs except messages (am_assume1); for these it is false (below). *)
Theorem C103_follows_partial : forall p l, am_follows p ao0 (am_trace p am0 l).
Proof. exact am_follows_ok. Qed.
Print Assumptions C103_follows_partial.
(** What is shown and not taken is kept, for all TLPs. *)
Theorem C103_kept : forall p l a e e' b, am_trace p am0 l = a ++ e :: e' :: b -> am_kept e e'.
Proof. exact am_kept_ok. Qed.
Print Assumptions C103_kept.
(** The only TLP taken is a message, which is posted; it is answered with a completion (unsupported request). *)
Theorem C103_message_refuted : exists p l, let tr := am_trace p am0 l in
  (forall e, In e tr -> rx_taken e = true -> kind_of (ai_hdr (av_in e)) = KMsg) /\ (exists e, In e tr /\ av_txv e = true /\ fld (av_txh e) 79 77 = 1) /\ ~ am_follows_all p ao0 tr.
Proof.
  exists am_p1, am_msg. cbn zeta. split; [|split].
  - assert (H : forallb (fun e => negb (rx_taken e) || isk (kind_of (ai_hdr (av_in e))) KMsg) (am_trace am_p1 am0 am_msg) = true) by (vm_compute; reflexivity).
    rewrite forallb_forall in H. intros e E T. apply H in E. rewrite T in E. cbn [negb orb] in E. destruct (kind_of (ai_hdr (av_in e))); try discriminate. reflexivity.
  - assert (H : existsb (fun e => av_txv e && (fld (av_txh e) 79 77 =? 1)) (am_trace am_p1 am0 am_msg) = true) by (vm_compute; reflexivity).
    apply existsb_exists in H. destruct H as [e [E H]]. apply andb_true_iff in H. exists e. split; [exact E|]. split; [apply H | lia].
  - unfold am_msg. intros F. set (t2 := repeat (am_idle 0) 6) in F. cbn [app am_trace am_follows_all] in F. destruct F as [_ F].
    specialize (F ltac:(discriminate)). destruct F as [_ F]. specialize (F ltac:(intros _; vm_compute; reflexivity)). destruct F as [[_ [_ [_ [_ [_ [_ [_ [_ F]]]]]]]] _]. vm_compute in F. discriminate.
Qed.
Print Assumptions C103_message_refuted.
(** The completion for an IO read has byte count 0 (that is 4096); PCI Express asks for 4 in completions that are not for memory reads. *)
Theorem C103_byte_count_refuted : exists p l, let tr := am_trace p am0 l in
  (forall e, In e tr -> rx_taken e = true -> fmt_of (ai_hdr (av_in e)) = 0 /\ type_of (ai_hdr (av_in e)) = 2) /\ (exists e, In e tr /\ av_txv e = true) /\ (forall e, In e tr -> av_txv e = true -> fld (av_txh e) 75 64 = 0).
Proof.
  exists am_p1, am_io. cbn zeta. split; [|split].
  - assert (H : forallb (fun e => negb (rx_taken e) || ((fmt_of (ai_hdr (av_in e)) =? 0) && (type_of (ai_hdr (av_in e)) =? 2))) (am_trace am_p1 am0 am_io) = true) by (vm_compute; reflexivity).
    rewrite forallb_forall in H. intros e E T. apply H in E. rewrite T in E. cbn [negb orb] in E. lia.
  - assert (H : existsb av_txv (am_trace am_p1 am0 am_io) = true) by (vm_compute; reflexivity). apply existsb_exists in H. exact H.
  - assert (H : forallb (fun e => negb (av_txv e) || (fld (av_txh e) 75 64 =? 0)) (am_trace am_p1 am0 am_io) = true) by (vm_compute; reflexivity).
    rewrite forallb_forall in H. intros e E T. apply H in E. rewrite T in E. cbn [negb orb] in E. lia.
Qed.
Print Assumptions C103_byte_count_refuted.

(** A write of 2 bytes, a read of 3 bytes (answered with 0 at once), a read and a write that are too long, an IO read and a completion: the AXI requests and the completions that are shown. *)
Example C103_example : am_assume am_p1 ao0 (am_trace am_p1 am0 (am_l1 ++ am_l2)) /\
  map (fun e => (av_awaddr e, av_wdata e, av_wstrb e)) (filter (fun e => av_awv e && av_wv e) (am_trace am_p1 am0 (am_l1 ++ am_l2))) = [(4660, 3735928559, 6)] /\
  map av_araddr (filter av_arv (am_trace am_p1 am0 (am_l1 ++ am_l2))) = [57920] /\
  map (fun e => (fmt_of (av_txh e), fld (av_txh e) 119 119, fld (av_txh e) 118 116, fld (av_txh e) 79 77, fld (av_txh e) 75 64, fld (av_txh e) 63 48, fld (av_txh e) 47 40, fld (av_txh e) 38 32, av_txs e)) (filter av_txv (am_trace am_p1 am0 (am_l1 ++ am_l2)))
  = [(2, 1, 5, 0, 3, 258, 7, 64, 1); (0, 0, 1, 4, 0, 259, 9, 0, 0); (0, 0, 0, 1, 0, 260, 11, 0, 0)].
Proof. split; [apply am_assumeb_ok; vm_compute; reflexivity|]. repeat split; vm_compute; reflexivity. Qed.
(** The completer abort waits. *)
Example C103_kept_example : let tr := am_trace am_p1 am0 (am_l1 ++ map am_hold am_l2) in
  exists e e', tr = firstn 13 tr ++ e :: e' :: skipn 15 tr /\ ai_rst (av_in e) = false /\ av_txv e = true /\ ai_cready (av_in e) = false /\ fld (av_txh e') 47 40 = 11.
Proof.
  cbn zeta. set (tr := am_trace am_p1 am0 (am_l1 ++ map am_hold am_l2)). exists (nth 13 tr (am_event am0 (am_idle 0))), (nth 14 tr (am_event am0 (am_idle 0))).
  split; [reflexivity|]. repeat split; vm_compute; reflexivity.
Qed.

(** * C104 *)
(** For all TLPs: after 98 good clocks in which nothing is taken nothing is left to do, and requests are accepted. *)
Theorem C104_progress : forall p l1 l2 l3, let tr2 := am_trace p (am_run p am0 l1) l2 in let tr3 := am_trace p (am_run p am0 (l1 ++ l2)) l3 in
  am_quiet tr2 -> 98 <= am_goods tr2 -> am_quiet tr3 -> Forall am_still tr3 /\ Forall (fun e => av_ready e = true) (skipn 2 tr3).
Proof. exact am_progress_ok. Qed.
Print Assumptions C104_progress.
(** Without messages, where the responses due are those that the module gives: they have all come out. *)
Theorem C104_done : forall p l1 l2, let tr1 := am_trace p am0 l1 in let tr2 := am_trace p (am_run p am0 l1) l2 in
  am_assume p ao0 (tr1 ++ tr2) -> am_quiet tr2 -> 98 <= am_goods tr2 -> am_done (am_after p (tr1 ++ tr2)).
Proof. exact am_done_ok. Qed.
Print Assumptions C104_done.
(** The answers for all TLPs of the example of C103 wait. *)
Example C104_example : let l1 := map am_hold am_l1 in let l2 := repeat (am_idle 5) 100 in let tr1 := am_trace am_p1 am0 l1 in let tr2 := am_trace am_p1 (am_run am_p1 am0 l1) l2 in
  am_assume am_p1 ao0 (tr1 ++ tr2) /\ am_quiet tr2 /\ am_goods tr2 = 100 /\ length (ao_q (am_after am_p1 tr1)) = 4%nat /\ am_quiet (am_trace am_p1 (am_run am_p1 am0 (l1 ++ l2)) l2).
Proof.
  cbn zeta. split; [apply am_assumeb_ok; vm_compute; reflexivity|].
  assert (Q : forall tr, forallb (fun e => negb (ai_rst (av_in e)) && negb (rx_taken e)) tr = true -> am_quiet tr).
  { intros tr H. rewrite forallb_forall in H. apply Forall_forall. intros e E. apply H, andb_true_iff in E. destruct E as [E1 E2]. apply negb_true_iff in E1, E2. auto. }
  split; [apply Q; vm_compute; reflexivity|]. split; [vm_compute; reflexivity|]. split; [vm_compute; reflexivity|]. apply Q; vm_compute; reflexivity.
Qed.
