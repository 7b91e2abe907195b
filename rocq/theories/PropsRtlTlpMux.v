(** C92, C93: the TLP multiplexer. *)
From Verif Require Import PyBase RtlModel RtlMuxModel RtlTlpMuxModel RtlRamDemuxSpec RtlTlpMuxSpec RtlTlpMuxProofs4.

(** Wanted, of all inputs whose valid segments come first: the output is a merge of the inputs by whole packets.
    Proved for at most two segments, and for any number of them when every beat is full or empty; missing are partly filled beats with three segments or more, for which it is false (below). *)
Theorem C92_merged_partial : forall D (d0 : D) p l, tm_ok p -> Forall (in_packed p) l -> tm_s p <= 2 \/ Forall (in_full p) l ->
  exists src, is_merge p (tm_trace d0 p (tm0 d0 p) l) src.
Proof. intros D d0 p l. exact (merged D d0 p l). Qed.
Print Assumptions C92_merged_partial.

(** Segments that are not taken stay on the output, whatever the inputs are. *)
Theorem C92_kept : forall D (d0 : D) p l, m_kept (tm_trace d0 p (tm0 d0 p) l).
Proof. intros D d0 p l. exact (kept D d0 p l). Qed.
Print Assumptions C92_kept.

Definition pin (v sop eop d : Z) : tm_pin Z := mkPi v sop eop (fun k => d + k) false.
Definition none : tm_pin Z := pin 0 0 0 0.
Definition cyc (a b : tm_pin Z) : tm_in Z := mkTi false [a; b] true.
Definition packed_b (s : Z) (i : tm_in Z) : bool := (Z.of_nat (length (ti_port i)) =? 2) && forallb (fun x => existsb (fun m => pi_valid x =? 2 ^ m - 1) (count_up (s + 1))) (ti_port i).
Lemma packed_b_ok : forall rr lsb s l, forallb (packed_b s) l = true -> Forall (in_packed (mkTm 2 s rr lsb)) l.
Proof.
  intros rr lsb s l H. apply Forall_forall. intros i I. rewrite forallb_forall in H. specialize (H i I). apply andb_true_iff in H. destruct H as [H1 H2]. split; [now apply Z.eqb_eq|]. apply Forall_forall. intros x X.
  rewrite forallb_forall in H2. specialize (H2 x X). apply existsb_exists in H2. destruct H2 as (m & M & E). exists m. split; [|now apply Z.eqb_eq]. apply in_map_iff in M. destruct M as (k & <- & K). apply in_seq in K. cbn [tm_s]. lia.
Qed.

(** Four segments: a packet of port 0 (200) is sent in the middle of a packet of port 1 (21, 22). *)
Definition p4 : tm_param := mkTm 2 4 false true.
Definition l4 : list (tm_in Z) := [cyc none none; cyc (pin 1 1 1 100) (pin 15 1 0 0); cyc none (pin 7 0 4 10); cyc none (pin 7 0 4 10); cyc (pin 1 1 1 200) (pin 15 11 13 20); cyc none none; cyc none none; cyc none none].
Theorem C92_torn_refuted : exists (p : tm_param) (l : list (tm_in Z)), tm_ok p /\ Forall (in_packed p) l /\ ~ exists src, is_merge p (tm_trace 0 p (tm0 0 p) l) src.
Proof.
  exists p4, l4. split; [split; discriminate|]. split; [apply packed_b_ok; vm_compute; reflexivity|].
  set (tr := tm_trace 0 p4 (tm0 0 p4) l4).
  assert (O1 : exists a b, m_out tr = a ++ (true, false, 21) :: (true, true, 200) :: b).
  { exists (firstn 9 (m_out tr)), (skipn 11 (m_out tr)). vm_compute. reflexivity. }
  destruct O1 as (a & b & O1). apply (not_merged Z p4 tr a _ _ b O1 eq_refl). intros q Q [I1 I2]. change (tm_n p4) with 2 in Q. assert (C : q = 0 \/ q = 1) by lia. destruct C as [-> | ->].
  - assert (F : existsb (fun x => snd x =? 21) (m_taken p4 0 tr) = false) by (vm_compute; reflexivity). assert (T : existsb (fun x => snd x =? 21) (m_taken p4 0 tr) = true) by (apply existsb_exists; exists (true, false, 21); auto). congruence.
  - assert (F : existsb (fun x => snd x =? 200) (m_taken p4 1 tr) = false) by (vm_compute; reflexivity). assert (T : existsb (fun x => snd x =? 200) (m_taken p4 1 tr) = true) by (apply existsb_exists; exists (true, true, 200); auto). congruence.
Qed.
Print Assumptions C92_torn_refuted.

(** Two segments, one port: a beat with one segment that does not end the packet is never sent, although the next beat is offered and the output is ready all the time. *)
Definition p2s : tm_param := mkTm 1 2 false true.
Definition ls (k : nat) : list (tm_in Z) := [mkTi false [none] true; mkTi false [pin 1 1 0 10] true] ++ repeat (mkTi false [pin 3 0 2 20] true) k.
Theorem C92_stuck_refuted : exists (p : tm_param) (l : nat -> list (tm_in Z)), tm_ok p /\ (forall k, Forall (in_packed p) (l k)) /\ (forall k, length (l k) = 2 + k)%nat /\
  forall k, m_taken p 0 (tm_trace 0 p (tm0 0 p) (l k)) = [(true, false, 10)] /\ m_out (tm_trace 0 p (tm0 0 p) (l k)) = [].
Proof.
  exists p2s, ls. split; [split; discriminate|]. assert (PK : forall m v so e d, 0 <= m <= 2 -> v = 2 ^ m - 1 -> in_packed p2s (mkTi false [pin v so e d] true)).
  { intros m v so e d M E. split; [reflexivity|]. constructor; [|constructor]. exists m. auto. }
  split; [|split].
  - intros k. apply Forall_app. split; [constructor; [apply (PK 0); lia|constructor; [apply (PK 1); lia|constructor]]|]. apply Forall_forall. intros x X. apply repeat_spec in X. subst x. apply (PK 2); lia.
  - intros k. unfold ls. rewrite app_length, repeat_length. reflexivity.
  - assert (G : forall k st, tm_step 0 p2s st (mkTi false [pin 3 0 2 20] true) = st -> sk_valid (ts_out st) = false -> te_ready (tm_event 0 p2s st (mkTi false [pin 3 0 2 20] true)) = [false] -> forall a b,
      fold_left (fun l e => if m_rst e then [] else l ++ match nth_error (ti_port (te_in e)) (Z.to_nat 0), nth (Z.to_nat 0) (te_ready e) false with | Some x, true => map (fun k => (Z.testbit (pi_sop x) k, Z.testbit (pi_eop x) k, pi_data x k)) (filter (fun k => Z.testbit (pi_valid x) k) (count_up (tm_s p2s))) | _, _ => [] end) (tm_trace 0 p2s st (repeat (mkTi false [pin 3 0 2 20] true) k)) a = a
      /\ fold_left (fun l e => if m_rst e then [] else l ++ (if ti_ready (te_in e) then map snd (filter fst (te_out e)) else [])) (tm_trace 0 p2s st (repeat (mkTi false [pin 3 0 2 20] true) k)) b = b).
    { induction k as [|k IH]; intros st F1 F2 F3 a b; [split; reflexivity|]. cbn [repeat tm_trace fold_left]. rewrite F1, F3. set (e := tm_event 0 p2s st (mkTi false [pin 3 0 2 20] true)). change (m_rst e) with false. change (te_in e) with (mkTi false [pin 3 0 2 20] true). assert (EO : te_out e = []) by (unfold e, tm_event; cbn [te_out]; now rewrite F2). rewrite EO. cbn [ti_port ti_ready nth_error nth Z.to_nat filter map]. rewrite !app_nil_r. now apply IH. }
    set (st := tm_run 0 p2s (tm0 0 p2s) (ls 1)). assert (H1 : tm_step 0 p2s st (mkTi false [pin 3 0 2 20] true) = st) by (vm_compute; reflexivity). assert (H2 : sk_valid (ts_out st) = false) by (vm_compute; reflexivity).
    assert (H3 : te_ready (tm_event 0 p2s st (mkTi false [pin 3 0 2 20] true)) = [false]) by (vm_compute; reflexivity).
    assert (B : m_taken p2s 0 (tm_trace 0 p2s (tm0 0 p2s) (ls 1)) = [(true, false, 10)] /\ m_out (tm_trace 0 p2s (tm0 0 p2s) (ls 1)) = []) by (vm_compute; auto). destruct B as [B1 B2].
    intros k. destruct k as [|k]; [vm_compute; auto|]. replace (ls (S k)) with (ls 1 ++ repeat (mkTi false [pin 3 0 2 20] true) k) by reflexivity. rewrite trace_app. fold st. unfold m_taken, m_out, since in *. rewrite !fold_left_app, B1, B2. apply (G k st H1 H2 H3).
Qed.
Print Assumptions C92_stuck_refuted.

(** Wanted: sel_tlp_seq_valid and sel_tlp_seq report the port and the sequence number of each packet sent, once, and nothing else.
    Proved when every beat is full or empty; missing are partly filled beats, for which it is false (below). *)
Theorem C93_selected_partial : forall D (d0 : D) p l, tm_ok p -> Forall (in_full p) l ->
  exists src rest, is_merge p (tm_trace d0 p (tm0 d0 p) l) src /\ firsts true src = m_pulses p (tm_trace d0 p (tm0 d0 p) l) ++ rest /\ Z.of_nat (length rest) <= tm_s p.
Proof. intros D d0 p l. exact (selected D d0 p l). Qed.
Print Assumptions C93_selected_partial.

(** Two segments: a sequence number (21) is reported that no segment taken from the port carries. *)
Definition p2 : tm_param := mkTm 2 2 false true.
Definition l2 : list (tm_in Z) := [cyc none none; cyc (pin 1 1 1 100) (pin 3 3 3 10); cyc none (pin 1 1 1 20); cyc none (pin 1 1 1 20); cyc none (pin 1 1 1 20); cyc none none; cyc none none].
Theorem C93_spurious_refuted : exists (p : tm_param) (l : list (tm_in Z)), tm_ok p /\ Forall (in_packed p) l /\ let tr := tm_trace 0 p (tm0 0 p) l in
  ~ exists src rest, is_merge p tr src /\ firsts true src = m_pulses p tr ++ rest.
Proof.
  exists p2, l2. split; [split; discriminate|]. split; [apply packed_b_ok; vm_compute; reflexivity|]. set (tr := tm_trace 0 p2 (tm0 0 p2) l2). cbn zeta. intros (src & rest & M & F).
  assert (I : In (1, 21) (firsts true src)) by (rewrite F; apply in_or_app; left; vm_compute; auto 10). destruct (firsts_in _ _ _ _ I) as (x & X & X1 & X2). destruct (src_taken _ _ _ _ _ M X) as [_ T]. rewrite X1 in T. cbn [fst snd] in *.
  assert (FB : existsb (fun x => snd x =? 21) (m_taken p2 1 tr) = false) by (vm_compute; reflexivity). assert (TB : existsb (fun x => snd x =? 21) (m_taken p2 1 tr) = true) by (apply existsb_exists; exists (snd x); split; [exact T|now rewrite X2]). congruence.
Qed.
Print Assumptions C93_spurious_refuted.

(** Non-trivial cases: the run above for the partly filled beats, and full beats of two ports with packets of one to three segments. *)
Example x2_ok : tm_ok p2 /\ Forall (in_packed p2) l2 /\ tm_s p2 <= 2. Proof. split; [split; discriminate|]. split; [apply packed_b_ok; vm_compute; reflexivity|discriminate]. Qed.
Example C92_trace : m_out (tm_trace 0 p2 (tm0 0 p2) l2) = [(true, true, 100); (true, true, 10); (true, true, 11); (true, true, 20); (true, true, 20)]. Proof. vm_compute. reflexivity. Qed.
Definition lf : list (tm_in Z) := [cyc none none; cyc (pin 3 1 2 10) (pin 3 3 1 20); cyc (pin 3 3 1 12) (pin 3 2 3 22); cyc (pin 3 0 2 14) (pin 3 2 3 22); cyc none (pin 3 2 3 22); cyc none (pin 3 2 3 22); cyc none none; cyc none none; cyc none none; cyc none none].
Example xf_ok : Forall (in_full p2) lf.
Proof. repeat (constructor; [split; [reflexivity|repeat (constructor; [first [left; reflexivity | right; reflexivity]|]); constructor]|]). constructor. Qed.
Example C93_trace : let tr := tm_trace 0 p2 (tm0 0 p2) lf in
  m_out tr = [(true, false, 10); (false, true, 11); (true, true, 12); (true, false, 13); (false, false, 14); (false, true, 15); (true, true, 20); (true, false, 21); (false, true, 22); (true, true, 23)]
  /\ m_pulses p2 tr = [(0, 10); (0, 12); (0, 13); (1, 20); (1, 21); (1, 23)].
Proof. vm_compute. split; reflexivity. Qed.
