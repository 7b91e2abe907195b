(** C107 to C110: the adapters for the UltraScale completer request and requester completion streams. *)
From Verif Require Import PyBase RtlModel RtlAxmSpec RtlUsIfModel RtlUsIfSpec RtlUsIfProofs RtlUsIfProofs2 RtlUsIfProofs3 RtlUsIfProofs4.

(** * C107 *)
(** Requests: the FIFO gets exactly the beats of the TLPs. *)
Theorem C107_requests : forall p l, up_ok p -> up_rc p = false -> ui_follows_all p um0 (ui_trace p us0 l).
Proof. intros p l O R. exact (ui_follows_all_ok p l O (or_introl R)). Qed.
Print Assumptions C107_requests.
(** A write of 3 double words and a read, 64 and 128 bits, with pauses: data, lanes, first and last beat, headers. *)
Example C107_example : up_ok (mkUp false 1) /\ up_ok (mkUp false 2) /\
  (let tr := ui_trace (mkUp false 1) us0 cq_l64 in ui_assume (mkUp false 1) um0 tr /\
   ui_sent tr = [(0xAAAA0002AAAA0001, 3, true, false); (0xAAAA0003, 1, false, true); (0x3401020001, 0, true, true)]) /\
  (let tr := ui_trace (mkUp false 2) us0 cq_l128 in ui_assume (mkUp false 2) um0 tr /\
   ui_sent tr = [(0xAAAA0003AAAA0002AAAA0001, 7, true, true); (0, 0, true, true)] /\
   map (fun e => ut_hdr (uv_meta e)) (filter uv_valid tr) = [0x600000030102333F0000000100002004; 0x200000010102340F0000000100002008]).
Proof. split; [cbv; split; discriminate|]. split; [cbv; split; discriminate|]. cbn zeta. split; (split; [apply ui_assumebs_ok; vm_compute; reflexivity|]); [vm_compute; reflexivity|]. split; vm_compute; reflexivity. Qed.

(** * C108 *)
(** Completions, from 128 bits on: the FIFO gets exactly the beats of the TLPs. *)
Theorem C108_completions_wide_partial : forall p l, up_ok p -> up_rc p = true -> 2 <= up_lw p -> ui_follows_all p um0 (ui_trace p us0 l).
Proof. intros p l O R L. exact (ui_follows_all_ok p l O (or_intror L)). Qed.
Print Assumptions C108_completions_wide_partial.
(** All widths; wanted: for all completions. Proved without those that have 2, 4, 6, ... double words of data, at 64 bits (ui_assume2). *)
Theorem C108_completions_partial : forall p l, up_ok p -> ui_follows p um0 (ui_trace p us0 l).
Proof. intros p l O. exact (ui_follows_ok p l O). Qed.
Print Assumptions C108_completions_partial.
(** 64 bits: a completion with 2 double words of data is put out as two beats, the first one full but not marked as last, then one without data. *)
Theorem C108_refuted : exists p l, up_ok p /\ ~ ui_follows_all p um0 (ui_trace p us0 l) /\ ui_sent (ui_trace p us0 l) = [(0xBBBB0002BBBB0001, 3, true, false); (0, 0, false, true)].
Proof.
  exists (mkUp true 1), (rc_l64 [0xBBBB0002] true). split; [cbv; split; discriminate|]. split; [|vm_compute; reflexivity]. intros F.
  assert (A : forall m e, ui_assumeb (mkUp true 1) m e = true -> ui_assume1 (mkUp true 1) m e) by (intros m e H; apply (ui_assumebs_ok (mkUp true 1) [e] m); cbn [ui_assumebs]; rewrite H; reflexivity).
  assert (A3 : forall m e, 1 <=? kcnt (ui_keep (uv_in e)) = true -> (ui_keep (uv_in e) =? 2 ^ kcnt (ui_keep (uv_in e)) - 1) && (kcnt (ui_keep (uv_in e)) <=? 2) && (3 <=? zlen (um_ds m)) && ui_last (uv_in e) = true -> ui_assume1 (mkUp true 1) m e).
  { intros m e H1 H2 _ _. cbn zeta. repeat (apply andb_prop in H2; destruct H2 as [H2 ?]). rewrite H. unfold WD, HD. cbn [up_rc up_lw]. change (2 ^ 1) with 2. apply Z.leb_le in H1, H3, H0. apply Z.eqb_eq in H2. repeat split; [exact H2|exact H1|exact H3|]. apply Z.le_trans with (zlen (um_ds m) + 0); [rewrite Z.add_0_r; exact H0|apply Z.add_le_mono_l, Z.le_trans with 1; [discriminate|exact H1]]. }
  cbn [rc_l64 ui_trace ui_follows_all] in F. destruct F as [_ F]. specialize (F ltac:(apply A; vm_compute; reflexivity)). destruct F as [_ F]. specialize (F ltac:(apply A; vm_compute; reflexivity)).
  destruct F as [_ F]. specialize (F ltac:(apply A3; vm_compute; reflexivity)). destruct F as [F _]. destruct (F ltac:(vm_compute; reflexivity)) as [c [r [Q [_ [E _]]]]].
  vm_compute in Q. injection Q as <- _. vm_compute in E. discriminate.
Qed.
Print Assumptions C108_refuted.
(** Completions with 6 double words and with none, 128 bits; 3 double words, 64 bits. *)
Example C108_example : up_ok (mkUp true 2) /\
  (let tr := ui_trace (mkUp true 2) us0 rc_l128 in ui_assume (mkUp true 2) um0 tr /\
   ui_sent tr = [(0xBBBB0004BBBB0003BBBB0002BBBB0001, 15, true, false); (0xBBBB0006BBBB0005, 3, false, true); (0, 0, true, true)] /\
   map (fun e => ut_hdr (uv_meta e)) (filter uv_valid tr) = [0x4a000006030000800102441000000000; 0x4a000006030000800102441000000000; 0x0a000000030000800102441000000000]) /\
  (let tr := ui_trace (mkUp true 1) us0 (rc_l64 [0xBBBB0002; 0xBBBB0003] true) in ui_assume (mkUp true 1) um0 tr /\ ui_sent tr = [(0xBBBB0002BBBB0001, 3, true, false); (0xBBBB0003, 1, false, true)]).
Proof. split; [cbv; split; discriminate|]. cbn zeta. split; (split; [apply ui_assumebs_ok; vm_compute; reflexivity|]); [|vm_compute; reflexivity]. split; vm_compute; reflexivity. Qed.

(** * C109 *)
(** A beat that is shown to the FIFO and not taken is kept. *)
Theorem C109_kept : forall p l a e e' b, ui_trace p us0 l = a ++ e :: e' :: b -> ui_kept e e'.
Proof. intros p l. exact (ui_kept_ok p l us0). Qed.
Print Assumptions C109_kept.
(** After two clocks in which the FIFO takes beats and the stream is idle, all beats are out; a TLP that is open stays open. *)
Theorem C109_progress : forall p l1 l2, up_ok p -> let tr1 := ui_trace p us0 l1 in let tr2 := ui_trace p (ui_run p us0 l1) l2 in
  ui_assume p um0 tr1 -> ui_quiet tr2 -> 2 <= ui_goods tr2 -> um_q (ui_after p (tr1 ++ tr2)) = [] /\ us_valid (ui_run p us0 (l1 ++ l2)) = false /\ um_ds (ui_after p (tr1 ++ tr2)) = um_ds (ui_after p tr1).
Proof. exact ui_progress_ok. Qed.
Print Assumptions C109_progress.
(** Two beats wait: the FIFO is not ready, then it is. *)
Example C109_example : let p := mkUp true 2 in let l1 := firstn 3 rc_l128 in let l2 := [uidle false; uidle true; uidle true] in let tr1 := ui_trace p us0 l1 in let tr2 := ui_trace p (ui_run p us0 l1) l2 in
  ui_assume p um0 tr1 /\ ui_quiet tr2 /\ ui_goods tr2 = 2 /\ length (um_q (ui_after p tr1)) = 1%nat /\ (exists e e', tr2 = [] ++ e :: e' :: skipn 2 tr2 /\ ui_rst (uv_in e) = false /\ uv_valid e = true /\ ui_ready (uv_in e) = false).
Proof.
  cbn zeta. split; [apply ui_assumebs_ok; vm_compute; reflexivity|]. split; [repeat constructor|]. split; [vm_compute; reflexivity|]. split; [vm_compute; reflexivity|].
  eexists. eexists. split; [reflexivity|]. split; [vm_compute; reflexivity|]. split; vm_compute; reflexivity.
Qed.

(** * C110 *)
(** Messages; wanted: the header has the message code (bits 71:64). Proved: type with routing, format; the message code is in the function number. *)
Theorem C110_messages_partial : forall d be, let m := cq_meta d be in 12 <= fld (lane d 2) 14 11 <= 14 ->
  fld (ut_hdr m) 124 120 = 16 + fld (lane d 3) 18 16 /\ fld (ut_hdr m) 127 125 = (if fld (lane d 2) 10 0 =? 0 then 1 else 3) /\ ut_func m = fld (lane d 3) 15 8.
Proof. exact message_meta_ok. Qed.
Print Assumptions C110_messages_partial.
(** A vendor message (code 0x7E, routing 2): the header that is put out has byte enables where the message code should be. *)
Theorem C110_message_code_refuted : exists l e, let p := mkUp false 2 in let ds := [0; 0; 0x0102 * 65536 + 13 * 2048; 2 * 65536 + 0x7E * 256] in
  l = [ubeat 0 true true ds; uidle true; uidle true] /\ ui_assume p um0 (ui_trace p us0 l) /\ In e (ui_trace p us0 l) /\ uv_valid e = true /\ uv_sop e = true /\
  fld (ut_hdr (uv_meta e)) 124 120 = 18 /\ fld (ut_hdr (uv_meta e)) 71 64 <> fld (dw ds 3) 15 8.
Proof.
  eexists. exists (nth 2 (ui_trace (mkUp false 2) us0 [ubeat 0 true true [0; 0; 0x0102 * 65536 + 13 * 2048; 2 * 65536 + 0x7E * 256]; uidle true; uidle true]) (ui_event us0 (uidle true))).
  cbn zeta. split; [reflexivity|]. split; [apply ui_assumebs_ok; vm_compute; reflexivity|]. split; [apply nth_In; cbn; repeat constructor|]. split; [vm_compute; reflexivity|]. split; [vm_compute; reflexivity|]. split; [vm_compute; reflexivity|]. vm_compute. discriminate.
Qed.
Print Assumptions C110_message_code_refuted.
(** The message of the witness meets the hypotheses. *)
Example C110_example : let d := pack [0; 0; 0x0102 * 65536 + 13 * 2048; 2 * 65536 + 0x7E * 256] in 12 <= fld (lane d 2) 14 11 <= 14 /\ fld (ut_hdr (cq_meta d 0)) 124 120 = 18 /\ ut_func (cq_meta d 0) = 0x7E.
Proof. cbn zeta. split; [vm_compute; split; discriminate|]. split; vm_compute; reflexivity. Qed.
