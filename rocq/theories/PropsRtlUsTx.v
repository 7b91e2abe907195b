(** C111 to C115: the adapters for the UltraScale completer completion and requester request streams. *)
From Verif Require Import PyBase RtlModel RtlAxmSpec RtlUsIfSpec RtlUsIfProofs4 RtlUsTxModel RtlUsTxSpec RtlUsTxProofs4 RtlUsTxProofs5 RtlUsTxProofs6.

(** * C111 *)
(** Completions; wanted: for all of them. Proved for those with less than 4096 bytes still to come and less than 1024 double words (tx_assume2). *)
Theorem C111_completions_partial : forall p l, tp_ok p -> tp_rq p = false -> tx_follows p tm0 (tx_trace p ts0 l).
Proof. intros p l O _. exact (tx_follows_ok p l O). Qed.
Print Assumptions C111_completions_partial.
(** 128 bits: a completion with 4096 bytes still to come; the descriptor has byte count 0. *)
Theorem C111_byte_count_refuted : exists p l e, tp_ok p /\ tp_rq p = false /\ ~ tx_follows_all p tm0 (tx_trace p ts0 l) /\ nth_error (tx_trace p ts0 l) 1 = Some e /\ tv_valid e = true /\ fld (tv_data e) 28 16 = 0.
Proof.
  exists (mkTp false 2 false), (feed (mkTp false 2 false) ts0 [] [wb true (cc_h 1 4096) 0 [D 1]] (yes 2)). eexists. split; [cbv; split; discriminate|]. split; [reflexivity|]. split; [|split; [reflexivity|split; vm_compute; reflexivity]]. intros F.
  cbn [yes repeat feed tx_trace tx_follows_all] in F. destruct F as [_ F]. specialize (F ltac:(apply tx_assume1b_ok; vm_compute; reflexivity)). destruct F as [[F _] _]. destruct (F ltac:(vm_compute; reflexivity)) as [c [r [Q [_ [_ [_ T]]]]]].
  vm_compute in Q. injection Q as Q _. subst c. specialize (T 0 ltac:(vm_compute; split; [discriminate|reflexivity])). cbn zeta in T. change (if (_ <? HT _) then ?a else _) with a in T. destruct T as [T _]. destruct (T eq_refl) as [_ [_ [B _]]]. vm_compute in B. discriminate.
Qed.
Print Assumptions C111_byte_count_refuted.
(** 128 bits: a completion with 1024 double words of data (its first beat): the descriptor says 0 double words. *)
Theorem C111_dword_count_refuted : exists p l e, tp_ok p /\ tp_rq p = false /\ ~ tx_follows_all p tm0 (tx_trace p ts0 l) /\ nth_error (tx_trace p ts0 l) 1 = Some e /\ tv_valid e = true /\ fld (tv_data e) 42 32 = 0.
Proof.
  exists (mkTp false 2 false), (feed (mkTp false 2 false) ts0 [] [wb false (cc_h 1024 4095) 0 [D 1; D 2; D 3; D 4]] (yes 2)). eexists. split; [cbv; split; discriminate|]. split; [reflexivity|]. split; [|split; [reflexivity|split; vm_compute; reflexivity]]. intros F.
  cbn [yes repeat feed tx_trace tx_follows_all] in F. destruct F as [_ F]. specialize (F ltac:(apply tx_assume1b_ok; vm_compute; reflexivity)). destruct F as [[F _] _]. destruct (F ltac:(vm_compute; reflexivity)) as [c [r [Q [_ [_ [_ T]]]]]].
  vm_compute in Q. injection Q as Q _. subst c. specialize (T 1 ltac:(vm_compute; split; [discriminate|reflexivity])). cbn zeta in T. change (if (_ <? HT _) then ?a else _) with a in T. destruct T as [_ [T _]]. destruct (T eq_refl) as [B _]. vm_compute in B. discriminate.
Qed.
Print Assumptions C111_dword_count_refuted.
(** Completions with 4 double words and with none, 64 bits, with a pause; with 3 and with 1, 128 bits: descriptor, data, lanes, last beat. *)
Example C111_example : tp_ok (mkTp false 1 false) /\ tp_ok (mkTp false 2 false) /\
  (let p := mkTp false 1 false in let tr := tx_trace p ts0 (feed p ts0 [] [wb false (cc_h 4 16) 0 [D 1; D 2]; wb true (cc_h 4 16) 0 [D 3; D 4]; wb true (cc_h 0 8) 0 []] ([true; false; true] ++ yes 8)) in tx_assume p tm0 tr /\
   tx_lanes p tr = [([0x00100010; 0x01020004], false); ([0x00030044; D 1], false); ([D 2; D 3], false); ([D 4], true); ([0x00080010; 0x01020000], false); ([0x00030044], true)]) /\
  (let p := mkTp false 2 false in let tr := tx_trace p ts0 (feed p ts0 [] [wb true (cc_h 3 12) 0 [D 1; D 2; D 3]; wb true (cc_h 1 4) 0 [D 4]] (yes 5)) in tx_assume p tm0 tr /\
   tx_lanes p tr = [([0x000C0010; 0x01020003; 0x00030044; D 1], false); ([D 2; D 3], true); ([0x00040010; 0x01020001; 0x00030044; D 4], true)]).
Proof. split; [cbv; split; discriminate|]. split; [cbv; split; discriminate|]. cbn zeta. split; (split; [apply tx_assumebs_ok; vm_compute; reflexivity|]); vm_compute; reflexivity. Qed.

(** * C112 *)
(** Requests; wanted: for all known kinds. Proved for those with a header of four double words (tx_assume2). *)
Theorem C112_requests_partial : forall p l, tp_ok p -> tp_rq p = true -> tx_follows p tm0 (tx_trace p ts0 l).
Proof. intros p l O _. exact (tx_follows_ok p l O). Qed.
Print Assumptions C112_requests_partial.
(** 128 bits: a write with a header of three double words to 0xFEDC0000 is put out for an address with these bits in the upper half. *)
Theorem C112_refuted : exists p l e, tp_ok p /\ tp_rq p = true /\ ~ tx_follows_k p tm0 (tx_trace p ts0 l) /\ nth_error (tx_trace p ts0 l) 2 = Some e /\ tv_valid e = true /\ fld (tv_data e) 63 0 = 0xFEDC0000 * 2 ^ 32.
Proof.
  exists (mkTp true 2 true), (feed (mkTp true 2 true) ts0 [] [wb true (0x40000001 * 2 ^ 96 + 0x0102000F * 2 ^ 64 + 0xFEDC0000 * 2 ^ 32) 7 [D 1]] (yes 3)). eexists. split; [cbv; split; discriminate|]. split; [reflexivity|]. split; [|split; [reflexivity|split; vm_compute; reflexivity]]. intros F.
  cbn [yes repeat feed tx_trace tx_follows_k] in F. destruct F as [_ F].
  specialize (F ltac:(apply tx_assume1b_ok; vm_compute; reflexivity) ltac:(intros _ b V _; destruct b; [exists 1; right; right; left; split; [vm_compute; reflexivity|]; right; left; vm_compute; reflexivity|vm_compute in V; discriminate])).
  destruct F as [_ F]. specialize (F ltac:(apply tx_assume1b_ok; vm_compute; reflexivity) ltac:(intros _ b V _; destruct b; [exists 1; right; right; left; split; [vm_compute; reflexivity|]; right; left; vm_compute; reflexivity|vm_compute in V; discriminate])).
  destruct F as [[F _] _]. destruct (F ltac:(vm_compute; reflexivity)) as [c [r [Q [_ [_ [_ T]]]]]].
  vm_compute in Q. injection Q as Q _. subst c. specialize (T 1 ltac:(vm_compute; split; [discriminate|reflexivity])). cbn zeta in T. change (if (_ <? HT _) then ?a else _) with a in T. destruct T as [_ [T _]]. specialize (T eq_refl). vm_compute in T. discriminate.
Qed.
Print Assumptions C112_refuted.
(** A read and a write of 6 double words, 256 bits; a read and a write of 1 double word, 64 bits: the read comes first. *)
Example C112_example : tp_ok (mkTp true 3 true) /\ tp_ok (mkTp true 1 false) /\
  (let p := mkTp true 3 true in let tr := tx_trace p ts0 (feed p ts0 [wb true (rd_h 1) 5 []] [wb true (wr_h 6) 7 [D 1; D 2; D 3; D 4; D 5; D 6]] (yes 6)) in tx_assume p tm0 tr /\
   tx_lanes p tr = [([0x3008; 2; 0x01020001; 0x55], true); ([0x2004; 1; 0x01020806; 0; D 1; D 2; D 3; D 4], false); ([D 5; D 6], true)]) /\
  (let p := mkTp true 1 false in let tr := tx_trace p ts0 (feed p ts0 [wb true (rd_h 1) 5 []] [wb true (wr_h 1) 7 [D 1]] (yes 8)) in tx_assume p tm0 tr /\
   tx_lanes p tr = [([0x3008; 2], false); ([0x01020001; 0x55], true); ([0x2004; 1], false); ([0x01020801; 0], false); ([D 1], true)]).
Proof. split; [cbv; split; discriminate|]. split; [cbv; split; discriminate|]. cbn zeta. split; (split; [apply tx_assumebs_ok; vm_compute; reflexivity|]); vm_compute; reflexivity. Qed.

(** * C113 *)
(** A beat that is shown and not taken is kept. *)
Theorem C113_kept : forall p l a e e' b, tx_trace p ts0 l = a ++ e :: e' :: b -> tx_kept e e'.
Proof. intros p l. exact (tx_kept_ok p l ts0). Qed.
Print Assumptions C113_kept.
(** If the FIFOs hold whole TLPs and there are credits, everything is out when the stream was ready for as many clocks as there are beats, and two more. *)
Theorem C113_progress : forall p l1 l2, tp_ok p -> let tr1 := tx_trace p ts0 l1 in let tr2 := tx_trace p (tx_run p ts0 l1) l2 in let m := tx_after p tr1 in let m' := tx_after p (tr1 ++ tr2) in
  tx_assume p tm0 tr1 -> pm_whole (tm_rd m) -> pm_whole (tm_wr m) -> tx_quiet p m tr2 -> Z.of_nat (length (pm_q (tm_rd m))) + Z.of_nat (length (pm_q (tm_wr m))) + 2 <= tx_goods tr2 ->
  pm_q (tm_rd m') = [] /\ pm_q (tm_wr m') = [] /\ pm_cur (tm_rd m') = None /\ pm_cur (tm_wr m') = None /\ ts_valid (tx_run p ts0 (l1 ++ l2)) = false.
Proof. exact tx_progress_ok. Qed.
Print Assumptions C113_progress.
(** A read and a write of 6 double words are waiting: 3 beats; the stream is not ready, then for 5 clocks it is. *)
Example C113_example : let p := mkTp true 3 true in let l := feed p ts0 [wb true (rd_h 1) 5 []] [wb true (wr_h 6) 7 [D 1; D 2; D 3; D 4; D 5; D 6]] ([true; true; false; false] ++ yes 5) in let l1 := firstn 2 l in let l2 := skipn 2 l in
  let tr1 := tx_trace p ts0 l1 in let tr2 := tx_trace p (tx_run p ts0 l1) l2 in let m := tx_after p tr1 in
  tp_ok p /\ tx_assume p tm0 tr1 /\ pm_whole (tm_rd m) /\ pm_whole (tm_wr m) /\ tx_quiet p m tr2 /\ length (pm_q (tm_rd m)) = 1%nat /\ length (pm_q (tm_wr m)) = 2%nat /\ tx_goods tr2 = 5 /\
  (exists e e', tr2 = [] ++ e :: e' :: skipn 2 tr2 /\ ti_rst (tv_in e) = false /\ tv_valid e = true /\ ti_ready (tv_in e) = false).
Proof.
  cbn zeta. split; [cbv; split; discriminate|]. split; [apply tx_assumebs_ok; vm_compute; reflexivity|]. split; [vm_compute; reflexivity|]. split; [vm_compute; reflexivity|]. split; [apply tx_quietb_ok; vm_compute; reflexivity|].
  split; [vm_compute; reflexivity|]. split; [vm_compute; reflexivity|]. split; [vm_compute; reflexivity|]. eexists. eexists. split; [reflexivity|]. split; [vm_compute; reflexivity|]. split; vm_compute; reflexivity.
Qed.

(** * C114 *)
(** The first beat of a request (shown from the clock of i' on, put out in that of i) is there only if in the clock before (that of i1) there were credits: for a read more than 8 headers; for a write more than 8 headers, and data for more
    than two TLPs of the maximum payload size (one clock before, that of i2); reads come first. *)
Theorem C114_credits : forall p l i2 i1 i i', tp_ok p -> tp_rq p = true -> let tr := tx_trace p ts0 (l ++ [i2; i1; i]) in let m := tx_after p tr in let e := last tr (tx_event p ts0 i) in let e' := tx_event p (tx_run p ts0 (l ++ [i2; i1; i])) i' in
  tx_assume p tm0 tr -> tv_valid e' = true -> tv_valid e && negb (ti_ready i) = false -> tm_lock m = None ->
  (t_who p m e' = false -> 8 < ti_nph i1) /\ (t_who p m e' = true -> 8 < ti_ph i1 /\ 2 * (8 * 2 ^ Z.min 5 (ti_mps i2)) < ti_pd i1 /\ (tb_valid (ti_rd i) = false \/ ti_nph i1 <= 8)).
Proof. exact tx_start_ok. Qed.
Print Assumptions C114_credits.
(** The sequence number of a request that comes back goes to the port the request came from, and is the one it was given. *)
Theorem C114_sequence_numbers : forall p tw q (port : bool), 0 <= tw <= tp_sw p - 1 -> 0 <= q < 2 ^ tw -> rq_back p tw true (q + (if port then 0 else 2 ^ (tp_sw p - 1))) = ((negb port, q), (port, q)).
Proof. exact rq_back_ok. Qed.
Print Assumptions C114_sequence_numbers.
(** The write of the example above starts after the read; number 5 of a read, 5 bits. *)
Example C114_example : let p := mkTp true 3 true in let l := feed p ts0 [wb true (rd_h 1) 5 []] [wb true (wr_h 6) 7 [D 1; D 2; D 3; D 4; D 5; D 6]] (yes 4) in let tr := tx_trace p ts0 (firstn 3 l) in let m := tx_after p tr in
  let e' := tx_event p (tx_run p ts0 (firstn 3 l)) (nth 3 l ti_none) in
  firstn 3 l = [] ++ [nth 0 l ti_none; nth 1 l ti_none; nth 2 l ti_none] /\ tx_assume p tm0 tr /\ tv_valid e' = true /\ tv_valid (last tr e') && negb (ti_ready (nth 2 l ti_none)) = false /\ tm_lock m = None /\ t_who p m e' = true /\
  ti_pd (nth 1 l ti_none) = 1000 /\ rq_back p 5 true (5 + 32) = ((true, 5), (false, 5)).
Proof.
  cbn zeta. split; [vm_compute; reflexivity|]. split; [apply tx_assumebs_ok; vm_compute; reflexivity|]. repeat (split; [vm_compute; reflexivity|]). vm_compute; reflexivity.
Qed.

(** * C115 *)
(** Completions, 512 bits; wanted: in the last beat of a TLP the end pointer (bits 11:8) is the last lane that is used. Proved for at most 8 lanes. *)
Theorem C115_end_pointer_partial : forall p l e n, tp_rq p = false -> tp_lw p = 4 -> In e (tx_trace p ts0 l) -> tv_valid e = true -> tv_last e = true -> tv_keep e = 2 ^ n - 1 -> 1 <= n <= 8 -> fld (tv_user e) 11 8 = n - 1.
Proof. exact tx_eop_ptr_ok. Qed.
Print Assumptions C115_end_pointer_partial.
(** A completion with 6 double words of data: 9 lanes, and the end pointer is 0. *)
Theorem C115_end_pointer_refuted : exists l e, let p := mkTp false 4 false in tx_assume p tm0 (tx_trace p ts0 l) /\ In e (tx_trace p ts0 l) /\ tv_valid e = true /\ tv_last e = true /\ tv_keep e = 2 ^ 9 - 1 /\ fld (tv_user e) 11 8 = 0.
Proof.
  exists (feed (mkTp false 4 false) ts0 [] [wb true (cc_h 6 24) 0 (map D [1; 2; 3; 4; 5; 6])] (yes 2)). eexists. cbn zeta. split; [apply tx_assumebs_ok; vm_compute; reflexivity|]. split; [right; left; reflexivity|]. repeat (split; [vm_compute; reflexivity|]). vm_compute; reflexivity.
Qed.
Print Assumptions C115_end_pointer_refuted.
(** With 5 double words it is 7. *)
Example C115_example : exists l e, let p := mkTp false 4 false in In e (tx_trace p ts0 l) /\ tv_valid e = true /\ tv_last e = true /\ tv_keep e = 2 ^ 8 - 1 /\ fld (tv_user e) 11 8 = 7.
Proof.
  exists (feed (mkTp false 4 false) ts0 [] [wb true (cc_h 5 20) 0 (map D [1; 2; 3; 4; 5])] (yes 2)). eexists. cbn zeta. split; [right; left; reflexivity|]. repeat (split; [vm_compute; reflexivity|]). vm_compute; reflexivity.
Qed.
