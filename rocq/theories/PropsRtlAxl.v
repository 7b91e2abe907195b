(** C139, C140, C141: the AXI lite master. *)
From Verif Require Import PyBase RtlModel RtlAxlModel RtlAxlSpec RtlAxlProofs RtlAxlProofs2 RtlAxlProofs3.

(** However arready and the response FIFO behave: what is issued is the beginning of one read per word, cut into completions, and all of it when the request is done;
    unless the request has more than 32 words and starts at the last word before a boundary of 128 bytes. *)
Theorem C139_reads_partial : forall f64 c s i l, let r := rr_of f64 (ai_hdr i) in
  takes_read s i -> Forall running (i :: l) -> rr_a r + rr_n r <= 2 ^ 62 -> (rr_n r <= 32 \/ rr_a r mod 32 <> 31) ->
  let es := ops f64 c s (i :: l) in
  exists rest, answered (rr_who r) (unused_high (rr_lbe r)) (low_byte (rr_fbe r)) (rr_a r) (rr_n r) (rr_bytes r) (fst es ++ rest) /\ (snd es = true <-> rest = []).
Proof. exact read_done. Qed.
Print Assumptions C139_reads_partial.

Definition rhdr (a n : Z) : Z := 0x20000000 * 2 ^ 96 + n * 2 ^ 96 + 0x123463 * 2 ^ 72 + 0x3c * 2 ^ 64 + 4 * a.
Definition rq0 : al_req := mkRq AIdle 0 [] 0 0 0 0 0 false (mkWho 0 0 0 0).
Definition ra0 : al_state := mkAs rq0 (mkAo true 0 false 0 0 false false false false).
Definition rin (a n : Z) (arr half : bool) : al_in := mkAi false true true true (rhdr a n) [] false false arr half.
(** 70 words from word 0x1003d on, byte 2 of the first to byte 1 of the last, with stalls. *)
Definition rl : list al_in := map (fun k => rin 0x1003d 70 (negb (k mod 3 =? 0)) (k mod 7 =? 1)) (map Z.of_nat (seq 0 200)).
Example C139_example : takes_read ra0 (rin 0x1003d 70 false false) /\ Forall running rl /\ rr_of false (rhdr 0x1003d 70) = mkRr 0x1003d 70 12 3 (mkWho 0x1234 0x63 0 0) /\
  let es := ops false 3 ra0 rl in
  snd es = true /\ length (fst es) = 70%nat /\
  map (fun x => (fst x, e_dw (snd x), e_bc (snd x), e_low (snd x))) (filter (fun x => e_first (snd x)) (fst es)) = [(0x400f6, 3, 276, 0x76); (0x40100, 32, 266, 0); (0x40180, 32, 138, 0); (0x40200, 3, 10, 0)].
Proof. split; [vm_compute; repeat split|]. split; [apply Forall_forall; intros i H; unfold rl in H; apply in_map_iff in H; destruct H as (k & <- & _); reflexivity|]. vm_compute. repeat split. Qed.
(** 33 words from the last word before a boundary on: the first completion is announced with one word, its end is not marked, and 2081 reads are issued for it. *)
Theorem C139_reads_refuted : exists s i l, takes_read s i /\ Forall running (i :: l) /\ rr_a (rr_of false (ai_hdr i)) = 31 /\ rr_n (rr_of false (ai_hdr i)) = 33 /\
  let es := ops false 3 s (i :: l) in snd es = true /\ length (fst es) = 2081%nat /\
  map (fun x => (e_first (snd x), e_last (snd x), e_dw (snd x))) (firstn 2 (fst es)) = [(true, false, 1); (false, false, 0)].
Proof.
  exists ra0, (rin 31 33 true false), (repeat (rin 31 33 true false) 2100). split; [vm_compute; repeat split|].
  split; [apply Forall_forall; intros i H; destruct H as [<-|H]; [reflexivity|]; apply repeat_spec in H; subst i; reflexivity|]. vm_compute. repeat split.
Qed.
Print Assumptions C139_reads_refuted.

(** C140: after a reset, whatever comes in: what is offered on an AXI lite channel stays until it is taken; an operation recorded in the response FIFO is offered, after the one before it has been taken;
    and nothing else is offered. *)
Theorem C140_held : forall f64 c s0 i0 l i, ai_rst i0 = true -> ai_rst i = false ->
  let s := fold_left (al_step f64 c) (i0 :: l) s0 in let t := al_step f64 c s i in let o := s_o s in let p := s_o t in
  held_ch (o_arv o) (ai_arr i) (o_arv p) (o_addr p = o_addr o) /\ held_ch (o_awv o) (ai_awr i) (o_awv p) (o_addr p = o_addr o) /\
  held_ch (o_wv o) (ai_wr i) (o_wv p) (o_wd p = o_wd o /\ o_ws p = o_ws o) /\
  match al_entry f64 c s i with
  | Some e => (e_rd e = true -> o_arv p = true /\ (o_arv o = true -> ai_arr i = true)) /\
      (e_wr e = true -> o_awv p = true /\ o_wv p = true /\ (o_awv o = true -> ai_awr i = true) /\ (o_wv o = true -> ai_wr i = true))
  | None => (o_arv p = true -> o_arv o = true /\ ai_arr i = false) /\ (o_awv p = true -> o_awv o = true /\ ai_awr i = false) /\ (o_wv p = true -> o_wv o = true /\ ai_wr i = false)
  end.
Proof. intros f64 c s0 i0 l i R0 R. exact (held f64 c _ i (axj_run f64 c s0 i0 l R0) R). Qed.
Print Assumptions C140_held.
(** A reset, a clock for ready, a read of 70 words, and arready low: the read of word 0x1003d stays. *)
Example C140_example : let rst := mkAi true false false false 0 [] false false false false in let idle := mkAi false false false false 0 [] false false false false in
  let s := fold_left (al_step false 3) [rst; idle; rin 0x1003d 70 false false] ra0 in
  ai_rst rst = true /\ o_arv (s_o s) = true /\ ai_arr (rin 0 1 false false) = false /\ o_addr (s_o s) = 0x400f6 /\
  o_addr (s_o (al_step false 3 s (rin 0 1 false false))) = 0x400f6 /\ o_addr (s_o (al_step false 3 s (rin 0 1 true false))) = 0x400f8.
Proof. vm_compute. repeat split. Qed.

(** C141: however the beats come in and awready, wready and the response FIFO behave: what is issued is the beginning of one write per word, and all of it when the request is done;
    and just the beats needed for it have been handed over. *)
Theorem C141_writes : forall f64 c s i l, let r := rr_of f64 (ai_hdr i) in
  takes_write s i -> Forall running (i :: l) -> 0 < c -> rr_a r + rr_n r <= 2 ^ 62 ->
  let x := wops f64 c s (i :: l) in let es := fst (fst x) in let B := snd (fst x) in let m := Z.of_nat (length es) in
  1 <= m <= rr_n r /\ es = map (wop r c B) (map Z.of_nat (seq 0 (length es))) /\ Z.of_nat (length B) = (m - 1) / 2 ^ c + 1 /\ (snd x = true <-> m = rr_n r).
Proof. exact write_done. Qed.
Print Assumptions C141_writes.
(** Six words from byte 2 of word 0x1003d on, in beats of four words, with stalls. *)
Definition win (k : Z) : al_in := mkAi false (negb (k mod 3 =? 1)) (k =? 0) false (rhdr 0x1003d 6 + 2 ^ 126) [10 * k; 10 * k + 1; 10 * k + 2; 10 * k + 3] (k mod 2 =? 0) (negb (k mod 4 =? 3)) false (k mod 7 =? 1).
Definition wl : list al_in := map win (map Z.of_nat (seq 1 60)).
Example C141_example : takes_write ra0 (win 0) /\ Forall running (win 0 :: wl) /\ rr_of false (ai_hdr (win 0)) = mkRr 0x1003d 6 12 3 (mkWho 0x1234 0x63 0 0) /\
  let x := wops false 2 ra0 (win 0 :: wl) in snd x = true /\ length (snd (fst x)) = 2%nat /\
  map fst (map fst (fst (fst x))) = [0x400f6; 0x400f8; 0x400fc; 0x40100; 0x40104; 0x40108] /\ map snd (fst (fst x)) = [12; 15; 15; 15; 15; 3].
Proof. split; [vm_compute; repeat split|]. split; [apply Forall_forall; intros i [<-|H]; [reflexivity|]; unfold wl in H; apply in_map_iff in H; destruct H as (k & <- & _); reflexivity|]. vm_compute. repeat split. Qed.
