(** The adapters for UltraScale completion and request streams (C111 to C115): witnesses. *)
From Verif Require Import PyBase RtlModel RtlAxmSpec RtlUsIfSpec RtlUsIfProofs4 RtlUsTxModel RtlUsTxSpec.
From Coq Require Import Lia.

Definition nob : tx_beat := mkTb false false 0 0 0 0.
Definition wb (eop : bool) (h sq : Z) (ds : list Z) : tx_beat := mkTb true eop (pack ds) (2 ^ zlen ds - 1) h sq.
(** Inputs: the FIFOs show these beats, one after another; ready or not; 20 header credits, 1000 data credits, maximum payload size 512 bytes. *)
Fixpoint feed (p : tx_param) (s : tx_state) (rds wrs : list tx_beat) (rdy : list bool) : list tx_in :=
  match rdy with [] => [] | y :: r => let i := mkTi false (hd nob rds) (hd nob wrs) y 20 1000 20 2 in
    i :: feed p (tx_step p s i) (if tx_read p s i false then tl rds else rds) (if tx_read p s i true then tl wrs else wrs) r end.

(** * Checks *)
Definition beqb (a b : tx_beat) : bool := Bool.eqb (tb_valid a) (tb_valid b) && Bool.eqb (tb_eop a) (tb_eop b) && (tb_data a =? tb_data b) && (tb_strb a =? tb_strb b) && (tb_hdr a =? tb_hdr b) && (tb_seq a =? tb_seq b).
Definition beat_okb (p : tx_param) (port : bool) (m : tx_pm) (b : tx_beat) : bool := negb (tb_valid b) ||
  (0 <=? tb_hdr b) && (tb_hdr b <? 2 ^ 128) && (0 <=? tb_seq b) && (tb_seq b <? 2 ^ (tp_sw p - 1)) &&
  (if port then let n := kcnt (tb_strb b) in (tb_strb b =? 2 ^ n - 1) && (0 <=? n) && (n <=? WT p) && (tb_eop b || (n =? WT p)) && (negb (pm_open m) || (1 <=? n)) else tb_eop b).
Definition port_assumeb (p : tx_param) (port : bool) (m : tx_pm) (b : tx_beat) : bool := match pm_cur m with Some c => beqb b c | None => beat_okb p port m b end.
Definition thdr_okb (p : tx_param) (h : Z) : bool :=
  if tp_rq p then (fld h 125 125 =? 1) && existsb (fun x => (fst (snd x) =? fld h 127 125) && (snd (snd x) =? fld h 124 120)) rq_kinds else (1 <=? fld h 75 64) && (if fld h 126 126 =? 1 then 1 <=? fld h 105 96 else fld h 105 96 =? 0).
Definition tx_assume1b (p : tx_param) (m : tx_mon) (e : tx_ev) : bool := port_assumeb p false (tm_rd m) (ti_rd (tv_in e)) && port_assumeb p true (tm_wr m) (ti_wr (tv_in e)) && (tp_rq p || negb (tb_valid (ti_rd (tv_in e)))).
Definition tx_assume2b (p : tx_param) (m : tx_mon) (e : tx_ev) : bool :=
  (negb (tb_valid (ti_rd (tv_in e))) || pm_open (tm_rd m) || thdr_okb p (tb_hdr (ti_rd (tv_in e)))) && (negb (tb_valid (ti_wr (tv_in e))) || pm_open (tm_wr m) || thdr_okb p (tb_hdr (ti_wr (tv_in e)))).
Fixpoint tx_assumebs (p : tx_param) (m : tx_mon) (tr : list tx_ev) : bool := match tr with [] => true | e :: r => tx_assume1b p m e && tx_assume2b p m e && tx_assumebs p (tm_next p m e) r end.

Lemma beqb_ok a b : beqb a b = true -> a = b.
Proof.
  unfold beqb. intros H. repeat (apply andb_prop in H; destruct H as [H ?]). apply Bool.eqb_prop in H. apply Bool.eqb_prop in H4. destruct a as [a1 a2 a3 a4 a5 a6], b as [b1 b2 b3 b4 b5 b6]. cbn [tb_valid tb_eop tb_data tb_strb tb_hdr tb_seq] in *. f_equal; try assumption; now apply Z.eqb_eq.
Qed.
Lemma port_assumeb_ok p port m b : port_assumeb p port m b = true -> port_assume p port m b.
Proof.
  unfold port_assumeb, port_assume. destruct (pm_cur m); [apply beqb_ok|]. unfold beat_okb, beat_ok. intros H V. rewrite V in H. cbn [negb orb] in H. repeat (apply andb_prop in H; destruct H as [H ?]). split; [lia|]. split; [lia|]. destruct port; [|assumption]. cbn zeta in *.
  repeat (apply andb_prop in H0; destruct H0 as [H0 ?]). split; [lia|]. split; [lia|]. split; [intros E; rewrite E in *; cbn [orb] in *; lia|intros E; rewrite E in *; cbn [negb orb] in *; lia].
Qed.
Lemma thdr_okb_ok p h : thdr_okb p h = true -> thdr_ok p h.
Proof.
  unfold thdr_okb, thdr_ok. destruct (tp_rq p).
  - intros H. apply andb_prop in H. destruct H as [H1 H2]. split; [lia|]. apply existsb_exists in H2. destruct H2 as [[k [f t]] [H2 H3]]. cbn [fst snd] in H3. apply andb_prop in H3. destruct H3 as [H3 H4]. apply Z.eqb_eq in H3, H4. subst f t. exists k. left. exact H2.
  - intros H. apply andb_prop in H. destruct H as [H1 H2]. split; [lia|]. destruct (fld h 126 126 =? 1); lia.
Qed.
Lemma tx_assume1b_ok p m e : tx_assume1b p m e = true -> tx_assume1 p m e.
Proof.
  unfold tx_assume1b. intros H _. apply andb_prop in H. destruct H as [H H2]. apply andb_prop in H. destruct H as [H0 H1]. split; [now apply port_assumeb_ok|]. split; [now apply port_assumeb_ok|]. intros R. rewrite R in *. cbn [orb] in *. now apply negb_true_iff.
Qed.
Lemma tx_assume2b_ok p m e : tx_assume2b p m e = true -> tx_assume2 p m e.
Proof.
  unfold tx_assume2b. intros H _. apply andb_prop in H. destruct H as [H1 H2]. split; intros V OP; rewrite V, OP in *; cbn [negb orb] in *; now apply thdr_okb_ok.
Qed.
Lemma tx_assumebs_ok p tr : forall m, tx_assumebs p m tr = true -> tx_assume p m tr.
Proof.
  induction tr as [|e r IH]; intros m H; cbn [tx_assumebs tx_assume] in *; [exact I|]. apply andb_prop in H. destruct H as [H H2]. apply andb_prop in H. destruct H as [H0 H1]. split; [now apply tx_assume1b_ok|]. split; [now apply tx_assume2b_ok|]. now apply IH.
Qed.
Definition quietb (m : tx_pm) (b : tx_beat) : bool := match pm_cur m with Some c => beqb b c | None => negb (tb_valid b) end.
Fixpoint tx_quietb (p : tx_param) (m : tx_mon) (tr : list tx_ev) : bool :=
  match tr with [] => true | e :: r => negb (ti_rst (tv_in e)) && quietb (tm_rd m) (ti_rd (tv_in e)) && quietb (tm_wr m) (ti_wr (tv_in e)) && (8 <? ti_ph (tv_in e)) && (8 <? ti_nph (tv_in e)) && (512 <? ti_pd (tv_in e)) && tx_quietb p (tm_next p m e) r end.
Lemma quietb_ok m b : quietb m b = true -> pm_quiet m b.
Proof. unfold quietb, pm_quiet. destruct (pm_cur m); [apply beqb_ok|]. apply negb_true_iff. Qed.
Lemma tx_quietb_ok p tr : forall m, tx_quietb p m tr = true -> tx_quiet p m tr.
Proof.
  induction tr as [|e r IH]; intros m H; cbn [tx_quietb tx_quiet] in *; [exact I|]. do 6 (apply andb_prop in H; destruct H as [H ?]). split; [now apply negb_true_iff|]. split; [now apply quietb_ok|]. split; [now apply quietb_ok|]. repeat (split; [lia|]). now apply IH.
Qed.

(** * TLPs *)
(** Completion with n double words of data for requester 0x0102, tag 0x44, completer 0x0300, c bytes still to come, lower address 0x10. *)
Definition cc_h (n c : Z) : Z := (if n =? 0 then 0x0A000000 else 0x4A000000 + n mod 1024) * 2 ^ 96 + (0x03000000 + c mod 4096) * 2 ^ 64 + 0x01024410 * 2 ^ 32.
(** Write of n double words to 0x1_0000_2004, read of n double words from 0x2_0000_3008; requester 0x0102, byte enables 0xF and 0x3. *)
Definition wr_h (n : Z) : Z := (0x60000000 + n) * 2 ^ 96 + 0x0102003F * 2 ^ 64 + 0x0000000100002004.
Definition rd_h (n : Z) : Z := (0x20000000 + n) * 2 ^ 96 + 0x0102553F * 2 ^ 64 + 0x0000000200003008.
Definition D (i : Z) : Z := 0xAAAA0000 + i.
Definition yes (n : nat) : list bool := repeat true n.
(** The lanes that are used in the beats that are taken, and the last beat of a TLP. *)
Definition tx_lanes (p : tx_param) (tr : list tx_ev) : list (list Z * bool) := map (fun e => (lanes (tv_data e) (kcnt (tv_keep e)), tv_last e)) (filter (fun e => tv_valid e && ti_ready (tv_in e)) tr).
Definition ti_none : tx_in := mkTi false nob nob false 0 0 0 0.
