(** Progress of the AXI write master (C106), and witnesses. *)
From Verif Require Import PyBase RtlModel RtlRamModel RtlRamDemuxModel RtlRamDemuxProofs RtlAxmSpec RtlAxwModel RtlAxwSpec RtlFcProofs RtlAxwProofs RtlAxwProofs2 RtlAxwProofs3.

(** * What is kept *)
Lemma bw_trace_split p l : forall s a e b, bw_trace p s l = a ++ e :: b -> exists l1 i l2, l = l1 ++ i :: l2 /\ e = bw_event (bw_run p s l1) i /\ a = bw_trace p s l1 /\ b = bw_trace p (bw_step p (bw_run p s l1) i) l2.
Proof.
  induction l as [|i r IH]; intros s a e b H; [destruct a; discriminate|]. destruct a as [|x a]; cbn in H.
  - injection H as H1 H2. exists [], i, r. cbn. repeat split; auto.
  - injection H as H1 H2. destruct (IH _ _ _ _ H2) as [l1 [j [l2 [E1 [E2 [E3 E4]]]]]]. exists (i :: l1), j, l2. subst. cbn. repeat split; auto.
Qed.
Lemma bw_kept_ok p l a e e' b : bw_trace p bw0 l = a ++ e :: e' :: b -> bw_kept e e'.
Proof.
  intros H. destruct (bw_trace_split p l bw0 a e (e' :: b) H) as [l1 [i [l2 [E1 [E2 [E3 E4]]]]]]. subst e.
  destruct l2 as [|i2 l2]; [discriminate|]. cbn in E4. injection E4 as E4 _. subst e'. set (s := bw_run p bw0 l1). clearbody s. intros RS V Q. cbn [bw_event bv_in bv_wv bv_w] in *.
  unfold bw_step. rewrite RS. cbn [bw_next bs_o bo_next bo_wv bo_beat]. rewrite V, Q. cbn [negb orb]. rewrite andb_false_r. auto.
Qed.
Lemma bw_trace_app p l1 : forall s l2, bw_trace p s (l1 ++ l2) = bw_trace p s l1 ++ bw_trace p (bw_run p s l1) l2.
Proof. induction l1 as [|i r IH]; intros s l2; [reflexivity|]. cbn. now rewrite IH. Qed.
Lemma bw_assume_app p a : forall m b, bw_assume p m (a ++ b) <-> bw_assume p m a /\ bw_assume p (fold_left (bm_next p) a m) b.
Proof. induction a as [|e r IH]; intros m b; cbn [app bw_assume fold_left]; [tauto|]. rewrite IH. tauto. Qed.

Section P.
Variable p : bw_param.
Hypothesis OK : bw_ok p.
Lemma binv_run l : forall m s, binv p m s -> bw_assume p m (bw_trace p s l) -> binv p (fold_left (bm_next p) (bw_trace p s l) m) (bw_run p s l).
Proof. induction l as [|i r IH]; intros m s I A; [exact I|]. cbn [bw_trace bw_assume fold_left bw_run] in *. destruct A as [A1 A2]. apply IH; [|exact A2]. now apply binv_step. Qed.
(** An address is kept if the writes before fit in a burst. *)
Lemma bw_akept_ok l a e e' b : bw_trace p bw0 l = a ++ e :: e' :: b -> bw_assume p bm0 (a ++ [e]) -> bw_akept e e'.
Proof.
  intros H A. destruct (bw_trace_split p l bw0 a e (e' :: b) H) as [l1 [i [l2 [E1 [E2 [E3 E4]]]]]]. subst e.
  destruct l2 as [|i2 l2]; [discriminate|]. cbn in E4. injection E4 as E4 _. subst e' a. apply bw_assume_app in A. destruct A as [A1 [A2 _]].
  pose proof (binv_run l1 _ _ (binv0 p) A1) as B. set (s := bw_run p bw0 l1) in *. set (m := fold_left (bm_next p) (bw_trace p bw0 l1) bm0) in *. clearbody s m.
  pose proof (binv_step p OK m s i B A2) as B'. intros RS V Q. cbn [bw_event bv_in bv_awv bv_awaddr bv_awlen] in *.
  pose proof (bi_aw p _ _ B) as X. pose proof (bi_aw p _ _ B') as Y. rewrite V in X. revert Y. unfold bm_next. cbn [bw_event bv_in bv_awv]. fold (bw_event s i). rewrite RS, Q, V. cbn [bm_aw andb].
  rewrite (starts_eq p m s i B). assert (NS : (match bf_st (bs_f s) with BIdle => bw_rx s i && bi_sop i | _ => false end) = false).
  { destruct (bf_st (bs_f s)) eqn:ST; auto. destruct (bw_rx s i) eqn:E; [|reflexivity]. unfold bw_rx in E. apply andb_true_iff in E. destruct E as [E _]. rewrite (bi_room p _ _ B E ST) in V. discriminate. }
  rewrite NS. cbn [andb]. rewrite X. destruct (bf_awv (bs_f (bw_step p s i))); [|discriminate]. intros Y. injection Y as Y1 Y2. auto.
Qed.

(** * Progress *)
Definition pend (f : bw_fsm) : Z := match bf_st f with BTransfer => if bf_ia f then (if bf_first f then 1 else 0) else bf_oc f + 1 | _ => 0 end.
Definition mu (s : bw_state) : Z := 3 * pend (bs_f s) + 2 * ocnt (bs_o s) + Z.b2z (bo_wv (bs_o s)) + Z.b2z (bf_awv (bs_f s)).
Lemma b2z_rng b : 0 <= Z.b2z b <= 1.
Proof. destruct b; cbn; lia. Qed.
Lemma mu_bound m s : binv p m s -> 0 <= pend (bs_f s) /\ 0 <= mu s <= 44.
Proof.
  intros B. pose proof (bi_jobs p m s B) as J. pose proof (bi_cnt p m s B) as C. pose proof (ocnt0 (bs_o s)). pose proof (b2z_rng (bo_wv (bs_o s))). pose proof (b2z_rng (bf_awv (bs_f s))).
  unfold mu, pend. destruct (bf_st (bs_f s)); [lia| |lia]. destruct J as [j [_ T]]. destruct (ti_cnt _ _ _ _ _ _ T) as [_ C2]. destruct (beats_rel p OK (jb_h j)) as [B1 [B2 _]].
  pose proof (ti_k _ _ _ _ _ _ T). pose proof (ti_oc _ _ _ _ _ _ T). pose proof (ti_ia _ _ _ _ _ _ T) as IA. pose proof (ti_len _ _ _ _ _ _ T) as L1. pose proof (ti_min _ _ _ _ _ _ T) as L2.
  destruct (bf_ia (bs_f s)); [destruct (bf_first (bs_f s)); lia|]. assert (N0 : bm_need m = 0) by (destruct (Z.eqb_spec (bm_need m) 0); [auto | discriminate]). destruct (Z.eqb_spec (jb_k j) 0); lia.
Qed.
Lemma quiet_assume m s i : b_taken (bw_event s i) = false -> bw_assume1 p m (bw_event s i).
Proof. intros Q _ S. unfold b_starts in S. rewrite Q in S. rewrite andb_false_r in S. discriminate. Qed.
Lemma mu_step m s i : binv p m s -> bi_rst i = false -> b_taken (bw_event s i) = false ->
  mu (bw_step p s i) <= mu s /\ (bw_good (bw_event s i) = true -> 0 < mu s -> mu (bw_step p s i) <= mu s - 1).
Proof.
  intros B RS Q. assert (RX : bw_rx s i = false) by exact Q. rewrite b_step_next by exact RS. destruct (mu_bound m s B) as [PB MB].
  destruct (o_step (bs_o s) (bw_xfer s i) (bw_push p s i) (bi_wready i) (bi_ptr p m s B) (bi_cnt p m s B)) as [_ [_ [O3 _]]].
  pose proof (empty_iff _ _ (bi_ptr p m s B)) as EM. fold (ocnt (bs_o s)) in EM. pose proof (ocnt0 (bs_o s)) as C0.
  assert (PD : pend (bs_f (bw_next p s i)) = pend (bs_f s) - Z.b2z (bw_xfer s i) /\ (bw_xfer s i = false -> pend (bs_f s) = 0) /\ bf_awv (bs_f (bw_next p s i)) = bf_awv (bs_f s) && negb (bi_awready i)).
  { pose proof (bi_jobs p m s B) as J. cbn [bw_next bs_f]. unfold bw_fsm_next, pend, bw_xfer. destruct (bf_st (bs_f s)) eqn:ST.
    - unfold bw_idle. rewrite RX. cbn [andb bf_st bf_awv]. auto.
    - destruct J as [j [_ T]]. unfold bw_transfer, bw_xfer. rewrite ST, RX. cbn [orb]. rewrite (fr_op _ _ _ _ (ti_regs _ _ _ _ _ _ T)). change (0 <? 0) with false. cbn iota.
      pose proof (fr_last _ _ _ _ (ti_regs _ _ _ _ _ _ T)) as LA. pose proof (fr_first _ _ _ _ (ti_regs _ _ _ _ _ _ T)) as FI. pose proof (ti_k _ _ _ _ _ _ T) as TK. pose proof (ti_oc _ _ _ _ _ _ T) as OC. pose proof (ti_fits _ _ _ _ _ _ T) as FT. unfold fits in FT.
      assert (MX : bp_max p <= 256) by (destruct OK as [_ [_ O]]; lia). destruct (beats_rel p OK (jb_h j)) as [B1 [B2 _]].
      pose proof (ti_ia _ _ _ _ _ _ T) as IA. pose proof (ti_len _ _ _ _ _ _ T) as L1. pose proof (ti_min _ _ _ _ _ _ T) as L2.
      destruct (bf_first (bs_f s)) eqn:F1, (bf_ia (bs_f s)) eqn:I1; cbn [negb orb andb Z.b2z].
      + destruct (bf_last (bs_f s)) eqn:LL; cbn [negb bf_st bf_awv bf_ia bf_first bf_oc]; repeat split; auto; try discriminate.
      + destruct (bf_last (bs_f s)) eqn:LL; cbn [negb bf_st bf_awv bf_ia bf_first bf_oc]; repeat split; auto; try discriminate; [lia|]. rewrite Z.mod_small by (change (2 ^ 13) with 8192; lia). lia.
      + cbn [bf_st bf_awv bf_ia bf_first bf_oc]. repeat split; auto.
      + destruct (bf_last (bs_f s)) eqn:LL; cbn [negb bf_st bf_awv bf_ia bf_first bf_oc]; repeat split; auto; try discriminate; [lia|]. rewrite Z.mod_small by (change (2 ^ 13) with 8192; lia). lia.
    - unfold bw_wait. rewrite RX. cbn [andb bf_st bf_awv]. auto. }
  destruct PD as [P1 [P2 P3]]. unfold mu in *. rewrite P1, P3. change (bs_o (bw_next p s i)) with (bo_next (bs_o s) (bw_xfer s i) (bw_push p s i) (bi_wready i)). rewrite O3. cbn [bo_next bo_wv].
  unfold bw_good. cbn [bw_event bv_in]. set (x := bw_xfer s i) in *. set (pd := pend (bs_f s)) in *. set (c := ocnt (bs_o s)) in *. clearbody x pd c. clear B P1 P3 O3 RX Q RS.
  destruct (ptr_empty (bo_wr (bs_o s)) (bo_rd (bs_o s))) eqn:E; cbn [negb andb orb].
  - assert (c = 0) by (apply EM; auto). destruct x, (bo_wv (bs_o s)), (bi_wready i), (bf_awv (bs_f s)), (bi_awready i); cbn [negb andb orb Z.b2z] in *; try specialize (P2 eq_refl); (split; [lia | intros G M; try discriminate; lia]).
  - assert (c <> 0) by (intros Z0; apply EM in Z0; discriminate). destruct x, (bo_wv (bs_o s)), (bi_wready i), (bf_awv (bs_f s)), (bi_awready i); cbn [negb andb orb Z.b2z] in *; try specialize (P2 eq_refl); (split; [lia | intros G M; try discriminate; lia]).
Qed.
Lemma mu_zero_facts m s : binv p m s -> mu s = 0 -> pend (bs_f s) = 0 /\ ocnt (bs_o s) = 0 /\ bo_wv (bs_o s) = false /\ bf_awv (bs_f s) = false.
Proof.
  intros B M. destruct (mu_bound m s B) as [PB _]. unfold mu in M. pose proof (ocnt0 (bs_o s)). pose proof (b2z_rng (bo_wv (bs_o s))). pose proof (b2z_rng (bf_awv (bs_f s))).
  split; [lia|]. split; [lia|]. split; [destruct (bo_wv (bs_o s)); cbn [Z.b2z] in *; auto; lia | destruct (bf_awv (bs_f s)); cbn [Z.b2z] in *; auto; lia].
Qed.
Lemma mu_done m s : binv p m s -> mu s = 0 -> bw_done m.
Proof.
  intros B M. destruct (mu_zero_facts m s B M) as [P0 [C0 [V0 A0]]]. unfold bw_done. rewrite (bi_aw p m s B), A0. split; [reflexivity|].
  assert (OE : outs (bs_o s) = []). { unfold outs. rewrite V0. cbn [app]. apply ring_empty; [apply (bi_ptr p m s B)|]. apply empty_iff; [apply (bi_ptr p m s B) | exact C0]. }
  pose proof (bi_jobs p m s B) as J. rewrite OE in J. unfold pend in P0. destruct (bf_st (bs_f s)); [destruct J as [-> J]; exact J | | destruct J as [-> J]; exact J].
  destruct J as [j [J T]]. cbn [feeds] in J. pose proof (ti_k _ _ _ _ _ _ T). pose proof (ti_oc _ _ _ _ _ _ T). pose proof (ti_ia _ _ _ _ _ _ T) as IA. pose proof (ti_min _ _ _ _ _ _ T) as L2. pose proof (fr_first _ _ _ _ (ti_regs _ _ _ _ _ _ T)) as FI.
  destruct (bf_ia (bs_f s)); [|lia]. destruct (bf_first (bs_f s)); [lia|]. destruct (bm_need m =? 0); [discriminate|]. exists j. split; [exact J|]. rewrite <- FI in L2. destruct (beats_rel p OK (jb_h j)) as [B1 [B2 _]]. lia.
Qed.
Lemma mu_run l : forall m s, binv p m s -> bw_quiet (bw_trace p s l) ->
  mu (bw_run p s l) <= Z.max 0 (mu s - bw_goods (bw_trace p s l)) /\ binv p (fold_left (bm_next p) (bw_trace p s l) m) (bw_run p s l).
Proof.
  unfold bw_goods. induction l as [|i r IH]; intros m s B Q; cbn [bw_trace filter fold_left] in *.
  - unfold bw_run; cbn [fold_left length]. destruct (mu_bound m s B). split; [lia | exact B].
  - inversion Q as [|? ? [Q1 Q2] Q3]; subst. cbn [bw_event bv_in] in Q1. destruct (mu_step m s i B Q1 Q2) as [M1 M2]. pose proof (binv_step p OK m s i B (quiet_assume m s i Q2)) as B'.
    destruct (IH _ _ B' Q3) as [I1 I2]. split; [|exact I2]. destruct (mu_bound m s B) as [_ MB]. destruct (mu_bound _ _ B') as [_ MB'].
    change (bw_run p s (i :: r)) with (bw_run p (bw_step p s i) r). destruct (bw_good (bw_event s i)); [|lia]. cbn [length].
    destruct (Z.eq_dec (mu s) 0) as [Z0|Z0]; [lia|]. specialize (M2 eq_refl ltac:(lia)). lia.
Qed.
Lemma still_run l : forall m s, binv p m s -> mu s = 0 -> bw_quiet (bw_trace p s l) -> Forall bw_still (bw_trace p s l).
Proof.
  induction l as [|i r IH]; intros m s B M Q; cbn [bw_trace] in *; constructor.
  - destruct (mu_zero_facts m s B M) as [_ [_ [V0 A0]]]. split; assumption.
  - inversion Q as [|? ? [Q1 Q2] Q3]; subst. cbn [bw_event bv_in] in Q1. destruct (mu_step m s i B Q1 Q2) as [M1 _]. pose proof (binv_step p OK m s i B (quiet_assume m s i Q2)) as B'. destruct (mu_bound _ _ B') as [_ MB']. apply (IH _ _ B'); [lia | exact Q3].
Qed.
(** Ready from the third clock on. *)
Lemma ready_one m s i : binv p m s -> mu s = 0 -> bo_half (bs_o s) = false -> bi_rst i = false -> b_taken (bw_event s i) = false -> bf_ready (bs_f (bw_step p s i)) = true.
Proof.
  intros B M H R Q. assert (RX : bw_rx s i = false) by exact Q. destruct (mu_zero_facts m s B M) as [P0 [_ [_ A0]]]. rewrite b_step_next by exact R. cbn [bw_next bs_f]. unfold bw_fsm_next, pend in *. pose proof (bi_jobs p m s B) as J.
  destruct (bf_st (bs_f s)) eqn:ST.
  - unfold bw_idle. rewrite RX. cbn [andb bf_ready]. unfold bw_room, bo_ready. now rewrite A0, H.
  - destruct J as [j [_ T]]. pose proof (ti_k _ _ _ _ _ _ T). pose proof (ti_oc _ _ _ _ _ _ T). unfold bw_transfer, bw_xfer. rewrite ST, RX. destruct (bf_ia (bs_f s)); [|lia]. destruct (bf_first (bs_f s)); [lia|]. cbn [negb orb bf_ready andb]. unfold bo_ready. now rewrite H.
  - unfold bw_wait. rewrite RX. reflexivity.
Qed.
Lemma half_one m s i : binv p m s -> mu s = 0 -> bi_rst i = false -> bo_half (bs_o (bw_step p s i)) = false.
Proof. intros B M R. destruct (mu_zero_facts m s B M) as [_ [C0 _]]. rewrite b_step_next by exact R. cbn [bw_next bs_o bo_next bo_half]. fold (ocnt (bs_o s)). rewrite C0. reflexivity. Qed.
Lemma ready_run l : forall m s i1 i2, binv p m s -> mu s = 0 -> bw_quiet (bw_trace p s (i1 :: i2 :: l)) -> Forall (fun e => bv_ready e = true) (bw_trace p (bw_step p (bw_step p s i1) i2) l).
Proof.
  induction l as [|i3 r IH]; intros m s i1 i2 B M Q; [constructor|]. cbn [bw_trace] in Q. inversion Q as [|? ? [Q1 T1] Q2]; subst. inversion Q2 as [|? ? [Q3 T3] Q4]; subst. cbn [bw_event bv_in] in Q1, Q3.
  pose proof (binv_step p OK m s i1 B (quiet_assume m s i1 T1)) as B'. destruct (mu_step m s i1 B Q1 T1) as [M1 _]. destruct (mu_bound _ _ B') as [_ MB'].
  constructor.
  - cbn [bw_event bv_ready]. apply (ready_one _ _ i2 B'); [lia | | exact Q3 | exact T3]. now apply (half_one m s i1).
  - apply (IH _ _ i2 i3 B'); [lia|]. cbn [bw_trace]. exact Q2.
Qed.
Lemma bw_progress_ok l1 l2 l3 : let tr1 := bw_trace p bw0 l1 in let tr2 := bw_trace p (bw_run p bw0 l1) l2 in let tr3 := bw_trace p (bw_run p bw0 (l1 ++ l2)) l3 in
  bw_assume p bm0 tr1 -> bw_quiet tr2 -> 44 <= bw_goods tr2 -> bw_quiet tr3 -> bw_done (bw_after p (tr1 ++ tr2)) /\ Forall bw_still tr3 /\ Forall (fun e => bv_ready e = true) (skipn 2 tr3).
Proof.
  intros tr1 tr2 tr3 A Q G Q3. pose proof (binv_run l1 _ _ (binv0 p) A) as B1. fold tr1 in B1. destruct (mu_run l2 _ _ B1 Q) as [M2 B2]. fold tr2 in M2, B2. destruct (mu_bound _ _ B1) as [_ MB1]. destruct (mu_bound _ _ B2) as [_ MB2].
  assert (RN : bw_run p bw0 (l1 ++ l2) = bw_run p (bw_run p bw0 l1) l2) by (unfold bw_run; apply fold_left_app). unfold tr3 in *. rewrite RN in *.
  assert (M0 : mu (bw_run p (bw_run p bw0 l1) l2) = 0) by lia. split; [|split].
  - unfold bw_after. rewrite fold_left_app. exact (mu_done _ _ B2 M0).
  - exact (still_run l3 _ _ B2 M0 Q3).
  - destruct l3 as [|i1 [|i2 l]]; [constructor | constructor |]. cbn [bw_trace skipn] in *. exact (ready_run l _ _ i1 i2 B2 M0 Q3).
Qed.
End P.

(** * Witnesses *)
Definition wh (fmt len fbe lbe lo : Z) : Z := fmt * 2 ^ 125 + len * 2 ^ 96 + lbe * 2 ^ 68 + fbe * 2 ^ 64 + lo.
Definition widle : bw_in := mkBi false 0 0 false false false true true.
(** The beats of a TLP; AXI is always ready. *)
Fixpoint wtlp (h : Z) (sop : bool) (ds : list Z) : list bw_in := match ds with [] => [] | d :: r => mkBi false h d true sop (match r with [] => true | _ => false end) true true :: wtlp h false r end.
(** A source that shows each beat until it is taken. *)
Fixpoint drive (p : bw_param) (s : bw_state) (l : list bw_in) (n : nat) : list bw_in :=
  match n with
  | O => []
  | S n => match l with [] => widle :: drive p (bw_step p s widle) [] n | i :: r => i :: drive p (bw_step p s i) (if bf_ready (bs_f s) then r else l) n end
  end.
(** Bytes 16 k to 16 k + 7. *)
Definition pk (k : Z) : Z := 0x0706050403020100 + k * 0x1010101010101010.
(** 64 bits of data; bursts of up to 256 and 2 beats. *)
Definition bw_p1 : bw_param := mkBp 1 32 256 false.
Definition bw_p2 : bw_param := mkBp 1 32 2 false.
Lemma bw_p1_ok : bw_ok bw_p1.
Proof. repeat split; cbn; lia. Qed.
Lemma bw_p2_ok : bw_ok bw_p2.
Proof. repeat split; cbn; lia. Qed.
(** 5 double words at address 0x1004, without the first byte and the last two bytes; a read; one byte at 0x2007. *)
Definition bw_h1 : Z := wh 2 5 14 3 (0x1004 * 2 ^ 32).
Definition bw_h2 : Z := wh 0 5 15 15 (0x1004 * 2 ^ 32).
Definition bw_h3 : Z := wh 3 1 8 0 0x2004.
Definition bw_l1 : list bw_in := drive bw_p1 bw0 (wtlp bw_h1 true [pk 1; pk 2; pk 3] ++ wtlp bw_h2 true [0] ++ wtlp bw_h3 true [pk 4]) 20.
(** 8 double words at address 0x1004. *)
Definition bw_h4 : Z := wh 2 8 15 15 (0x1004 * 2 ^ 32).
Definition bw_l4 : list bw_in := drive bw_p2 bw0 (wtlp bw_h4 true [pk 1; pk 2; pk 3; pk 4]) 20.
(** 4 double words at address 0x1004. *)
Definition bw_h5 : Z := wh 2 4 15 15 (0x1004 * 2 ^ 32).
Definition bw_l5 : list bw_in := drive bw_p2 bw0 (wtlp bw_h5 true [pk 1; pk 2]) 20.
(** 512 double words at address 0x1004. *)
Definition bw_h6 : Z := wh 2 512 15 15 (0x1004 * 2 ^ 32).
Definition bw_l6 : list bw_in := drive bw_p1 bw0 (wtlp bw_h6 true (repeat (pk 1) 256)) 270.
(** No address is taken. *)
Definition aw_hold (i : bw_in) : bw_in := mkBi (bi_rst i) (bi_hdr i) (bi_data i) (bi_valid i) (bi_sop i) (bi_eop i) false (bi_wready i).
(** No data is taken either. *)
Definition w_hold (i : bw_in) : bw_in := mkBi (bi_rst i) (bi_hdr i) (bi_data i) (bi_valid i) (bi_sop i) (bi_eop i) false false.
Fixpoint bw_assumeb (p : bw_param) (m : bw_mon) (tr : list bw_ev) : bool :=
  match tr with [] => true | e :: r => (negb (b_starts m e) || negb (is_write (bi_hdr (bv_in e))) || (beats_out p (bi_hdr (bv_in e)) <=? bp_max p)) && bw_assumeb p (bm_next p m e) r end.
Lemma bw_assumeb_ok p tr : forall m, bw_assumeb p m tr = true -> bw_assume p m tr.
Proof.
  induction tr as [|e r IH]; intros m H; cbn [bw_assumeb bw_assume] in *; [exact I|]. apply andb_true_iff in H. destruct H as [H1 H2]. split; [|now apply IH].
  intros _ S W. rewrite S, W in H1. cbn [negb orb] in H1. unfold fits. lia.
Qed.
