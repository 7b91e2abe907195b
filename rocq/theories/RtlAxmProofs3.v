(** Progress of the minimal AXI lite master (C105), and witnesses. *)
From Verif Require Import PyBase RtlModel RtlRamModel RtlRamDemuxModel RtlRamDemuxProofs RtlAxmModel RtlAxmSpec RtlAxmProofs RtlAxmProofs2.

Definition stage (s : am_state) : Z := if as_rdv s then match as_resp s with AIdle => 4 | ARead => if as_rready s then 2 else 3 | _ => 2 end else 0.
Definition mu (s : am_state) : Z := 5 * ((as_wr s - as_rd s) mod 64) + stage s + Z.b2z (as_txv s) + Z.b2z (as_awv s) + Z.b2z (as_wv s) + Z.b2z (as_arv s).
Lemma mu_bound s : astr s -> 0 <= mu s <= 98.
Proof.
  intros [_ _ _ C _ _ _]. unfold mu, stage. pose proof (Z.mod_pos_bound (as_wr s - as_rd s) 64 ltac:(lia)).
  destruct (as_txv s), (as_awv s), (as_wv s), (as_arv s), (as_rdv s), (as_resp s), (as_rready s); cbn [Z.b2z]; lia.
Qed.
Lemma quiet_take s i : rx_taken (am_event s i) = false -> am_take s i = false.
Proof. unfold rx_taken, am_take. cbn [am_event av_ready av_in]. destruct (as_wait s), (as_ready s), (ai_valid i); cbn; auto; discriminate. Qed.

Lemma mu_step p s i : astr s -> ai_rst i = false -> am_take s i = false ->
  mu (am_step p s i) <= mu s /\ (am_good (am_event s i) = true -> 0 < mu s -> mu (am_step p s i) <= mu s - 1).
Proof.
  intros ST RS TK. destruct (cnt_step p s i ST) as [_ [CN _]].
  assert (NP : pushb p s i = false) by (unfold pushb, am_do; rewrite TK; reflexivity). rewrite NP in CN. unfold am_step. rewrite RS. unfold mu, stage. rewrite CN.
  cbn [am_next as_rdv as_resp as_rready as_txv as_awv as_wv as_arv]. unfold am_do. rewrite TK. cbn [aa_aw aa_ar orb].
  assert (GD : am_good (am_event s i) = true -> ai_awready i = true /\ ai_wready i = true /\ ai_arready i = true /\ ai_cready i = true /\ (as_rready s = true -> ai_rvalid i = false -> as_arv s = true) /\ (as_bready s = true -> ai_bvalid i = false -> as_awv s = true \/ as_wv s = true)).
  { unfold am_good. cbn [am_event av_in av_rready av_arv av_bready av_awv av_wv]. clear. destruct (ai_awready i), (ai_wready i), (ai_arready i), (ai_cready i), (as_rready s), (ai_rvalid i), (as_arv s), (as_bready s), (ai_bvalid i), (as_awv s), (as_wv s); cbn; intros; try discriminate; repeat split; auto; intros; try discriminate. }
  pose proof (Z.mod_pos_bound (as_wr s - as_rd s) 64 ltac:(lia)) as MB.
  assert (PO : am_pop s i = negb (as_rdv s && negb (am_fin s i)) && negb ((as_wr s - as_rd s) mod 64 =? 0)).
  { unfold am_pop. f_equal. f_equal. pose proof (empty_iff _ _ (st_ptr s ST)) as E. destruct (ptr_empty (as_wr s) (as_rd s)), (Z.eqb_spec ((as_wr s - as_rd s) mod 64) 0); intuition; congruence. }
  set (c := (as_wr s - as_rd s) mod 64) in *. clearbody c. destruct ST as [_ _ _ _ _ _ S7].
  assert (B : forall v r, Z.b2z (v && negb r) <= Z.b2z v) by (intros [] []; cbn; lia).
  pose proof (B (as_awv s) (ai_awready i)). pose proof (B (as_wv s) (ai_wready i)). pose proof (B (as_arv s) (ai_arready i)). clear B.
  unfold am_resp_next, am_rready_next, am_cpl, am_fin, am_free in *. rewrite PO. clear PO CN.
  destruct (as_resp s) eqn:RE.
  - destruct S7 as [S1 S2]. destruct (as_rdv s) eqn:RV; cbn [andb orb negb].
    + split; [|intros G _].
      * destruct (ae_read (as_ent s)); [|destruct (ae_write (as_ent s))]; destruct (as_txv s), (ai_cready i); cbn [Z.b2z andb negb orb]; lia.
      * destruct (GD G) as [G1 [G2 [G3 [G4 [G5 G6]]]]]. rewrite G4. cbn [negb]. rewrite andb_false_r, orb_true_r. destruct (ae_read (as_ent s)); [|destruct (ae_write (as_ent s))]; destruct (as_txv s); cbn [Z.b2z andb negb orb]; lia.
    + destruct (Z.eqb_spec c 0) as [E|E]; cbn [negb andb orb].
      * split; [destruct (as_txv s), (ai_cready i); cbn [Z.b2z andb negb orb]; lia|]. intros G P. destruct (GD G) as [G1 [G2 [G3 [G4 [G5 G6]]]]].
        rewrite G1, G2, G3, G4. cbn [negb]. rewrite !andb_false_r. cbn [Z.b2z]. lia.
      * split; [|intros _ _]; destruct (as_txv s), (ai_cready i); cbn [Z.b2z andb negb orb]; lia.
  - destruct S7 as [S1 [S2 [S3 S4]]]. rewrite S1 in *. cbn [andb orb negb]. destruct (as_rready s) eqn:RR; cbn [andb negb orb].
    + specialize (S3 eq_refl). rewrite S3. cbn [andb negb orb Z.b2z].  destruct (ai_rvalid i) eqn:RVL; cbn [andb negb orb].
      * destruct (Z.eqb_spec c 0); cbn [negb Z.b2z]; split; intros; lia.
      * split; [lia|]. intros G _. destruct (GD G) as [G1 [G2 [G3 [G4 [G5 G6]]]]]. rewrite G3. rewrite (G5 eq_refl eq_refl). cbn [andb negb Z.b2z]. lia.
    + split; [destruct (as_txv s), (ai_cready i); cbn [Z.b2z andb negb orb]; lia|]. intros G _. destruct (GD G) as [G1 [G2 [G3 [G4 [G5 G6]]]]]. rewrite G4. cbn [negb]. rewrite andb_false_r, orb_true_r. destruct (as_txv s); cbn [Z.b2z andb negb orb]; lia.
  - destruct S7 as [S1 [S2 [S3 [S4 S5]]]]. rewrite S1, S5 in *. cbn [andb orb negb].  destruct (ai_bvalid i) eqn:BV; cbn [andb negb orb].
    + destruct (as_txv s), (ai_cready i), (Z.eqb_spec c 0); cbn [Z.b2z andb negb orb]; split; intros; lia.
    + split; [destruct (as_txv s), (ai_cready i); cbn [Z.b2z andb negb orb]; lia|]. intros G _. destruct (GD G) as [G1 [G2 [G3 [G4 [G5 G6]]]]].
      rewrite G1, G2, G4. cbn [negb]. rewrite !andb_false_r. destruct (G6 eq_refl eq_refl) as [V|V]; rewrite V; destruct (as_awv s), (as_wv s), (as_txv s); cbn [Z.b2z]; lia.
  - destruct S7 as [S1 [S2 [S3 [S4 S5]]]]. rewrite S1 in *. cbn [andb orb negb]. split; [destruct (as_txv s), (ai_cready i), (Z.eqb_spec c 0); cbn [Z.b2z andb negb orb]; lia|].
    intros G _. destruct (GD G) as [G1 [G2 [G3 [G4 [G5 G6]]]]]. rewrite G4. rewrite orb_true_r. cbn [negb andb orb]. destruct (as_txv s), (Z.eqb_spec c 0); cbn [Z.b2z andb negb orb]; lia.
Qed.

Lemma mu_done p m s : ainv p m s -> mu s = 0 -> am_done m.
Proof.
  intros [S _ AW W AR _ _ [T [R [L [Q [QT [QR QL]]]]]]] M. destruct S as [_ _ P _ _ _ _]. unfold mu, stage in M. pose proof (Z.mod_pos_bound (as_wr s - as_rd s) 64 ltac:(lia)).
  assert (RV : as_rdv s = false) by (destruct (as_txv s), (as_awv s), (as_wv s), (as_arv s), (as_rdv s), (as_resp s), (as_rready s); cbn [Z.b2z] in M; auto; lia).
  rewrite RV in *. destruct (as_txv s), (as_awv s), (as_wv s), (as_arv s); cbn [Z.b2z] in M; try lia. subst T R. unfold am_done. rewrite AW, W, AR, Q. cbn [app]. repeat split.
  assert (E : ring (as_wr s) (as_rd s) (as_mem s) = []). { apply ring_empty; [exact P|]. apply empty_iff; [exact P | lia]. } rewrite E in QL. now inversion QL.
Qed.

Lemma am_trace_app p l1 : forall s l2, am_trace p s (l1 ++ l2) = am_trace p s l1 ++ am_trace p (am_run p s l1) l2.
Proof. induction l1 as [|i r IH]; intros s l2; [reflexivity|]. cbn. now rewrite IH. Qed.
Lemma assume_app p a : forall m b, am_assume p m (a ++ b) <-> am_assume p m a /\ am_assume p (fold_left (ao_next p) a m) b.
Proof. induction a as [|e r IH]; intros m b; cbn [app am_assume fold_left]; [tauto|]. rewrite IH. tauto. Qed.
Lemma ainv_run p l : forall m s, ainv p m s -> am_assume p m (am_trace p s l) -> ainv p (fold_left (ao_next p) (am_trace p s l) m) (am_run p s l).
Proof. induction l as [|i r IH]; intros m s I A; [exact I|]. cbn [am_trace am_assume fold_left am_run] in *. destruct A as [A1 A2]. apply IH; [|exact A2]. now apply ainv_step. Qed.

Lemma mu_run p l : forall s, astr s -> am_quiet (am_trace p s l) -> mu (am_run p s l) <= Z.max 0 (mu s - am_goods (am_trace p s l)).
Proof.
  unfold am_goods. induction l as [|i r IH]; intros s I Q; cbn [am_trace filter] in *.
  - unfold am_run; cbn [fold_left length]. pose proof (mu_bound s I). lia.
  - inversion Q as [|? ? [Q1 Q2] Q3]; subst. cbn [am_event av_in] in Q1. pose proof (quiet_take s i Q2) as TK.
    destruct (mu_step p s i I Q1 TK) as [M1 M2]. pose proof (astr_step p s i I) as I'. specialize (IH _ I' Q3). pose proof (mu_bound s I). pose proof (mu_bound _ I').
    change (am_run p s (i :: r)) with (am_run p (am_step p s i) r). destruct (am_good (am_event s i)); [|lia]. cbn [length].
    destruct (Z.eq_dec (mu s) 0) as [Z0|Z0]; [lia|]. specialize (M2 eq_refl ltac:(lia)). lia.
Qed.
Lemma mu_zero p l1 l2 : let tr2 := am_trace p (am_run p am0 l1) l2 in am_quiet tr2 -> 98 <= am_goods tr2 -> mu (am_run p am0 (l1 ++ l2)) = 0.
Proof.
  intros tr2 Q G. unfold am_run at 1. rewrite fold_left_app. fold (am_run p am0 l1). fold (am_run p (am_run p am0 l1) l2). pose proof (astr_run p l1 am0 astr0) as I1.
  pose proof (mu_run p l2 _ I1 Q). pose proof (mu_bound _ I1). pose proof (mu_bound _ (astr_run p l2 _ I1)). fold tr2 in H. lia.
Qed.
Lemma am_done_ok p l1 l2 : let tr1 := am_trace p am0 l1 in let tr2 := am_trace p (am_run p am0 l1) l2 in
  am_assume p ao0 (tr1 ++ tr2) -> am_quiet tr2 -> 98 <= am_goods tr2 -> am_done (am_after p (tr1 ++ tr2)).
Proof.
  intros tr1 tr2 A Q G. pose proof (mu_zero p l1 l2 Q G) as M. unfold tr1, tr2 in *. rewrite <- am_trace_app in *. exact (mu_done p _ _ (ainv_run p _ ao0 am0 (ainv0 p) A) M).
Qed.

Lemma zero_still s i : astr s -> mu s = 0 -> am_still (am_event s i).
Proof.
  intros [_ _ _ _ _ _ S7] M. unfold mu, stage in M. pose proof (Z.mod_pos_bound (as_wr s - as_rd s) 64 ltac:(lia)). unfold am_still. cbn [am_event av_txv av_awv av_wv av_arv av_rready av_bready].
  assert (RV : as_rdv s = false) by (destruct (as_txv s), (as_awv s), (as_wv s), (as_arv s), (as_rdv s), (as_resp s), (as_rready s); cbn [Z.b2z] in M; auto; lia).
  rewrite RV in M. destruct (as_txv s), (as_awv s), (as_wv s), (as_arv s); cbn [Z.b2z] in M; try lia. repeat split; destruct (as_resp s); destruct S7; auto; congruence.
Qed.
Lemma still_run p l : forall s, astr s -> mu s = 0 -> am_quiet (am_trace p s l) -> Forall am_still (am_trace p s l).
Proof.
  induction l as [|i r IH]; intros s I M Q; cbn [am_trace] in *; constructor; [now apply zero_still|]. inversion Q as [|? ? [Q1 Q2] Q3]; subst. cbn [am_event av_in] in Q1.
  pose proof (astr_step p s i I) as I'. destruct (mu_step p s i I Q1 (quiet_take s i Q2)) as [M1 _]. pose proof (mu_bound _ I'). apply IH; auto; lia.
Qed.
(** Ready from the third clock on. *)
Lemma ready_two p s i1 i2 : astr s -> mu s = 0 -> am_quiet [am_event s i1; am_event (am_step p s i1) i2] -> as_ready (am_step p (am_step p s i1) i2) = true.
Proof.
  intros I M0 Q2. inversion Q2 as [|? ? [R1 T1] Q3]; subst. inversion Q3 as [|? ? [R2 T2] _]; subst. cbn [am_event av_in] in R1, R2.
  pose proof (quiet_take _ _ T1) as K1. pose proof (quiet_take _ _ T2) as K2. set (s1 := am_step p s i1) in *.
  assert (AS1 : astr s1) by (now apply astr_step). assert (AS2 : astr (am_step p s1 i2)) by (now apply astr_step).
  assert (V : as_awv s1 = false /\ as_wv s1 = false /\ as_arv s1 = false /\ as_half s1 = false).
  { unfold s1, am_step. rewrite R1. cbn [am_next as_awv as_wv as_arv as_half]. unfold am_do. rewrite K1. cbn [aa_aw aa_ar orb]. unfold mu, stage in M0. pose proof (Z.mod_pos_bound (as_wr s - as_rd s) 64 ltac:(lia)).
    destruct (as_awv s), (as_wv s), (as_arv s); cbn [Z.b2z andb negb] in *; destruct (as_txv s), (as_rdv s), (as_resp s), (as_rready s); cbn [Z.b2z] in M0; try lia; repeat split; apply Z.leb_gt; lia. }
  destruct V as [V1 [V2 [V3 V4]]].
  destruct (as_wait (am_step p s1 i2)) eqn:W; [exact (st_wait _ AS2 W)|].
  unfold am_step in W |- *. rewrite R2 in *. cbn [am_next as_wait as_ready] in *. unfold am_wait_next in W. unfold am_ready_next, am_do, am_room. rewrite K2. rewrite V1, V2, V3, V4. cbn.
  destruct (as_wait s1); [|reflexivity]. destruct (as_ready s1 && ai_valid i2 && ai_eop i2); reflexivity.
Qed.
Lemma ready_run p l : forall s i1 i2, astr s -> mu s = 0 -> am_quiet (am_trace p s (i1 :: i2 :: l)) -> Forall (fun e => av_ready e = true) (am_trace p (am_step p (am_step p s i1) i2) l).
Proof.
  induction l as [|i3 r IH]; intros s i1 i2 I M Q; [constructor|]. cbn [am_trace] in Q. inversion Q as [|? ? Q1 Q2]; subst. inversion Q2 as [|? ? Q3 Q4]; subst. constructor.
  - cbn [am_event av_ready]. apply ready_two; auto. repeat constructor; apply Q1 || apply Q3.
  - apply IH; [now apply astr_step| |cbn [am_trace]; exact Q2]. destruct Q1 as [Q1 Q1']. cbn [am_event av_in] in Q1. destruct (mu_step p s i1 I Q1 (quiet_take s i1 Q1')) as [M1 _]. pose proof (mu_bound _ (astr_step p s i1 I)). lia.
Qed.
Lemma am_progress_ok p l1 l2 l3 : let tr2 := am_trace p (am_run p am0 l1) l2 in let tr3 := am_trace p (am_run p am0 (l1 ++ l2)) l3 in
  am_quiet tr2 -> 98 <= am_goods tr2 -> am_quiet tr3 -> Forall am_still tr3 /\ Forall (fun e => av_ready e = true) (skipn 2 tr3).
Proof.
  intros tr2 tr3 Q G Q3. pose proof (mu_zero p l1 l2 Q G) as M. pose proof (astr_run p (l1 ++ l2) am0 astr0) as I. split; [now apply still_run|].
  unfold tr3 in *. destruct l3 as [|i1 [|i2 l]]; [constructor | constructor |]. cbn [am_trace skipn] in *. apply ready_run; auto.
Qed.

(** * Witnesses *)
Definition am_p1 : am_param := mkAm 16 false 2561.
(** A header: format, type, T9 and T8, traffic class, attributes, length, requester, tag, first byte enables, last two words. *)
Definition am_h (fmt ty t9 tc t8 at2 at10 len rid tag be lo : Z) : Z :=
  fmt * 2 ^ 125 + ty * 2 ^ 120 + t9 * 2 ^ 119 + tc * 2 ^ 116 + t8 * 2 ^ 115 + at2 * 2 ^ 114 + at10 * 2 ^ 108 + len * 2 ^ 96 + rid * 2 ^ 80 + tag * 2 ^ 72 + be * 2 ^ 64 + lo.
Definition am_req (h d : Z) (eop : bool) : am_in := mkAi false h d true true eop true true true true true 0 true.
(** AXI gives no answer and no completion is taken. *)
Definition am_hold (i : am_in) : am_in := mkAi (ai_rst i) (ai_hdr i) (ai_data i) (ai_valid i) (ai_sop i) (ai_eop i) false (ai_awready i) (ai_wready i) false (ai_arready i) (ai_rdata i) false.
(** Nothing new; AXI answers with this data. *)
Definition am_idle (rd : Z) : am_in := mkAi false 0 0 false false false true true true true true rd true.
(** A write of 2 bytes, a read of 3 bytes, a read that is too long, a write that is too long, an IO read, a completion. *)
Definition am_l1 : list am_in :=
  [am_idle 0; am_req (am_h 2 0 0 0 0 0 0 1 256 1 6 (4660 * 2 ^ 32)) 3735928559 true; am_idle 0; am_req (am_h 1 0 1 5 1 1 2 1 258 7 7 (4 * 2 ^ 32 + 123456)) 0 true; am_idle 0;
   am_req (am_h 0 0 0 1 0 0 1 3 259 9 15 (128 * 2 ^ 32)) 0 true; am_req (am_h 2 0 0 0 0 0 0 16 259 9 15 (128 * 2 ^ 32)) 7 false; mkAi false 0 8 true false true true true true true true 77 true;
   am_req (am_h 0 2 0 0 0 0 0 1 260 11 15 (64 * 2 ^ 32)) 0 true; am_req (am_h 2 10 0 0 0 0 0 1 260 11 0 0) 5 true; am_idle 77].
Definition am_l2 : list am_in := repeat (am_idle 78) 12.
(** A message (power management, format 1, type 16). *)
Definition am_msg : list am_in := [am_idle 0; am_req (am_h 1 16 0 0 0 0 0 0 256 3 0 0) 0 true] ++ repeat (am_idle 0) 6.
(** An IO read of one double word. *)
Definition am_io : list am_in := [am_idle 0; am_req (am_h 0 2 0 0 0 0 0 1 256 3 15 (64 * 2 ^ 32)) 0 true] ++ repeat (am_idle 0) 6.
Fixpoint am_assumeb (p : am_param) (m : am_mon) (tr : list am_ev) : bool :=
  match tr with [] => true | e :: r => (negb (starts m e) || ((fmt_of (ai_hdr (av_in e)) <? 4) && negb (isk (kind_of (ai_hdr (av_in e))) KMsg))) && am_assumeb p (ao_next p m e) r end.
Lemma am_assumeb_ok p tr : forall m, am_assumeb p m tr = true -> am_assume p m tr.
Proof.
  induction tr as [|e r IH]; intros m H; cbn [am_assumeb am_assume] in *; [exact Logic.I|]. apply andb_true_iff in H. destruct H as [H1 H2]. split; [|now apply IH].
  intros _ S. rewrite S in H1. cbn in H1. apply andb_true_iff in H1. destruct H1 as [H1 H3]. split; [lia|]. intros K. rewrite K in H3. discriminate.
Qed.
