(** The invariant of the minimal AXI lite master (C103 to C105). *)
From Verif Require Import PyBase RtlModel RtlRamModel RtlRamDemuxModel RtlRamDemuxProofs RtlAxmModel RtlAxmSpec RtlAxmProofs.

(** * What holds for all requests *)
Record astr (s : am_state) : Prop := mkAstr {
  st_wait : as_wait s = true -> as_ready s = true;
  st_room : as_wait s = false -> as_ready s = true -> as_awv s = false /\ as_wv s = false /\ as_arv s = false;
  st_ptr : ptr_ok (as_wr s) (as_rd s);
  st_cnt : (as_wr s - as_rd s) mod 64 <= 18;
  st_half : as_half s = false -> (as_wr s - as_rd s) mod 64 <= 16;
  st_rdy : as_wait s = false -> as_ready s = true -> (as_wr s - as_rd s) mod 64 <= 17;
  st_resp : match as_resp s with
            | AIdle => as_rready s = false /\ as_bready s = false
            | ARead => as_rdv s = true /\ ae_read (as_ent s) = true /\ (as_rready s = true -> as_txv s = false) /\ as_bready s = false
            | AWrite => as_rdv s = true /\ ae_read (as_ent s) = false /\ ae_write (as_ent s) = true /\ as_rready s = false /\ as_bready s = true
            | ACpl => as_rdv s = true /\ ae_read (as_ent s) = false /\ ae_write (as_ent s) = false /\ as_rready s = false /\ as_bready s = false
            end }.

Lemma astr0 : astr am0.
Proof. constructor; cbn; try lia; auto; try discriminate. apply ptr00. Qed.

Lemma take_ready s i : am_take s i = true -> as_wait s = false /\ as_ready s = true.
Proof. unfold am_take. destruct (as_wait s), (as_ready s); cbn; try discriminate; auto. Qed.
Lemma ent_take p s i e : aa_ent (am_do p s i) = Some e -> am_take s i = true.
Proof. unfold am_do. destruct (am_take s i); [auto | discriminate]. Qed.
Lemma not_full s : ptr_ok (as_wr s) (as_rd s) -> (as_wr s - as_rd s) mod 64 <= 18 -> ptr_full (as_wr s) (as_rd s) = false.
Proof. intros O C. apply not_true_is_false. rewrite full_iff by exact O. lia. Qed.
Lemma pop_not_empty s i : am_pop s i = true -> ptr_empty (as_wr s) (as_rd s) = false.
Proof. unfold am_pop. intros H. apply andb_true_iff in H. now apply negb_true_iff. Qed.

Definition pushb p s i : bool := match aa_ent (am_do p s i) with Some _ => true | None => false end.
Lemma cnt_step p s i : astr s ->
  let wr := as_wr (am_next p s i) in let rd := as_rd (am_next p s i) in
  ptr_ok wr rd /\ (wr - rd) mod 64 = (as_wr s - as_rd s) mod 64 + (if pushb p s i then 1 else 0) - (if am_pop s i then 1 else 0) /\
  forall e0, ring (as_wr s) (as_rd s) (as_mem s) ++ (if pushb p s i then [match aa_ent (am_do p s i) with Some e => e | None => e0 end] else []) = (if am_pop s i then [as_mem s (as_rd s mod 32)] else []) ++ ring wr rd (as_mem (am_next p s i)).
Proof.
  intros [W R P C H D _]. cbn zeta. set (e1 := match aa_ent (am_do p s i) with Some e => e | None => ae0 end).
  assert (X : forall e0, let e1 := match aa_ent (am_do p s i) with Some e => e | None => e0 end in
    ptr_ok (as_wr (am_next p s i)) (as_rd (am_next p s i)) /\ ring (as_wr s) (as_rd s) (as_mem s) ++ (if pushb p s i then [e1] else []) = (if am_pop s i then [as_mem s (as_rd s mod 32)] else []) ++ ring (as_wr (am_next p s i)) (as_rd (am_next p s i)) (as_mem (am_next p s i))).
  { intros e0. pose proof (ring_step am_ent (as_wr s) (as_rd s) (as_mem s) (pushb p s i) (am_pop s i) (match aa_ent (am_do p s i) with Some e => e | None => e0 end) P (fun _ => not_full s P C) (fun h => pop_not_empty s i h)) as X.
    cbn zeta in *. unfold am_next, pushb in *. cbn [as_wr as_rd as_mem]. destruct (aa_ent (am_do p s i)); exact X. }
  split; [exact (proj1 (X ae0))|]. split; [|intros e0; exact (proj2 (X e0))].
  destruct (X ae0) as [_ E]. apply (f_equal (@length am_ent)) in E. rewrite !app_length in E. apply (f_equal Z.of_nat) in E. rewrite !Nat2Z.inj_add, !ring_len in E.
  destruct (pushb p s i), (am_pop s i); cbn [length] in E; lia.
Qed.

Lemma astr_next p s i : astr s -> astr (am_next p s i).
Proof.
  intros I. destruct (cnt_step p s i I) as [P' [C' _]]. destruct I as [W R P C H D RS].
  assert (CP : pushb p s i = true -> (as_wr s - as_rd s) mod 64 <= 17).
  { unfold pushb. destruct (aa_ent (am_do p s i)) eqn:E; [|discriminate]. intros _. apply ent_take, take_ready in E. destruct E. auto. }
  pose proof (Z.mod_pos_bound (as_wr s - as_rd s) 64 ltac:(lia)) as MB.
  assert (PE : am_pop s i = true -> 1 <= (as_wr s - as_rd s) mod 64).
  { intros E. apply pop_not_empty in E. assert ((as_wr s - as_rd s) mod 64 <> 0) by (rewrite <- (empty_iff _ _ P); congruence). lia. }
  assert (RM : am_room s i = true -> (negb (as_awv s) || ai_awready i) = true /\ (negb (as_arv s) || ai_arready i) = true /\ (negb (as_wv s) || ai_wready i) = true /\ as_half s = false).
  { unfold am_room. intros E. apply andb_true_iff in E. destruct E as [E E4]. apply andb_true_iff in E. destruct E as [E E3]. apply andb_true_iff in E. destruct E as [E1 E2]. apply negb_true_iff in E4. auto. }
  assert (RN : am_wait_next s i = false -> am_ready_next p s i = true -> am_room s i = true /\ aa_ar (am_do p s i) = false /\ aa_aw (am_do p s i) = false).
  { unfold am_wait_next, am_ready_next, am_do. destruct (as_wait s) eqn:WE.
    - destruct (as_ready s && ai_valid i && ai_eop i); cbn [negb]; intros X Y; try discriminate. replace (am_take s i) with false by (unfold am_take; rewrite WE; reflexivity). auto.
    - destruct (am_take s i && negb (ai_eop i)); intros X Y; try discriminate. apply andb_true_iff in Y. destruct Y as [Y Y3]. apply andb_true_iff in Y. destruct Y as [Y1 Y2]. apply negb_true_iff in Y2, Y3. auto. }
  constructor.
  - cbn [am_next as_wait as_ready]. unfold am_wait_next, am_ready_next. destruct (as_wait s); [destruct (as_ready s && ai_valid i && ai_eop i); cbn; auto; discriminate|].
    destruct (am_take s i && negb (ai_eop i)); auto; discriminate.
  - cbn [am_next as_wait as_ready as_awv as_wv as_arv]. intros X Y. destruct (RN X Y) as [Q [Q1 Q2]]. destruct (RM Q) as [M1 [M2 [M3 _]]]. rewrite Q1, Q2. cbn [orb].
    destruct (as_awv s), (as_wv s), (as_arv s), (ai_awready i), (ai_wready i), (ai_arready i); cbn in *; try discriminate; auto.
  - exact P'.
  - rewrite C'. destruct (pushb p s i); [specialize (CP eq_refl)|]; destruct (am_pop s i); lia.
  - rewrite C'. cbn [am_next as_half]. intros X. apply Z.leb_gt in X. destruct (pushb p s i), (am_pop s i); lia.
  - rewrite C'. cbn [am_next as_wait as_ready]. intros X Y. destruct (RN X Y) as [Q _]. destruct (RM Q) as [_ [_ [_ M4]]]. specialize (H M4). destruct (pushb p s i), (am_pop s i); lia.
  - cbn [am_next as_resp as_rready as_bready as_rdv as_ent as_txv]. unfold am_resp_next, am_rready_next, am_bready_next, am_cpl, am_pop, am_fin.
    destruct (as_resp s) eqn:ST.
    + destruct (as_rdv s) eqn:RV; cbn [andb negb orb].
      * destruct (ae_read (as_ent s)) eqn:AR; cbn [andb negb]; [|destruct (ae_write (as_ent s)) eqn:AW; cbn; auto].
        repeat split; auto. intros X. unfold am_free in X. destruct (as_txv s), (ai_cready i); cbn in *; auto; discriminate.
      * cbn. auto.
    + destruct RS as [R1 [R2 [R3 R4]]]. destruct (as_rready s && ai_rvalid i) eqn:FN; cbn [andb negb orb].
      * rewrite andb_false_r. auto.
      * rewrite R1. cbn [andb orb]. rewrite andb_true_r. repeat split; auto. intros X. unfold am_free in X. destruct (as_txv s), (ai_cready i); cbn in *; auto; discriminate.
    + destruct RS as [R1 [R2 [R3 [R4 R5]]]]. rewrite R5. cbn [andb]. destruct (ai_bvalid i); cbn [andb negb orb]; [auto|]. rewrite R1. cbn. auto.
    + destruct RS as [R1 [R2 [R3 [R4 R5]]]]. destruct (am_free s i); cbn [andb negb orb]; [auto|]. rewrite R1. cbn. auto.
Qed.
Lemma astr_step p s i : astr s -> astr (am_step p s i).
Proof.
  intros I. unfold am_step. destruct (ai_rst i); [|now apply astr_next]. constructor; cbn; auto; try discriminate; try lia. apply ptr00.
Qed.
Lemma am_run_app p s l i : am_run p s (l ++ [i]) = am_step p (am_run p s l) i.
Proof. unfold am_run. now rewrite fold_left_app. Qed.
Lemma astr_run p l : forall s, astr s -> astr (am_run p s l).
Proof. induction l as [|i r IH]; intros s I; [exact I|]. cbn. apply IH. now apply astr_step. Qed.

Lemma am_trace_split p l : forall s a e b, am_trace p s l = a ++ e :: b -> exists l1 i l2, l = l1 ++ i :: l2 /\ e = am_event (am_run p s l1) i /\ a = am_trace p s l1 /\ b = am_trace p (am_step p (am_run p s l1) i) l2.
Proof.
  induction l as [|i r IH]; intros s a e b H; [destruct a; discriminate|]. destruct a as [|x a]; cbn in H.
  - injection H as H1 H2. exists [], i, r. cbn. repeat split; auto.
  - injection H as H1 H2. destruct (IH _ _ _ _ H2) as [l1 [j [l2 [E1 [E2 [E3 E4]]]]]]. exists (i :: l1), j, l2. subst. cbn. repeat split; auto.
Qed.

(** Outputs that are not taken are kept. *)
Lemma am_kept_ok p l a e e' b : am_trace p am0 l = a ++ e :: e' :: b -> am_kept e e'.
Proof.
  intros H. destruct (am_trace_split p l am0 a e (e' :: b) H) as [l1 [i [l2 [E1 [E2 [E3 E4]]]]]]. subst e.
  destruct l2 as [|i2 l2]; [discriminate|]. cbn in E4. injection E4 as E4 _. subst e'. set (s := am_run p am0 l1) in *.
  assert (I : astr s) by (apply astr_run, astr0). clearbody s. intros RS. cbn [am_event av_in] in RS. cbn [am_event av_txv av_in av_txh av_txd av_txs av_awv av_awaddr av_wv av_wdata av_wstrb av_arv av_araddr av_rready av_bready].
  unfold am_step. rewrite RS. destruct I as [W R P C H' D S]. cbn [am_next as_txv as_txh as_txd as_txs as_awv as_addr as_wv as_wdata as_wstrb as_arv as_rready as_bready].
  assert (NT : (as_awv s = true \/ as_wv s = true \/ as_arv s = true) -> am_take s i = false).
  { intros X. destruct (am_take s i) eqn:T; [|reflexivity]. apply take_ready in T. destruct T as [T1 T2]. destruct (R T1 T2) as [? [? ?]]. intuition congruence. }
  split; [|split; [|split; [|split; [|split]]]].
  - intros V Q. assert (CP : am_cpl s i = false). { unfold am_cpl, am_fin. destruct (as_resp s); auto. - destruct S as [_ [_ [S _]]]. destruct (as_rready s); cbn; auto. rewrite S in V by reflexivity. discriminate. - unfold am_free. now rewrite V, Q. }
    rewrite CP, V, Q. auto.
  - intros V Q. unfold am_do. rewrite NT by auto. cbn. now rewrite V, Q.
  - intros V Q. unfold am_do. rewrite NT by auto. cbn. now rewrite V, Q.
  - intros V Q. unfold am_do. rewrite NT by auto. cbn. now rewrite V, Q.
  - intros V Q. unfold am_rready_next, am_fin. destruct (as_resp s); try (destruct S as [? ?]; congruence); try (destruct S as [? [? [? [? ?]]]]; congruence). destruct S as [_ [_ [S _]]]. unfold am_free. rewrite (S V), Q. rewrite andb_false_r. reflexivity.
  - intros V Q. unfold am_bready_next, am_fin. destruct (as_resp s); try (destruct S as [? ?]; congruence); try (destruct S as [? [? [? ?]]]; congruence); try (destruct S as [? [? [? [? ?]]]]; congruence). rewrite Q, andb_false_r. reflexivity.
Qed.

(** * With the monitor *)
Record ainv (p : am_param) (m : am_mon) (s : am_state) : Prop := mkAinv {
  iv_str : astr s;
  iv_mid : ao_mid m = as_wait s;
  iv_aw : ao_aw m = if as_awv s then Some (as_addr s) else None;
  iv_w : ao_w m = if as_wv s then Some (as_wdata s, as_wstrb s) else None;
  iv_ar : ao_ar m = if as_arv s then Some (as_addr s) else None;
  iv_cor : ao_cor m = as_cor s; iv_unc : ao_unc m = as_unc s;
  iv_q : exists T R L, ao_q m = T ++ R ++ L /\
    (if as_txv s then exists x, T = [x] /\ tx_is p x (as_txh s) (as_txd s) (as_txs s) else T = []) /\
    (if as_rdv s then exists x, R = [x] /\ ent_ok p (as_ent s) x else R = []) /\
    Forall2 (ent_ok p) (ring (as_wr s) (as_rd s) (as_mem s)) L }.

Lemma ainv0 p : ainv p ao0 am0.
Proof. constructor; try reflexivity; [apply astr0|]. exists [], [], []. cbn. repeat split; auto. Qed.
Lemma ainv_rst p s i : ai_rst i = true -> astr (am_step p s i) -> ainv p ao0 (am_step p s i).
Proof. intros R A. constructor; try exact A; unfold am_step; rewrite R; try reflexivity. exists [], [], []. cbn. repeat split; auto. Qed.

Lemma tx_cpl p x a b c : tx_is p x a b c -> exists h st, x = ICpl h st.
Proof. destruct x; cbn; try tauto. eauto. Qed.

Lemma ainv_shows p m s i : ainv p m s -> am_shows p m (am_event s i).
Proof.
  intros [S M AW W AR CO UN [T [R [L [Q [QT [QR QL]]]]]]]. unfold am_shows. cbn [am_event av_awv av_awaddr av_wv av_wdata av_wstrb av_arv av_araddr av_ready av_rready av_bready av_txv av_cor av_unc].
  split; [destruct (as_awv s); exact AW|]. split; [destruct (as_wv s); exact W|]. split; [destruct (as_arv s); exact AR|].
  destruct S as [S1 S2 _ _ _ _ S7]. split; [intros X Y; rewrite M in Y; destruct (S2 Y X) as [E1 [E2 E3]]; rewrite AW, W, AR, E1, E2, E3; auto|].
  split; [|split; [|split; [|split; [now rewrite CO | now rewrite UN]]]].
  - intros X. destruct (as_resp s) eqn:ST; try (destruct S7 as [? ?]; congruence); try (destruct S7 as [? [? [? [? ?]]]]; congruence).
    destruct S7 as [A1 [A2 [A3 _]]]. rewrite (A3 X) in QT. rewrite A1 in QR. destruct QR as [x [-> XE]]. subst T. rewrite Q. cbn [app waits].
    destruct x as [h| |h c]; cbn [ent_ok] in XE; [eauto | destruct XE; congruence | destruct c; [tauto | |]; rewrite XE in A2; discriminate].
  - intros X. destruct (as_resp s) eqn:ST; try (destruct S7 as [? ?]; congruence); try (destruct S7 as [? [? [? ?]]]; congruence); try (destruct S7 as [? [? [? [? ?]]]]; congruence).
    destruct S7 as [A1 [A2 [A3 [_ _]]]]. rewrite A1 in QR. destruct QR as [x [-> XE]]. rewrite Q.
    assert (XW : x = IWrite). { destruct x as [h| |h c]; cbn in XE; [destruct XE as [_ XE] | reflexivity | destruct c; try tauto]; rewrite XE in *; discriminate. }
    subst x. destruct (as_txv s); [destruct QT as [y [-> Y]]; destruct (tx_cpl _ _ _ _ _ Y) as [h [c ->]]; reflexivity | subst T; reflexivity].
  - intros X. rewrite X in QT. destruct QT as [x [-> Y]]. destruct (tx_cpl _ _ _ _ _ Y) as [h [c ->]]. exists h, c, (R ++ L). split; [rewrite Q; reflexivity|]. apply Y; reflexivity.
Qed.

Lemma starts_take m s i : ao_mid m = as_wait s -> starts m (am_event s i) = am_take s i.
Proof. intros M. unfold starts, rx_taken, am_take. cbn [am_event av_ready av_in]. rewrite M. destruct (as_wait s), (as_ready s), (ai_valid i), (ai_sop i); reflexivity. Qed.

(** The responses due. *)
Definition q_next (m : am_mon) (e : am_ev) : list item :=
  let i := av_in e in
  let q1 := if av_txv e && ai_cready i then tl (ao_q m) else ao_q m in
  let q2 := if av_rready e && ai_rvalid i then give (ai_rdata i) q1 else q1 in
  if av_bready e && ai_bvalid i then ack q2 else q2.
(** Without what is new: the output and the entry at hand. *)
Lemma q_step p m s i : ainv p m s -> exists T R L, q_next m (am_event s i) = T ++ R ++ L /\
  (if as_txv (am_next p s i) then exists x, T = [x] /\ tx_is p x (as_txh (am_next p s i)) (as_txd (am_next p s i)) (as_txs (am_next p s i)) else T = []) /\
  (if as_rdv s && negb (am_fin s i) then exists x, R = [x] /\ ent_ok p (as_ent s) x else R = []) /\ Forall2 (ent_ok p) (ring (as_wr s) (as_rd s) (as_mem s)) L.
Proof.
  intros [S _ _ _ _ _ _ [T [R [L [Q [QT [QR QL]]]]]]]. destruct S as [_ _ _ _ _ _ S7]. unfold q_next. cbn [am_event av_in av_txv av_rready av_bready]. rewrite Q.
  cbn [am_next as_txv as_txh as_txd as_txs]. unfold am_cpl.
  assert (T1 : exists T', (if as_txv s && ai_cready i then tl (T ++ R ++ L) else T ++ R ++ L) = T' ++ R ++ L /\ (if as_txv s && negb (ai_cready i) then exists x, T' = [x] /\ tx_is p x (as_txh s) (as_txd s) (as_txs s) else T' = [])).
  { destruct (as_txv s); cbn [andb]; [|exists T; subst; auto]. destruct QT as [x [-> X]]. destruct (ai_cready i); cbn [negb]; [exists []; auto | exists [x]; eauto]. }
  destruct T1 as [T' [-> QT']].
  destruct (as_resp s) eqn:ST; unfold am_fin; rewrite ST.
  - destruct S7 as [-> ->]. cbn [andb negb orb]. exists T', R, L. rewrite andb_true_r. auto.
  - destruct S7 as [A1 [A2 [A3 ->]]]. cbn [andb]. rewrite A1 in *. cbn [andb]. destruct (as_rready s && ai_rvalid i) eqn:F; cbn [negb orb].
    + apply andb_true_iff in F. destruct F as [F1 F2]. rewrite (A3 F1) in QT'. cbn [andb] in QT'. subst T'. destruct QR as [x [-> X]]. cbn [app].
      destruct x as [h| |h c]; cbn [ent_ok] in X; [|destruct X; congruence | destruct c; try tauto; rewrite X in A2; discriminate].
      cbn [give]. exists [ICpl h (CSc (ai_rdata i))], [], L. split; [reflexivity|]. split; [|auto]. eexists; split; [reflexivity|]. apply cpl_read. exact X.
    + exists T', R, L. auto.
  - destruct S7 as [A1 [A2 [A3 [-> ->]]]]. cbn [andb]. rewrite A1 in *. cbn [andb]. destruct (ai_bvalid i) eqn:F; cbn [negb orb].
    + destruct QR as [x [-> X]]. assert (XW : x = IWrite). { destruct x as [h| |h c]; cbn in X; [destruct X as [_ X] | reflexivity | destruct c; try tauto]; rewrite X in *; discriminate. }
      subst x. exists T', [], L. split; [|auto]. destruct (as_txv s && negb (ai_cready i)); [destruct QT' as [y [-> Y]]; destruct (tx_cpl _ _ _ _ _ Y) as [h [c ->]]; reflexivity | subst T'; reflexivity].
    + exists T', R, L. auto.
  - destruct S7 as [A1 [A2 [A3 [-> ->]]]]. cbn [andb]. rewrite A1 in *. cbn [andb]. destruct (am_free s i) eqn:F; cbn [negb orb].
    + unfold am_free in F. assert (T' = []) by (destruct (as_txv s), (ai_cready i); cbn in *; auto; discriminate). subst T'. destruct QR as [x [-> X]]. cbn [app].
      exists [x], [], L. split; [reflexivity|]. split; [|auto]. exists x. split; [reflexivity|].
      destruct x as [h| |h c]; cbn [ent_ok] in X; [destruct X as [_ X]; rewrite X in A2; discriminate | destruct X; congruence |]. apply cpl_err. exact X.
    + exists T', R, L. auto.
Qed.

Lemma ainv_step p m s i : ainv p m s -> am_assume1 m (am_event s i) -> ainv p (ao_next p m (am_event s i)) (am_step p s i).
Proof.
  intros I A. pose proof (astr_step p s i (iv_str p m s I)) as ST. unfold ao_next. cbn [am_event av_in]. fold (am_event s i).
  destruct (ai_rst i) eqn:RS; [now apply ainv_rst|].
  pose proof (starts_take m s i (iv_mid p m s I)) as TK. unfold am_assume1 in A. cbn [am_event av_in] in A. fold (am_event s i) in A. rewrite RS in A. specialize (A eq_refl).
  pose proof (q_step p m s i I) as QS. pose proof (cnt_step p s i (iv_str p m s I)) as CS. unfold am_step in *. rewrite RS in *.
  rewrite TK in *. set (h := ai_hdr i) in *.
  assert (DC : aa_ar (am_do p s i) = am_take s i && isk (kind_of h) KRead && one_dw h /\ aa_aw (am_do p s i) = am_take s i && isk (kind_of h) KWrite && one_dw h /\
    aa_cor (am_do p s i) = am_take s i && match kind_of h with KRead => negb (one_dw h) | KCpl | KOther => true | _ => false end /\
    aa_unc (am_do p s i) = am_take s i && match kind_of h with KWrite => negb (one_dw h) | KMsg => true | _ => false end /\
    match aa_ent (am_do p s i) with Some e => exists x, (if am_take s i then due h else []) = [x] /\ ent_ok p e x | None => (if am_take s i then due h else []) = [] end).
  { unfold am_do. destruct (am_take s i); cbn [andb]; [|cbn; auto]. destruct (A eq_refl) as [A1 A2]. exact (decode_ok p h A1 A2). }
  destruct DC as [D1 [D2 [D3 [D4 D5]]]].
  assert (AD : am_take s i = true -> h_addr p h = addr_of p h). { intros X. destruct (A X). now apply addr_ok. }
  destruct I as [S M AW W AR CO UN Q0]. destruct S as [S1 S2 _ _ _ _ S7].
  constructor.
  - exact ST.
  - cbn [ao_mid am_next as_wait]. unfold am_wait_next. rewrite M. unfold rx_taken. cbn [am_event av_ready av_in]. destruct (as_wait s); reflexivity.
  - cbn [ao_aw am_next as_awv as_addr am_event av_awv]. rewrite <- D2. destruct (aa_aw (am_do p s i)) eqn:E; cbn [orb].
    + assert (X : am_take s i = true) by (symmetry in D2; apply andb_true_iff in D2; destruct D2 as [D2 _]; apply andb_true_iff in D2; tauto). rewrite X. fold h. now rewrite (AD X).
    + rewrite AW. destruct (as_awv s) eqn:V; cbn [andb]; [|reflexivity]. destruct (ai_awready i); cbn [negb]; [reflexivity|]. destruct (am_take s i) eqn:X; [|reflexivity]. apply take_ready in X. destruct X as [X1 X2]. destruct (S2 X1 X2); congruence.
  - cbn [ao_w am_next as_wv as_wdata as_wstrb am_event av_wv]. rewrite <- D2. destruct (aa_aw (am_do p s i)) eqn:E; cbn [orb].
    + assert (X : am_take s i = true) by (symmetry in D2; apply andb_true_iff in D2; destruct D2 as [D2 _]; apply andb_true_iff in D2; tauto). rewrite X. unfold psel. rewrite Z.pow_0_r, Z.div_1_r. reflexivity.
    + rewrite W. destruct (as_wv s) eqn:V; cbn [andb]; [|reflexivity]. destruct (ai_wready i); cbn [negb]; [reflexivity|]. destruct (am_take s i) eqn:X; [|reflexivity]. apply take_ready in X. destruct X as [X1 X2]. destruct (S2 X1 X2) as [? [? ?]]; congruence.
  - cbn [ao_ar am_next as_arv as_addr am_event av_arv]. rewrite <- D1. destruct (aa_ar (am_do p s i)) eqn:E; cbn [orb].
    + assert (X : am_take s i = true) by (symmetry in D1; apply andb_true_iff in D1; destruct D1 as [D1 _]; apply andb_true_iff in D1; tauto). rewrite X. fold h. now rewrite (AD X).
    + rewrite AR. destruct (as_arv s) eqn:V; cbn [andb]; [|reflexivity]. destruct (ai_arready i); cbn [negb]; [reflexivity|]. destruct (am_take s i) eqn:X; [|reflexivity]. apply take_ready in X. destruct X as [X1 X2]. destruct (S2 X1 X2) as [? [? ?]]; congruence.
  - cbn [ao_cor am_next as_cor]. now rewrite D3.
  - cbn [ao_unc am_next as_unc]. now rewrite D4.
  - cbn [ao_q]. change (av_txv (am_event s i)) with (as_txv s). destruct QS as [T [R [L [Q [QT [QR QL]]]]]]. unfold q_next in Q. cbn [am_event av_in av_txv av_rready av_bready] in Q. cbn [am_event av_rready av_bready]. rewrite Q.
    destruct CS as [_ [_ RG]]. specialize (RG ae0).
    assert (LN : Forall2 (ent_ok p) (ring (as_wr s) (as_rd s) (as_mem s) ++ (if pushb p s i then [match aa_ent (am_do p s i) with Some e => e | None => ae0 end] else [])) (L ++ (if am_take s i then due h else []))).
    { apply Forall2_app; [exact QL|]. unfold pushb. destruct (aa_ent (am_do p s i)) as [e|]; [destruct D5 as [x [-> X]]; constructor; [exact X | constructor] | rewrite D5; constructor]. }
    rewrite RG in LN.
    exists T. cbn [am_next as_txv as_txh as_txd as_txs as_rdv as_ent] in *. destruct (am_pop s i) eqn:PO.
    + assert (NR : as_rdv s && negb (am_fin s i) = false). { unfold am_pop in PO. apply andb_true_iff in PO. destruct PO as [PO _]. now apply negb_true_iff in PO. }
      rewrite NR in *. cbn [orb app] in *. subst R. inversion LN as [|e0 x0 le lx H1 H2 E1 E2]. subst. exists [x0], lx. split; [|split; [exact QT | split; [eauto | exact H2]]].
      rewrite <- app_assoc. cbn [app]. rewrite E2. reflexivity.
    + cbn [app] in LN. rewrite orb_false_r. exists R, (L ++ if am_take s i then due h else []). split; [rewrite <- !app_assoc; reflexivity|]. auto.
Qed.

Lemma am_follows_gen p l : forall m s, ainv p m s -> am_follows p m (am_trace p s l).
Proof. induction l as [|i r IH]; intros m s I; cbn [am_trace am_follows]; [exact Logic.I|]. split; [now apply ainv_shows|]. intros A. apply IH. now apply ainv_step. Qed.
Lemma am_follows_ok p l : am_follows p ao0 (am_trace p am0 l).
Proof. apply am_follows_gen, ainv0. Qed.
