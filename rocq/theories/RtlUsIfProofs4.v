(** The adapters for UltraScale streams (C107 to C110): whole runs, progress, witnesses. *)
From Verif Require Import PyBase RtlModel RtlAxmModel RtlAxmSpec RtlAxmProofs RtlUsIfModel RtlUsIfSpec RtlUsIfProofs RtlUsIfProofs2 RtlUsIfProofs3.
From Coq Require Import Lia.

Lemma ui_follows_from p : up_ok p -> forall l s m, Inv p s m -> ui_follows p m (ui_trace p s l).
Proof.
  intros O. induction l as [|i l IH]; intros s m I; cbn [ui_trace ui_follows]; [exact Logic.I|]. split; [apply inv_shows, I|]. intros A1 A2. apply IH. apply inv_step; assumption.
Qed.
Lemma ui_follows_ok p l : up_ok p -> ui_follows p um0 (ui_trace p us0 l).
Proof. intros O. apply ui_follows_from; [exact O|apply inv0]. Qed.
Lemma ui_follows_all_ok p l : up_ok p -> up_rc p = false \/ 2 <= up_lw p -> ui_follows_all p um0 (ui_trace p us0 l).
Proof.
  intros O C. assert (A2 : forall m e, ui_assume2 p m e) by (intros m e _ _ _ R L; destruct C as [C|C]; [congruence|lia]).
  generalize (inv0 p). generalize us0 um0. induction l as [|i l IH]; intros s m I; cbn [ui_trace ui_follows_all]; [exact Logic.I|]. split; [apply inv_shows, I|]. intros A1. apply IH. apply inv_step; [exact O|exact I|exact A1|apply A2].
Qed.
Lemma ui_kept_step p s i i' : ui_kept (ui_event s i) (ui_event (ui_step p s i) i').
Proof. intros R V D. cbn [ui_event uv_in uv_valid uv_data uv_strb uv_meta uv_sop uv_eop] in *. unfold ui_step, ui_next. rewrite R, D. cbn zeta. repeat split. exact V. Qed.
Lemma ui_kept_ok p l : forall s a e e' b, ui_trace p s l = a ++ e :: e' :: b -> ui_kept e e'.
Proof.
  induction l as [|i l IH]; intros s a e e' b Q; cbn [ui_trace] in Q; [destruct a; discriminate|]. destruct a as [|x a]; cbn [app] in Q.
  - injection Q as Q1 Q2. destruct l as [|i2 l]; cbn [ui_trace] in Q2; [discriminate|]. injection Q2 as Q2 Q3. subst e e'. apply ui_kept_step.
  - injection Q as Q1 Q2. exact (IH _ _ _ _ _ Q2).
Qed.

(** * Progress *)
Definition mu (s : ui_state) : Z := if us_iv s && us_ieop s then 2 else Z.b2z (us_valid s).
Lemma mu_range s : 0 <= mu s <= 2.
Proof. unfold mu. destruct (us_iv s && us_ieop s), (us_valid s); cbn [Z.b2z]; lia. Qed.
Lemma mu_zero p s m : Inv p s m -> mu s = 0 -> um_q m = [] /\ us_valid s = false.
Proof.
  intros [t [Q [_ I]]] M. unfold mu in M. destruct (us_iv s); cbn [andb] in M.
  - destruct (us_ieop s); [discriminate|]. destruct (us_valid s); [discriminate|]. destruct I as [ds [be [j [e [_ [T _]]]]]]. rewrite Q, T. split; reflexivity.
  - destruct (us_valid s); [discriminate|]. destruct I as [_ T]. rewrite Q, T. split; reflexivity.
Qed.
Lemma mu_step p s m i : up_ok p -> Inv p s m -> ui_rst i = false -> ui_valid i = false -> mu (ui_step p s i) <= Z.max 0 (mu s - Z.b2z (ui_ready i)).
Proof.
  intros O [t [_ [_ I]]] R V. assert (SN : ui_step p s i = ui_next p s i) by (unfold ui_step; cbn zeta; now rewrite R). rewrite SN. unfold ui_next. destruct (ui_ready i); [|pose proof (mu_range s); cbn [Z.b2z]; lia].
  rewrite V. cbn zeta. set (g := ui_gen_of p s i). unfold mu. cbn [us_iv us_ieop us_valid Z.b2z]. destruct (us_iv s) eqn:IV; cbn [andb].
  - destruct I as [ds [be [j [e [I [_ _]]]]]]. destruct (us_ieop s) eqn:IE.
    + destruct (gen_closed p s i ds be j e O I IV IE) as [GC _]. cbn zeta in GC. fold g in GC. rewrite GC. cbn [negb andb]. destruct (ug_valid g); cbn [Z.b2z]; lia.
    + destruct (gen_wait p s i ds be j e O I IV IE V) as [GC [GV _]]. cbn zeta in GC, GV. fold g in GC, GV. rewrite GC, GV. cbn [negb andb Z.b2z]. lia.
  - assert (GV : ug_valid g = false). { unfold g, ui_gen_of, ui_gen_rc64, ui_gen_cq64, ui_gen_wide. rewrite IV. destruct (up_lw p =? 1), (up_rc p); reflexivity. } rewrite GV. cbn [Z.b2z]. lia.
Qed.
Lemma inv_run p l : up_ok p -> forall s m, Inv p s m -> ui_assume p m (ui_trace p s l) -> Inv p (ui_run p s l) (fold_left (um_next p) (ui_trace p s l) m).
Proof.
  intros O. induction l as [|i l IH]; intros s m I A; cbn [ui_trace ui_run fold_left ui_assume] in *; [exact I|]. destruct A as [A1 [A2 A3]]. apply IH; [|exact A3]. apply inv_step; assumption.
Qed.
Lemma quiet_run p l : up_ok p -> forall s m, Inv p s m -> ui_quiet (ui_trace p s l) -> mu s <= ui_goods (ui_trace p s l) -> let m' := fold_left (um_next p) (ui_trace p s l) m in
  um_q m' = [] /\ us_valid (ui_run p s l) = false /\ um_ds m' = um_ds m.
Proof.
  intros O. induction l as [|i l IH]; intros s m I Q G; cbn [ui_trace ui_run fold_left] in *.
  - cbn zeta. destruct (mu_zero p s m I) as [Z1 Z2]; [unfold ui_goods in G; cbn in G; pose proof (mu_range s); lia|]. auto.
  - cbn zeta. inversion Q as [|x y [Q1 Q2] Q3]; subst. cbn [ui_event uv_in] in Q1, Q2.
    assert (NT : u_taken (ui_event s i) = false) by (unfold u_taken; cbn [ui_event uv_in]; rewrite Q2; apply andb_false_r).
    assert (I' : Inv p (ui_step p s i) (um_next p m (ui_event s i))).
    { apply inv_step; try assumption; [intros _ T; congruence|intros _ T; congruence]. }
    assert (D : um_ds (um_next p m (ui_event s i)) = um_ds m) by (unfold um_next; cbn zeta; rewrite NT; cbn [ui_event uv_in]; rewrite Q1; reflexivity).
    destruct (IH _ _ I' Q3) as [X1 [X2 X3]].
    + pose proof (mu_step p s m i O I Q1 Q2) as MS. unfold ui_goods in *. cbn [filter] in G. cbn [ui_event uv_in] in G. destruct (ui_ready i); cbn [length Z.b2z] in *; [|pose proof (mu_range s)]; lia.
    + split; [exact X1|]. split; [exact X2|]. rewrite X3. exact D.
Qed.
Lemma ui_progress_ok p l1 l2 : up_ok p -> let tr1 := ui_trace p us0 l1 in let tr2 := ui_trace p (ui_run p us0 l1) l2 in
  ui_assume p um0 tr1 -> ui_quiet tr2 -> 2 <= ui_goods tr2 -> um_q (ui_after p (tr1 ++ tr2)) = [] /\ us_valid (ui_run p us0 (l1 ++ l2)) = false /\ um_ds (ui_after p (tr1 ++ tr2)) = um_ds (ui_after p tr1).
Proof.
  intros O. cbn zeta. intros A Q G. pose proof (inv_run p l1 O us0 um0 (inv0 p) A) as I. unfold ui_after. rewrite fold_left_app.
  replace (ui_run p us0 (l1 ++ l2)) with (ui_run p (ui_run p us0 l1) l2) by (unfold ui_run; now rewrite fold_left_app).
  apply (quiet_run p l2 O _ _ I Q). pose proof (mu_range (ui_run p us0 l1)). lia.
Qed.

(** * Messages *)
Lemma message_ok ds be m : rq_is ds be m -> 12 <= fld (dw ds 2) 14 11 <= 14 -> fld (ut_hdr m) 124 120 = 16 + fld (dw ds 3) 18 16 /\ fld (ut_hdr m) 127 125 = (if fld (dw ds 2) 10 0 =? 0 then 1 else 3) /\ ut_func m = fld (dw ds 3) 15 8.
Proof.
  unfold rq_is. cbn zeta. intros R K. decompose [and] R. clear R. split; [|split]; try assumption.
  - match goal with FF : rq_fmt_ok _ _ _ _ _ |- _ => rename FF into FM end. destruct FM as [F|[[_ [_ F]]|F]]; [|exact F|lia]. exfalso. unfold rq_kinds in F. cbn [In] in F.
    decompose [or] F; clear F; try contradiction; match goal with Q : (_, _) = (_, _) |- _ => injection Q; intros; lia end.
  - match goal with FF : rq_fmt_ok _ _ _ _ _ |- _ => rename FF into FM end. destruct FM as [F|[[_ [F _]]|F]]; [|exact F|lia]. exfalso. unfold rq_kinds in F. cbn [In] in F.
    decompose [or] F; clear F; try contradiction; match goal with Q : (_, _) = (_, _) |- _ => injection Q; intros; lia end.
Qed.

Lemma message_meta_ok d be : let m := cq_meta d be in 12 <= fld (lane d 2) 14 11 <= 14 ->
  fld (ut_hdr m) 124 120 = 16 + fld (lane d 3) 18 16 /\ fld (ut_hdr m) 127 125 = (if fld (lane d 2) 10 0 =? 0 then 1 else 3) /\ ut_func m = fld (lane d 3) 15 8.
Proof. exact (message_ok (lanes d 4) be (cq_meta d be) (cq_meta_ok (lanes d 4) be d eq_refl eq_refl eq_refl eq_refl)). Qed.

(** * Witnesses *)
Definition uidle (r : bool) : ui_in := mkUi false 0 0 false false 0 r.
(** A beat with these double words. *)
Fixpoint pack (ds : list Z) : Z := match ds with [] => 0 | d :: r => d + 2 ^ 32 * pack r end.
Definition ubeat (be : Z) (r : bool) (l : bool) (ds : list Z) : ui_in := mkUi false (pack ds) (2 ^ zlen ds - 1) true l be r.
(** Request: write of 3 double words to 0x1_0000_2004, requester 0x0102, tag 0x33, BAR 2, function 1; byte enables 0xF and 0x3. *)
Definition cq_d : list Z := [0x2004; 1; 3 + 2048 + 0x0102 * 65536; 0x33 + 256 + 2 * 65536; 0xAAAA0001; 0xAAAA0002; 0xAAAA0003].
(** Completion: n double words for requester 0x0102, tag 0x44, 128 bytes still to come. *)
Definition rc_d (n : Z) : list Z := [0x10 + 128 * 65536; n + 0x0102 * 65536; 0x44 + 0x0300 * 256].
Definition cq_l64 : list ui_in := [ubeat 0x3F true false (firstn 2 cq_d); uidle true; ubeat 0 false false (firstn 2 (skipn 2 cq_d)); ubeat 0 true false (firstn 2 (skipn 2 cq_d)); ubeat 0 true false (firstn 2 (skipn 4 cq_d)); ubeat 0 true true (skipn 6 cq_d);
  ubeat 0x0F true false [0x2008; 1]; ubeat 0 true true [1 + 0x0102 * 65536; 0x34]; uidle false; uidle true; uidle true; uidle true].
Definition cq_l128 : list ui_in := [ubeat 0x3F true false (firstn 4 cq_d); uidle true; ubeat 0 true true (skipn 4 cq_d); ubeat 0x0F true true [0x2008; 1; 1 + 0x0102 * 65536; 0x34]; uidle true; uidle true; uidle true].
Definition rc_l128 : list ui_in := [ubeat 0 true false (rc_d 6 ++ [0xBBBB0001]); ubeat 0 true false [0xBBBB0002; 0xBBBB0003; 0xBBBB0004; 0xBBBB0005]; ubeat 0 true true [0xBBBB0006]; ubeat 0 true true (rc_d 0); uidle true; uidle true; uidle true].
Definition rc_l64 (ds : list Z) (e : bool) : list ui_in := [ubeat 0 true false (firstn 2 (rc_d 3)); ubeat 0 true false (skipn 2 (rc_d 3) ++ [0xBBBB0001]); ubeat 0 true e ds; uidle true; uidle true; uidle true].
(** The beats the FIFO takes. *)
Definition ui_sent (tr : list ui_ev) : list (Z * Z * bool * bool) := map (fun e => (uv_data e, uv_strb e, uv_sop e, uv_eop e)) (filter (fun e => uv_valid e && ui_ready (uv_in e)) tr).
Definition ui_assumeb (p : ui_param) (m : ui_mon) (e : ui_ev) : bool :=
  ui_rst (uv_in e) || negb (u_taken e) || (let k := ui_keep (uv_in e) in let n := kcnt k in (k =? 2 ^ n - 1) && (1 <=? n) && (n <=? WD p) && (if ui_last (uv_in e) then HD p <=? zlen (um_ds m) + n else n =? WD p) &&
    (negb (ui_last (uv_in e)) || negb (up_rc p) || negb (up_lw p =? 1) || (zlen (um_ds m) <? 4) || (n =? 2))).
Fixpoint ui_assumebs (p : ui_param) (m : ui_mon) (tr : list ui_ev) : bool := match tr with [] => true | e :: r => ui_assumeb p m e && ui_assumebs p (um_next p m e) r end.
Lemma ui_assumebs_ok p tr : forall m, ui_assumebs p m tr = true -> ui_assume p m tr.
Proof.
  induction tr as [|e r IH]; intros m H; cbn [ui_assumebs ui_assume] in *; [exact I|]. apply andb_prop in H. destruct H as [H1 H2]. unfold ui_assumeb in H1. cbn zeta in H1. split; [|split; [|now apply IH]].
  - intros R T. cbn zeta. rewrite R, T in H1. cbn [negb orb] in H1. repeat (apply andb_prop in H1; destruct H1 as [H1 ?]). split; [lia|]. split; [lia|]. destruct (ui_last (uv_in e)); lia.
  - intros R T L R1 L1 N. rewrite R, T, L, R1, L1 in H1. cbn [negb orb] in H1. repeat (apply andb_prop in H1; destruct H1 as [H1 ?]). change (1 =? 1) with true in *. cbn [negb orb] in *. lia.
Qed.
