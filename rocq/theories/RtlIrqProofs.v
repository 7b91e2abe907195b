(** Proofs about rtl/irq_rate_limit.v (C83). *)
From Verif Require Import PyBase RtlIrqModel RtlIrqSpec.

Lemma run_snoc w l i : forall s, rl_run w s (l ++ [i]) =
  let '(s1, tr) := rl_run w s l in (rl_step w s1 i, tr ++ [rl_event s1 i (rl_step w s1 i)]).
Proof.
  induction l as [|x l IH]; intros s; cbn [rl_run app]; [reflexivity|]. rewrite IH. destruct (rl_run w (rl_step w s x) l) as [s1 tr]. reflexivity.
Qed.

(* ---------- ghost state: functions of the trace ---------- *)
Definition last_step (j : Z) (g : Z * option (Z * Z) * bool) (e : rl_ev) : Z * option (Z * Z) * bool :=
  let '(t, la, ow) := g in
  let p := match re_pres e with Some x => x =? j | None => false end in
  let a := match re_acc e with Some x => x =? j | None => false end in
  (t + (if re_tick e then 1 else 0), if p then Some (t, re_min e) else la, if p then false else if a then true else ow).
Definition ghost (j : Z) (tr : list rl_ev) := fold_left (last_step j) tr (0, None, false).
Lemma ghost_snoc j tr e : ghost j (tr ++ [e]) = last_step j (ghost j tr) e.
Proof. unfold ghost. now rewrite fold_left_app. Qed.
Lemma ghost_ticks j tr : fst (fst (ghost j tr)) = ticks tr.
Proof.
  induction tr as [|e tr IH] using rev_ind; [reflexivity|]. rewrite ghost_snoc. unfold ticks, zlen in *. rewrite filter_app, app_length. cbn [filter].
  destruct (ghost j tr) as [[t la] ow]. cbn [last_step fst] in *. destruct (re_tick e); cbn [length]; lia.
Qed.
Lemma ghost_owed j tr : snd (ghost j tr) = true -> owed j tr.
Proof.
  induction tr as [|e tr IH] using rev_ind; [discriminate|]. rewrite ghost_snoc. destruct (ghost j tr) as [[t la] ow]. cbn [last_step snd] in *.
  intros H. destruct (re_pres e) as [x|] eqn:EP.
  - destruct (Z.eqb_spec x j); [discriminate|].
    assert (NP : ~ presents j e) by (unfold presents; congruence).
    destruct (re_acc e) as [y|] eqn:EA; [destruct (Z.eqb_spec y j) as [->|]|].
    + exists tr, e, []. split; [reflexivity|]. split; [assumption|]. repeat constructor. assumption.
    + destruct (IH H) as (a & e' & b & -> & A & F). exists a, e', (b ++ [e]). rewrite <- app_assoc. split; [reflexivity|]. split; [assumption|].
      rewrite app_comm_cons. apply Forall_app. split; [assumption|repeat constructor; assumption].
    + destruct (IH H) as (a & e' & b & -> & A & F). exists a, e', (b ++ [e]). rewrite <- app_assoc. split; [reflexivity|]. split; [assumption|].
      rewrite app_comm_cons. apply Forall_app. split; [assumption|repeat constructor; assumption].
  - assert (NP : ~ presents j e) by (unfold presents; congruence).
    destruct (re_acc e) as [y|] eqn:EA; [destruct (Z.eqb_spec y j) as [->|]|].
    + exists tr, e, []. split; [reflexivity|]. split; [assumption|]. repeat constructor. assumption.
    + destruct (IH H) as (a & e' & b & -> & A & F). exists a, e', (b ++ [e]). rewrite <- app_assoc. split; [reflexivity|]. split; [assumption|].
      rewrite app_comm_cons. apply Forall_app. split; [assumption|repeat constructor; assumption].
    + destruct (IH H) as (a & e' & b & -> & A & F). exists a, e', (b ++ [e]). rewrite <- app_assoc. split; [reflexivity|]. split; [assumption|].
      rewrite app_comm_cons. apply Forall_app. split; [assumption|repeat constructor; assumption].
Qed.
Lemma fold_quiet j l : Forall (fun x => ~ presents j x) l -> forall t la ow,
  exists t' ow', fold_left (last_step j) l (t, la, ow) = (t', la, ow') /\ (ow = true -> ow' = true).
Proof.
  induction l as [|e l IH]; intros F t la ow; [exists t, ow; auto|]. apply Forall_cons_iff in F. destruct F as [F1 F2]. cbn [fold_left last_step].
  assert (E : match re_pres e with Some x => x =? j | None => false end = false).
  { destruct (re_pres e) as [x|] eqn:EP; [|reflexivity]. apply Z.eqb_neq. intros ->. now apply F1. }
  rewrite E. destruct (IH F2 (t + (if re_tick e then 1 else 0)) la (if match re_acc e with Some x => x =? j | None => false end then true else ow)) as (t' & ow' & -> & H).
  exists t', ow'. split; [reflexivity|]. intros ->. apply H. now destruct (match re_acc e with Some x => x =? j | None => false end).
Qed.
Lemma owed_ghost j tr : owed j tr -> snd (ghost j tr) = true.
Proof.
  intros (a & e & b & -> & A & F). unfold ghost. rewrite fold_left_app. cbn [fold_left]. destruct (fold_left (last_step j) a (0, None, false)) as [[t la] ow].
  apply Forall_cons_iff in F. destruct F as [F1 F2]. cbn [last_step].
  assert (E : match re_pres e with Some x => x =? j | None => false end = false).
  { destruct (re_pres e) as [x|] eqn:EP; [|reflexivity]. apply Z.eqb_neq. intros ->. now apply F1. }
  rewrite E, A, Z.eqb_refl. destruct (fold_quiet j b F2 (t + (if re_tick e then 1 else 0)) la true) as (t' & ow' & -> & H). cbn. auto.
Qed.
Lemma ghost_last j l1 e l2 : presents j e -> Forall (fun x => ~ presents j x) l2 -> snd (fst (ghost j (l1 ++ e :: l2))) = Some (ticks l1, re_min e).
Proof.
  intros P F. unfold ghost. rewrite fold_left_app. cbn [fold_left]. fold (ghost j l1). rewrite <- (ghost_ticks j l1). destruct (ghost j l1) as [[t la] ow]. cbn [fst last_step].
  rewrite P, Z.eqb_refl. destruct (fold_quiet j l2 F (t + (if re_tick e then 1 else 0)) (Some (t, re_min e)) false) as (t' & ow' & -> & _). reflexivity.
Qed.

(* ---------- the invariant ---------- *)
(** The limiter may present again, at tick [t], an interrupt presented last at [ta] with interval [mi]. *)
Definition rel (t : Z) (la : option (Z * Z)) : Prop :=
  match la with Some (ta, mi) => mi = 0 \/ 2 ^ 17 <= ta mod 2 ^ 17 + mi \/ ta + mi < t | None => True end.
Lemma rel_mono t t' la : t <= t' -> rel t la -> rel t' la.
Proof. destruct la as [[ta mi]|]; cbn; intros; lia. Qed.

Lemma expired_rel t ta mi : 0 <= ta <= t -> 0 <= mi < 2 ^ 16 -> rl_expired ((ta + mi) mod 2 ^ 17) (t mod 2 ^ 17) = true -> rel t (Some (ta, mi)).
Proof.
  intros Ht Hm H. cbn [rel]. destruct (Z_le_gt_dec (2 ^ 17) (ta mod 2 ^ 17 + mi)); [auto|]. destruct (Z_lt_ge_dec (ta + mi) t); [auto|]. exfalso.
  change (2^17) with 131072 in *. change (2^16) with 65536 in *.
  assert (E : (ta + mi) mod 131072 - t mod 131072 = ta + mi - t) by
   (clear H; pose proof (Z.div_mod ta 131072 ltac:(lia)); pose proof (Z.mod_pos_bound ta 131072 ltac:(lia));
    assert ((ta + mi) mod 131072 = ta mod 131072 + mi) by (symmetry; apply (Z.mod_unique _ _ (ta / 131072)); lia);
    assert (t mod 131072 = ta mod 131072 + (t - ta)) by (symmetry; apply (Z.mod_unique _ _ (ta / 131072)); lia); lia).
  unfold rl_expired in H. change (2^17) with 131072 in H. rewrite E in H. change (2^32) with 4294967296 in H. rewrite Z.mod_small in H by lia.
  rewrite Z.shiftr_div_pow2 in H by lia. change (2^16) with 65536 in H. rewrite Z.div_small in H by lia. discriminate.
Qed.
Lemma expired_window d t : 0 <= d < 2 ^ 17 -> 1 <= (t - d) mod 2 ^ 17 <= 2 ^ 16 -> rl_expired d (t mod 2 ^ 17) = true.
Proof.
  intros Hd H. unfold rl_expired. change (2^17) with 131072 in *. change (2^16) with 65536 in *. change (2^32) with 4294967296.
  rewrite Z.shiftr_div_pow2 by lia. change (2^16) with 65536.
  assert (G : 65536 <= (d - t mod 131072) mod 4294967296).
  { assert (d - t mod 131072 < 0 \/ 65536 <= d - t mod 131072 < 131072) as H0.
    { rewrite <- Zminus_mod_idemp_l in H. pose proof (Z.mod_pos_bound t 131072 ltac:(lia)). set (r := t mod 131072) in *. clearbody r.
      destruct (Z_lt_ge_dec d r); [lia|]. right. destruct (Z.eq_dec d r) as [->|]; [rewrite Z.sub_diag in H; cbn in H; lia|].
      replace ((r - d) mod 131072) with (r - d + 131072) in H; [lia|]. apply (Z.mod_unique _ _ (-1)); lia. }
    pose proof (Z.mod_pos_bound t 131072 ltac:(lia)). destruct H0.
    - replace ((d - t mod 131072) mod 4294967296) with (d - t mod 131072 + 4294967296); [lia|].
      apply (Z.mod_unique _ _ (-1)); lia.
    - rewrite Z.mod_small; lia. }
  assert (1 <= (d - t mod 131072) mod 4294967296 / 65536) by (apply Z.div_le_lower_bound; lia). lia.
Qed.

Record word_ok (t : Z) (fsm : rl_fsm) (irq j : Z) (wd : rl_word) (la : option (Z * Z)) (ow : bool) : Prop := {
  k_pend : rw_pend wd = true -> rw_run wd = true;
  k_none : la = None -> rw_run wd = false;
  k_some : forall ta mi, la = Some (ta, mi) -> 0 <= ta <= t /\ 0 <= mi < 2 ^ 16 /\ (rw_run wd = true /\ rw_dead wd = (ta + mi) mod 2 ^ 17 \/ rw_run wd = false /\ rel t la);
  k_owed : ow = true <-> rw_pend wd = true \/ (fsm = RIn /\ irq = j) }.

Record inv (w : Z) (s : rl_state) (tr : list rl_ev) : Prop := {
  i_time : rl_time s = ticks tr mod 2 ^ 17;
  i_presc : 0 <= rl_presc s < 2 ^ 16;
  i_cur : 0 <= rl_cur s < 2 ^ w;
  i_irq : rl_fsm_reg s <> RInit -> 0 <= rl_irq s < 2 ^ w \/ rl_rdv s = false /\ rl_fsm_reg s = RIdle;
  i_init : rl_fsm_reg s = RInit -> rl_rdv s = false /\ rl_out_valid s = false /\ (forall j, 0 <= j < rl_cur s -> rl_mem s j = mkRw false false 0) /\
             forall j, snd (fst (ghost j tr)) = None /\ snd (ghost j tr) = false;
  i_ready : rl_in_ready s = true -> rl_fsm_reg s = RIdle;
  i_word : rl_fsm_reg s <> RInit -> forall j, 0 <= j < 2 ^ w -> word_ok (ticks tr) (rl_fsm_reg s) (rl_irq s) j (rl_mem s j) (snd (fst (ghost j tr))) (snd (ghost j tr));
  i_idle : rl_fsm_reg s = RIdle -> rl_rdv s = true -> rl_rd s = rl_mem s (rl_irq s);
  i_in : rl_fsm_reg s = RIn -> rl_rd s = rl_mem s (rl_irq s) /\ 0 <= rl_irq s < 2 ^ w;
  i_out : rl_fsm_reg s = ROut -> rl_rd s = rl_mem s (rl_irq s) /\ 0 <= rl_irq s < 2 ^ w /\ rw_run (rl_mem s (rl_irq s)) = true /\ rel (ticks tr) (snd (fst (ghost (rl_irq s) tr))) }.

Lemma ticks_snoc tr e : ticks (tr ++ [e]) = ticks tr + (if re_tick e then 1 else 0).
Proof. unfold ticks, zlen. rewrite filter_app, app_length. cbn [filter]. destruct (re_tick e); cbn [length]; lia. Qed.
Lemma ticks_nonneg tr : 0 <= ticks tr.
Proof. unfold ticks, zlen. lia. Qed.

Lemma inv0 w m rd irq oi : 0 <= w -> inv w (rl_reset m rd irq oi) [].
Proof.
  intros Hw. assert (0 < 2 ^ w) by (apply Z.pow_pos_nonneg; lia).
  split; cbn; try congruence; try lia; try (split; [lia|reflexivity]).
  intros _. split; [reflexivity|]. split; [reflexivity|]. split; [intros; lia|]. auto.
Qed.

(** The events of an edge. *)
Lemma event_eq w s i : ri_rst i = false ->
  rl_event s i (rl_step w s i) = mkRe (if ri_valid i && rl_in_ready s then Some (ri_index i) else None) (rc_gen (rl_next w s i)) (rl_presc s =? 0) (ri_min i).
Proof.
  intros HR. unfold rl_event. f_equal. unfold rl_step. destruct (rl_timer s i) as [p t]. rewrite HR. cbn [rl_out_valid rl_out_index].
  assert (G : rc_gen (rl_next w s i) <> None -> negb (rl_out_valid s) || ri_out_ready i = true).
  { unfold rl_next. destruct (rl_fsm_reg s); cbn [rc_gen]; try congruence.
    - destruct (_ && _); [cbn; congruence|]. destruct (_ && _); cbn; congruence.
    - destruct (rw_run _); [cbn; congruence|]. destruct (negb (rl_out_valid s) || ri_out_ready i); [auto|cbn; congruence].
    - destruct (rw_pend _); [|cbn; congruence]. destruct (negb (rl_out_valid s) || ri_out_ready i); [auto|cbn; congruence]. }
  destruct (rc_gen (rl_next w s i)) as [x|].
  - rewrite G by congruence. reflexivity.
  - destruct (rl_out_valid s), (ri_out_ready i); reflexivity.
Qed.

Lemma timer_ok s i tr : ri_rst i = false -> 0 <= ri_prescale i < 2 ^ 16 -> rl_time s = ticks tr mod 2 ^ 17 -> 0 <= rl_presc s < 2 ^ 16 ->
  forall e, re_tick e = (rl_presc s =? 0) -> snd (rl_timer s i) = ticks (tr ++ [e]) mod 2 ^ 17 /\ 0 <= fst (rl_timer s i) < 2 ^ 16.
Proof.
  intros HR HPr HT HP e He. unfold rl_timer. rewrite HR, ticks_snoc, He. destruct (Z.eqb_spec (rl_presc s) 0); cbn [negb fst snd].
  - rewrite HT. rewrite Zplus_mod_idemp_l. auto.
  - rewrite Z.add_0_r. split; [assumption|lia].
Qed.

Lemma word_time t t' fsm fsm' irq irq' j wd la ow : t <= t' -> (fsm = RIn /\ irq = j <-> fsm' = RIn /\ irq' = j) ->
  word_ok t fsm irq j wd la ow -> word_ok t' fsm' irq' j wd la ow.
Proof.
  intros Ht HE [A B C D]. split; try assumption.
  - intros ta mi E. destruct (C ta mi E) as (C1 & C2 & C3). split; [lia|]. split; [assumption|]. destruct C3 as [C3|[C3 C4]]; [auto|]. right. split; [assumption|]. now apply (rel_mono t t').
  - rewrite D. tauto.
Qed.

Definition ghost3 (j : Z) tr := (snd (fst (ghost j tr)), snd (ghost j tr)).
Lemma ghost_ev j tr e : ghost3 j (tr ++ [e]) =
  (if match re_pres e with Some x => x =? j | None => false end then Some (ticks tr, re_min e) else snd (fst (ghost j tr)),
   if match re_pres e with Some x => x =? j | None => false end then false else if match re_acc e with Some x => x =? j | None => false end then true else snd (ghost j tr)).
Proof. unfold ghost3. rewrite ghost_snoc, <- (ghost_ticks j tr). destruct (ghost j tr) as [[t la] ow]. reflexivity. Qed.
Lemma ghost_la j tr e : snd (fst (ghost j (tr ++ [e]))) = if match re_pres e with Some x => x =? j | None => false end then Some (ticks tr, re_min e) else snd (fst (ghost j tr)).
Proof. pose proof (ghost_ev j tr e) as H. unfold ghost3 in H. now injection H. Qed.
Lemma ghost_ow j tr e : snd (ghost j (tr ++ [e])) = if match re_pres e with Some x => x =? j | None => false end then false else if match re_acc e with Some x => x =? j | None => false end then true else snd (ghost j tr).
Proof. pose proof (ghost_ev j tr e) as H. unfold ghost3 in H. now injection H. Qed.

Lemma step_inv w s tr i : 0 <= w -> inv w s tr -> in_ok w i ->
  let e := rl_event s i (rl_step w s i) in
  inv w (rl_step w s i) (tr ++ [e]) /\
  forall j, presents j e -> 0 <= j < 2 ^ w /\ rel (ticks tr) (snd (fst (ghost j tr))) /\ snd (ghost j tr) = true.
Proof.
  intros Hw I (HR & HX & HP & HM) e. assert (H2w : 0 < 2 ^ w) by (apply Z.pow_pos_nonneg; lia).
  assert (Ee := event_eq w s i HR). fold e in Ee.
  assert (HTk : re_tick e = (rl_presc s =? 0)) by (rewrite Ee; reflexivity).
  destruct (timer_ok s i tr HR HP (i_time _ _ _ I) (i_presc _ _ _ I) e HTk) as [T1 T2].
  assert (TM : ticks tr <= ticks (tr ++ [e])) by (rewrite ticks_snoc; destruct (re_tick e); lia).
  pose proof (ticks_nonneg tr) as TN.
  assert (Hmin : re_min e = ri_min i) by (rewrite Ee; reflexivity).
  assert (Hacc : re_acc e = if ri_valid i && rl_in_ready s then Some (ri_index i) else None) by (rewrite Ee; reflexivity).
  assert (Hpres : re_pres e = rc_gen (rl_next w s i)) by (rewrite Ee; reflexivity).
  unfold rl_step. rewrite HR. destruct (rl_timer s i) as [p tm]. cbn [fst snd] in T1, T2. unfold presents. clearbody e. clear Ee.
  unfold rl_next in *. destruct (rl_fsm_reg s) eqn:EF.
  - (* init *)
    destruct (i_init _ _ _ I EF) as (R1 & R2 & R3 & R4).
    assert (NR : rl_in_ready s = false) by (destruct (rl_in_ready s) eqn:E; [|reflexivity]; pose proof (i_ready _ _ _ I E); congruence).
    rewrite NR, andb_false_r in Hacc. cbn [rc_gen] in Hpres. cbn [rc_wr rc_rd rc_gen rc_fsm rc_cur rc_irq rc_ready rc_rdv].
    split; [|intros j; rewrite Hpres; discriminate].
    assert (G : forall j, snd (fst (ghost j (tr ++ [e]))) = None /\ snd (ghost j (tr ++ [e])) = false) by (intros j; rewrite ghost_la, ghost_ow, Hpres, Hacc; apply R4).
    pose proof (i_cur _ _ _ I). pose proof (Z.mod_pos_bound (rl_cur s + 1) (2 ^ w) H2w) as MB.
    split; cbn [rl_time rl_presc rl_cur rl_fsm_reg rl_irq rl_rdv rl_out_valid rl_mem rl_in_ready rl_rd]; try assumption; try congruence.
    + intros HN. destruct (Z.eqb_spec ((rl_cur s + 1) mod 2 ^ w) 0); cbn [negb] in *; [auto|congruence].
    + intros HN. destruct (Z.eqb_spec ((rl_cur s + 1) mod 2 ^ w) 0) as [|NZ]; cbn [negb] in *; [discriminate|].
      split; [assumption|]. split; [now rewrite R2|]. split; [|assumption].
      assert (rl_cur s + 1 < 2 ^ w). { destruct (Z.eq_dec (rl_cur s + 1) (2 ^ w)) as [E|]; [rewrite E, Z_mod_same_full in NZ; congruence|lia]. }
      rewrite (Z.mod_small (rl_cur s + 1)) in * by lia. intros j Hj. unfold rl_upd. destruct (Z.eqb_spec j (rl_cur s)); [reflexivity|]. apply R3. lia.
    + intros HN j Hj. destruct (Z.eqb_spec ((rl_cur s + 1) mod 2 ^ w) 0) as [EZ|]; cbn [negb] in *; [|congruence].
      assert (rl_cur s + 1 = 2 ^ w). { destruct (Z.eq_dec (rl_cur s + 1) (2 ^ w)) as [E|]; [assumption|]. rewrite Z.mod_small in EZ by lia. lia. }
      destruct (G j) as [-> ->]. assert (E : rl_upd (rl_mem s) (rl_cur s) (mkRw false false 0) j = mkRw false false 0) by (unfold rl_upd; destruct (Z.eqb_spec j (rl_cur s)); [reflexivity|]; apply R3; lia).
      rewrite E. split; cbn; try congruence. split; [congruence|]. intros [X|[X _]]; discriminate.
    + destruct (negb _); congruence.
    + destruct (negb _); congruence.
  - (* idle *)
    assert (NI : RIdle <> RInit) by congruence. pose proof (i_word _ _ _ I) as W. rewrite EF in W. specialize (W NI).
    pose proof (i_idle _ _ _ I EF) as RD.
    destruct (ri_valid i && rl_in_ready s) eqn:EA.
    + (* accept *) cbn [rc_gen] in Hpres. cbn [rc_wr rc_rd rc_gen rc_fsm rc_cur rc_irq rc_ready rc_rdv]. split; [|intros j; rewrite Hpres; discriminate].
      split; cbn [rl_time rl_presc rl_cur rl_fsm_reg rl_irq rl_rdv rl_out_valid rl_mem rl_in_ready rl_rd]; try assumption; try congruence; try (exact (i_cur _ _ _ I)); auto.
      intros _ j Hj. rewrite ghost_la, ghost_ow, Hpres, Hacc. destruct (W j Hj) as [A B C D]. split; try assumption.
      * intros ta mi E. destruct (C ta mi E) as (C1 & C2 & C3). split; [lia|]. split; [assumption|]. destruct C3 as [C3|[C3 C4]]; [auto|]. right. split; [assumption|]. now apply (rel_mono (ticks tr)).
      * destruct (Z.eqb_spec (ri_index i) j); [tauto|]. rewrite D. split; [|tauto]. intros [X|[X _]]; [auto|discriminate].
    + destruct (rl_rdv s && rw_run (rl_rd s) && rl_expired (rw_dead (rl_rd s)) (rl_time s)) eqn:EX.
      * (* timer expired *) cbn [rc_gen] in Hpres. cbn [rc_wr rc_rd rc_gen rc_fsm rc_cur rc_irq rc_ready rc_rdv]. split; [|intros j; rewrite Hpres; discriminate].
        apply andb_true_iff in EX. destruct EX as [EX EX3]. apply andb_true_iff in EX. destruct EX as [EX1 EX2]. specialize (RD EX1). rewrite RD in EX2, EX3.
        assert (IR : 0 <= rl_irq s < 2 ^ w). { pose proof (i_irq _ _ _ I) as X. rewrite EF in X. destruct (X NI) as [|[X1 _]]; [assumption|congruence]. }
        split; cbn [rl_time rl_presc rl_cur rl_fsm_reg rl_irq rl_rdv rl_out_valid rl_mem rl_in_ready rl_rd]; try assumption; try congruence; try (exact (i_cur _ _ _ I)); auto.
        -- intros _ j Hj. rewrite ghost_la, ghost_ow, Hpres, Hacc. apply (word_time (ticks tr) _ RIdle ROut (rl_irq s) (rl_irq s)); [lia|intuition discriminate|apply W; assumption].
        -- intros _. split; [assumption|]. split; [assumption|]. split; [assumption|]. rewrite ghost_la, Hpres.
           apply (rel_mono (ticks tr)); [lia|]. destruct (W (rl_irq s) IR) as [A B C D]. destruct (snd (fst (ghost (rl_irq s) tr))) as [[ta mi]|]; [|exact Logic.I].
           destruct (C ta mi eq_refl) as (C1 & C2 & C3). destruct C3 as [[C3 C4]|[C3 C4]]; [|congruence]. rewrite C4, (i_time _ _ _ I) in EX3. now apply expired_rel.
      * (* next timer *) cbn [rc_gen] in Hpres. cbn [rc_wr rc_rd rc_gen rc_fsm rc_cur rc_irq rc_ready rc_rdv]. split; [|intros j; rewrite Hpres; discriminate].
        pose proof (i_cur _ _ _ I). pose proof (Z.mod_pos_bound (rl_cur s + 1) (2 ^ w) H2w) as MB.
        split; cbn [rl_time rl_presc rl_cur rl_fsm_reg rl_irq rl_rdv rl_out_valid rl_mem rl_in_ready rl_rd]; try assumption; try congruence; auto.
        intros _ j Hj. rewrite ghost_la, ghost_ow, Hpres, Hacc. apply (word_time (ticks tr) _ RIdle RIdle (rl_irq s) (rl_cur s)); [lia|intuition discriminate|apply W; assumption].
  - (* request *)
    assert (NI : RIn <> RInit) by congruence. pose proof (i_word _ _ _ I) as W. rewrite EF in W. specialize (W NI).
    destruct (i_in _ _ _ I EF) as [RD IR].
    assert (NR : rl_in_ready s = false) by (destruct (rl_in_ready s) eqn:E; [|reflexivity]; pose proof (i_ready _ _ _ I E); congruence).
    rewrite NR, andb_false_r in Hacc. rewrite RD in *. pose proof (W (rl_irq s) IR) as WI.
    assert (OW : snd (ghost (rl_irq s) tr) = true) by (apply (k_owed _ _ _ _ _ _ _ WI); auto).
    destruct (rw_run (rl_mem s (rl_irq s))) eqn:ER; [|destruct (negb (rl_out_valid s) || ri_out_ready i) eqn:EFr].
    + cbn [rc_gen] in Hpres. cbn [rc_wr rc_rd rc_gen rc_fsm rc_cur rc_irq rc_ready rc_rdv]. split; [|intros j; rewrite Hpres; discriminate].
      split; cbn [rl_time rl_presc rl_cur rl_fsm_reg rl_irq rl_rdv rl_out_valid rl_mem rl_in_ready rl_rd]; try assumption; try congruence; try (exact (i_cur _ _ _ I)); auto.
      intros _ j Hj. rewrite ghost_la, ghost_ow, Hpres, Hacc. unfold rl_upd. destruct (Z.eqb_spec j (rl_irq s)) as [->|NE].
      * destruct WI as [A B C D]. split; cbn [rw_run rw_pend rw_dead]; auto.
        -- intros E. specialize (B E). congruence.
        -- intros ta mi E. destruct (C ta mi E) as (C1 & C2 & [C3|[C3 _]]); [|congruence]. split; [lia|]. split; [assumption|]. left. split; [reflexivity|]. apply C3.
        -- tauto.
      * apply (word_time (ticks tr) _ RIn RIdle (rl_irq s) (rl_irq s)); [lia|intuition congruence|apply W; assumption].
    + cbn [rc_gen] in Hpres. cbn [rc_wr rc_rd rc_gen rc_fsm rc_cur rc_irq rc_ready rc_rdv].
      assert (RL : rel (ticks tr) (snd (fst (ghost (rl_irq s) tr)))).
      { destruct WI as [A B C D]. destruct (snd (fst (ghost (rl_irq s) tr))) as [[ta mi]|]; [|exact Logic.I]. destruct (C ta mi eq_refl) as (C1 & C2 & [[C3 _]|[_ C3]]); [congruence|exact C3]. }
      split; [|intros j; rewrite Hpres; intros [= <-]; auto].
      split; cbn [rl_time rl_presc rl_cur rl_fsm_reg rl_irq rl_rdv rl_out_valid rl_mem rl_in_ready rl_rd]; try assumption; try congruence; try (exact (i_cur _ _ _ I)); auto.
      intros _ j Hj. rewrite ghost_la, ghost_ow, Hpres, Hacc, Hmin. unfold rl_upd. rewrite (Z.eqb_sym (rl_irq s) j). destruct (Z.eqb_spec j (rl_irq s)) as [->|NE].
      * split; cbn [rw_run rw_pend rw_dead]; try congruence.
        -- intros ta mi [= <- <-]. split; [lia|]. split; [assumption|]. rewrite (i_time _ _ _ I), Zplus_mod_idemp_l. destruct (Z.eqb_spec (ri_min i) 0); cbn [negb]; [right|left; auto]. split; [reflexivity|]. left. assumption.
        -- split; [discriminate|]. intros [X|[X _]]; discriminate.
      * apply (word_time (ticks tr) _ RIn RIdle (rl_irq s) (rl_irq s)); [lia|intuition congruence|apply W; assumption].
    + cbn [rc_gen] in Hpres. cbn [rc_wr rc_rd rc_gen rc_fsm rc_cur rc_irq rc_ready rc_rdv]. split; [|intros j; rewrite Hpres; discriminate].
      split; cbn [rl_time rl_presc rl_cur rl_fsm_reg rl_irq rl_rdv rl_out_valid rl_mem rl_in_ready rl_rd]; try assumption; try congruence; try (exact (i_cur _ _ _ I)); auto.
      intros _ j Hj. rewrite ghost_la, ghost_ow, Hpres, Hacc. apply (word_time (ticks tr) _ RIn RIn (rl_irq s) (rl_irq s)); [lia|tauto|apply W; assumption].
  - (* timer *)
    assert (NI : ROut <> RInit) by congruence. pose proof (i_word _ _ _ I) as W. rewrite EF in W. specialize (W NI).
    destruct (i_out _ _ _ I EF) as (RD & IR & RUN & RL).
    assert (NR : rl_in_ready s = false) by (destruct (rl_in_ready s) eqn:E; [|reflexivity]; pose proof (i_ready _ _ _ I E); congruence).
    rewrite NR, andb_false_r in Hacc. rewrite RD in *. pose proof (W (rl_irq s) IR) as WI.
    destruct (rw_pend (rl_mem s (rl_irq s))) eqn:EP; [destruct (negb (rl_out_valid s) || ri_out_ready i) eqn:EFr|].
    + cbn [rc_gen] in Hpres. cbn [rc_wr rc_rd rc_gen rc_fsm rc_cur rc_irq rc_ready rc_rdv].
      split; [|intros j; rewrite Hpres; intros [= <-]; split; [assumption|]; split; [assumption|]; apply (k_owed _ _ _ _ _ _ _ WI); auto].
      split; cbn [rl_time rl_presc rl_cur rl_fsm_reg rl_irq rl_rdv rl_out_valid rl_mem rl_in_ready rl_rd]; try assumption; try congruence; try (exact (i_cur _ _ _ I)); auto.
      intros _ j Hj. rewrite ghost_la, ghost_ow, Hpres, Hacc, Hmin. unfold rl_upd. rewrite (Z.eqb_sym (rl_irq s) j). destruct (Z.eqb_spec j (rl_irq s)) as [->|NE].
      * split; cbn [rw_run rw_pend rw_dead]; try congruence.
        -- intros ta mi [= <- <-]. split; [lia|]. split; [assumption|]. rewrite (i_time _ _ _ I), Zplus_mod_idemp_l. destruct (Z.eqb_spec (ri_min i) 0); cbn [negb]; [right|left; auto]. split; [reflexivity|]. left. assumption.
        -- split; [discriminate|]. intros [X|[X _]]; discriminate.
      * apply (word_time (ticks tr) _ ROut RIdle (rl_irq s) (rl_irq s)); [lia|intuition congruence|apply W; assumption].
    + cbn [rc_gen] in Hpres. cbn [rc_wr rc_rd rc_gen rc_fsm rc_cur rc_irq rc_ready rc_rdv]. split; [|intros j; rewrite Hpres; discriminate].
      split; cbn [rl_time rl_presc rl_cur rl_fsm_reg rl_irq rl_rdv rl_out_valid rl_mem rl_in_ready rl_rd]; try assumption; try congruence; try (exact (i_cur _ _ _ I)); auto.
      * intros _ j Hj. rewrite ghost_la, ghost_ow, Hpres, Hacc. apply (word_time (ticks tr) _ ROut ROut (rl_irq s) (rl_irq s)); [lia|tauto|apply W; assumption].
      * intros _. split; [reflexivity|]. split; [assumption|]. split; [assumption|]. rewrite ghost_la, Hpres. now apply (rel_mono (ticks tr)).
    + cbn [rc_gen] in Hpres. cbn [rc_wr rc_rd rc_gen rc_fsm rc_cur rc_irq rc_ready rc_rdv]. split; [|intros j; rewrite Hpres; discriminate].
      split; cbn [rl_time rl_presc rl_cur rl_fsm_reg rl_irq rl_rdv rl_out_valid rl_mem rl_in_ready rl_rd]; try assumption; try congruence; try (exact (i_cur _ _ _ I)); auto.
      intros _ j Hj. rewrite ghost_la, ghost_ow, Hpres, Hacc. unfold rl_upd. destruct (Z.eqb_spec j (rl_irq s)) as [->|NE].
      * destruct WI as [A B C D]. split; cbn [rw_run rw_pend rw_dead]; try congruence.
        -- intros ta mi E. destruct (C ta mi E) as (C1 & C2 & _). split; [lia|]. split; [assumption|]. right. split; [reflexivity|]. now apply (rel_mono (ticks tr)).
        -- rewrite D, EP. intuition discriminate.
      * apply (word_time (ticks tr) _ ROut RIdle (rl_irq s) (rl_irq s)); [lia|intuition congruence|apply W; assumption].
Qed.

(* ---------- safety ---------- *)
Definition sound_trace (tr : list rl_ev) : Prop := forall l1 e l2 j, tr = l1 ++ e :: l2 -> presents j e -> rel (ticks l1) (snd (fst (ghost j l1))) /\ snd (ghost j l1) = true.
Lemma sound_snoc tr e : sound_trace tr -> (forall j, presents j e -> rel (ticks tr) (snd (fst (ghost j tr))) /\ snd (ghost j tr) = true) -> sound_trace (tr ++ [e]).
Proof.
  intros H1 H2 l1 x l2 j E P. destruct l2 as [|y l2] using rev_ind.
  - apply app_inj_tail in E. destruct E as [-> ->]. auto.
  - rewrite app_comm_cons, app_assoc in E. apply app_inj_tail in E. destruct E as [E _]. apply (H1 l1 x l2 j); assumption.
Qed.

Lemma run_inv w m rd irq oi l : 0 <= w -> Forall (in_ok w) l -> forall s tr, rl_run w (rl_reset m rd irq oi) l = (s, tr) -> inv w s tr /\ sound_trace tr.
Proof.
  intros Hw. induction l as [|i l IH] using rev_ind; intros F s tr E.
  - injection E as <- <-. split; [now apply inv0|]. intros l1 e l2 j X. destruct l1; discriminate.
  - apply Forall_app in F. destruct F as [F1 F2]. inversion F2 as [|? ? F3 _]; subst. rewrite run_snoc in E.
    destruct (rl_run w (rl_reset m rd irq oi) l) as [s1 tr1] eqn:E1. injection E as <- <-. destruct (IH F1 _ _ eq_refl) as [I S].
    destruct (step_inv w s1 tr1 i Hw I F3) as [I' P]. split; [assumption|]. apply sound_snoc; [assumption|]. intros j Hj. destruct (P j Hj) as (_ & A & B). auto.
Qed.

Lemma interval w m rd irq oi l : 0 <= w -> Forall (in_ok w) l ->
  forall l1 e1 l2 e2 l3 j, snd (rl_run w (rl_reset m rd irq oi) l) = l1 ++ e1 :: l2 ++ e2 :: l3 ->
  presents j e1 -> presents j e2 -> Forall (fun e => ~ presents j e) l2 -> 0 < re_min e1 -> ticks l1 mod 2 ^ 17 + re_min e1 < 2 ^ 17 ->
  ticks l1 + re_min e1 < ticks (l1 ++ e1 :: l2).
Proof.
  intros Hw F l1 e1 l2 e2 l3 j E P1 P2 N M1 M2. destruct (rl_run w (rl_reset m rd irq oi) l) as [s tr] eqn:ER. cbn [snd] in E.
  destruct (run_inv w m rd irq oi l Hw F _ _ ER) as [_ S]. destruct (S (l1 ++ e1 :: l2) e2 l3 j) as [R _]; [rewrite E, <- app_assoc; reflexivity|assumption|].
  rewrite (ghost_last j l1 e1 l2 P1 N) in R. cbn [rel] in R. lia.
Qed.

Lemma no_spurious w m rd irq oi l : 0 <= w -> Forall (in_ok w) l ->
  forall l1 e l2 j, snd (rl_run w (rl_reset m rd irq oi) l) = l1 ++ e :: l2 -> presents j e -> owed j l1.
Proof.
  intros Hw F l1 e l2 j E P. destruct (rl_run w (rl_reset m rd irq oi) l) as [s tr] eqn:ER. cbn [snd] in E.
  destruct (run_inv w m rd irq oi l Hw F _ _ ER) as [_ S]. apply ghost_owed. now apply (S l1 e l2 j).
Qed.

(* ---------- delivery ---------- *)
Inductive Ev (w j : Z) : (nat -> rl_in) -> rl_state -> Prop :=
| Ev_now f s : presents j (rl_event s (f O) (rl_step w s (f O))) -> Ev w j f s
| Ev_next f s : Ev w j (fun n => f (S n)) (rl_step w s (f O)) -> Ev w j f s.

Lemma Ev_run w j f s : Ev w j f s -> exists n, Exists (presents j) (snd (rl_run w s (map f (seq 0 n)))).
Proof.
  induction 1 as [f s H|f s H [n IH]].
  - exists 1%nat. cbn. now constructor.
  - exists (S n). cbn [seq map rl_run]. rewrite <- seq_shift, map_map. destruct (rl_run w (rl_step w s (f O)) (map (fun x => f (S x)) (seq 0 n))) as [s2 e]. cbn [snd] in *. now constructor 2.
Qed.

Definition dist (w j cur : Z) : Z := (j - cur) mod 2 ^ w.
Definition rmu (w j : Z) (s : rl_state) : Z :=
  let d := 3 * dist w j (rl_cur s) + 3 in
  match rl_fsm_reg s with
  | ROut => if rl_irq s =? j then 1 else d + 1
  | RIdle => if rl_rdv s then (if rl_irq s =? j then 2 else d + 2) else d
  | RIn => d + 1
  | RInit => d
  end.

(** One quiet step with [j] pending: [j] is presented, or its word is kept. *)
Lemma quiet_step w s tr i j : 0 <= w -> inv w s tr -> rl_fsm_reg s <> RInit -> quiet w i -> 0 <= j < 2 ^ w -> rw_pend (rl_mem s j) = true ->
  presents j (rl_event s i (rl_step w s i)) \/ rl_mem (rl_step w s i) j = rl_mem s j /\ rl_fsm_reg (rl_step w s i) <> RInit /\
  (rl_expired (rw_dead (rl_mem s j)) (rl_time s) = true -> 0 <= rmu w j (rl_step w s i) < rmu w j s).
Proof.
  intros Hw I NI ((HR & HX & HP & HM) & HV & HO) Hj PJ. assert (H2w : 0 < 2 ^ w) by (apply Z.pow_pos_nonneg; lia).
  unfold presents. rewrite event_eq by assumption. cbn [re_pres].
  assert (D0 : forall c, 0 <= dist w j c) by (intros c; unfold dist; apply Z.mod_pos_bound; assumption).
  unfold rl_step. rewrite HR. destruct (rl_timer s i) as [p t]. unfold rmu. pose proof (i_cur _ _ _ I) as HC.
  assert (RJ : rw_run (rl_mem s j) = true) by (apply (k_pend _ _ _ _ _ _ _ (i_word _ _ _ I NI j Hj)); assumption).
  unfold rl_next. rewrite HV, HO, orb_true_r. destruct (rl_fsm_reg s) eqn:EF; [congruence| | |].
  - cbn [andb]. destruct (rl_rdv s && rw_run (rl_rd s) && rl_expired (rw_dead (rl_rd s)) (rl_time s)) eqn:EX.
    + right. apply andb_true_iff in EX. destruct EX as [EX _]. apply andb_true_iff in EX. destruct EX as [EX _]. rewrite EX.
      cbn [rc_wr rc_rd rc_gen rc_fsm rc_cur rc_irq rc_ready rc_rdv rl_mem rl_fsm_reg rl_cur rl_irq rl_rdv]. split; [reflexivity|]. split; [congruence|]. intros _. specialize (D0 (rl_cur s)). destruct (rl_irq s =? j); lia.
    + right. cbn [rc_wr rc_rd rc_gen rc_fsm rc_cur rc_irq rc_ready rc_rdv rl_mem rl_fsm_reg rl_cur rl_irq rl_rdv]. split; [reflexivity|]. split; [congruence|]. intros EJ.
      assert (DD : dist w j ((rl_cur s + 1) mod 2 ^ w) = (j - rl_cur s - 1) mod 2 ^ w) by (unfold dist; rewrite Zminus_mod_idemp_r; f_equal; lia).
      assert (D1 : rl_cur s = j \/ dist w j ((rl_cur s + 1) mod 2 ^ w) = dist w j (rl_cur s) - 1 /\ rl_cur s <> j).
      { destruct (Z.eq_dec (rl_cur s) j) as [|NE]; [auto|]. right. split; [|assumption]. rewrite DD. unfold dist.
        pose proof (Z.mod_pos_bound (j - rl_cur s) (2 ^ w) H2w). pose proof (Z.div_mod (j - rl_cur s) (2 ^ w) ltac:(lia)).
        assert ((j - rl_cur s) mod 2 ^ w <> 0). { intros X. rewrite X in *. assert ((j - rl_cur s) / 2 ^ w = 0) by nia. nia. }
        symmetry. apply (Z.mod_unique _ _ ((j - rl_cur s) / 2 ^ w)); lia. }
      pose proof (D0 (rl_cur s)). pose proof (D0 ((rl_cur s + 1) mod 2 ^ w)).
      assert (NX : rl_rdv s = true -> rl_irq s = j -> False).
      { intros X1 X2. pose proof (i_idle _ _ _ I EF X1) as RD. rewrite X2 in RD. rewrite X1, RD, RJ, EJ in EX. discriminate. }
      destruct D1 as [D1|[D1 D2]].
      * rewrite D1 in *. rewrite Z.eqb_refl. destruct (rl_rdv s); [|lia]. destruct (Z.eqb_spec (rl_irq s) j); [exfalso; auto|lia].
      * destruct (Z.eqb_spec (rl_cur s) j); [congruence|]. destruct (rl_rdv s); [|lia]. destruct (Z.eqb_spec (rl_irq s) j); [exfalso; auto|lia].
  - destruct (i_in _ _ _ I EF) as [RD IR]. rewrite RD. specialize (D0 (rl_cur s)). destruct (rw_run (rl_mem s (rl_irq s))) eqn:ER.
    + right. cbn [rc_wr rc_rd rc_gen rc_fsm rc_cur rc_irq rc_ready rc_rdv rl_mem rl_fsm_reg rl_cur rl_irq rl_rdv]. unfold rl_upd. split; [|split; [congruence|lia]]. destruct (Z.eqb_spec j (rl_irq s)) as [->|]; [|reflexivity]. destruct (rl_mem s (rl_irq s)); cbn in *; congruence.
    + right. cbn [rc_wr rc_rd rc_gen rc_fsm rc_cur rc_irq rc_ready rc_rdv rl_mem rl_fsm_reg rl_cur rl_irq rl_rdv]. unfold rl_upd. split; [|split; [congruence|lia]]. destruct (Z.eqb_spec j (rl_irq s)) as [->|]; [congruence|reflexivity].
  - destruct (i_out _ _ _ I EF) as (RD & IR & RUN & RL). rewrite RD. specialize (D0 (rl_cur s)). destruct (rw_pend (rl_mem s (rl_irq s))) eqn:EP.
    + cbn [rc_wr rc_rd rc_gen rc_fsm rc_cur rc_irq rc_ready rc_rdv rl_mem rl_fsm_reg rl_cur rl_irq rl_rdv]. unfold rl_upd. destruct (Z.eqb_spec (rl_irq s) j) as [->|]; [auto|]. right. split; [|split; [congruence|lia]]. destruct (Z.eqb_spec j (rl_irq s)); [congruence|reflexivity].
    + right. cbn [rc_wr rc_rd rc_gen rc_fsm rc_cur rc_irq rc_ready rc_rdv rl_mem rl_fsm_reg rl_cur rl_irq rl_rdv]. unfold rl_upd. destruct (Z.eqb_spec (rl_irq s) j) as [X|]; [rewrite X in EP; congruence|]. split; [|split; [congruence|lia]]. destruct (Z.eqb_spec j (rl_irq s)); [congruence|reflexivity].
Qed.

Lemma dead_range w s tr j : inv w s tr -> rl_fsm_reg s <> RInit -> 0 <= j < 2 ^ w -> rw_pend (rl_mem s j) = true -> 0 <= rw_dead (rl_mem s j) < 2 ^ 17.
Proof.
  intros I NI Hj PJ. destruct (i_word _ _ _ I NI j Hj) as [A B C D]. specialize (A PJ). destruct (snd (fst (ghost j tr))) as [[ta mi]|]; [|specialize (B eq_refl); congruence].
  destruct (C ta mi eq_refl) as (_ & _ & [[_ ->]|[X _]]); [|congruence]. apply Z.mod_pos_bound. lia.
Qed.

Lemma mod_shift a m : 0 < m -> (a + 1) mod m <= a mod m + 1.
Proof. intros. rewrite <- Zplus_mod_idemp_l. pose proof (Z.mod_pos_bound a m ltac:(lia)). apply Z.mod_le; lia. Qed.

(** The deadline passed: within the window the scan reaches [j]. *)
Lemma deliver_window w j : 0 <= w -> 0 <= j < 2 ^ w -> forall n f s tr, (forall k, quiet w (f k)) -> inv w s tr -> rl_fsm_reg s <> RInit -> rw_pend (rl_mem s j) = true ->
  (Z.to_nat (rmu w j s) < n)%nat -> 0 <= rmu w j s -> let x := (ticks tr - rw_dead (rl_mem s j)) mod 2 ^ 17 in 1 <= x -> x + rmu w j s <= 2 ^ 16 -> Ev w j f s.
Proof.
  intros Hw Hj. induction n as [|n IH]; intros f s tr Q I NI PJ Hn H0 x X1 X2; [lia|].
  pose proof (dead_range w s tr j I NI Hj PJ) as DR.
  assert (EX : rl_expired (rw_dead (rl_mem s j)) (rl_time s) = true) by (rewrite (i_time _ _ _ I); apply expired_window; [assumption|fold x; lia]).
  destruct (quiet_step w s tr (f O) j Hw I NI (Q O) Hj PJ) as [P|(K & NI' & M)]; [now constructor|]. specialize (M EX). constructor 2.
  destruct (step_inv w s tr (f O) Hw I (proj1 (Q O))) as [I' _].
  apply (IH _ _ (tr ++ [rl_event s (f O) (rl_step w s (f O))])); auto; try lia.
  - now rewrite K.
  - rewrite K, ticks_snoc. set (e := rl_event _ _ _) in *. destruct (re_tick e); [|rewrite Z.add_0_r; assumption].
    replace (ticks tr + 1 - rw_dead (rl_mem s j)) with (ticks tr - rw_dead (rl_mem s j) + 1) by lia. fold x.
    rewrite <- Zplus_mod_idemp_l. fold x. rewrite Z.mod_small; [lia|]. change (2^17) with (2 * 2^16). lia.
  - rewrite K, ticks_snoc. set (e := rl_event _ _ _) in *. destruct (re_tick e); [|rewrite Z.add_0_r; fold x; lia].
    replace (ticks tr + 1 - rw_dead (rl_mem s j)) with (ticks tr - rw_dead (rl_mem s j) + 1) by lia.
    pose proof (mod_shift (ticks tr - rw_dead (rl_mem s j)) (2^17) ltac:(lia)) as MS. fold x in MS. lia.
Qed.

Lemma rmu_bound w j s : 0 <= w <= 14 -> 0 <= rmu w j s <= 2 ^ 16 - 1.
Proof.
  intros Hw. assert (2 ^ w <= 2 ^ 14) by (apply Z.pow_le_mono_r; lia). assert (0 < 2 ^ w) by (apply Z.pow_pos_nonneg; lia).
  pose proof (Z.mod_pos_bound (j - rl_cur s) (2 ^ w) ltac:(lia)). change (2^14) with 16384 in *. change (2^16) with 65536. unfold rmu, dist.
  destruct (rl_fsm_reg s), (rl_rdv s), (rl_irq s =? j); lia.
Qed.

Lemma deliver_pend w j : 0 <= w <= 14 -> 0 <= j < 2 ^ w -> forall n f s tr, (forall k, quiet w (f k)) -> inv w s tr -> rl_fsm_reg s <> RInit -> rw_pend (rl_mem s j) = true ->
  (Z.to_nat ((rw_dead (rl_mem s j) + 1 - ticks tr) mod 2 ^ 17 * 2 ^ 16 + rl_presc s) < n)%nat -> Ev w j f s.
Proof.
  intros Hw Hj. induction n as [|n IH]; intros f s tr Q I NI PJ Hn; [lia|].
  set (y := (rw_dead (rl_mem s j) + 1 - ticks tr) mod 2 ^ 17) in *. pose proof (Z.mod_pos_bound (rw_dead (rl_mem s j) + 1 - ticks tr) (2 ^ 17) ltac:(lia)) as YB. fold y in YB.
  destruct (Z.eq_dec y 0) as [Y0|Y0].
  - pose proof (rmu_bound w j s Hw) as RB.
    assert (X : (ticks tr - rw_dead (rl_mem s j)) mod 2 ^ 17 = 1).
    { pose proof (Z.div_mod (rw_dead (rl_mem s j) + 1 - ticks tr) (2 ^ 17) ltac:(lia)) as DM. fold y in DM. rewrite Y0 in DM. symmetry. apply (Z.mod_unique _ _ (- ((rw_dead (rl_mem s j) + 1 - ticks tr) / 2 ^ 17))); lia. }
    apply (deliver_window w j (proj1 Hw) Hj (S (Z.to_nat (rmu w j s))) f s tr); auto; try lia.
  - destruct (quiet_step w s tr (f O) j (proj1 Hw) I NI (Q O) Hj PJ) as [P|(K & NI' & M)]; [now constructor|]. constructor 2.
    pose proof (Q O) as ((HR & HX & HP & HM) & _ & _).
    destruct (step_inv w s tr (f O) (proj1 Hw) I (proj1 (Q O))) as [I' _].
    apply (IH _ _ (tr ++ [rl_event s (f O) (rl_step w s (f O))])); auto; [now rewrite K|]. rewrite K, ticks_snoc.
    pose proof (i_presc _ _ _ I) as PR.
    assert (EP : rl_presc (rl_step w s (f O)) = if rl_presc s =? 0 then ri_prescale (f O) else rl_presc s - 1).
    { unfold rl_step. unfold rl_timer. rewrite HR. destruct (rl_presc s =? 0); reflexivity. }
    rewrite EP. rewrite event_eq by assumption. cbn [re_tick]. destruct (Z.eqb_spec (rl_presc s) 0).
    + assert (E : (rw_dead (rl_mem s j) + 1 - (ticks tr + 1)) mod 2 ^ 17 = y - 1).
      { pose proof (Z.div_mod (rw_dead (rl_mem s j) + 1 - ticks tr) (2 ^ 17) ltac:(lia)) as DM. fold y in DM. symmetry. apply (Z.mod_unique _ _ ((rw_dead (rl_mem s j) + 1 - ticks tr) / 2 ^ 17)); lia. }
      rewrite E. lia.
    + rewrite Z.add_0_r. fold y. lia.
Qed.

Lemma delivered w m rd irq oi l s tr j : 0 <= w <= 14 -> Forall (in_ok w) l -> rl_run w (rl_reset m rd irq oi) l = (s, tr) -> 0 <= j < 2 ^ w -> owed j tr ->
  forall f, (forall k, quiet w (f k)) -> exists n, Exists (presents j) (snd (rl_run w s (map f (seq 0 n)))).
Proof.
  intros Hw F E Hj O f Q. apply Ev_run. destruct (run_inv w m rd irq oi l (proj1 Hw) F _ _ E) as [I _]. apply owed_ghost in O.
  assert (NI : rl_fsm_reg s <> RInit) by (intros X; destruct (i_init _ _ _ I X) as (_ & _ & _ & G); destruct (G j); congruence).
  destruct (rw_pend (rl_mem s j)) eqn:EP; [eapply (deliver_pend w j Hw Hj); eauto|].
  apply (k_owed _ _ _ _ _ _ _ (i_word _ _ _ I NI j Hj)) in O. destruct O as [O|[O1 O2]]; [congruence|].
  pose proof (Q 0%nat) as ((HR & HX & HP & HM) & HV & HO). destruct (i_in _ _ _ I O1) as [RD IR].
  destruct (rw_run (rl_mem s j)) eqn:ER.
  - constructor 2. destruct (step_inv w s tr (f 0%nat) (proj1 Hw) I (proj1 (Q 0%nat))) as [I' _].
    eapply (deliver_pend w j Hw Hj); eauto.
    + unfold rl_step. rewrite HR. destruct (rl_timer s (f 0%nat)). unfold rl_next. rewrite O1, RD, O2, ER. cbn. congruence.
    + unfold rl_step. rewrite HR. destruct (rl_timer s (f 0%nat)). unfold rl_next. rewrite O1, RD, O2, ER. cbn. unfold rl_upd. now rewrite Z.eqb_refl.
  - constructor 1. unfold presents. rewrite event_eq by assumption. cbn [re_pres]. unfold rl_next. rewrite O1, RD, O2, ER, HO, orb_true_r. reflexivity.
Qed.

(* ---------- the prescaler ---------- *)
Lemma prescale_count w p m rd irq oi l : 0 <= p -> Forall (fun i => ri_rst i = false /\ ri_prescale i = p) l ->
  forall s tr, rl_run w (rl_reset m rd irq oi) l = (s, tr) -> zlen l <= (p + 1) * ticks tr < zlen l + (p + 1) /\ rl_presc s = (p + 1) * ticks tr - zlen l.
Proof.
  intros Hp. induction l as [|i l IH] using rev_ind; intros F s tr E.
  - injection E as <- <-. cbn. lia.
  - apply Forall_app in F. destruct F as [F1 F2]. inversion F2 as [|? ? [HR HP] _]; subst. rewrite run_snoc in E.
    destruct (rl_run w (rl_reset m rd irq oi) l) as [s1 tr1] eqn:E1. injection E as <- <-. destruct (IH F1 _ _ eq_refl) as [A B].
    rewrite ticks_snoc, event_eq by assumption. cbn [re_tick]. unfold zlen in *. rewrite app_length, Nat2Z.inj_add. cbn [length].
    assert (EP : rl_presc (rl_step w s1 i) = if rl_presc s1 =? 0 then ri_prescale i else rl_presc s1 - 1).
    { unfold rl_step, rl_timer. rewrite HR. destruct (rl_presc s1 =? 0); reflexivity. }
    rewrite EP. destruct (Z.eqb_spec (rl_presc s1) 0); lia.
Qed.

(* ---------- starvation ---------- *)
Definition st_in (v : bool) (x : Z) : rl_in := mkRi false x v true 0 10.
Definition st_pre : list rl_in := [st_in false 0; st_in false 0; st_in false 0; st_in true 0; st_in false 0; st_in true 0; st_in false 0; st_in true 1; st_in false 0].
Definition st_word0 : Z -> rl_word := fun _ => mkRw false false 0.
Definition st_inv (s : rl_state) : Prop :=
  rw_run (rl_mem s 1) = true /\ rl_presc s = 0 /\ (rl_fsm_reg s = RIdle /\ rl_in_ready s = true \/ rl_fsm_reg s = RIn /\ rl_irq s = 1 /\ rw_run (rl_rd s) = true).
Lemma st_step s : st_inv s -> st_inv (rl_step 1 s (st_in true 1)) /\ re_pres (rl_event s (st_in true 1) (rl_step 1 s (st_in true 1))) = None /\
  re_tick (rl_event s (st_in true 1) (rl_step 1 s (st_in true 1))) = true.
Proof.
  intros (A & B & C). rewrite event_eq by reflexivity. cbn [re_pres re_tick]. unfold rl_step, rl_timer. cbn [ri_rst st_in]. rewrite B. cbn [Z.eqb negb].
  unfold rl_next. destruct C as [[C1 C2]|(C1 & C2 & C3)]; rewrite C1.
  - rewrite C2. cbn. split; [|auto]. split; [assumption|]. split; [reflexivity|]. right. auto.
  - rewrite C3. cbn. split; [|auto]. split; [|cbn; auto]. cbn. unfold rl_upd. now rewrite C2.
Qed.
Lemma st_run n : forall s, st_inv s -> Forall (fun e => re_pres e = None) (snd (rl_run 1 s (repeat (st_in true 1) n))) /\ ticks (snd (rl_run 1 s (repeat (st_in true 1) n))) = Z.of_nat n.
Proof.
  induction n as [|n IH]; intros s I; [cbn; auto|]. cbn [repeat rl_run]. destruct (st_step s I) as (I' & P & T). destruct (IH _ I') as [F K].
  destruct (rl_run 1 (rl_step 1 s (st_in true 1)) (repeat (st_in true 1) n)) as [s2 e]. cbn [snd] in *. split; [now constructor|].
  unfold ticks, zlen in *. cbn [filter]. rewrite T. cbn [length]. lia.
Qed.
Lemma starve : exists s tr, rl_run 1 (rl_reset st_word0 (mkRw false false 0) 0 0) st_pre = (s, tr) /\ owed 0 tr /\
  forall n, Forall (fun e => ~ presents 0 e) (snd (rl_run 1 s (repeat (st_in true 1) n))) /\ ticks (snd (rl_run 1 s (repeat (st_in true 1) n))) = Z.of_nat n.
Proof.
  destruct (rl_run 1 (rl_reset st_word0 (mkRw false false 0) 0 0) st_pre) as [s tr] eqn:E. exists s, tr. split; [reflexivity|].
  assert (HS : s = fst (rl_run 1 (rl_reset st_word0 (mkRw false false 0) 0 0) st_pre)) by (rewrite E; reflexivity).
  assert (HT : tr = snd (rl_run 1 (rl_reset st_word0 (mkRw false false 0) 0 0) st_pre)) by (rewrite E; reflexivity).
  split; [apply ghost_owed; rewrite HT; vm_compute; reflexivity|]. intros n.
  assert (I : st_inv s) by (rewrite HS; split; [vm_compute; reflexivity|]; split; [vm_compute; reflexivity|]; left; split; vm_compute; reflexivity).
  destruct (st_run n s I) as [F T]. split; [|assumption]. eapply Forall_impl; [|exact F]. intros e H P. unfold presents in P. congruence.
Qed.
