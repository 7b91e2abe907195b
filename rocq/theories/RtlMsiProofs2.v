(** The two MSI shims as instances of the core (C84). *)
From Verif Require Import PyBase BitLemmas BarProofs RtlModel RtlSpec RtlProofs RtlProofs2 RtlMsiModel RtlMsiSpec RtlMsiProofs.

Lemma enable_bit mm j : 0 <= mm < 2 ^ 3 -> 0 <= j < 32 -> Z.testbit (ms_enable_mask mm) j = (j <? 2 ^ Z.min 5 mm).
Proof.
  intros Hm Hj. unfold ms_enable_mask. replace (2 ^ 32 - 1) with (Z.ones 32) by reflexivity.
  assert (C : mm = 0 \/ mm = 1 \/ mm = 2 \/ mm = 3 \/ mm = 4 \/ 4 < mm) by lia.
  destruct C as [->|[->|[->|[->|[->|H]]]]].
  1-5: match goal with |- context [?a >? 4] => change (a >? 4) with false end; cbv iota; rewrite Z.shiftr_spec by lia; rewrite Z.testbit_ones_nonneg by (cbn; lia); cbn; lia.
  replace (mm >? 4) with true by lia. rewrite Z.testbit_ones_nonneg by lia. replace (Z.min 5 mm) with 5 by lia. change (2 ^ 5) with 32. reflexivity.
Qed.
Lemma mask_bits n d mm en j : 0 <= j < n -> n <= 32 -> 0 <= mm < 2 ^ 3 ->
  Z.testbit (Z.land (Z.land (Z.lnot d) (ms_enable_mask mm)) (if en : bool then 2 ^ 32 - 1 else 0) mod 2 ^ n) j = negb (Z.testbit d j) && (j <? 2 ^ Z.min 5 mm) && en.
Proof.
  intros Hj Hn Hm. rewrite Z.mod_pow2_bits_low by lia. rewrite !Z.land_spec, Z.lnot_spec, enable_bit by lia. f_equal. destruct en; [|apply Z.bits_0].
  replace (2 ^ 32 - 1) with (Z.ones 32) by reflexivity. rewrite Z.testbit_ones_nonneg by lia. lia.
Qed.
Lemma mod_vec n a : 0 <= n -> vec n (a mod 2 ^ n).
Proof. intros. unfold vec. apply Z.mod_pos_bound. apply Z.pow_pos_nonneg; lia. Qed.

(* ---------- UltraScale ---------- *)
Definition us_x (n : Z) (i : us_in) : cin := mkCi (ui_irq i) (us_mask n i) (negb (ui_enable i =? 0)) (ui_sent i) (ui_fail i).
Lemma us_core n s i : ui_rst i = false -> strip (us_step n s i) = core_step n (strip s) (us_x n i).
Proof.
  intros HR. unfold us_step, core_step, us_comb, core_comb, core_req, core_act, strip. rewrite HR. cbn [ms_active ms_arb ms_act ms_irq ms_last ms_mask c_en c_sent c_fail us_x c_irq c_allow].
  destruct (ms_active s); cbn [negb]; [destruct (ui_sent i || ui_fail i)|destruct (_ && _)]; reflexivity.
Qed.
Lemma us_int n s i : ui_rst i = false -> ms_int (us_step n s i) = if negb (ms_active s) && negb (ui_enable i =? 0) && as_valid (ms_arb s) then as_grant (ms_arb s) else 0.
Proof.
  intros HR. unfold us_step, us_comb. rewrite HR. destruct (ms_active s); cbn [negb andb]; [destruct (ui_sent i || ui_fail i)|destruct (_ && _)]; reflexivity.
Qed.
Lemma us_fit n s i tr : n <= 32 -> cinv n (strip s) tr -> us_ok n i -> cin_ok n (us_x n i) /\ fits_ev n (strip s) (us_x n i) (us_event i (us_step n s i)).
Proof.
  intros Hn I (HR & HI & HE & HM & HD). pose proof (Z.pow_pos_nonneg 2 n). assert (0 <= n) by (destruct (Z_lt_ge_dec n 0); [rewrite Z.pow_neg_r in HI by assumption; lia|lia]).
  split; [split; [exact HI|now apply mod_vec]|].
  split; unfold us_event, us_x; cbn [me_irq me_issue me_sent me_fail c_irq c_sent c_fail c_allow c_en]; try reflexivity.
  - rewrite us_int by assumption. cbn [strip ms_active ms_arb]. destruct (_ && _ && _) eqn:E; [|reflexivity]. apply andb_true_iff in E. destruct E as [_ E].
    pose proof (v_arb _ _ _ I) as [A _]. cbn [strip ms_arb] in A. rewrite E in A. destruct A as [A1 ->]. cbn [ap_ports ms_arb_param] in A1. destruct (Z.eqb_spec (2 ^ as_enc (ms_arb s)) 0); [pose proof (Z.pow_pos_nonneg 2 (as_enc (ms_arb s))); lia|].
    rewrite Z.log2_pow2 by lia. reflexivity.
  - intros j Hj. unfold us_mask. rewrite mask_bits by lia. intros B. apply andb_true_iff in B. destruct B as [B1 B2]. split; assumption.
  - intros j Hj [O1 O2]. unfold us_mask. rewrite mask_bits by lia. cbn [me_en me_allow] in *. rewrite O1, O2. reflexivity.
  - cbn [me_en]. intros O. destruct (Z.eqb_spec (ui_enable i) 0) as [E|]; [rewrite E in O; discriminate|reflexivity].
Qed.

Lemma us_snoc n l i : forall s, us_run n s (l ++ [i]) = let '(s1, tr) := us_run n s l in (us_step n s1 i, tr ++ [us_event i (us_step n s1 i)]).
Proof.
  induction l as [|x l IH]; intros s; cbn [us_run app]; [reflexivity|]. rewrite IH. destruct (us_run n (us_step n s x) l) as [s1 tr]. reflexivity.
Qed.

Definition sound (n : Z) (tr : list ms_ev) : Prop := forall l1 e l2 j, tr = l1 ++ e :: l2 -> me_issue e = Some j ->
  0 <= j < n /\ outstanding l1 = None /\ unanswered j l1 /\ exists l e0 e1, l1 = l ++ [e0; e1] /\ (me_en e1 = true -> open_for j e0).
Lemma sound_snoc n tr e : sound n tr -> (forall j, me_issue e = Some j -> 0 <= j < n /\ outstanding tr = None /\ unanswered j tr /\ exists l e0 e1, tr = l ++ [e0; e1] /\ (me_en e1 = true -> open_for j e0)) -> sound n (tr ++ [e]).
Proof.
  intros H1 H2 l1 x l2 j E P. destruct l2 as [|y l2] using rev_ind.
  - apply app_inj_tail in E. destruct E as [-> ->]. auto.
  - rewrite app_comm_cons, app_assoc in E. apply app_inj_tail in E. destruct E as [E _]. apply (H1 l1 x l2 j); assumption.
Qed.

Lemma us_inv n l : 2 <= n <= 32 -> Forall (us_ok n) l -> forall s tr, us_run n ms0 l = (s, tr) -> cinv n (strip s) tr /\ sound n tr /\ (ms_int s = 0 \/ exists j, 0 <= j < n /\ ms_int s = 2 ^ j).
Proof.
  intros Hn. induction l as [|i l IH] using rev_ind; intros F s tr E.
  - injection E as <- <-. split; [apply cinv0; lia|]. split; [intros l1 e l2 j X; destruct l1; discriminate|left; reflexivity].
  - apply Forall_app in F. destruct F as [F1 F2]. inversion F2 as [|? ? F3 _]; subst. rewrite us_snoc in E.
    destruct (us_run n ms0 l) as [s1 tr1] eqn:E1. injection E as <- <-. destruct (IH F1 _ _ eq_refl) as (I & S & _). pose proof F3 as (HR & _).
    destruct (us_fit n s1 i tr1 ltac:(lia) I F3) as [X Ft]. split; [rewrite us_core by assumption; apply core_inv; [lia|assumption..]|].
    split; [apply sound_snoc; [assumption|]; intros j Hj; now apply (core_issue n (strip s1) tr1 (us_x n i) _ j ltac:(lia) I Ft)|].
    rewrite us_int by assumption. destruct (_ && _ && _) eqn:EG; [|auto]. right. apply andb_true_iff in EG. destruct EG as [_ EG].
    pose proof (v_arb _ _ _ I) as [A _]. cbn [strip ms_arb] in A. rewrite EG in A. destruct A as [A1 A2]. exists (as_enc (ms_arb s1)). split; assumption.
Qed.

Lemma us_delivered n l s tr j : 2 <= n <= 32 -> Forall (us_ok n) l -> us_run n ms0 l = (s, tr) -> 0 <= j < n -> unanswered j tr ->
  forall f, (forall k, us_ok n (f k) /\ Z.odd (ui_enable (f k)) = true /\ Z.testbit (ui_data (f k)) j = false /\ j < 2 ^ Z.min 5 (ui_mm (f k))) ->
  (forall k, outstanding (tr ++ snd (us_run n s (map f (seq 0 k)))) <> None -> exists m, ui_sent (f (k + m)%nat) || ui_fail (f (k + m)%nat) = true) ->
  exists k t e, snd (us_run n s (map f (seq 0 (S k)))) = t ++ [e] /\ answers j (tr ++ t) e.
Proof.
  intros Hn F E Hj U f HF HA. destruct (us_inv n l Hn F s tr E) as (I & _ & _).
  set (sk := fun k => fst (us_run n s (map f (seq 0 k)))). set (evk := fun k => us_event (f k) (us_step n (sk k) (f k))).
  assert (SS : forall k, sk (S k) = us_step n (sk k) (f k)).
  { intros k. unfold sk. rewrite seq_S, map_app. cbn [map Nat.add]. rewrite us_snoc. destruct (us_run n s (map f (seq 0 k))). reflexivity. }
  assert (TT : forall k, snd (us_run n s (map f (seq 0 k))) = map evk (seq 0 k)).
  { induction k; [reflexivity|]. rewrite !seq_S, !map_app. cbn [map Nat.add].
    assert (R : us_run n s (map f (seq 0 k)) = (sk k, snd (us_run n s (map f (seq 0 k))))) by (unfold sk; destruct (us_run n s (map f (seq 0 k))); reflexivity).
    rewrite us_snoc, R. cbn [snd]. rewrite IHk. reflexivity. }
  assert (IK : forall k, cinv n (strip (sk k)) (tr ++ map evk (seq 0 k))).
  { induction k; [cbn [seq map]; rewrite app_nil_r; exact I|]. rewrite SS, seq_S, map_app, app_assoc. cbn [map Nat.add]. destruct (HF k) as (HO & _). pose proof HO as (HR & _).
    rewrite us_core by assumption. destruct (us_fit n (sk k) (f k) _ ltac:(lia) IHk HO) as [X Ft]. apply core_inv; [lia|assumption..]. }
  destruct (delivery n j tr (fun k => strip (sk k)) (fun k => us_x n (f k)) evk) as [k C]; auto; try lia.
  - intros k. cbv beta. rewrite SS. apply us_core. apply HF.
  - intros k. apply (us_fit n (sk k) (f k) _ ltac:(lia) (IK k)). apply HF.
  - intros k. apply (us_fit n (sk k) (f k) _ ltac:(lia) (IK k)). apply HF.
  - intros k. destruct (HF k) as (_ & H1 & H2 & H3). split; [exact H1|]. unfold evk, us_event. cbn [me_allow]. rewrite H2. cbn [negb andb]. lia.
  - intros k. unfold TR. rewrite <- TT. apply HA.
  - exists k, (map evk (seq 0 k)), (evk k). split; [|exact C]. rewrite TT, seq_S, map_app. reflexivity.
Qed.

(* ---------- Stratix 10 ---------- *)
Definition s10_x (n : Z) (i : s10_in) : cin := mkCi (si_irq i) (s10_mask n i) (si_enable i) (si_ack i) false.
Lemma s10_core n s i : si_rst i = false -> strip (s10_step n s i) = core_step n (strip s) (s10_x n i).
Proof.
  intros HR. unfold s10_step, core_step, s10_comb, core_comb, core_req, core_act, strip. rewrite HR. cbn [ms_active ms_arb ms_act ms_irq ms_last ms_mask c_en c_sent c_fail s10_x c_irq c_allow].
  rewrite orb_false_r. destruct (ms_active s); cbn [negb]; [destruct (si_ack i)|destruct (_ && _)]; reflexivity.
Qed.
Lemma s10_fit n s i tr : n <= 32 -> cinv n (strip s) tr -> s10_ok n i -> cin_ok n (s10_x n i) /\ fits_ev n (strip s) (s10_x n i) (s10_event s i (s10_step n s i)).
Proof.
  intros Hn I (HR & HI & HM & HD). pose proof (Z.pow_pos_nonneg 2 n). assert (0 <= n) by (destruct (Z_lt_ge_dec n 0); [rewrite Z.pow_neg_r in HI by assumption; lia|lia]).
  split; [split; [exact HI|now apply mod_vec]|].
  split; unfold s10_event, s10_x; cbn [me_irq me_issue me_sent me_fail c_irq c_sent c_fail c_allow c_en]; try reflexivity.
  - cbn [strip ms_active ms_arb]. unfold s10_step, s10_comb. rewrite HR. destruct (ms_active s); cbn [negb andb]; [rewrite andb_false_r; reflexivity|].
    destruct (si_enable i && as_valid (ms_arb s)) eqn:E; [|reflexivity]. cbn [ms_active ms_int andb negb]. apply andb_true_iff in E. destruct E as [_ E].
    pose proof (v_arb _ _ _ I) as [A _]. cbn [strip ms_arb] in A. rewrite E in A. destruct A as [A1 _]. cbn [ap_ports ms_arb_param] in A1. rewrite Z.mod_small by lia. reflexivity.
  - intros j Hj. unfold s10_mask. rewrite mask_bits by lia. intros B. apply andb_true_iff in B. destruct B as [B1 B2]. split; assumption.
  - intros j Hj [O1 O2]. unfold s10_mask. rewrite mask_bits by lia. cbn [me_en me_allow] in *. rewrite O1, O2. reflexivity.
  - auto.
Qed.

Lemma s10_snoc n l i : forall s, s10_run n s (l ++ [i]) = let '(s1, tr) := s10_run n s l in (s10_step n s1 i, tr ++ [s10_event s1 i (s10_step n s1 i)]).
Proof.
  induction l as [|x l IH]; intros s; cbn [s10_run app]; [reflexivity|]. rewrite IH. destruct (s10_run n (s10_step n s x) l) as [s1 tr]. reflexivity.
Qed.
(** The number is held while the request is up. *)
Lemma s10_hold n s i tr : 2 <= n <= 32 -> cinv n (strip s) tr -> s10_ok n i -> (ms_active s = true -> ms_int s = as_enc (ms_arb s)) ->
  ms_active (s10_step n s i) = true -> ms_int (s10_step n s i) = as_enc (ms_arb (s10_step n s i)).
Proof.
  intros Hn I O H HA. pose proof O as (HR & HI & _).
  destruct (core_arb n (strip s) (s10_x n i) ltac:(lia) (v_arb _ _ _ I) (v_act _ _ _ I)) as (_ & _ & _ & HK & _). cbn [strip ms_arb] in HK.
  assert (A : ms_arb (s10_step n s i) = ms_arb (core_step n (strip s) (s10_x n i))) by (rewrite <- s10_core by assumption; reflexivity).
  rewrite core_step_eq in A. cbn [ms_arb strip] in A. rewrite A. clear A.
  pose proof (v_valid _ _ _ I) as VV. pose proof (v_arb _ _ _ I) as [V _]. cbn [strip ms_arb ms_active] in V, VV.
  unfold s10_step, s10_comb in *. rewrite HR in *. unfold answered_now in HK. cbn [strip ms_active c_sent c_fail s10_x] in HK. rewrite orb_false_r in HK. destruct (ms_active s); cbn [negb] in *.
  - rewrite (VV eq_refl) in *. destruct (si_ack i); [discriminate|]. cbn [ms_int]. rewrite HK by reflexivity. now apply H.
  - destruct (si_enable i && as_valid (ms_arb s)) eqn:EG; [|discriminate]. apply andb_true_iff in EG. destruct EG as [_ EG]. rewrite EG in *. cbn [ms_int]. rewrite HK by reflexivity.
    destruct V as [V _]. cbn [ap_ports ms_arb_param] in V. apply Z.mod_small. lia.
Qed.

Lemma s10_inv n l : 2 <= n <= 32 -> Forall (s10_ok n) l -> forall s tr, s10_run n ms0 l = (s, tr) -> cinv n (strip s) tr /\ sound n tr /\ (ms_active s = true -> ms_int s = as_enc (ms_arb s)).
Proof.
  intros Hn. induction l as [|i l IH] using rev_ind; intros F s tr E.
  - injection E as <- <-. split; [apply cinv0; lia|]. split; [intros l1 e l2 j X; destruct l1; discriminate|discriminate].
  - apply Forall_app in F. destruct F as [F1 F2]. inversion F2 as [|? ? F3 _]; subst. rewrite s10_snoc in E.
    destruct (s10_run n ms0 l) as [s1 tr1] eqn:E1. injection E as <- <-. destruct (IH F1 _ _ eq_refl) as (I & S & H). pose proof F3 as (HR & _).
    destruct (s10_fit n s1 i tr1 ltac:(lia) I F3) as [X Ft]. split; [rewrite s10_core by assumption; apply core_inv; [lia|assumption..]|].
    split; [apply sound_snoc; [assumption|]; intros j Hj; now apply (core_issue n (strip s1) tr1 (s10_x n i) _ j ltac:(lia) I Ft)|].
    now apply (s10_hold n s1 i tr1).
Qed.
Lemma s10_ports n l : 2 <= n <= 32 -> Forall (s10_ok n) l -> forall s tr, s10_run n ms0 l = (s, tr) -> outstanding tr = if ms_active s then Some (ms_int s) else None.
Proof.
  intros Hn F s tr E. destruct (s10_inv n l Hn F s tr E) as (I & _ & H). rewrite (v_out _ _ _ I). cbn [strip ms_active ms_arb]. destruct (ms_active s); [|reflexivity]. now rewrite H.
Qed.

Lemma s10_delivered n l s tr j : 2 <= n <= 32 -> Forall (s10_ok n) l -> s10_run n ms0 l = (s, tr) -> 0 <= j < n -> unanswered j tr ->
  forall f, (forall k, s10_ok n (f k) /\ si_enable (f k) = true /\ Z.testbit (si_mask (f k)) j = false /\ j < 2 ^ Z.min 5 (si_mm (f k))) ->
  (forall k, outstanding (tr ++ snd (s10_run n s (map f (seq 0 k)))) <> None -> exists m, si_ack (f (k + m)%nat) = true) ->
  exists k t e, snd (s10_run n s (map f (seq 0 (S k)))) = t ++ [e] /\ answers j (tr ++ t) e.
Proof.
  intros Hn F E Hj U f HF HA. destruct (s10_inv n l Hn F s tr E) as (I & _ & _).
  set (sk := fun k => fst (s10_run n s (map f (seq 0 k)))). set (evk := fun k => s10_event (sk k) (f k) (s10_step n (sk k) (f k))).
  assert (SS : forall k, sk (S k) = s10_step n (sk k) (f k)).
  { intros k. unfold sk. rewrite seq_S, map_app. cbn [map Nat.add]. rewrite s10_snoc. destruct (s10_run n s (map f (seq 0 k))). reflexivity. }
  assert (TT : forall k, snd (s10_run n s (map f (seq 0 k))) = map evk (seq 0 k)).
  { induction k; [reflexivity|]. rewrite !seq_S, !map_app. cbn [map Nat.add].
    assert (R : s10_run n s (map f (seq 0 k)) = (sk k, snd (s10_run n s (map f (seq 0 k))))) by (unfold sk; destruct (s10_run n s (map f (seq 0 k))); reflexivity).
    rewrite s10_snoc, R. cbn [snd]. rewrite IHk. reflexivity. }
  assert (IK : forall k, cinv n (strip (sk k)) (tr ++ map evk (seq 0 k))).
  { induction k; [cbn [seq map]; rewrite app_nil_r; exact I|]. rewrite SS, seq_S, map_app, app_assoc. cbn [map Nat.add]. destruct (HF k) as (HO & _). pose proof HO as (HR & _).
    rewrite s10_core by assumption. destruct (s10_fit n (sk k) (f k) _ ltac:(lia) IHk HO) as [X Ft]. apply core_inv; [lia|assumption..]. }
  destruct (delivery n j tr (fun k => strip (sk k)) (fun k => s10_x n (f k)) evk) as [k C]; auto; try lia.
  - intros k. cbv beta. rewrite SS. apply s10_core. apply HF.
  - intros k. apply (s10_fit n (sk k) (f k) _ ltac:(lia) (IK k)). apply HF.
  - intros k. apply (s10_fit n (sk k) (f k) _ ltac:(lia) (IK k)). apply HF.
  - intros k. destruct (HF k) as (_ & H1 & H2 & H3). split; [exact H1|]. unfold evk, s10_event. cbn [me_allow]. rewrite H2. cbn [negb andb]. lia.
  - intros k. unfold TR. rewrite <- TT. intros X. destruct (HA k X) as [m Hm]. exists m. unfold evk at 1. cbn [s10_event me_sent]. now rewrite Hm.
  - exists k, (map evk (seq 0 k)), (evk k). split; [|exact C]. rewrite TT, seq_S, map_app. reflexivity.
Qed.
