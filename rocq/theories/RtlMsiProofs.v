(** Proofs about the MSI shims (C84). *)
From Verif Require Import PyBase BitLemmas BarProofs RtlModel RtlSpec RtlProofs RtlProofs2 RtlMsiModel RtlMsiSpec.

(* ---------- traces ---------- *)
Lemma out_snoc tr e : outstanding (tr ++ [e]) = out_step (outstanding tr) e.
Proof. unfold outstanding. now rewrite fold_left_app. Qed.
Lemma level_snoc j tr e : level j (tr ++ [e]) = Z.testbit (me_irq e) j.
Proof. unfold level. now rewrite rev_unit. Qed.

Lemma un_snoc j tr e : unanswered j (tr ++ [e]) <-> rises j tr e \/ unanswered j tr /\ ~ completes j tr e.
Proof.
  split.
  - intros (a & x & b & E & R & N). destruct b as [|y b] using rev_ind.
    + apply app_inj_tail in E. destruct E as [-> ->]. auto.
    + rewrite app_comm_cons, app_assoc in E. apply app_inj_tail in E. destruct E as [-> ->]. right. split.
      * exists a, x, b. split; [reflexivity|]. split; [assumption|]. intros b1 z b2 -> C. apply (N b1 z (b2 ++ [y])); [now rewrite <- app_assoc|assumption].
      * apply (N b y []). reflexivity.
  - intros [R|[(a & x & b & -> & R & N) C]].
    + exists tr, e, []. split; [reflexivity|]. split; [assumption|]. intros b1 z b2 E. destruct b1; discriminate.
    + exists a, x, (b ++ [e]). split; [now rewrite <- app_assoc|]. split; [assumption|]. intros b1 z b2 E. destruct b2 as [|y b2] using rev_ind.
      * apply app_inj_tail in E. destruct E as [-> ->]. assumption.
      * rewrite app_comm_cons, app_assoc in E. apply app_inj_tail in E. destruct E as [E _]. apply (N b1 z b2 E).
Qed.
Lemma un_nil j : ~ unanswered j [].
Proof. intros (a & e & b & E & _). destruct a; discriminate. Qed.

(* ---------- the common core ---------- *)
Record cin := mkCi { c_irq : Z; c_allow : Z; c_en : bool; c_sent : bool; c_fail : bool }.
Definition core_act (s : ms_state) : Z := Z.lor (ms_act s) (Z.land (ms_irq s) (Z.lnot (ms_last s))).
Definition core_comb (s : ms_state) (x : cin) : bool * Z * Z :=
  let a := ms_arb s in
  if negb (ms_active s) then (if c_en x && as_valid a then (true, core_act s, 0) else (false, core_act s, 0))
  else if c_sent x || c_fail x then (false, if c_sent x then Z.land (core_act s) (Z.lnot (as_grant a)) else core_act s, as_grant a)
  else (true, core_act s, 0).
Definition core_req (s : ms_state) : Z := Z.land (Z.land (ms_act s) (ms_mask s)) (Z.lnot (as_grant (ms_arb s))).
Definition core_step (n : Z) (s : ms_state) (x : cin) : ms_state :=
  let '(active, act, ack) := core_comb s x in
  mkMs active (c_irq x) (ms_irq s) act (c_allow x) 0 (arb_step (ms_arb_param n) (ms_arb s) (mkArbIn false (core_req s) ack)).
Definition strip (s : ms_state) : ms_state := mkMs (ms_active s) (ms_irq s) (ms_last s) (ms_act s) (ms_mask s) 0 (ms_arb s).

Definition cin_ok (n : Z) (x : cin) : Prop := vec n (c_irq x) /\ vec n (c_allow x).
(** The event fits state and input. *)
Record fits_ev (n : Z) (s : ms_state) (x : cin) (e : ms_ev) : Prop := {
  f_irq : me_irq e = c_irq x;
  f_sent : me_sent e = c_sent x;
  f_fail : me_fail e = c_fail x;
  f_issue : me_issue e = if negb (ms_active s) && c_en x && as_valid (ms_arb s) then Some (as_enc (ms_arb s)) else None;
  f_allow : forall j, 0 <= j < n -> Z.testbit (c_allow x) j = true -> open_for j e;
  f_open : forall j, 0 <= j < n -> open_for j e -> Z.testbit (c_allow x) j = true;
  f_en : me_en e = true -> c_en x = true }.

Record cinv (n : Z) (s : ms_state) (tr : list ms_ev) : Prop := {
  v_arb : arb_inv (ms_arb_param n) (ms_arb s);
  v_irq : vec n (ms_irq s);
  v_act : vec n (ms_act s);
  v_mask : vec n (ms_mask s);
  v_out : outstanding tr = if ms_active s then Some (as_enc (ms_arb s)) else None;
  v_valid : ms_active s = true -> as_valid (ms_arb s) = true;
  v_gact : as_valid (ms_arb s) = true -> Z.testbit (ms_act s) (as_enc (ms_arb s)) = true;
  v_level : forall j, 0 <= j -> level j tr = Z.testbit (ms_irq s) j;
  v_un : forall j, 0 <= j < n -> unanswered j tr <-> Z.testbit (core_act s) j = true;
  v_open : forall j, 0 <= j < n -> Z.testbit (ms_mask s) j = true -> exists l e, tr = l ++ [e] /\ open_for j e;
  v_grant : as_valid (ms_arb s) = true -> ms_active s = false -> exists l e0 e1, tr = l ++ [e0; e1] /\ (me_en e1 = true -> open_for (as_enc (ms_arb s)) e0) }.

Lemma vec_land n a b : 0 <= n -> vec n a -> vec n (Z.land a b).
Proof.
  intros Hn H. unfold vec in *. apply (bits_range _ n); [assumption|]. intros j Hj. rewrite Z.land_spec, (testbit_high a n) by lia. reflexivity.
Qed.
Lemma vec_lor n a b : 0 <= n -> vec n a -> vec n b -> vec n (Z.lor a b).
Proof.
  intros Hn H1 H2. unfold vec in *. apply (bits_range _ n); [assumption|]. intros j Hj. rewrite Z.lor_spec, (testbit_high a n), (testbit_high b n) by lia. reflexivity.
Qed.
Lemma vec0 n : 0 <= n -> vec n 0.
Proof. intros. unfold vec. pose proof (Z.pow_pos_nonneg 2 n). lia. Qed.

Lemma grant_bit n s j : arb_inv (ms_arb_param n) (ms_arb s) -> 0 <= j -> Z.testbit (as_grant (ms_arb s)) j = as_valid (ms_arb s) && (as_enc (ms_arb s) =? j).
Proof.
  intros [H _] Hj. destruct (as_valid (ms_arb s)).
  - destruct H as [H1 ->]. cbn [andb]. now rewrite Z.pow2_bits_eqb by lia.
  - destruct H as [_ ->]. now rewrite Z.bits_0.
Qed.
Lemma grant_vec n s : 2 <= n -> arb_inv (ms_arb_param n) (ms_arb s) -> vec n (as_grant (ms_arb s)).
Proof.
  intros Hn [H _]. destruct (as_valid (ms_arb s)).
  - destruct H as [H1 ->]. cbn [ap_ports ms_arb_param] in H1. split; [apply Z.pow_nonneg; lia|]. apply Z.pow_lt_mono_r; lia.
  - destruct H as [_ ->]. apply vec0. lia.
Qed.

Definition answered_now (s : ms_state) (x : cin) : bool := ms_active s && (c_sent x || c_fail x).
Definition core_ack (s : ms_state) (x : cin) : Z := if answered_now s x then as_grant (ms_arb s) else 0.
Lemma comb_ack s x : snd (core_comb s x) = core_ack s x.
Proof. unfold core_comb, core_ack, answered_now. destruct (ms_active s); cbn [negb andb]; [|destruct (_ && _)]; [destruct (_ || _)| |]; reflexivity. Qed.
Lemma comb_active s x : fst (fst (core_comb s x)) = if ms_active s then negb (c_sent x || c_fail x) else c_en x && as_valid (ms_arb s).
Proof. unfold core_comb. destruct (ms_active s); cbn [negb andb]; [destruct (_ || _)|destruct (_ && _)]; reflexivity. Qed.
Lemma comb_act n s x j : arb_inv (ms_arb_param n) (ms_arb s) -> 0 <= j ->
  Z.testbit (snd (fst (core_comb s x))) j = Z.testbit (core_act s) j && negb (ms_active s && c_sent x && as_valid (ms_arb s) && (as_enc (ms_arb s) =? j)).
Proof.
  intros A Hj. unfold core_comb. destruct (ms_active s); cbn [negb andb].
  - destruct (c_sent x); cbn [orb andb].
    + cbn [fst snd]. rewrite Z.land_spec, Z.lnot_spec, (grant_bit n) by assumption. reflexivity.
    + destruct (c_fail x); cbn [fst snd]; now rewrite andb_true_r.
  - destruct (_ && _); cbn [fst snd]; now rewrite andb_true_r.
Qed.

(** The arbiter in one step: either it keeps its grant, or it is free. *)
Lemma core_arb n s x : 2 <= n -> arb_inv (ms_arb_param n) (ms_arb s) -> vec n (ms_act s) ->
  let i := mkArbIn false (core_req s) (core_ack s x) in let a' := arb_step (ms_arb_param n) (ms_arb s) i in
  arb_in_ok (ms_arb_param n) i /\ arb_inv (ms_arb_param n) a' /\
  arb_hold (ms_arb_param n) (ms_arb s) i = as_valid (ms_arb s) && negb (answered_now s x) /\
  (as_valid (ms_arb s) && negb (answered_now s x) = true -> a' = ms_arb s) /\
  (as_valid (ms_arb s) && negb (answered_now s x) = false -> as_valid a' = true -> Z.testbit (core_req s) (as_enc a') = true /\ 0 <= as_enc a' < n).
Proof.
  intros Hn A V i a'. assert (OK : arb_ok (ms_arb_param n)) by exact Hn.
  assert (IO : arb_in_ok (ms_arb_param n) i).
  { split; cbn [ai_req ai_ack i ap_ports ms_arb_param].
    - unfold core_req. apply vec_land; [lia|]. apply vec_land; [lia|assumption].
    - unfold core_ack. destruct (answered_now s x); [now apply grant_vec|apply vec0; lia]. }
  assert (A' : arb_inv (ms_arb_param n) a') by (apply arb_step_inv; assumption).
  assert (H : arb_hold (ms_arb_param n) (ms_arb s) i = as_valid (ms_arb s) && negb (answered_now s x)).
  { rewrite hold_iff by (assumption || reflexivity). cbn [ap_block ms_arb_param andb]. unfold released. cbn [ai_rst i orb ap_block_ack ms_arb_param ai_ack]. unfold core_ack.
    destruct (as_valid (ms_arb s)) eqn:EV; [|reflexivity]. cbn [andb]. f_equal. destruct (answered_now s x); [|apply Z.bits_0].
    pose proof A as [A1 _]. rewrite EV in A1. rewrite (grant_bit n) by (assumption || lia). rewrite EV, Z.eqb_refl. reflexivity. }
  split; [assumption|]. split; [assumption|]. split; [assumption|]. split.
  - intros E. unfold a', arb_step. cbn [ai_rst i]. unfold arb_next. fold i. rewrite H, E. destruct (ms_arb s); reflexivity.
  - intros E EV. split.
    + apply (arb_new (ms_arb_param n) (ms_arb s) i OK IO A); [|assumption]. rewrite <- hold_iff by (assumption || reflexivity). congruence.
    + pose proof A' as [A2 _]. rewrite EV in A2. apply A2.
Qed.

Lemma core_step_eq n s x : core_step n s x = mkMs (fst (fst (core_comb s x))) (c_irq x) (ms_irq s) (snd (fst (core_comb s x))) (c_allow x) 0
  (arb_step (ms_arb_param n) (ms_arb s) (mkArbIn false (core_req s) (core_ack s x))).
Proof. unfold core_step. rewrite <- comb_ack. destruct (core_comb s x) as [[a b] c]. reflexivity. Qed.

Lemma req_bit n s j : arb_inv (ms_arb_param n) (ms_arb s) -> 0 <= j ->
  Z.testbit (core_req s) j = Z.testbit (ms_act s) j && Z.testbit (ms_mask s) j && negb (as_valid (ms_arb s) && (as_enc (ms_arb s) =? j)).
Proof. intros A Hj. unfold core_req. rewrite !Z.land_spec, Z.lnot_spec, (grant_bit n) by assumption. reflexivity. Qed.
Lemma core_act_bit s j : 0 <= j -> Z.testbit (core_act s) j = Z.testbit (ms_act s) j || Z.testbit (ms_irq s) j && negb (Z.testbit (ms_last s) j).
Proof. intros. unfold core_act. now rewrite Z.lor_spec, Z.land_spec, Z.lnot_spec. Qed.

Lemma cinv0 n : 2 <= n -> cinv n ms0 [].
Proof.
  intros Hn. split; cbn; try congruence; try (apply vec0; lia).
  - apply arb_inv0. exact Hn.
  - intros j Hj. symmetry. apply Z.bits_0.
  - intros j Hj. split; [intros H; destruct (un_nil j H)|]. rewrite Z.bits_0. discriminate.
  - intros j Hj. rewrite Z.bits_0. discriminate.
Qed.

Lemma core_inv n s tr x e : 2 <= n -> cinv n s tr -> cin_ok n x -> fits_ev n s x e -> cinv n (core_step n s x) (tr ++ [e]).
Proof.
  intros Hn I [X1 X2] F. pose proof (v_arb _ _ _ I) as A. destruct (core_arb n s x Hn A (v_act _ _ _ I)) as (IO & A' & HH & HK & HF).
  rewrite core_step_eq. set (a' := arb_step _ _ _) in *.
  assert (AV : as_valid (ms_arb s) = true -> 0 <= as_enc (ms_arb s) < n) by (intros E; pose proof A as [A1 _]; rewrite E in A1; apply A1).
  assert (CA : vec n (core_act s)) by (unfold core_act; apply vec_lor; [lia|apply I|]; apply vec_land; [lia|apply I]).
  pose proof (v_valid _ _ _ I) as VV.
  split; cbn [ms_active ms_irq ms_last ms_act ms_mask ms_int ms_arb]; try assumption.
  - unfold vec. apply (bits_range _ n); [lia|]. intros j Hj. rewrite (comb_act n) by (assumption || lia). rewrite (testbit_high (core_act s) n) by (unfold vec in CA; lia). reflexivity.
  - rewrite out_snoc, (v_out _ _ _ I), comb_active. unfold out_step. destruct (ms_active s) eqn:EA.
    + rewrite (f_sent _ _ _ _ F), (f_fail _ _ _ _ F). destruct (c_sent x || c_fail x) eqn:ES; cbn [negb]; [reflexivity|].
      rewrite HK; [reflexivity|]. unfold answered_now. rewrite (VV eq_refl), EA, ES. reflexivity.
    + rewrite (f_issue _ _ _ _ F), EA. cbn [negb andb]. destruct (c_en x && as_valid (ms_arb s)) eqn:EG; [|reflexivity].
      apply andb_true_iff in EG. rewrite HK; [reflexivity|]. unfold answered_now. rewrite EA, (proj2 EG). reflexivity.
  - rewrite comb_active. intros H. destruct (as_valid (ms_arb s) && negb (answered_now s x)) eqn:EH.
    + rewrite (HK eq_refl). apply andb_true_iff in EH. apply EH.
    + exfalso. unfold answered_now in EH. destruct (ms_active s); [rewrite (VV eq_refl) in EH; destruct (c_sent x || c_fail x); discriminate|].
      apply andb_true_iff in H. rewrite (proj2 H) in EH. discriminate.
  - intros EV. destruct (as_valid (ms_arb s) && negb (answered_now s x)) eqn:EH.
    + rewrite (HK eq_refl) in *. apply andb_true_iff in EH. destruct EH as [EH1 EH2]. specialize (AV EH1).
      rewrite (comb_act n) by (assumption || lia). rewrite core_act_bit by lia. rewrite (v_gact _ _ _ I EH1). cbn [orb andb].
      unfold answered_now in EH2. destruct (ms_active s); [|reflexivity]. cbn [andb] in *. apply negb_true_iff in EH2. apply orb_false_iff in EH2. now rewrite (proj1 EH2).
    + destruct (HF eq_refl EV) as [R1 R2]. rewrite (req_bit n) in R1 by (assumption || lia). apply andb_true_iff in R1. destruct R1 as [R1 R3]. apply andb_true_iff in R1.
      rewrite (comb_act n) by (assumption || lia). rewrite core_act_bit by lia. rewrite (proj1 R1). cbn [orb andb]. apply negb_true_iff in R3.
      rewrite <- andb_assoc, R3, andb_false_r. reflexivity.
  - intros j Hj. now rewrite level_snoc, (f_irq _ _ _ _ F).
  - intros j Hj. rewrite un_snoc, (v_un _ _ _ I j Hj). rewrite (core_act_bit (mkMs _ _ _ _ _ _ _)) by lia. cbn [ms_act ms_irq ms_last]. rewrite (comb_act n) by (assumption || lia).
    unfold rises. rewrite (v_level _ _ _ I j (proj1 Hj)), (f_irq _ _ _ _ F).
    assert (C : completes j tr e <-> ms_active s && c_sent x && as_valid (ms_arb s) && (as_enc (ms_arb s) =? j) = true).
    { unfold completes. rewrite (v_out _ _ _ I), (f_sent _ _ _ _ F). destruct (ms_active s); [|cbn; intuition discriminate]. rewrite (VV eq_refl), andb_true_r. cbn [andb].
      rewrite andb_true_iff, Z.eqb_eq. split; [intros [[= H] H2]; auto|intros [H ->]; auto]. }
    rewrite C. set (b := ms_active s && _ && _ && _). rewrite orb_true_iff, !andb_true_iff, !negb_true_iff. destruct b; intuition congruence.
  - intros j Hj Hb. exists tr, e. split; [reflexivity|]. now apply (f_allow _ _ _ _ F).
  - intros EV. rewrite comb_active. intros EN. destruct (as_valid (ms_arb s) && negb (answered_now s x)) eqn:EH.
    + rewrite (HK eq_refl) in *. apply andb_true_iff in EH. destruct EH as [EH1 EH2]. unfold answered_now in EH2. destruct (ms_active s) eqn:EA.
      * cbn [andb] in EH2. congruence.
      * destruct (v_grant _ _ _ I EH1 EA) as (l & e0 & e1 & -> & _). exists (l ++ [e0]), e1, e. split; [now rewrite <- !app_assoc|]. intros H.
        apply (f_en _ _ _ _ F) in H. rewrite H, EH1 in EN. discriminate.
    + destruct (HF eq_refl EV) as [R1 R2]. rewrite (req_bit n) in R1 by (assumption || lia). apply andb_true_iff in R1. destruct R1 as [R1 R3]. apply andb_true_iff in R1.
      destruct (v_open _ _ _ I _ R2 (proj2 R1)) as (l & e0 & -> & O). exists l, e0, e. split; [now rewrite <- app_assoc|auto].
Qed.

Lemma core_issue n s tr x e j : 2 <= n -> cinv n s tr -> fits_ev n s x e -> me_issue e = Some j ->
  0 <= j < n /\ outstanding tr = None /\ unanswered j tr /\ exists l e0 e1, tr = l ++ [e0; e1] /\ (me_en e1 = true -> open_for j e0).
Proof.
  intros Hn I F H. rewrite (f_issue _ _ _ _ F) in H. destruct (ms_active s) eqn:EA; [discriminate|]. cbn [negb andb] in H. destruct (c_en x && as_valid (ms_arb s)) eqn:EG; [|discriminate].
  injection H as <-. apply andb_true_iff in EG. destruct EG as [_ EG]. pose proof (v_arb _ _ _ I) as [A _]. rewrite EG in A. destruct A as [A _]. cbn [ap_ports ms_arb_param] in A.
  split; [assumption|]. split; [rewrite (v_out _ _ _ I), EA; reflexivity|]. split; [|now apply (v_grant _ _ _ I)].
  apply (v_un _ _ _ I); [assumption|]. rewrite core_act_bit, (v_gact _ _ _ I EG) by lia. reflexivity.
Qed.

(* ---------- delivery, for any sequence of states ---------- *)
Section deliver.
Variable n j : Z.
Variable tr0 : list ms_ev.
Variable st : nat -> ms_state.
Variable xs : nat -> cin.
Variable ev : nat -> ms_ev.
Definition TR (k : nat) : list ms_ev := tr0 ++ map ev (seq 0 k).
Hypothesis Hn : 2 <= n.
Hypothesis Hj : 0 <= j < n.
Hypothesis Hst : forall k, st (S k) = core_step n (st k) (xs k).
Hypothesis Hfit : forall k, fits_ev n (st k) (xs k) (ev k).
Hypothesis Hx : forall k, cin_ok n (xs k).
Hypothesis H0 : cinv n (st O) tr0.
Hypothesis Hopen : forall k, open_for j (ev k).
Hypothesis Hans : forall k, outstanding (TR k) <> None -> exists m, me_sent (ev (k + m)) || me_fail (ev (k + m)) = true.

Lemma TR_S k : TR (S k) = TR k ++ [ev k].
Proof. unfold TR. rewrite seq_S, map_app. cbn [map Nat.add]. now rewrite app_assoc. Qed.
Lemma inv_k k : cinv n (st k) (TR k).
Proof.
  induction k; [unfold TR; cbn [seq map]; rewrite app_nil_r; exact H0|]. rewrite TR_S, Hst. apply core_inv; auto.
Qed.

Definition act_j k : Prop := Z.testbit (ms_act (st k)) j = true.
Definition mask_j k : Prop := Z.testbit (ms_mask (st k)) j = true.
Definition goal : Prop := exists k, answers j (TR k) (ev k).

Lemma mask_S k : mask_j (S k).
Proof. unfold mask_j. rewrite Hst, core_step_eq. cbn [ms_mask]. now apply (f_open _ _ _ _ (Hfit k)). Qed.
Lemma en_k k : c_en (xs k) = true.
Proof. apply (f_en _ _ _ _ (Hfit k)). apply Hopen. Qed.
Lemma act_S k : act_j k -> act_j (S k) \/ answers j (TR k) (ev k).
Proof.
  intros H. pose proof (inv_k k) as I. unfold act_j in *. rewrite Hst, core_step_eq. cbn [ms_act]. rewrite (comb_act n) by (apply I || lia). rewrite core_act_bit, H by lia. cbn [orb andb].
  destruct (ms_active (st k)) eqn:EA; [|left; reflexivity]. destruct (c_sent (xs k)) eqn:ES; [|left; reflexivity]. destruct (Z.eqb_spec (as_enc (ms_arb (st k))) j) as [E|]; [|left; now rewrite andb_false_r].
  right. split; [now rewrite (v_out _ _ _ I), EA, E|]. now rewrite (f_sent _ _ _ _ (Hfit k)), ES.
Qed.

(** Wait for the answer to the outstanding message. *)
Lemma wait m : forall k, ms_active (st k) = true -> act_j k -> me_sent (ev (k + m)) || me_fail (ev (k + m)) = true ->
  goal \/ exists m', me_sent (ev (k + m')) || me_fail (ev (k + m')) = true /\ ms_active (st (k + m')) = true /\ ms_arb (st (k + m')) = ms_arb (st k) /\ act_j (k + m').
Proof.
  induction m as [|m IH]; intros k EA AJ ES.
  - rewrite Nat.add_0_r in ES. right. exists O. rewrite Nat.add_0_r. auto.
  - destruct (me_sent (ev k) || me_fail (ev k)) eqn:EK; [right; exists O; rewrite Nat.add_0_r; auto|].
    pose proof (inv_k k) as I. pose proof (v_valid _ _ _ I EA) as EV. pose proof (Hfit k) as F. rewrite (f_sent _ _ _ _ F), (f_fail _ _ _ _ F) in EK.
    destruct (act_S k AJ) as [AS|C]; [|left; exists k; assumption].
    assert (E1 : ms_active (st (S k)) = true) by (rewrite Hst, core_step_eq; cbn [ms_active]; rewrite comb_active, EA, EK; reflexivity).
    assert (E2 : ms_arb (st (S k)) = ms_arb (st k)).
    { rewrite Hst, core_step_eq. cbn [ms_arb]. destruct (core_arb n (st k) (xs k) Hn (v_arb _ _ _ I) (v_act _ _ _ I)) as (_ & _ & _ & HK & _). apply HK. unfold answered_now. rewrite EV, EK, andb_false_r. reflexivity. }
    destruct (IH (S k) E1 AS) as [G|(m' & P1 & P2 & P3 & P4)]; [replace (S k + m)%nat with (k + S m)%nat by lia; assumption|auto|].
    right. exists (S m'). replace (k + S m')%nat with (S k + m')%nat by lia. rewrite P3, E2. auto.
Qed.

Definition at_dist (k : nat) (d : Z) : Prop := exists m, mask_at (ms_arb_param n) (as_mask (ms_arb (st k))) m /\ rr_dist (ms_arb_param n) m j <= d.

(** The arbiter is free and [j] requests. *)
Lemma free_step k d : as_valid (ms_arb (st k)) && negb (answered_now (st k) (xs k)) = false -> act_j k -> mask_j k -> (as_valid (ms_arb (st k)) = true -> as_enc (ms_arb (st k)) <> j) ->
  at_dist k d -> as_valid (ms_arb (st (S k))) = true /\ (as_enc (ms_arb (st (S k))) = j \/ at_dist (S k) (d - 1)).
Proof.
  intros FR AJ MJ NE (m & M1 & M2). pose proof (inv_k k) as I. pose proof (v_arb _ _ _ I) as A. destruct (core_arb n (st k) (xs k) Hn A (v_act _ _ _ I)) as (IO & A' & HH & HK & HF).
  assert (RJ : Z.testbit (core_req (st k)) j = true).
  { rewrite (req_bit n) by (assumption || lia). unfold act_j, mask_j in *. rewrite AJ, MJ. cbn [andb]. destruct (as_valid (ms_arb (st k))); [|reflexivity]. cbn [andb]. specialize (NE eq_refl). apply Z.eqb_neq in NE. now rewrite NE. }
  rewrite FR in HH. unfold at_dist. rewrite Hst, core_step_eq. cbn [ms_arb]. set (i := mkArbIn false _ _) in *. set (a' := arb_step _ _ _) in *.
  destruct (Z.eq_dec (as_enc a') j) as [E|E].
  - split; [|auto]. pose proof (arb_free (ms_arb_param n) (ms_arb (st k)) i m Hn IO M1 eq_refl HH) as Q. cbv zeta in Q. fold a' in Q.
    destruct (Z.eqb_spec (ai_req i) 0) as [Z0|]; [cbn [ai_req i] in Z0; rewrite Z0, Z.bits_0 in RJ; discriminate|apply Q].
  - destruct (rr_step (ms_arb_param n) (ms_arb (st k)) i m j Hn IO M1 eq_refl HH eq_refl Hj RJ E) as (V & m' & M' & D'). fold a' in V, M'. split; [assumption|]. right. exists m'. split; [assumption|lia].
Qed.

(** A granted message is handed over and answered. *)
Lemma granted_answer k : as_valid (ms_arb (st k)) = true -> act_j k ->
  goal \/ exists k', (k <= k')%nat /\ me_sent (ev k') || me_fail (ev k') = true /\ ms_active (st k') = true /\ ms_arb (st k') = ms_arb (st k) /\ act_j k'.
Proof.
  intros EV AJ. pose proof (inv_k k) as I.
  assert (W : forall q, (k <= q)%nat -> ms_active (st q) = true -> ms_arb (st q) = ms_arb (st k) -> act_j q ->
    goal \/ exists k', (k <= k')%nat /\ me_sent (ev k') || me_fail (ev k') = true /\ ms_active (st k') = true /\ ms_arb (st k') = ms_arb (st k) /\ act_j k').
  { intros q Hq E1 E2 AQ. destruct (Hans q) as [m Hm]; [rewrite (v_out _ _ _ (inv_k q)), E1; discriminate|].
    destruct (wait m q E1 AQ Hm) as [G|(m' & P1 & P2 & P3 & P4)]; [auto|]. right. exists (q + m')%nat. rewrite P3, E2. split; [lia|]. auto. }
  destruct (ms_active (st k)) eqn:EA; [apply (W k); auto|]. destruct (act_S k AJ) as [AS|C]; [|left; exists k; assumption].
  apply (W (S k)); [lia| | |assumption].
  - rewrite Hst, core_step_eq. cbn [ms_active]. rewrite comb_active, EA, en_k, EV. reflexivity.
  - rewrite Hst, core_step_eq. cbn [ms_arb]. destruct (core_arb n (st k) (xs k) Hn (v_arb _ _ _ I) (v_act _ _ _ I)) as (_ & _ & _ & HK & _). apply HK. unfold answered_now. rewrite EV, EA. reflexivity.
Qed.

Lemma main d : forall k, (0 < k)%nat -> act_j k -> at_dist k (Z.of_nat d - 1) -> goal.
Proof.
  induction d as [|d IH]; intros k Hk AJ D.
  - exfalso. destruct D as (m & M1 & M2). pose proof (rr_bound (ms_arb_param n) m j (proj1 M1) Hj). lia.
  - assert (MK : forall q, (0 < q)%nat -> mask_j q) by (intros [|q] Hq; [lia|apply mask_S]).
    assert (GJ : forall q, as_valid (ms_arb (st q)) = true -> as_enc (ms_arb (st q)) = j -> act_j q -> goal).
    { intros q EV E AQ. destruct (granted_answer q EV AQ) as [G|(k' & _ & P1 & P2 & P3 & _)]; [assumption|]. exists k'. split; [|assumption]. rewrite (v_out _ _ _ (inv_k k')), P2, P3, E. reflexivity. }
    assert (NX : forall q, (0 < q)%nat -> as_valid (ms_arb (st q)) && negb (answered_now (st q) (xs q)) = false -> act_j q -> (as_valid (ms_arb (st q)) = true -> as_enc (ms_arb (st q)) <> j) ->
      at_dist q (Z.of_nat (S d) - 1) -> goal).
    { intros q Hq FR AQ NE DQ. destruct (free_step q _ FR AQ (MK q Hq) NE DQ) as [V [E|D']]; (destruct (act_S q AQ) as [AS|C]; [|exists q; assumption]).
      - now apply (GJ (S q)).
      - apply (IH (S q)); [lia|assumption|]. replace (Z.of_nat d - 1) with (Z.of_nat (S d) - 1 - 1) by lia. assumption. }
    destruct (as_valid (ms_arb (st k))) eqn:EV; [|apply (NX k); auto; [now rewrite EV|rewrite EV; discriminate]].
    destruct (Z.eq_dec (as_enc (ms_arb (st k))) j) as [E|E]; [now apply (GJ k)|].
    destruct (granted_answer k EV AJ) as [G|(k' & P0 & P1 & P2 & P3 & P4)]; [assumption|].
    apply (NX k'); [lia| |assumption|rewrite P3; auto|unfold at_dist; rewrite P3; exact D].
    unfold answered_now. rewrite P2, <- (f_sent _ _ _ _ (Hfit k')), <- (f_fail _ _ _ _ (Hfit k')), P1. cbn [orb andb negb]. apply andb_false_r.
Qed.

Lemma delivery : unanswered j tr0 -> goal.
Proof.
  intros U. apply (v_un _ _ _ H0 j Hj) in U.
  assert (A1 : act_j 1 \/ goal).
  { unfold act_j. rewrite Hst, core_step_eq. cbn [ms_act]. rewrite (comb_act n) by (apply H0 || lia). rewrite U. cbn [andb].
    destruct (ms_active (st 0)) eqn:EA; [|left; reflexivity]. destruct (c_sent (xs 0)) eqn:ES; [|left; reflexivity]. destruct (Z.eqb_spec (as_enc (ms_arb (st 0))) j) as [E|]; [|left; now rewrite andb_false_r].
    right. exists O. split; [now rewrite (v_out _ _ _ (inv_k 0)), EA, E|]. now rewrite (f_sent _ _ _ _ (Hfit 0)), ES. }
  destruct A1 as [A1|G]; [|assumption]. pose proof (v_arb _ _ _ (inv_k 1)) as (_ & m & M).
  apply (main (Z.to_nat n) 1); [lia|assumption|]. exists m. split; [assumption|]. pose proof (rr_bound (ms_arb_param n) m j (proj1 M) Hj) as B. cbn [ap_ports ms_arb_param] in B. lia.
Qed.
End deliver.
