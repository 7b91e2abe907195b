(** Lemmas for the encoder, arbiter and pulse merger. *)
From Verif Require Import PyBase BitLemmas RtlModel RtlSpec.
From Coq Require Import ZifyBool ZifyNat.
Ltac Zify.zify_post_hook ::= Z.div_mod_to_equations.

Lemma p2 n : 0 <= n -> 0 < 2 ^ n.
Proof. intros; apply Z.pow_pos_nonneg; lia. Qed.

Lemma gen_range w f : 0 <= w -> forall n, 0 <= gen_slices n w f < 2 ^ (Z.of_nat n * w).
Proof.
  intros Hw. induction n as [|n IH]; [cbn; lia|]. cbn [gen_slices]. rewrite Nat2Z.inj_succ. replace (Z.succ (Z.of_nat n) * w) with (w + Z.of_nat n * w) by lia.
  rewrite Z.pow_add_r by nia. pose proof (Z.mod_pos_bound (f (Z.of_nat n)) (2 ^ w) (p2 w Hw)). pose proof (p2 (Z.of_nat n * w) ltac:(nia)). nia.
Qed.

Lemma gen_sel w f : 0 <= w -> forall n k, 0 <= k < Z.of_nat n -> psel (gen_slices n w f) (k * w) w = f k mod 2 ^ w.
Proof.
  intros Hw. induction n as [|n IH]; intros k Hk; [lia|]. cbn [gen_slices]. unfold psel in *.
  pose proof (Z.mod_pos_bound (f (Z.of_nat n)) (2 ^ w) (p2 w Hw)) as HM. pose proof (gen_range w f Hw n) as HR.
  destruct (Z.eq_dec k (Z.of_nat n)) as [->|HN].
  - rewrite Z.div_add by (pose proof (p2 (Z.of_nat n * w) ltac:(nia)); lia). rewrite Z.div_small by lia. cbn [Z.add]. apply Z.mod_mod. pose proof (p2 w Hw). lia.
  - rewrite <- (IH k) by lia. replace (Z.of_nat n * w) with ((Z.of_nat n - k - 1) * w + w + k * w) by lia.
    rewrite !Z.pow_add_r by nia. rewrite !Z.mul_assoc. rewrite Z.div_add by (pose proof (p2 (k * w) ltac:(nia)); lia).
    rewrite Z.mod_add by (pose proof (p2 w Hw); lia). reflexivity.
Qed.

Lemma psel_split x a m n : 0 <= a -> 0 <= m -> 0 <= n -> psel x a (m + n) = psel x a m + psel x (a + m) n * 2 ^ m.
Proof.
  intros Ha Hm Hn. unfold psel. rewrite !Z.pow_add_r by lia. pose proof (p2 a Ha). pose proof (p2 m Hm). pose proof (p2 n Hn).
  rewrite <- Z.div_div by lia. rewrite Z.rem_mul_r by lia. lia.
Qed.
Lemma psel_range x a w : 0 <= w -> 0 <= psel x a w < 2 ^ w.
Proof. intros Hw. apply Z.mod_pos_bound. now apply p2. Qed.

Lemma bsel_01 x i : bsel x i = 0 \/ bsel x i = 1.
Proof. unfold bsel. pose proof (psel_range x i 1). lia. Qed.
Lemma bsel_testbit x i : 0 <= i -> bsel x i = (if Z.testbit x i then 1 else 0).
Proof. intros Hi. unfold bsel, psel. change (2 ^ 1) with 2. rewrite <- Z.testbit_spec' by lia. destruct (Z.testbit x i); reflexivity. Qed.

Lemma winner_join lsb lo hi m : 0 <= m -> 0 <= lo < 2 ^ m -> 0 <= hi ->
  (lo <> 0 -> (lsb = true \/ hi = 0) -> forall i, winner lsb lo i -> winner lsb (lo + hi * 2 ^ m) i) /\
  (hi <> 0 -> (lsb = false \/ lo = 0) -> forall i, winner lsb hi i -> winner lsb (lo + hi * 2 ^ m) (m + i)).
Proof.
  intros Hm Hlo Hhi.
  assert (TB : forall j, 0 <= j -> Z.testbit (lo + hi * 2 ^ m) j = if j <? m then Z.testbit lo j else Z.testbit hi (j - m)).
  { intros j Hj. rewrite <- lor_add_disjoint by assumption. rewrite Z.lor_spec, Z.shiftl_spec by lia. destruct (Z.ltb_spec j m).
    - rewrite (Z.testbit_neg_r hi) by lia. apply orb_false_r.
    - rewrite (testbit_high lo m j) by lia. reflexivity. }
  split; intros Hnz HC i (W1 & W2 & W3).
  - assert (Hi : i < m) by (destruct (Z.lt_ge_cases i m); [assumption|]; rewrite (testbit_high lo m i) in W2 by lia; discriminate).
    split; [assumption|]. split; [rewrite TB by lia; destruct (Z.ltb_spec i m); [assumption|lia]|].
    intros j Hj HT. rewrite TB in HT by lia. destruct (Z.ltb_spec j m); [apply W3; assumption|].
    destruct lsb; [lia|]. destruct HC as [HC|HC]; [discriminate|]. subst hi. rewrite Z.bits_0 in HT. discriminate.
  - split; [lia|]. split; [rewrite TB by lia; destruct (Z.ltb_spec (m + i) m); [lia|]; replace (m + i - m) with i by lia; assumption|].
    intros j Hj HT. rewrite TB in HT by lia. destruct (Z.ltb_spec j m).
    + destruct lsb; [|lia]. destruct HC as [HC|HC]; [discriminate|]. subst lo. rewrite Z.bits_0 in HT. discriminate.
    + specialize (W3 (j - m) ltac:(lia) HT). destruct lsb; lia.
Qed.

Definition pe_inv (lsb : bool) (W x k : Z) (s : Z * Z) : Prop :=
  forall n, 0 <= n < W / 2 ^ (k + 1) ->
    let b := psel x (n * 2 ^ (k + 1)) (2 ^ (k + 1)) in
    bsel (fst s) n = (if b =? 0 then 0 else 1) /\ (b <> 0 -> winner lsb b (psel (snd s) (n * (k + 1)) (k + 1))).

Lemma winner2 lsb b0 b1 : (b0 = 0 \/ b0 = 1) -> (b1 = 0 \/ b1 = 1) -> b0 + b1 * 2 <> 0 ->
  winner lsb (b0 + b1 * 2) (if lsb then (if b0 =? 0 then 1 else 0) else b1).
Proof.
  intros H0 H1 HN.
  assert (TB : forall j, 0 <= j -> Z.testbit (b0 + b1 * 2) j = true -> (j = 0 /\ b0 = 1) \/ (j = 1 /\ b1 = 1)).
  { intros j Hj HT. destruct (Z.lt_ge_cases j 2); [|rewrite (testbit_high _ 2) in HT by (change (2^2) with 4; lia); discriminate].
    assert (j = 0 \/ j = 1) as [->| ->] by lia; destruct H0, H1; subst; try discriminate HT; auto. }
  split; [destruct lsb; [destruct (b0 =? 0)|]; lia|]. split.
  - destruct H0, H1, lsb; subst; try reflexivity; lia.
  - intros j Hj HT. apply TB in HT; [|assumption]. destruct lsb; [destruct (Z.eqb_spec b0 0)|]; lia.
Qed.

Lemma pe_in_ok lsb W x : 0 < W -> pe_inv lsb W x 0 (pe_in lsb W x).
Proof.
  intros HW n Hn. cbn [Z.add] in Hn. change (2 ^ (0 + 1)) with 2 in *. cbv zeta. unfold pe_in. cbn [fst snd]. change (0 + 1) with 1.
  set (f := fun n0 : Z => if psel x (n0 * 2) 2 =? 0 then 0 else 1). set (g := fun n0 : Z => if lsb then _ else _).
  assert (E1 : psel (gen_slices (Z.to_nat (W / 2)) 1 f) (n * 1) 1 = f n mod 2 ^ 1) by (apply gen_sel; lia).
  assert (E2 : psel (gen_slices (Z.to_nat (W / 2)) 1 g) (n * 1) 1 = g n mod 2 ^ 1) by (apply gen_sel; lia).
  unfold bsel at 1. rewrite Z.mul_1_r in E1. rewrite E1, E2. unfold f, g. split.
  - destruct (psel x (n * 2) 2 =? 0); reflexivity.
  - intros HN. assert (EB : psel x (n * 2) 2 = bsel x (n * 2) + bsel x (n * 2 + 1) * 2).
    { change 2 with (1 + 1) at 2. rewrite psel_split by lia. reflexivity. }
    rewrite EB in *. rewrite Z.add_0_r. pose proof (bsel_01 x (n * 2)) as B0. pose proof (bsel_01 x (n * 2 + 1)) as B1.
    assert (EM : (if lsb then if bsel x (n * 2) =? 0 then 1 else 0 else bsel x (n * 2 + 1)) mod 2 ^ 1 = (if lsb then if bsel x (n * 2) =? 0 then 1 else 0 else bsel x (n * 2 + 1))).
    { change (2 ^ 1) with 2. destruct lsb; [destruct (bsel x (n * 2) =? 0); reflexivity|]. destruct B1 as [->| ->]; reflexivity. }
    rewrite EM. apply winner2; assumption.
Qed.

Lemma winner_lt lsb b i w : 0 <= w -> 0 <= b < 2 ^ w -> winner lsb b i -> i < w.
Proof. intros Hw Hb (H1 & H2 & _). destruct (Z.lt_ge_cases i w); [assumption|]. rewrite (testbit_high b w i) in H2 by lia. discriminate. Qed.

Lemma pe_level_ok lsb W x l s : 0 < W -> 1 <= l -> pe_inv lsb W x (l - 1) s -> pe_inv lsb W x l (pe_level lsb W l s).
Proof.
  intros HW Hl HI n Hn. destruct s as [v e]. cbv zeta. unfold pe_level. cbn [fst snd].
  set (f := fun n0 : Z => if psel v (n0 * 2) 2 =? 0 then 0 else 1). set (g := fun n0 : Z => if lsb then _ else _).
  assert (EC : 2 * 2 ^ l = 2 ^ (l + 1)) by (rewrite Z.pow_add_r by lia; lia). rewrite EC.
  assert (E1 : psel (gen_slices (Z.to_nat (W / 2 ^ (l + 1))) 1 f) (n * 1) 1 = f n mod 2 ^ 1) by (apply gen_sel; lia).
  assert (E2 : psel (gen_slices (Z.to_nat (W / 2 ^ (l + 1))) (l + 1) g) (n * (l + 1)) (l + 1) = g n mod 2 ^ (l + 1)) by (apply gen_sel; lia).
  unfold bsel at 1. rewrite Z.mul_1_r in E1. rewrite E1, E2. unfold f, g. clear E1 E2 f g.
  pose proof (p2 l ltac:(lia)) as HP.
  assert (Hn2 : 0 <= n * 2 /\ n * 2 + 1 < W / 2 ^ l).
  { split; [lia|]. rewrite <- EC in Hn. rewrite (Z.mul_comm 2), <- Z.div_div in Hn by lia. lia. }
  unfold pe_inv in HI. replace (l - 1 + 1) with l in HI by lia.
  destruct (HI (n * 2) ltac:(lia)) as (A1 & A2). destruct (HI (n * 2 + 1) ltac:(lia)) as (B1 & B2). cbn [fst snd] in *.
  set (lo := psel x (n * 2 * 2 ^ l) (2 ^ l)) in *. set (hi := psel x ((n * 2 + 1) * 2 ^ l) (2 ^ l)) in *.
  assert (EB : psel x (n * 2 ^ (l + 1)) (2 ^ (l + 1)) = lo + hi * 2 ^ (2 ^ l)).
  { rewrite <- EC. replace (2 * 2 ^ l) with (2 ^ l + 2 ^ l) at 2 by lia. rewrite psel_split by nia.
    unfold lo, hi. replace (n * (2 * 2 ^ l)) with (n * 2 * 2 ^ l) by lia. replace (n * 2 * 2 ^ l + 2 ^ l) with ((n * 2 + 1) * 2 ^ l) by lia. reflexivity. }
  assert (EV : psel v (n * 2) 2 = bsel v (n * 2) + bsel v (n * 2 + 1) * 2).
  { change 2 with (1 + 1) at 2. rewrite psel_split by lia. reflexivity. }
  pose proof (psel_range x (n * 2 * 2 ^ l) (2 ^ l) ltac:(lia)) as RL. fold lo in RL. pose proof (psel_range x ((n * 2 + 1) * 2 ^ l) (2 ^ l) ltac:(lia)) as RH. fold hi in RH.
  rewrite EB, EV. split.
  - rewrite A1, B1. pose proof (p2 (2 ^ l) ltac:(lia)). destruct (Z.eqb_spec lo 0), (Z.eqb_spec hi 0), (Z.eqb_spec (lo + hi * 2 ^ (2 ^ l)) 0); try reflexivity; nia.
  - intros HN. rewrite Z.add_0_r, A1, B1. destruct (winner_join lsb lo hi (2 ^ l) ltac:(lia) RL (proj1 RH)) as (J1 & J2).
    set (el := psel e (n * 2 * l) l) in *. set (eh := psel e ((n * 2 + 1) * l) l) in *.
    pose proof (psel_range e (n * 2 * l) l ltac:(lia)) as REL. fold el in REL. pose proof (psel_range e ((n * 2 + 1) * l) l ltac:(lia)) as REH. fold eh in REH.
    assert (ML : (0 * 2 ^ l + el) mod 2 ^ (l + 1) = el) by (rewrite Z.mod_small by (rewrite <- EC; lia); lia).
    assert (MH : (1 * 2 ^ l + eh) mod 2 ^ (l + 1) = 2 ^ l + eh) by (rewrite Z.mod_small by (rewrite <- EC; lia); lia).
    destruct lsb.
    + destruct (Z.eqb_spec lo 0) as [E0|E0].
      * assert (hi <> 0) by (intros E; rewrite E, E0 in HN; lia). change (0 =? 0) with true. cbn match. rewrite MH. apply J2; [assumption|right; assumption|apply B2; assumption].
      * change (1 =? 0) with false. cbn match. rewrite ML. apply J1; [assumption|left; reflexivity|apply A2; assumption].
    + destruct (Z.eqb_spec hi 0) as [E0|E0].
      * assert (lo <> 0) by (intros E; rewrite E, E0 in HN; lia). change (0 =? 0) with true. cbn match. rewrite ML. apply J1; [assumption|right; assumption|apply A2; assumption].
      * change (1 =? 0) with false. cbn match. rewrite MH. apply J2; [assumption|left; reflexivity|apply B2; assumption].
Qed.

Lemma pe_stage_ok lsb W x : 0 < W -> forall k, pe_inv lsb W x (Z.of_nat k) (pe_stage lsb W x k).
Proof.
  intros HW. induction k as [|k IH]; [apply pe_in_ok; assumption|]. cbn [pe_stage]. apply pe_level_ok; [assumption|lia|].
  replace (Z.of_nat (S k) - 1) with (Z.of_nat k) by lia. exact IH.
Qed.

Lemma levels_clog width : 2 <= width -> pe_levels width = clog2 width /\ 1 <= clog2 width /\ width <= 2 ^ clog2 width.
Proof.
  intros H. unfold pe_levels, clog2. pose proof (Z.log2_up_spec width ltac:(lia)). assert (1 <= Z.log2_up width) by (apply (Z.log2_up_le_mono 2 width); lia).
  destruct (Z.gtb_spec width 2); [repeat split; lia|]. assert (width = 2) by lia. subst. repeat split; cbn; lia.
Qed.

Lemma encoder_ok width lsb x : 2 <= width -> vec width x ->
  let '(v, e, u) := priority_encoder width lsb x in
  v = (if x =? 0 then 0 else 1) /\ (x <> 0 -> winner lsb x e /\ e < width /\ u = 2 ^ e).
Proof.
  intros Hw Hx. destruct (levels_clog width Hw) as (HL & H1 & HC). unfold priority_encoder, pe_w. rewrite HL.
  pose proof (pe_stage_ok lsb (2 ^ clog2 width) x (p2 (clog2 width) ltac:(lia)) (Z.to_nat (clog2 width - 1))) as HP.
  destruct (pe_stage lsb (2 ^ clog2 width) x (Z.to_nat (clog2 width - 1))) as [v e]. unfold pe_inv in HP. cbn [fst snd] in HP.
  replace (Z.of_nat (Z.to_nat (clog2 width - 1)) + 1) with (clog2 width) in HP by lia. rewrite Z.div_same in HP by (pose proof (p2 (clog2 width)); lia).
  specialize (HP 0 ltac:(lia)). cbv zeta in HP. rewrite !Z.mul_0_l in HP. unfold bsel, psel in HP. rewrite !Z.div_1_r in HP. change (2 ^ 1) with 2 in HP.
  unfold vec in Hx. assert (HS : x mod 2 ^ (2 ^ clog2 width) = x).
  { apply Z.mod_small. split; [lia|]. eapply Z.lt_le_trans; [apply Hx|]. apply Z.pow_le_mono_r; lia. }
  rewrite HS in HP. destruct HP as (P1 & P2). split; [exact P1|]. intros HN. specialize (P2 HN). pose proof (winner_lt _ _ _ width ltac:(lia) Hx P2) as HE.
  split; [assumption|]. split; [assumption|]. destruct P2 as (P2 & _). rewrite Z.shiftl_mul_pow2 by lia. rewrite Z.mul_1_l. apply Z.mod_small.
  split; [apply Z.pow_nonneg; lia|]. apply Z.pow_lt_mono_r; lia.
Qed.
