(** Bit-field lemmas over Z used by the codec proofs. *)
From Verif Require Import PyBase.
From Coq Require Import ZifyBool ZifyNat.

Lemma land_ones_small x n : 0 <= n -> 0 <= x < 2^n -> Z.land x (Z.ones n) = x.
Proof. intros Hn Hx. rewrite Z.land_ones by assumption. apply Z.mod_small; assumption. Qed.

Lemma testbit_high x n i : 0 <= x < 2^n -> 0 <= n <= i -> Z.testbit x i = false.
Proof.
  intros Hx Hi. destruct (Z.eq_dec x 0) as [->|Hx0]; [apply Z.bits_0|].
  apply Z.bits_above_log2; [lia|].
  assert (Z.log2 x < n) by (apply Z.log2_lt_pow2; lia). lia.
Qed.

(** [getf p w x]: the w-bit field of x at bit position p. *)
Definition getf (p w x : Z) : Z := Z.land (Z.shiftr x p) (Z.ones w).

Lemma getf_testbit p w x i : 0 <= p -> 0 <= w -> 0 <= i ->
  Z.testbit (getf p w x) i = (i <? w) && Z.testbit x (i + p).
Proof.
  intros Hp Hw Hi. unfold getf. rewrite Z.land_spec, Z.shiftr_spec by assumption.
  destruct (i <? w) eqn:E.
  - rewrite Z.ones_spec_low by lia. now rewrite andb_true_r.
  - rewrite Z.ones_spec_high by lia. now rewrite andb_false_r.
Qed.

Lemma getf_lor p w a b : getf p w (Z.lor a b) = Z.lor (getf p w a) (getf p w b).
Proof. unfold getf. now rewrite Z.shiftr_lor, Z.land_lor_distr_l. Qed.

Lemma getf_hit p w f : 0 <= p -> 0 <= w -> 0 <= f < 2^w -> getf p w (Z.shiftl f p) = f.
Proof.
  intros Hp Hw Hf. unfold getf. rewrite Z.shiftr_shiftl_l by lia.
  rewrite Z.sub_diag, Z.shiftl_0_r. apply land_ones_small; assumption.
Qed.

Lemma getf_hit0 w f : 0 <= w -> 0 <= f < 2^w -> getf 0 w f = f.
Proof. intros Hw Hf. unfold getf. rewrite Z.shiftr_0_r. apply land_ones_small; assumption. Qed.

(* field f of n bits placed at q lies entirely above the window *)
Lemma getf_above p w f q : 0 <= p -> 0 <= w -> p + w <= q -> getf p w (Z.shiftl f q) = 0.
Proof.
  intros Hp Hw Hq. apply Z.bits_inj'. intros i Hi. rewrite getf_testbit, Z.bits_0 by lia.
  destruct (i <? w) eqn:E; [cbn [andb]|reflexivity].
  rewrite Z.shiftl_spec by lia. apply Z.testbit_neg_r. lia.
Qed.

(* field f of n bits placed at q lies entirely below the window *)
Lemma getf_below p w f q n : 0 <= p -> 0 <= w -> 0 <= q -> 0 <= n -> 0 <= f < 2^n -> q + n <= p ->
  getf p w (Z.shiftl f q) = 0.
Proof.
  intros Hp Hw Hq Hn Hf Hqp. apply Z.bits_inj'. intros i Hi. rewrite getf_testbit, Z.bits_0 by lia.
  destruct (i <? w) eqn:E; [cbn [andb]|reflexivity].
  rewrite Z.shiftl_spec by lia. apply (testbit_high f n); lia.
Qed.

Lemma getf_below0 p w f n : 0 <= p -> 0 <= w -> 0 <= n -> 0 <= f < 2^n -> n <= p ->
  getf p w f = 0.
Proof.
  intros. rewrite <- (Z.shiftl_0_r f). apply (getf_below p w f 0 n); lia.
Qed.

Lemma getf_0 p w : getf p w 0 = 0.
Proof. unfold getf. now rewrite Z.shiftr_0_l, Z.land_0_l. Qed.

Lemma land_ones_range x n : 0 <= n -> 0 <= Z.land x (Z.ones n) < 2^n.
Proof. intros Hn. rewrite Z.land_ones by assumption. apply Z.mod_pos_bound. lia. Qed.

Lemma lor_range a b n : 0 <= n -> 0 <= a < 2^n -> 0 <= b < 2^n -> 0 <= Z.lor a b < 2^n.
Proof.
  intros Hn Ha Hb. split; [apply Z.lor_nonneg; lia|].
  destruct (Z.eq_dec (Z.lor a b) 0) as [->|H0]; [lia|].
  apply Z.log2_lt_pow2; [pose proof (Z.lor_nonneg a b); lia|].
  rewrite Z.log2_lor by lia.
  apply Z.max_lub_lt;
   (destruct (Z.eq_dec a 0) as [->|]; destruct (Z.eq_dec b 0) as [->|]);
   try (rewrite Z.lor_0_l in H0; congruence);
   try (cbn [Z.log2]); try (apply Z.log2_lt_pow2; lia).
  all: destruct (Z.eq_dec n 0) as [->|]; try lia.
Qed.

Lemma shiftl_range f q n m : 0 <= q -> 0 <= n -> 0 <= f < 2^n -> q + n <= m -> 0 <= Z.shiftl f q < 2^m.
Proof.
  intros Hq Hn Hf Hm. rewrite Z.shiftl_mul_pow2 by assumption. split; [nia|].
  assert (2^m = 2^(m-n-q) * (2^n * 2^q)) as ->
    by (rewrite <- !Z.pow_add_r by lia; f_equal; lia).
  assert (1 <= 2^(m-n-q)) by (apply (Z.pow_le_mono_r 2 0); lia).
  assert (0 < 2^q) by (apply Z.pow_pos_nonneg; lia).
  assert (f * 2^q < 2^n * 2^q) by nia. nia.
Qed.

(** Disjoint [lor] is addition. *)
Lemma lor_add_disjoint a b n : 0 <= n -> 0 <= a < 2^n -> Z.lor a (Z.shiftl b n) = a + b * 2^n.
Proof.
  intros Hn Ha. rewrite Z.shiftl_mul_pow2 by assumption.
  assert (Z.land a (b * 2^n) = 0) as HL.
  { apply Z.bits_inj'. intros i Hi. rewrite Z.land_spec, Z.bits_0.
    destruct (Z.ltb_spec i n).
    - rewrite Z.mul_pow2_bits_low by lia. apply andb_false_r.
    - rewrite (testbit_high a n) by lia. reflexivity. }
  rewrite Z.add_nocarry_lxor by assumption. symmetry.
  apply Z.bits_inj'. intros i Hi. rewrite Z.lxor_spec, Z.lor_spec.
  assert (Z.testbit (Z.land a (b * 2^n)) i = false) as HB by (rewrite HL; apply Z.bits_0).
  rewrite Z.land_spec in HB. destruct (Z.testbit a i), (Z.testbit (b * 2^n) i); easy.
Qed.

(** Masks used as literals. *)
Lemma land_low_mod x n : 0 <= n -> Z.land x (2^n - 1) = x mod 2^n.
Proof. intros Hn. rewrite <- Z.land_ones by assumption. f_equal. rewrite Z.ones_equiv. lia. Qed.

Lemma land_lnot_low x n : 0 <= n -> Z.land x (Z.lnot (2^n - 1)) = x - x mod 2^n.
Proof.
  intros Hn. replace (2^n - 1) with (Z.ones n) by (rewrite Z.ones_equiv; lia).
  assert (Z.land x (Z.lnot (Z.ones n)) = Z.ldiff x (Z.ones n)) as -> by (symmetry; apply Z.ldiff_land).
  rewrite Z.ldiff_ones_r, Z.shiftl_mul_pow2, Z.shiftr_div_pow2 by assumption.
  pose proof (Z.div_mod x (2^n)) as H. assert (2^n <> 0) by (pose proof (Z.pow_pos_nonneg 2 n); lia).
  specialize (H H0). lia.
Qed.
