From Verif Require Import PyBase BitLemmas TlpModel TlpProofs BarModel BarSpec.
From Coq Require Import ZifyBool ZifyNat Znumtheory.
Ltac Zify.zify_post_hook ::= Z.div_mod_to_equations.

(** Register file of a layout. *)
Lemma pow2_split k : 0 <= k -> 0 < 2^k.
Proof. intros; apply Z.pow_pos_nonneg; lia. Qed.

Lemma himask_bit n k i : 0 <= k <= n -> 0 <= i ->
  Z.testbit (2^n - 2^k) i = (k <=? i) && (i <? n).
Proof.
  intros Hk Hi.
  assert (2^n - 2^k = Z.shiftl (Z.ones (n-k)) k) as ->.
  { rewrite Z.shiftl_mul_pow2, Z.ones_equiv by lia.
    replace n with (n - k + k) at 1 by lia. rewrite Z.pow_add_r by lia. unfold Z.pred. ring. }
  rewrite Z.shiftl_spec by lia.
  destruct (Z.leb_spec k i); cbn [andb]; [|apply Z.testbit_neg_r; lia].
  rewrite Z.testbit_ones by lia. lia.
Qed.

Lemma land_himask a n k : 0 <= k <= n -> 0 <= a < 2^n -> Z.land a (2^n - 2^k) = a - a mod 2^k.
Proof.
  intros Hk Ha. rewrite <- land_lnot_low by lia.
  apply Z.bits_inj'. intros i Hi. rewrite !Z.land_spec, himask_bit, Z.lnot_spec by lia.
  replace (2^k - 1) with (Z.ones k) by (rewrite Z.ones_equiv; lia).
  rewrite Z.testbit_ones by lia.
  destruct (Z.ltb_spec i n).
  - f_equal. lia.
  - rewrite (testbit_high a n) by lia. reflexivity.
Qed.

Lemma land_lnot_himask a n k : 0 <= k <= n -> 0 <= a < 2^n -> Z.land a (Z.lnot (2^n - 2^k)) = a mod 2^k.
Proof.
  intros Hk Ha. rewrite <- Z.land_ones by lia.
  apply Z.bits_inj'. intros i Hi. rewrite !Z.land_spec, Z.lnot_spec, himask_bit, Z.testbit_ones by lia.
  destruct (Z.ltb_spec i n).
  - f_equal. lia.
  - rewrite (testbit_high a n) by lia. reflexivity.
Qed.

Lemma land_low16 x m : 0 <= m < 16 -> Z.land x m = Z.land (x mod 16) m.
Proof.
  intros Hm. change 16 with (2^4). rewrite <- Z.land_ones, <- Z.land_assoc by lia.
  f_equal. rewrite Z.land_comm. symmetry. apply land_ones_small; [lia|exact Hm].
Qed.

Lemma mod_pow_le b k j : 0 <= j <= k -> b mod 2^k = 0 -> b mod 2^j = 0.
Proof.
  intros Hj Hb. apply Z.mod_divide in Hb; [|pose proof (pow2_split k); lia].
  apply Z.mod_divide; [pose proof (pow2_split j); lia|].
  apply Z.divide_trans with (2^k); [|assumption].
  exists (2^(k-j)). rewrite <- Z.pow_add_r by lia. f_equal; lia.
Qed.

Lemma window_eqb b k a : 0 <= k -> b mod 2^k = 0 -> (a - a mod 2^k =? b) = in_window b k a.
Proof.
  intros Hk Hb. unfold in_window. pose proof (pow2_split k Hk) as HP.
  set (p := 2^k) in *. clearbody p.
  pose proof (Z.div_mod a p ltac:(lia)) as Ea. pose proof (Z.mod_pos_bound a p HP) as Ra.
  pose proof (Z.div_mod b p ltac:(lia)) as Eb.
  set (qa := a / p) in *. set (ra := a mod p) in *. set (qb := b / p) in *.
  assert (Hd : qa = qb \/ qa <= qb - 1 \/ qb + 1 <= qa) by lia.
  destruct Hd as [->|[Hd|Hd]]; [lia| |];
    (assert (p * qa <= p * (qb - 1) \/ p * (qb + 1) <= p * qa) by
      (first [left; apply Z.mul_le_mono_nonneg_l; lia | right; apply Z.mul_le_mono_nonneg_l; lia]));
    lia.
Qed.

Lemma window_off b k a : 0 <= k -> b mod 2^k = 0 -> in_window b k a = true -> a mod 2^k = a - b.
Proof. intros Hk Hb H. rewrite <- window_eqb in H by assumption. lia. Qed.

(** decode of one register value against one mask *)
Lemma match_reg n k b f a : 0 <= k <= n -> 0 <= b < 2^n -> b mod 2^k = 0 -> 0 <= f < 2^k -> 0 <= a < 2^n ->
  (Z.land a (2^n - 2^k) =? Z.land (b + f) (2^n - 2^k)) = in_window b k a.
Proof.
  intros Hk Hb Hbm Hf Ha. pose proof (pow2_split k ltac:(lia)) as HP.
  assert (HF : (b + f) mod 2^k = f).
  { rewrite Z.add_mod, Hbm, Z.add_0_l, Z.mod_mod by lia. apply Z.mod_small; lia. }
  assert (HB : b + f < 2^n).
  { assert (2^n mod 2^k = 0).
    { replace n with (n - k + k) by lia. rewrite Z.pow_add_r by lia. apply Z.mod_mul. lia. }
    apply Z.mod_divide in Hbm; [|lia]. apply Z.mod_divide in H; [|lia].
    destruct Hbm as [q Hq], H as [r Hr]. assert (q < r) by nia. nia. }
  rewrite !land_himask by lia. rewrite HF. replace (b + f - f) with b by lia. now apply window_eqb.
Qed.

Lemma himask_neq0 n k : 0 <= k < n -> (2^n - 2^k =? 0) = false.
Proof. intros H. pose proof (Z.pow_lt_mono_r 2 k n ltac:(lia)). lia. Qed.

Lemma bar_flags b f k m : 4 <= k -> b mod 2^k = 0 -> 0 <= f < 16 -> 0 <= m < 16 -> Z.land (b + f) m = Z.land f m.
Proof.
  intros Hk Hb Hf Hm. rewrite land_low16 by assumption.
  pose proof (mod_pow_le b k 4 ltac:(lia) Hb) as H. change (2^4) with 16 in H.
  f_equal. lia.
Qed.

(** address range served by a layout: 32-bit for everything except 64-bit BARs *)
Lemma pow2_ge16 k : 4 <= k -> 16 <= 2^k.
Proof. intros. change 16 with (2^4). apply Z.pow_le_mono_r; lia. Qed.

Lemma match_bar_loop_spec L : forall i addr io, Forall bar_ok L -> addr_ok L addr ->
  match_bar_loop i (flat_map reg_bars L) (flat_map reg_masks L) addr io = Ok (spec_match i L addr io).
Proof.
  induction L as [|e L IH]; intros i addr io HL Ha; [reflexivity|].
  inversion HL as [|? ? He HL']; subst.
  assert (Ha' : addr_ok L addr).
  { destruct Ha as (H1 & H2). split; [assumption|]. intros H e' He'. apply (H2 H). now right. }
  specialize (IH (i + bar_slots e) addr io HL' Ha').
  destruct Ha as (Ha1 & Ha2).
  destruct e as [|k b|k b pf|k b pf]; cbn [flat_map reg_bars reg_masks app bar_slots] in *;
    cbn [match_bar_loop spec_match bar_slots].
  - cbn [Z.eqb]. exact IH.
  - destruct He as (Hk & Hb & Hbm).
    assert (Ha3 : addr < 2^32).
    { destruct (Z.ltb_spec addr (2^32)); [assumption|]. exfalso. exact (Ha2 ltac:(lia) (BIo k b) (or_introl eq_refl)). }
    rewrite himask_neq0 by lia.
    assert (Z.land (b + 1) 1 = 1) as ->.
    { change 1 with (Z.ones 1) at 2. rewrite Z.land_ones by lia. change (2^1) with 2.
      pose proof (mod_pow_le b k 1 ltac:(lia) Hbm) as H. change (2^1) with 2 in H. lia. }
    cbn [Z.eqb negb]. rewrite IH. cbn [bind].
    rewrite match_reg; try lia.
    + rewrite land_lnot_himask by lia. destruct io; cbn [andb]; [|reflexivity].
      destruct (in_window b k addr) eqn:E; [|reflexivity].
      rewrite (window_off b k addr) by (lia || assumption). reflexivity.
    + pose proof (Z.pow_le_mono_r 2 2 k ltac:(lia)). change (2^2) with 4 in *. lia.
  - destruct He as (Hk & Hb & Hbm).
    assert (Ha3 : addr < 2^32).
    { destruct (Z.ltb_spec addr (2^32)); [assumption|]. exfalso. exact (Ha2 ltac:(lia) (BMem32 k b pf) (or_introl eq_refl)). }
    rewrite himask_neq0 by lia.
    set (f := if pf then 8 else 0). assert (Hf : f = 0 \/ f = 8) by (subst f; destruct pf; auto).
    rewrite (bar_flags b f k 1), (bar_flags b f k 4) by lia.
    assert (Z.land f 1 = 0) as -> by (destruct Hf as [-> | ->]; reflexivity).
    assert (Z.land f 4 = 0) as -> by (destruct Hf as [-> | ->]; reflexivity).
    cbn [Z.eqb negb]. rewrite IH. cbn [bind]. pose proof (pow2_ge16 k ltac:(lia)).
    rewrite match_reg by lia.
    rewrite land_lnot_himask by lia. destruct io; cbn [andb negb]; [reflexivity|].
    destruct (in_window b k addr) eqn:E; [|reflexivity].
    rewrite (window_off b k addr) by (lia || assumption). reflexivity.
  - destruct He as (Hk & Hb & Hbm).
    rewrite himask_neq0 by lia.
    set (f := if pf then 8 else 0). assert (Hf : f = 0 \/ f = 8) by (subst f; destruct pf; auto).
    assert (Hbm' : (b mod 2^32) mod 2^k = 0).
    { rewrite <- (Znumtheory.Zmod_div_mod (2^k) (2^32)); [assumption|apply pow2_split; lia|lia|].
      exists (2^(32-k)). rewrite <- Z.pow_add_r by lia. f_equal; lia. }
    rewrite <- !Z.add_assoc. rewrite (bar_flags _ (4 + f) k 1), (bar_flags _ (4 + f) k 4) by lia.
    assert (Z.land (4 + f) 1 = 0) as -> by (destruct Hf as [-> | ->]; reflexivity).
    assert (Z.land (4 + f) 4 = 4) as -> by (destruct Hf as [-> | ->]; reflexivity).
    cbn [Z.eqb negb]. rewrite IH. cbn [bind]. pose proof (pow2_ge16 k ltac:(lia)).
    pose proof (Z.pow_le_mono_r 2 k 31 ltac:(lia) ltac:(lia)) as Hk31. change (2^31) with 2147483648 in Hk31.
    assert (Hlow : b mod 2^32 + (4 + f) < 2^32).
    { (* b mod 2^32 is a multiple of 2^k >= 16 *)
      pose proof (mod_pow_le _ k 4 ltac:(lia) Hbm') as H16. change (2^4) with 16 in H16.
      pose proof (Z.mod_pos_bound b (2^32) ltac:(lia)). change (2^32) with 4294967296 in *. lia. }
    pose proof (Z.mod_pos_bound b (2^32) ltac:(lia)) as Hlow0.
    rewrite (lor_add_disjoint (b mod 2^32 + (4 + f)) (b / 2^32) 32) by lia.
    rewrite (lor_add_disjoint (2^32 - 2^k) (2^32 - 1) 32) by lia.
    replace (2^32 - 2^k + (2^32 - 1) * 2^32) with (2^64 - 2^k)
      by (change (2^64) with (2^32 * 2^32); ring).
    replace (b mod 2^32 + (4 + f) + b / 2^32 * 2^32) with (b + (4 + f))
      by (pose proof (Z.div_mod b (2^32) ltac:(lia)); lia).
    rewrite match_reg by lia.
    rewrite land_lnot_himask by lia. destruct io; cbn [andb negb]; [reflexivity|].
    destruct (in_window b k addr) eqn:E; [|reflexivity].
    rewrite (window_off b k addr) by (lia || assumption). reflexivity.
Qed.



(** ---- programming ---- *)
Lemma bits_range v n : 0 <= n -> (forall i, n <= i -> Z.testbit v i = false) -> 0 <= v < 2^n.
Proof.
  intros Hn H. assert (v = v mod 2^n) as ->; [|apply Z.mod_pos_bound; apply pow2_split; lia].
  rewrite <- Z.land_ones by lia. apply Z.bits_inj'. intros i Hi.
  rewrite Z.land_spec, Z.testbit_ones by lia.
  destruct (Z.ltb_spec i n).
  - rewrite andb_comm. replace (0 <=? i) with true by lia. reflexivity.
  - rewrite H by lia. reflexivity.
Qed.

Lemma mod_mod_pow a k n : 0 <= k <= n -> a mod 2^k = (a mod 2^n) mod 2^k.
Proof.
  intros Hk. apply Zmod_div_mod; [apply pow2_split; lia|apply pow2_split; lia|].
  exists (2^(n-k)). rewrite <- Z.pow_add_r by lia. f_equal; lia.
Qed.

Lemma land_mod32 a k : 0 <= k <= 32 -> Z.land a (2^32 - 2^k) = Z.land (a mod 2^32) (2^32 - 2^k).
Proof.
  intros Hk. apply Z.bits_inj'. intros i Hi. rewrite !Z.land_spec, himask_bit by lia.
  destruct (Z.ltb_spec i 32); [rewrite Z.mod_pow2_bits_low by lia; reflexivity|]. now rewrite !andb_false_r.
Qed.
Lemma land_not_mod32 a k : 0 <= k <= 32 -> Z.land a (Z.lnot (2^32 - 2^k)) = a - a mod 2^32 + a mod 2^k.
Proof.
  intros Hk. pose proof (pow2_split k ltac:(lia)) as HP.
  rewrite (Z.div_mod a (2^32)) at 2 by lia.
  replace (2^32 * (a / 2^32) + a mod 2^32 - a mod 2^32 + a mod 2^k) with (a mod 2^k + (a / 2^32) * 2^32) by ring.
  assert (2^k <= 2^32) by (apply Z.pow_le_mono_r; lia). pose proof (Z.mod_pos_bound a (2^k) HP).
  rewrite <- (lor_add_disjoint (a mod 2^k) (a / 2^32) 32) by lia.
  apply Z.bits_inj'. intros i Hi. rewrite Z.land_spec, Z.lnot_spec, Z.lor_spec, himask_bit by lia.
  destruct (Z.ltb_spec i 32).
  - rewrite Z.shiftl_spec_low by lia. rewrite orb_false_r, andb_true_r.
    destruct (Z.leb_spec k i); cbn [negb].
    + rewrite Z.mod_pow2_bits_high by lia. apply andb_false_r.
    + rewrite Z.mod_pow2_bits_low by lia. apply andb_true_r.
  - rewrite Z.shiftl_spec by lia. rewrite <- Z.shiftr_div_pow2, Z.shiftr_spec by lia. replace (i - 32 + 32) with i by lia.
    rewrite andb_false_r. cbn [negb]. rewrite andb_true_r. rewrite (Z.mod_pow2_bits_high a k i) by lia. reflexivity.
Qed.
Lemma match_bar_loop_exact L : forall i addr io, Forall bar_ok L -> 0 <= addr < 2^64 ->
  match_bar_loop i (flat_map reg_bars L) (flat_map reg_masks L) addr io = Ok (real_match i L addr io).
Proof.
  induction L as [|e L IH]; intros i addr io HL Ha; [reflexivity|].
  inversion HL as [|? ? He HL']; subst.
  specialize (IH (i + bar_slots e) addr io HL' Ha).
  destruct e as [|k b|k b pf|k b pf]; cbn [flat_map reg_bars reg_masks app bar_slots] in *;
    cbn [match_bar_loop real_match bar_slots bar_hit get_base].
  - cbn [Z.eqb]. exact IH.
  - destruct He as (Hk & Hb & Hbm).
    rewrite (land_mod32 addr k), (land_not_mod32 addr k) by lia. pose proof (Z.mod_pos_bound addr (2^32) ltac:(lia)) as Ha3. set (a := addr mod 2^32) in *.
    rewrite himask_neq0 by lia.
    assert (Z.land (b + 1) 1 = 1) as ->.
    { change 1 with (Z.ones 1) at 2. rewrite Z.land_ones by lia. change (2^1) with 2.
      pose proof (mod_pow_le b k 1 ltac:(lia) Hbm) as H. change (2^1) with 2 in H. lia. }
    cbn [Z.eqb negb]. rewrite IH. cbn [bind].
    rewrite match_reg; try lia.
    + destruct io; cbn [andb]; [|reflexivity].
      destruct (in_window b k a) eqn:E; [|reflexivity].
      rewrite (mod_mod_pow addr k 32) by lia. fold a. rewrite (window_off b k a) by (lia || assumption).
      do 3 f_equal. lia.
    + pose proof (Z.pow_le_mono_r 2 2 k ltac:(lia)). change (2^2) with 4 in *. lia.
  - destruct He as (Hk & Hb & Hbm).
    rewrite (land_mod32 addr k), (land_not_mod32 addr k) by lia. pose proof (Z.mod_pos_bound addr (2^32) ltac:(lia)) as Ha3. set (a := addr mod 2^32) in *.
    rewrite himask_neq0 by lia.
    set (f := if pf then 8 else 0). assert (Hf : f = 0 \/ f = 8) by (subst f; destruct pf; auto).
    rewrite (bar_flags b f k 1), (bar_flags b f k 4) by lia.
    assert (Z.land f 1 = 0) as -> by (destruct Hf as [-> | ->]; reflexivity).
    assert (Z.land f 4 = 0) as -> by (destruct Hf as [-> | ->]; reflexivity).
    cbn [Z.eqb negb]. rewrite IH. cbn [bind]. pose proof (pow2_ge16 k ltac:(lia)).
    rewrite match_reg by lia.
    destruct io; cbn [andb negb]; [reflexivity|].
    destruct (in_window b k a) eqn:E; [|reflexivity].
    rewrite (mod_mod_pow addr k 32) by lia. fold a. rewrite (window_off b k a) by (lia || assumption).
    do 3 f_equal. lia.
  - destruct He as (Hk & Hb & Hbm).
    rewrite himask_neq0 by lia.
    set (f := if pf then 8 else 0). assert (Hf : f = 0 \/ f = 8) by (subst f; destruct pf; auto).
    assert (Hbm' : (b mod 2^32) mod 2^k = 0).
    { rewrite <- (Znumtheory.Zmod_div_mod (2^k) (2^32)); [assumption|apply pow2_split; lia|lia|].
      exists (2^(32-k)). rewrite <- Z.pow_add_r by lia. f_equal; lia. }
    rewrite <- !Z.add_assoc. rewrite (bar_flags _ (4 + f) k 1), (bar_flags _ (4 + f) k 4) by lia.
    assert (Z.land (4 + f) 1 = 0) as -> by (destruct Hf as [-> | ->]; reflexivity).
    assert (Z.land (4 + f) 4 = 4) as -> by (destruct Hf as [-> | ->]; reflexivity).
    cbn [Z.eqb negb]. rewrite IH. cbn [bind]. pose proof (pow2_ge16 k ltac:(lia)).
    pose proof (Z.pow_le_mono_r 2 k 31 ltac:(lia) ltac:(lia)) as Hk31. change (2^31) with 2147483648 in Hk31.
    assert (Hlow : b mod 2^32 + (4 + f) < 2^32).
    { (* b mod 2^32 is a multiple of 2^k >= 16 *)
      pose proof (mod_pow_le _ k 4 ltac:(lia) Hbm') as H16. change (2^4) with 16 in H16.
      pose proof (Z.mod_pos_bound b (2^32) ltac:(lia)). change (2^32) with 4294967296 in *. lia. }
    pose proof (Z.mod_pos_bound b (2^32) ltac:(lia)) as Hlow0.
    rewrite (lor_add_disjoint (b mod 2^32 + (4 + f)) (b / 2^32) 32) by lia.
    rewrite (lor_add_disjoint (2^32 - 2^k) (2^32 - 1) 32) by lia.
    replace (2^32 - 2^k + (2^32 - 1) * 2^32) with (2^64 - 2^k)
      by (change (2^64) with (2^32 * 2^32); ring).
    replace (b mod 2^32 + (4 + f) + b / 2^32 * 2^32) with (b + (4 + f))
      by (pose proof (Z.div_mod b (2^32) ltac:(lia)); lia).
    rewrite match_reg by lia.
    rewrite land_lnot_himask by lia. destruct io; cbn [andb negb]; [reflexivity|].
    destruct (in_window b k addr) eqn:E; [|reflexivity].
    rewrite (window_off b k addr) by (lia || assumption). reflexivity.
Qed.

Lemma write_reg k old mask data : 0 <= k <= 32 -> 0 <= old < 2^32 -> 0 <= mask ->
  exists v, byte_mask_update old mask data (2^32 - 2^k) = Ok v /\ 0 <= v < 2^32 /\
    v mod 2^k = old mod 2^k /\
    (mask = 15 -> v - v mod 2^k = data mod 2^32 - data mod 2^k).
Proof.
  intros Hk Ho Hm. destruct (byte_mask_update_spec old mask data (2^32 - 2^k) Hm) as (v & Hv & Hb).
  exists v. split; [exact Hv|]. split; [|split].
  - apply bits_range; [lia|]. intros i Hi. rewrite Hb, himask_bit by lia.
    replace (i <? 32) with false by lia. rewrite andb_false_r.
    rewrite (testbit_high old 32) by lia. destruct (Z.testbit mask (i/8)); reflexivity.
  - rewrite <- !Z.land_ones by lia. apply Z.bits_inj'. intros i Hi.
    rewrite !Z.land_spec, Hb, himask_bit, Z.testbit_ones by lia.
    destruct (Z.ltb_spec i k).
    + replace (k <=? i) with false by lia. cbn [andb].
      destruct (Z.testbit mask (i/8)); reflexivity.
    + rewrite !andb_false_r. reflexivity.
  - intros ->.
    assert (E : v - v mod 2^k = Z.land v (2^32 - 2^k)).
    { symmetry; apply land_himask; [lia|]. apply bits_range; [lia|]. intros i Hi. rewrite Hb, himask_bit by lia.
      replace (i <? 32) with false by lia. rewrite andb_false_r.
      rewrite (testbit_high old 32) by lia. destruct (Z.testbit 15 (i/8)); reflexivity. }
    rewrite E, (mod_mod_pow data k 32) by lia.
    rewrite <- (land_himask (data mod 2^32) 32 k); [|lia|apply Z.mod_pos_bound; lia].
    apply Z.bits_inj'. intros i Hi. rewrite !Z.land_spec, Hb, himask_bit by lia.
      rewrite <- Z.land_ones, Z.land_spec, Z.testbit_ones by lia.
      destruct (Z.leb_spec k i); cbn [andb]; [|now rewrite !andb_false_r].
      destruct (Z.ltb_spec i 32); cbn [andb]; [|now rewrite !andb_false_r].
      rewrite andb_true_r. replace (0 <=? i) with true by lia.
      assert (0 <= i/8 < 4) as Hi8 by lia. revert Hi8. generalize (i/8). intros j Hj.
      assert (Z.testbit 15 j = true) as -> by (sweep4 j; reflexivity). cbn [andb]. now rewrite ?andb_true_r.
Qed.

Lemma upd_app A x B v : upd (A ++ x :: B) (zlen A) v = A ++ v :: B.
Proof.
  unfold upd, zlen. rewrite Nat2Z.id, firstn_app, Nat.sub_diag, firstn_all, firstn_O, app_nil_r.
  f_equal. f_equal. rewrite skipn_app. replace (S (length A) - length A)%nat with 1%nat by lia.
  rewrite skipn_all2 by lia. reflexivity.
Qed.
Lemma item_app A x B : item (A ++ x :: B) (zlen A) = x.
Proof. unfold item, zlen. rewrite Nat2Z.id, app_nth2, Nat.sub_diag by lia. reflexivity. Qed.
Lemma upd_app1 A x y B v : upd (A ++ x :: y :: B) (zlen A + 1) v = A ++ x :: v :: B.
Proof.
  replace (A ++ x :: y :: B) with ((A ++ [x]) ++ y :: B) by (rewrite <- app_assoc; reflexivity).
  replace (zlen A + 1) with (zlen (A ++ [x])) by (unfold zlen; rewrite app_length; cbn [length]; lia).
  rewrite upd_app, <- app_assoc. reflexivity.
Qed.
Lemma item_app1 A x y B : item (A ++ x :: y :: B) (zlen A + 1) = y.
Proof.
  replace (A ++ x :: y :: B) with ((A ++ [x]) ++ y :: B) by (rewrite <- app_assoc; reflexivity).
  replace (zlen A + 1) with (zlen (A ++ [x])) by (unfold zlen; rewrite app_length; cbn [length]; lia).
  apply item_app.
Qed.

Lemma slots_bars A : slots A = zlen (flat_map reg_bars A).
Proof.
  induction A as [|e A IH]; [reflexivity|]. cbn [slots fold_right flat_map]. rewrite zlen_app.
  unfold slots in IH. rewrite IH. f_equal. destruct e; reflexivity.
Qed.
Lemma slots_masks A : slots A = zlen (flat_map reg_masks A).
Proof.
  induction A as [|e A IH]; [reflexivity|]. cbn [slots fold_right flat_map]. rewrite zlen_app.
  unfold slots in IH. rewrite IH. f_equal. destruct e; reflexivity.
Qed.

Lemma land_lo_hi j lo : 0 <= j <= 32 -> 0 <= lo <= 32 ->
  Z.land (2^32 - 2^lo) (Z.lnot (2^j - 1)) = 2^32 - 2^(Z.max lo j).
Proof.
  intros Hj Hlo. apply Z.bits_inj'. intros i Hi.
  rewrite Z.land_spec, Z.lnot_spec, !himask_bit by lia.
  replace (2^j - 1) with (Z.ones j) by (rewrite Z.ones_equiv; lia).
  rewrite Z.testbit_ones by lia. lia.
Qed.

Lemma land_hi j : 0 <= j <= 32 -> Z.land 0xffffffff (Z.shiftr (Z.lnot (2^j - 1)) 32) = 2^32 - 1.
Proof.
  intros Hj. apply Z.bits_inj'. intros i Hi.
  change 0xffffffff with (Z.ones 32). change (2^32 - 1) with (Z.ones 32).
  rewrite Z.land_spec, Z.shiftr_spec, Z.lnot_spec by lia.
  replace (2^j - 1) with (Z.ones j) by (rewrite Z.ones_equiv; lia).
  rewrite !Z.testbit_ones by lia. lia.
Qed.

Lemma log2_up_range size n : 0 < size -> size <= 2^n -> 0 <= n -> 0 <= Z.log2_up size <= n.
Proof.
  intros H1 H2 Hn. split; [apply Z.log2_up_nonneg|].
  rewrite <- (Z.log2_up_pow2 n) by assumption. apply Z.log2_up_le_mono; assumption.
Qed.

Lemma configure_io A B size : 0 < size <= 2^31 ->
  configure_bar (regs_of (A ++ BNone :: B)) (slots A) size false false true =
  Ok (regs_of (A ++ BIo (Z.max 2 (Z.log2_up size)) 0 :: B)).
Proof.
  intros Hs. pose proof (log2_up_range size 31 ltac:(lia) ltac:(lia) ltac:(lia)) as HL.
  unfold configure_bar, regs_of. replace (size <=? 0) with false by lia.
  cbn [b_bar b_mask]. rewrite !flat_map_app. cbn [flat_map reg_bars reg_masks app].
  rewrite (slots_bars A). replace (zlen (flat_map reg_bars A) >=? zlen (flat_map reg_bars A ++ 0 :: flat_map reg_bars B)) with false
    by (rewrite zlen_app; unfold zlen; cbn [length]; lia).
  cbn [orb andb]. rewrite upd_app. rewrite <- (slots_bars A), (slots_masks A), upd_app.
  unfold size_mask. change 0xfffffffc with (2^32 - 2^2). rewrite land_lo_hi by lia. reflexivity.
Qed.

Lemma configure_mem32 A B size pf : 0 < size <= 2^31 ->
  configure_bar (regs_of (A ++ BNone :: B)) (slots A) size false pf false =
  Ok (regs_of (A ++ BMem32 (Z.max 4 (Z.log2_up size)) 0 pf :: B)).
Proof.
  intros Hs. pose proof (log2_up_range size 31 ltac:(lia) ltac:(lia) ltac:(lia)) as HL.
  unfold configure_bar, regs_of. replace (size <=? 0) with false by lia.
  cbn [b_bar b_mask]. rewrite !flat_map_app. cbn [flat_map reg_bars reg_masks app].
  rewrite (slots_bars A). replace (zlen (flat_map reg_bars A) >=? zlen (flat_map reg_bars A ++ 0 :: flat_map reg_bars B)) with false
    by (rewrite zlen_app; unfold zlen; cbn [length]; lia).
  cbn [orb andb]. rewrite upd_app, item_app. change (Z.lor 0 8) with 8.
  unfold size_mask. change 0xfffffff0 with (2^32 - 2^4). rewrite land_lo_hi by lia.
  destruct pf; rewrite ?upd_app; rewrite <- (slots_bars A), (slots_masks A), upd_app; reflexivity.
Qed.

Lemma configure_mem64 A B size pf : 0 < size <= 2^31 ->
  configure_bar (regs_of (A ++ BNone :: BNone :: B)) (slots A) size true pf false =
  Ok (regs_of (A ++ BMem64 (Z.max 4 (Z.log2_up size)) 0 pf :: B)).
Proof.
  intros Hs. pose proof (log2_up_range size 31 ltac:(lia) ltac:(lia) ltac:(lia)) as HL.
  unfold configure_bar, regs_of. replace (size <=? 0) with false by lia.
  cbn [b_bar b_mask]. rewrite !flat_map_app. cbn [flat_map reg_bars reg_masks app].
  rewrite (slots_bars A).
  replace (zlen (flat_map reg_bars A) >=? zlen (flat_map reg_bars A ++ 0 :: 0 :: flat_map reg_bars B)) with false
    by (rewrite zlen_app; unfold zlen; cbn [length]; lia).
  replace (zlen (flat_map reg_bars A) + 1 >=? zlen (flat_map reg_bars A ++ 0 :: 0 :: flat_map reg_bars B)) with false
    by (rewrite zlen_app; unfold zlen; cbn [length]; lia).
  cbn [orb andb]. rewrite !upd_app, !item_app. change (Z.lor 0 4) with 4.
  rewrite ?upd_app, upd_app1.
  unfold size_mask. change 0xfffffff0 with (2^32 - 2^4). rewrite land_lo_hi by lia. rewrite land_hi by lia.
  destruct pf; rewrite ?item_app, ?upd_app; change (Z.lor 4 8) with 12;
    rewrite <- (slots_bars A), (slots_masks A), upd_app, upd_app1; reflexivity.
Qed.

(** A configuration write to a BAR register moves the window and nothing else. *)
Ltac regs_eq := rewrite !flat_map_app; cbn [flat_map reg_bars reg_masks app];
  apply (f_equal Ok); f_equal; apply (f_equal (fun x => _ ++ x));
  repeat (apply (f_equal2 (@cons Z))); try reflexivity; try lia.
Lemma write_bar_low A e B data mask : bar_ok e -> 0 <= mask -> e <> BNone ->
  exists b' : Z, write_bar (regs_of (A ++ e :: B)) (slots A) data mask = Ok (regs_of (A ++ set_base e b' :: B)) /\
    bar_ok (set_base e b') /\ b' / 2^32 = get_base e / 2^32 /\
    (mask = 15 -> b' mod 2^32 = data mod 2^32 - data mod 2^(get_k e)).
Proof.
  intros He Hm Hn. unfold write_bar, regs_of. cbn [b_bar b_mask]. rewrite !flat_map_app. cbn [flat_map].
  rewrite (slots_bars A).
  destruct e as [|k b|k b pf|k b pf]; [congruence| | |]; cbn [reg_bars reg_masks app set_base get_base get_k];
    destruct He as (Hk & Hb & Hbm); pose proof (pow2_split k ltac:(lia)) as HP;
    rewrite item_app, <- (slots_bars A), (slots_masks A), item_app, <- (slots_masks A), (slots_bars A).
  - assert (Hr : 0 <= b + 1 < 2^32).
    { pose proof (mod_pow_le b k 1 ltac:(lia) Hbm) as H. change (2^1) with 2 in H. change (2^32) with 4294967296 in *. lia. }
    assert (H2k : 4 <= 2^k) by (change 4 with (2^2); apply Z.pow_le_mono_r; lia).
    destruct (write_reg k (b + 1) mask data ltac:(lia) Hr Hm) as (v & Hv & Hvr & Hvm & Hfull).
    rewrite Hv. cbn [bind]. rewrite upd_app.
    assert (Ho : (b + 1) mod 2^k = 1) by (rewrite Z.add_mod, Hbm, Z.add_0_l, Z.mod_mod by lia; apply Z.mod_small; lia).
    exists (v - v mod 2^k). rewrite Hvm, Ho in *.
    split; [regs_eq|].
    assert (Hge : 1 <= v).
    { destruct (Z.eq_dec v 0); [|lia]. subst v. rewrite Z.mod_0_l in Hvm by lia. lia. }
    split; [|split].
    + repeat split; try lia. rewrite Zminus_mod, Hvm. rewrite (Z.mod_small 1) by lia. reflexivity.
    + rewrite !Z.div_small by lia. reflexivity.
    + intros E. rewrite Z.mod_small by lia. auto.
  - set (f := if pf then 8 else 0). assert (Hf : 0 <= f <= 8) by (subst f; destruct pf; lia).
    pose proof (pow2_ge16 k ltac:(lia)) as H2k.
    assert (Hr : 0 <= b + f < 2^32).
    { pose proof (mod_pow_le b k 4 ltac:(lia) Hbm) as H. change (2^4) with 16 in H. change (2^32) with 4294967296 in *. lia. }
    destruct (write_reg k (b + f) mask data ltac:(lia) Hr Hm) as (v & Hv & Hvr & Hvm & Hfull).
    rewrite Hv. cbn [bind]. rewrite upd_app.
    assert (Ho : (b + f) mod 2^k = f) by (rewrite Z.add_mod, Hbm, Z.add_0_l, Z.mod_mod by lia; apply Z.mod_small; lia).
    exists (v - v mod 2^k). rewrite Hvm, Ho in *.
    split; [regs_eq; subst f; lia|].
    assert (Hge : f <= v) by (rewrite <- Hvm; apply Z.mod_le; lia).
    split; [|split].
    + repeat split; try lia. rewrite Zminus_mod, Hvm. rewrite (Z.mod_small f) by lia. rewrite Z.sub_diag. apply Z.mod_0_l; lia.
    + rewrite !Z.div_small by lia. reflexivity.
    + intros E. rewrite Z.mod_small by lia. auto.
  - set (f := 4 + if pf then 8 else 0). assert (Hf : 0 <= f <= 12) by (subst f; destruct pf; lia).
    pose proof (pow2_ge16 k ltac:(lia)) as H2k.
    rewrite <- !Z.add_assoc. fold f.
    pose proof (Z.mod_pos_bound b (2^32) ltac:(lia)) as Hlow.
    assert (Hbm' : (b mod 2^32) mod 2^k = 0) by (rewrite <- mod_mod_pow by lia; assumption).
    assert (Hr : 0 <= b mod 2^32 + f < 2^32).
    { pose proof (mod_pow_le _ k 4 ltac:(lia) Hbm') as H. change (2^4) with 16 in H. change (2^32) with 4294967296 in *. lia. }
    destruct (write_reg k (b mod 2^32 + f) mask data ltac:(lia) Hr Hm) as (v & Hv & Hvr & Hvm & Hfull).
    rewrite Hv. cbn [bind]. rewrite upd_app.
    assert (Ho : (b mod 2^32 + f) mod 2^k = f) by (rewrite Z.add_mod, Hbm', Z.add_0_l, Z.mod_mod by lia; apply Z.mod_small; lia).
    rewrite Hvm, Ho in *.
    assert (Hge : f <= v) by (rewrite <- Hvm; apply Z.mod_le; lia).
    exists (b / 2^32 * 2^32 + (v - f)).
    assert (Em : (b / 2^32 * 2^32 + (v - f)) mod 2^32 = v - f)
      by (rewrite Z.add_comm, Z.mod_add by lia; apply Z.mod_small; lia).
    assert (Ed : (b / 2^32 * 2^32 + (v - f)) / 2^32 = b / 2^32)
      by (rewrite Z.add_comm, Z.div_add by lia; rewrite Z.div_small by lia; lia).
    split; [regs_eq; subst f; lia|]. rewrite Em, Ed.
    split; [|split].
    + pose proof (Z.div_mod b (2^32) ltac:(lia)). repeat split; try lia.
      * rewrite (mod_mod_pow _ k 32) by lia. rewrite Em, Zminus_mod, Hvm.
        rewrite (Z.mod_small f) by lia. rewrite Z.sub_diag. apply Z.mod_0_l; lia.
    + reflexivity.
    + auto.
Qed.

Lemma write_bar_high A k b pf B data mask : bar_ok (BMem64 k b pf) -> 0 <= mask ->
  exists b', write_bar (regs_of (A ++ BMem64 k b pf :: B)) (slots A + 1) data mask = Ok (regs_of (A ++ BMem64 k b' pf :: B)) /\
    bar_ok (BMem64 k b' pf) /\ b' mod 2^32 = b mod 2^32 /\
    (mask = 15 -> b' / 2^32 = data mod 2^32).
Proof.
  intros (Hk & Hb & Hbm) Hm. unfold write_bar, regs_of. cbn [b_bar b_mask]. rewrite !flat_map_app. cbn [flat_map].
  rewrite (slots_bars A). cbn [reg_bars reg_masks app].
  rewrite item_app1, <- (slots_bars A), (slots_masks A), item_app1, <- (slots_masks A), (slots_bars A).
  assert (Hd : 0 <= b / 2^32 < 2^32).
  { split; [apply Z.div_pos; lia|]. apply Z.div_lt_upper_bound; [lia|]. change (2^32*2^32) with (2^64). lia. }
  change (2^32 - 1) with (2^32 - 2^0).
  destruct (write_reg 0 (b / 2^32) mask data ltac:(lia) Hd Hm) as (v & Hv & Hvr & _ & Hfull).
  rewrite Hv. cbn [bind]. rewrite upd_app1.
  exists (v * 2^32 + b mod 2^32). pose proof (Z.mod_pos_bound b (2^32) ltac:(lia)) as Hlow.
  assert (Em : (v * 2^32 + b mod 2^32) mod 2^32 = b mod 2^32)
    by (rewrite Z.add_comm, Z.mod_add by lia; apply Z.mod_small; lia).
  assert (Ed : (v * 2^32 + b mod 2^32) / 2^32 = v)
    by (rewrite Z.add_comm, Z.div_add by lia; rewrite Z.div_small by lia; lia).
  split; [regs_eq; now rewrite ?Em, ?Ed|]. rewrite Em, Ed. split; [|split].
  - repeat split; try lia. 
    rewrite (mod_mod_pow _ k 32) by lia. rewrite Em, <- mod_mod_pow by lia. assumption.
  - reflexivity.
  - intros E. specialize (Hfull E). change (2^0) with 1 in Hfull. rewrite !Z.mod_1_r in Hfull. lia.
Qed.

(** ---- refutation witnesses ---- *)
Lemma match_alias_witness : exists L addr, Forall bar_ok L /\ 0 <= addr < 2^64 /\
  match_bar (regs_of L) addr false <> Ok (spec_match 0 L addr false).
Proof.
  exists [BMem32 12 0x1000 false], (2^32 + 0x1000). split; [|split; [lia|]].
  - constructor; [cbn; lia|constructor].
  - vm_compute. discriminate.
Qed.

Lemma match_index_ge vals : forall masks i addr io r, match_bar_loop i vals masks addr io = Ok r ->
  forall p, In p r -> i <= fst p.
Proof.
  assert (forall n vals, (length vals <= n)%nat -> forall masks i addr io r,
    match_bar_loop i vals masks addr io = Ok r -> forall p, In p r -> i <= fst p) as HH;
    [|intros; eapply (HH (length vals)); eauto].
  induction n as [|n IH]; intros [|v vs] Hl [|m ms] i addr io r H p Hp; cbn [length match_bar_loop] in *;
    try (injection H as <-; destruct Hp); try lia.
  destruct (m =? 0).
  { specialize (IH vs ltac:(lia) _ _ _ _ _ H p Hp). lia. }
  destruct (negb (Z.land v 1 =? 0)).
  { destruct (match_bar_loop (i+1) vs ms addr io) as [r'|] eqn:E; [|discriminate]. cbn [bind] in H.
    destruct (_ && _); injection H as <-; [destruct Hp as [<-|Hp]; [cbn; lia|]|];
      specialize (IH vs ltac:(lia) _ _ _ _ _ E p Hp); lia. }
  destruct (negb (Z.land v 4 =? 0)).
  { destruct vs as [|hv vs]; [discriminate|]. destruct ms as [|hm ms]; [discriminate|].
    destruct (match_bar_loop (i+2) vs ms addr io) as [r'|] eqn:E; [|discriminate]. cbn [bind] in H. cbn [length] in Hl.
    destruct (_ && _); injection H as <-; [destruct Hp as [<-|Hp]; [cbn; lia|]|];
      specialize (IH vs ltac:(lia) _ _ _ _ _ E p Hp); lia. }
  { destruct (match_bar_loop (i+1) vs ms addr io) as [r'|] eqn:E; [|discriminate]. cbn [bind] in H.
    destruct (_ && _); injection H as <-; [destruct Hp as [<-|Hp]; [cbn; lia|]|];
      specialize (IH vs ltac:(lia) _ _ _ _ _ E p Hp); lia. }
Qed.

Lemma dead_masks vals hm : forall lo hi m1 m2 b1 b2 addr r, 0 <= m1 -> 0 <= m2 ->
    write_bar (mkBars vals (0 :: hm)) 0 lo m1 = Ok b1 -> write_bar b1 1 hi m2 = Ok b2 ->
    match_bar b2 addr false = Ok r -> forall off, ~ In (0, off) r.
Proof.
  intros lo hi m1 m2 b1 b2 addr r Hm1 Hm2 H1 H2 H3 off Hin.
  assert (HMk : b_mask b2 = 0 :: hm).
  { unfold write_bar in H1, H2. destruct (byte_mask_update _ m1 lo _); [|discriminate]. cbn [bind] in H1. injection H1 as <-.
    destruct (byte_mask_update _ m2 hi _); [|discriminate]. cbn [bind] in H2. injection H2 as <-.
    reflexivity. }
  unfold match_bar in H3. rewrite HMk in H3.
  destruct (b_bar b2) as [|v vs] eqn:Eb; cbn [match_bar_loop] in H3; [injection H3 as <-; destruct Hin|].
  change (0 =? 0) with true in H3. cbv iota in H3.
  pose proof (match_index_ge _ _ _ _ _ _ H3 _ Hin) as HG. cbn in HG. lia.
Qed.

(** A 64-bit BAR larger than 2 GiB never matches, whatever is programmed. *)
Lemma big_bar_dead size pf : 2^31 < size <= 2^64 ->
  exists b, configure_bar (mkBars [0;0;0;0;0;0] [0;0;0;0;0;0]) 0 size true pf false = Ok b /\
  forall lo hi m1 m2 b1 b2 addr r, 0 <= m1 -> 0 <= m2 ->
    write_bar b 0 lo m1 = Ok b1 -> write_bar b1 1 hi m2 = Ok b2 ->
    match_bar b2 addr false = Ok r -> forall off, ~ In (0, off) r.
Proof.
  intros Hs. unfold configure_bar. replace (size <=? 0) with false by lia.
  change (0 >=? zlen [0;0;0;0;0;0]) with false. change (0 + 1 >=? zlen [0;0;0;0;0;0]) with false.
  cbn [orb andb b_bar b_mask].
  assert (HM : Z.land 0xfffffff0 (Z.lnot (size_mask size)) = 0).
  { unfold size_mask. assert (Hj : 32 <= Z.log2_up size).
    { assert (31 < Z.log2_up size); [|lia].
      rewrite <- (Z.log2_up_pow2 31) by lia. apply Z.lt_nge. intros Hc.
      pose proof (Z.log2_up_spec size ltac:(lia)) as [_ HU].
      rewrite Z.log2_up_pow2 in Hc by lia.
      pose proof (Z.pow_le_mono_r 2 (Z.log2_up size) 31 ltac:(lia) Hc). lia. }
    apply Z.bits_inj'. intros i Hi. rewrite Z.land_spec, Z.lnot_spec, Z.bits_0 by lia.
    replace (2 ^ Z.log2_up size - 1) with (Z.ones (Z.log2_up size)) by (rewrite Z.ones_equiv; lia).
    rewrite Z.testbit_ones by lia.
    destruct (Z.ltb_spec i 32).
    - replace (i <? Z.log2_up size) with true by lia. replace (0 <=? i) with true by lia. cbn. apply andb_false_r.
    - rewrite (testbit_high _ 32) by (cbn; lia). reflexivity. }
  rewrite HM. set (hm := Z.land 0xffffffff _). clearbody hm.
  destruct pf; (eexists; split; [reflexivity|]; apply dead_masks).
Qed.

(** ---- sizing ---- *)
Lemma read_low A e B : read_bar (regs_of (A ++ e :: B)) (slots A) = nth 0 (reg_bars e) 0.
Proof.
  unfold read_bar, regs_of. cbn [b_bar]. rewrite flat_map_app. cbn [flat_map]. rewrite (slots_bars A).
  destruct e; cbn [reg_bars app nth]; apply item_app.
Qed.
Lemma read_high A k b pf B : read_bar (regs_of (A ++ BMem64 k b pf :: B)) (slots A + 1) = b / 2^32.
Proof.
  unfold read_bar, regs_of. cbn [b_bar]. rewrite flat_map_app. cbn [flat_map]. rewrite (slots_bars A).
  cbn [reg_bars app]. apply item_app1.
Qed.

Lemma ones_mod k : 0 <= k <= 32 -> 0xffffffff mod 2^32 - 0xffffffff mod 2^k = 2^32 - 2^k.
Proof.
  intros Hk. change (0xffffffff mod 2^32) with (2^32 - 1).
  assert (0xffffffff mod 2^k = 2^k - 1); [|lia].
  change 0xffffffff with (Z.ones 32). rewrite <- Z.land_ones by lia.
  replace (2^k - 1) with (Z.ones k) by (rewrite Z.ones_equiv; lia).
  apply Z.bits_inj'. intros i Hi. rewrite Z.land_spec, !Z.testbit_ones by lia. lia.
Qed.

Lemma pow2_mod16 k : 4 <= k <= 32 -> (2^32 - 2^k) mod 16 = 0 /\ 16 <= 2^k.
Proof.
  intros Hk. split; [|apply pow2_ge16; lia].
  replace (2^k) with (2^(k-4) * 16) by (change 16 with (2^4); rewrite <- Z.pow_add_r by lia; f_equal; lia).
  change (2^32) with (268435456 * 16). rewrite <- Z.mul_sub_distr_r. apply Z.mod_mul. lia.
Qed.

Lemma sizing_mem32 A k b pf B : bar_ok (BMem32 k b pf) ->
  exists r, write_bar (regs_of (A ++ BMem32 k b pf :: B)) (slots A) 0xffffffff 15 = Ok r /\
    let v := read_bar r (slots A) in
    v mod 16 = (if pf then 8 else 0) /\ 2^32 - (v - v mod 16) = 2^k.
Proof.
  intros He. destruct (write_bar_low A _ B 0xffffffff 15 He ltac:(lia) ltac:(discriminate)) as (b' & Hw & Hok & Hd & Hf).
  eexists; split; [exact Hw|]. cbv zeta. rewrite read_low. cbn [set_base reg_bars nth].
  specialize (Hf eq_refl). cbn [get_k] in Hf. destruct He as (Hk & _). cbn [set_base bar_ok] in Hok.
  rewrite ones_mod in Hf by lia. rewrite Z.mod_small in Hf by lia. subst b'.
  destruct (pow2_mod16 k ltac:(lia)) as (H16 & Hge). destruct pf; lia.
Qed.

Lemma sizing_io A k b B : bar_ok (BIo k b) ->
  exists r, write_bar (regs_of (A ++ BIo k b :: B)) (slots A) 0xffffffff 15 = Ok r /\
    let v := read_bar r (slots A) in
    v mod 4 = 1 /\ 2^32 - (v - v mod 4) = 2^k.
Proof.
  intros He. destruct (write_bar_low A _ B 0xffffffff 15 He ltac:(lia) ltac:(discriminate)) as (b' & Hw & Hok & Hd & Hf).
  eexists; split; [exact Hw|]. cbv zeta. rewrite read_low. cbn [set_base reg_bars nth].
  specialize (Hf eq_refl). cbn [get_k] in Hf. destruct He as (Hk & _). cbn [set_base bar_ok] in Hok.
  rewrite ones_mod in Hf by lia. rewrite Z.mod_small in Hf by lia. subst b'.
  assert (H4 : (2^32 - 2^k) mod 4 = 0).
  { replace (2^k) with (2^(k-2) * 4) by (change 4 with (2^2); rewrite <- Z.pow_add_r by lia; f_equal; lia).
    change (2^32) with (1073741824 * 4). rewrite <- Z.mul_sub_distr_r. apply Z.mod_mul. lia. }
  lia.
Qed.

Lemma sizing_mem64 A k b pf B : bar_ok (BMem64 k b pf) ->
  exists r1 r2, write_bar (regs_of (A ++ BMem64 k b pf :: B)) (slots A) 0xffffffff 15 = Ok r1 /\
    write_bar r1 (slots A + 1) 0xffffffff 15 = Ok r2 /\
    let lo := read_bar r2 (slots A) in let hi := read_bar r2 (slots A + 1) in
    lo mod 16 = 4 + (if pf then 8 else 0) /\ 2^64 - (hi * 2^32 + (lo - lo mod 16)) = 2^k.
Proof.
  intros He. destruct (write_bar_low A _ B 0xffffffff 15 He ltac:(lia) ltac:(discriminate)) as (b' & Hw & Hok & Hd & Hf).
  cbn [set_base] in *.
  destruct (write_bar_high A k b' pf B 0xffffffff 15 Hok ltac:(lia)) as (b2 & Hw2 & Hok2 & Hlo2 & Hhi2).
  eexists; eexists; split; [exact Hw|]. split; [exact Hw2|]. cbv zeta. rewrite read_low, read_high. cbn [reg_bars nth].
  specialize (Hf eq_refl). specialize (Hhi2 eq_refl). cbn [get_k] in Hf. destruct He as (Hk & _).
  rewrite ones_mod in Hf by lia. rewrite Hlo2, Hhi2, Hf.
  change (0xffffffff mod 2^32) with (2^32 - 1).
  destruct (pow2_mod16 k ltac:(lia)) as (H16 & Hge).
  change (2^64) with (2^32 * 2^32). destruct pf; lia.
Qed.

(** ---- arbitrary programming histories ---- *)
Lemma write_none A B data mask : 0 <= mask ->
  write_bar (regs_of (A ++ BNone :: B)) (slots A) data mask = Ok (regs_of (A ++ BNone :: B)).
Proof.
  intros Hm. unfold write_bar, regs_of. cbn [b_bar b_mask]. rewrite !flat_map_app. cbn [flat_map].
  rewrite (slots_bars A). cbn [reg_bars reg_masks app].
  rewrite item_app, <- (slots_bars A), (slots_masks A), item_app, <- (slots_masks A), (slots_bars A).
  destruct (byte_mask_update_spec 0 mask data 0 Hm) as (r & -> & Hr). cbn [bind]. rewrite upd_app.
  replace r with 0; [reflexivity|]. apply Z.bits_inj'. intros i Hi. rewrite Hr by assumption.
  rewrite Z.bits_0. now destruct (Z.testbit mask (i/8)).
Qed.

Lemma slots_app A B : slots (A ++ B) = slots A + slots B.
Proof. unfold slots. induction A as [|e A IH]; cbn [app fold_right]; lia. Qed.
Lemma slots_nonneg A : 0 <= slots A.
Proof. unfold slots. induction A as [|[] A IH]; cbn [app fold_right bar_slots]; lia. Qed.

Lemma slot_find L : forall idx, 0 <= idx < slots L -> exists A e B, L = A ++ e :: B /\
  (idx = slots A \/ (idx = slots A + 1 /\ bar_slots e = 2)).
Proof.
  induction L as [|e L IH]; intros idx Hi; [cbn in Hi; lia|].
  change (slots (e :: L)) with (bar_slots e + slots L) in Hi.
  destruct (Z.eqb_spec idx 0) as [->|Hn]; [exists [], e, L; auto|].
  destruct (Z.ltb_spec idx (bar_slots e)).
  - exists [], e, L; split; [reflexivity|]. right. destruct e; cbn in *; lia.
  - destruct (IH (idx - bar_slots e) ltac:(lia)) as (A & e' & B & -> & HH).
    exists (e :: A), e', B. split; [reflexivity|]. change (slots (e :: A)) with (bar_slots e + slots A). lia.
Qed.

Lemma shape_set e b : bar_shape (set_base e b) = bar_shape e.
Proof. now destruct e. Qed.

Lemma write_bar_any L idx data mask : Forall bar_ok L -> 0 <= idx < slots L -> 0 <= mask ->
  exists L', write_bar (regs_of L) idx data mask = Ok (regs_of L') /\ Forall bar_ok L' /\ map bar_shape L' = map bar_shape L.
Proof.
  intros HL Hi Hm. destruct (slot_find L idx Hi) as (A & e & B & -> & HH).
  apply Forall_app in HL as (HA & HB). inversion HB as [|? ? He HB']; subst.
  destruct HH as [->|(-> & H2)].
  - assert (e = BNone \/ e <> BNone) as [->|Hn] by (destruct e; [now left|right; discriminate..]).
    + exists (A ++ BNone :: B). split; [now apply write_none|]. split; [|reflexivity]. apply Forall_app; split; [assumption|constructor; assumption].
    + destruct (write_bar_low A e B data mask He Hm Hn) as (b' & HW & HO & _).
      eexists; split; [exact HW|]. split; [apply Forall_app; split; [assumption|constructor; assumption]|].
      rewrite !map_app. cbn [map]. now rewrite shape_set.
  - destruct e as [| | |k b pf]; try (cbn in H2; lia).
    destruct (write_bar_high A k b pf B data mask He Hm) as (b' & HW & HO & _).
    eexists; split; [exact HW|]. split; [apply Forall_app; split; [assumption|constructor; assumption]|].
    rewrite !map_app. reflexivity.
Qed.

Lemma write_bars_any ops : forall L, Forall bar_ok L ->
  Forall (fun op => 0 <= fst (fst op) < slots L /\ 0 <= snd op) ops ->
  exists L', write_bars (regs_of L) ops = Ok (regs_of L') /\ Forall bar_ok L' /\ map bar_shape L' = map bar_shape L.
Proof.
  induction ops as [|[[idx data] mask] ops IH]; intros L HL HO; [now exists L|].
  inversion HO as [|? ? (H1 & H2) HO']; subst. cbn [fst snd] in *.
  destruct (write_bar_any L idx data mask HL H1 H2) as (L1 & HW & HL1 & HS). cbn [write_bars].
  rewrite HW. cbn [bind].
  assert (HSl : slots L1 = slots L).
  { clear -HS. revert L HS. induction L1 as [|e L1 IH]; intros [|e' L] HS; try discriminate; [reflexivity|].
    cbn [map] in HS. injection HS as He HS. change (bar_slots e + slots L1 = bar_slots e' + slots L).
    rewrite (IH L HS). destruct e, e'; try discriminate; reflexivity. }
  destruct (IH L1 HL1) as (L2 & HW2 & HL2 & HS2).
  { rewrite HSl. assumption. }
  exists L2. rewrite HS2. auto.
Qed.

Lemma match_after_writes L ops : Forall bar_ok L ->
  Forall (fun op => 0 <= fst (fst op) < slots L /\ 0 <= snd op) ops ->
  exists b L', write_bars (regs_of L) ops = Ok b /\ Forall bar_ok L' /\ map bar_shape L' = map bar_shape L /\
    (forall i, 0 <= i < slots L -> read_bar b i = nth (Z.to_nat i) (flat_map reg_bars L') 0) /\
    forall addr io, addr_ok L' addr -> match_bar b addr io = Ok (spec_match 0 L' addr io).
Proof.
  intros HL HO. destruct (write_bars_any ops L HL HO) as (L' & HW & HL' & HS).
  exists (regs_of L'), L'. repeat split; auto.
  intros addr io HA. now apply match_bar_loop_spec.
Qed.

Lemma match_after_writes_exact L ops : Forall bar_ok L ->
  Forall (fun op => 0 <= fst (fst op) < slots L /\ 0 <= snd op) ops ->
  exists b L', write_bars (regs_of L) ops = Ok b /\ Forall bar_ok L' /\ map bar_shape L' = map bar_shape L /\
    (forall i, 0 <= i < slots L -> read_bar b i = nth (Z.to_nat i) (flat_map reg_bars L') 0) /\
    forall addr io, 0 <= addr < 2^64 -> match_bar b addr io = Ok (real_match 0 L' addr io).
Proof.
  intros HL HO. destruct (write_bars_any ops L HL HO) as (L' & HW & HL' & HS).
  exists (regs_of L'), L'. repeat split; auto.
  intros addr io HA. now apply match_bar_loop_exact.
Qed.

(** Programming: two full writes of a 64-bit BAR put its window at the written
    address (rounded down to the window size). *)
Lemma program_mem64 A k b pf B v : bar_ok (BMem64 k b pf) -> 0 <= v < 2^64 ->
  write_bars (regs_of (A ++ BMem64 k b pf :: B)) [((slots A, v mod 2^32), 15); ((slots A + 1, v / 2^32), 15)] =
  Ok (regs_of (A ++ BMem64 k (v - v mod 2^k) pf :: B)).
Proof.
  intros He Hv. cbn [write_bars].
  destruct (write_bar_low A _ B (v mod 2^32) 15 He ltac:(lia) ltac:(discriminate)) as (b' & Hw & Hok & Hd & Hf).
  cbn [set_base] in *. rewrite Hw. cbn [bind].
  destruct (write_bar_high A k b' pf B (v / 2^32) 15 Hok ltac:(lia)) as (b2 & Hw2 & Hok2 & Hlo2 & Hhi2).
  rewrite Hw2. cbn [bind]. do 4 f_equal. specialize (Hf eq_refl). specialize (Hhi2 eq_refl). cbn [get_k] in Hf.
  destruct He as (Hk & _). f_equal.
  rewrite Z.mod_mod in Hf by lia. rewrite <- (mod_mod_pow v k 32) in Hf by lia.
  rewrite (Z.div_mod b2 (2^32)) by lia. rewrite Hlo2, Hhi2, Hf.
  rewrite (Z.mod_small (v / 2^32)) by lia. lia.
Qed.

Lemma program_mem32 A k b pf B v : bar_ok (BMem32 k b pf) -> 0 <= v < 2^32 ->
  write_bars (regs_of (A ++ BMem32 k b pf :: B)) [((slots A, v), 15)] =
  Ok (regs_of (A ++ BMem32 k (v - v mod 2^k) pf :: B)).
Proof.
  intros He Hv. cbn [write_bars].
  destruct (write_bar_low A _ B v 15 He ltac:(lia) ltac:(discriminate)) as (b' & Hw & Hok & Hd & Hf).
  cbn [set_base] in *. rewrite Hw. cbn [bind]. do 4 f_equal. f_equal. specialize (Hf eq_refl). cbn [get_k] in Hf.
  destruct Hok as (Hk & Hb & _).
  rewrite (Z.mod_small b'), (Z.mod_small v) in Hf by lia. lia.
Qed.
Lemma program_io A k b B v : bar_ok (BIo k b) -> 0 <= v < 2^32 ->
  write_bars (regs_of (A ++ BIo k b :: B)) [((slots A, v), 15)] =
  Ok (regs_of (A ++ BIo k (v - v mod 2^k) :: B)).
Proof.
  intros He Hv. cbn [write_bars].
  destruct (write_bar_low A _ B v 15 He ltac:(lia) ltac:(discriminate)) as (b' & Hw & Hok & Hd & Hf).
  cbn [set_base] in *. rewrite Hw. cbn [bind]. do 4 f_equal. f_equal. specialize (Hf eq_refl). cbn [get_k] in Hf.
  destruct Hok as (Hk & Hb & _).
  rewrite (Z.mod_small b'), (Z.mod_small v) in Hf by lia. lia.
Qed.

Lemma configure_refuses L idx size ext pf io : 0 < size -> slots L < idx + (if ext : bool then 2 else 1) ->
  configure_bar (regs_of L) idx size ext pf io = Err (PyException 1716).
Proof.
  intros Hs H. unfold configure_bar, regs_of. replace (size <=? 0) with false by lia. cbn [b_bar b_mask]. rewrite <- slots_bars.
  replace ((idx >=? slots L) || ext && (idx + 1 >=? slots L)) with true by (destruct ext; lia). reflexivity.
Qed.
