(** Bits and bytes of the AXI write master (C105, C106). *)
From Verif Require Import PyBase RtlModel RtlRamModel RtlRamDemuxModel RtlAxmSpec RtlAxwModel RtlAxwSpec RtlFcProofs.

(** * Bits *)
Lemma tb_mod a n i : 0 <= n -> 0 <= i -> Z.testbit (a mod 2 ^ n) i = (i <? n) && Z.testbit a i.
Proof. intros N I. destruct (Z.ltb_spec i n); [rewrite Z.mod_pow2_bits_low by lia; reflexivity | now rewrite Z.mod_pow2_bits_high by lia]. Qed.
Lemma tb_cat hi lo w i : 0 <= w -> 0 <= lo < 2 ^ w -> 0 <= i -> Z.testbit (hi * 2 ^ w + lo) i = if i <? w then Z.testbit lo i else Z.testbit hi (i - w).
Proof.
  intros W L I. assert (P : 0 < 2 ^ w) by lia. destruct (Z.ltb_spec i w).
  - rewrite <- (Z.mod_pow2_bits_low (hi * 2 ^ w + lo) w i) by lia. rewrite (Z.add_comm _ lo), Z.mod_add by lia. now rewrite Z.mod_small.
  - replace (Z.testbit hi (i - w)) with (Z.testbit ((hi * 2 ^ w + lo) / 2 ^ w) (i - w)); [rewrite Z.div_pow2_bits by lia; f_equal; lia|].
    rewrite (Z.add_comm _ lo), Z.div_add by lia. now rewrite Z.div_small.
Qed.
Lemma tb_ones n i : 0 <= n -> 0 <= i -> Z.testbit (2 ^ n - 1) i = (i <? n).
Proof. intros N I. rewrite Z.sub_1_r, <- Z.ones_equiv. now apply Z.testbit_ones_nonneg. Qed.
Lemma tb_small v n i : 0 <= v < 2 ^ n -> 0 <= n <= i -> Z.testbit v i = false.
Proof. intros V I. rewrite <- (Z.mod_small v (2 ^ n)) by lia. apply Z.mod_pow2_bits_high. lia. Qed.
Lemma byte_eq a j b k : 0 <= j -> 0 <= k -> (forall t, 0 <= t < 8 -> Z.testbit a (8 * j + t) = Z.testbit b (8 * k + t)) -> byte a j = byte b k.
Proof.
  intros J K H. unfold byte. change 256 with (2 ^ 8). apply Z.bits_inj'. intros t T. rewrite !tb_mod by lia. destruct (Z.ltb_spec t 8); [|reflexivity].
  rewrite !Z.div_pow2_bits by lia. cbn [andb]. rewrite !(Z.add_comm t). apply H. lia.
Qed.
Lemma bit1 v i : 0 <= i -> (bsel v i =? 1) = Z.testbit v i.
Proof.
  intros I. unfold bsel, psel. rewrite Z.testbit_eqb by lia. reflexivity.
Qed.

(** * Header *)
Lemma write_eq h : bh_write h = is_write h.
Proof.
  unfold bh_write, is_write. rewrite !bit1 by lia. rewrite psel_bits by lia. cbn [andb Z.ltb Z.compare Pos.compare Pos.compare_cont]. reflexivity.
Qed.
Lemma len_eq h : bh_len h = dws h /\ 1 <= dws h <= 1024.
Proof.
  unfold bh_len, dws, fld. change (105 - 96 + 1) with 10. fold (psel h 96 10). pose proof (psel_range h 96 10 ltac:(lia)) as R. change (2 ^ 10) with 1024 in R.
  destruct (Z.eqb_spec (psel h 96 10) 0); lia.
Qed.
Lemma p_mul4 h lo k : 0 <= lo -> 0 <= k -> psel h (lo + 2) k * 4 = psel h lo (k + 2) - psel h lo 2.
Proof.
  intros L K. unfold psel. rewrite Z.pow_add_r by lia. rewrite <- Z.div_div by (try apply Z.pow_nonzero; lia).
  set (a := h / 2 ^ lo). rewrite Z.pow_add_r by lia. change (2 ^ 2) with 4. rewrite (Z.mul_comm (2 ^ k) 4). rewrite Z.rem_mul_r; [lia | lia | apply Z.pow_pos_nonneg; lia].
Qed.
Lemma waddr_eq p h : bh_addr p h = waddr p h /\ exists k, 0 <= k /\ waddr p h = 4 * k.
Proof.
  unfold bh_addr, waddr. rewrite bit1 by lia. rewrite psel_bits by lia. cbn [Z.ltb Z.compare Pos.compare Pos.compare_cont]. change (125 + 0) with 125. cbn [andb].
  rewrite orb_comm. destruct (bp_f64 p || Z.testbit h 125).
  - pose proof (p_mul4 h 0 62 ltac:(lia) ltac:(lia)) as H. change (0 + 2) with 2 in H. pose proof (psel_range h 2 62 ltac:(lia)) as R. set (k := psel h 2 62) in *. clearbody k.
    unfold psel in H. rewrite Z.pow_0_r, !Z.div_1_r in H. change (62 + 2) with 64 in H. change (2 ^ 2) with 4 in H. split; [lia|]. exists k. lia.
  - pose proof (p_mul4 h 32 30 ltac:(lia) ltac:(lia)) as H. change (32 + 2) with 34 in H. change (30 + 2) with 32 in H. pose proof (psel_range h 34 30 ltac:(lia)) as R.
    unfold fld. change (63 - 32 + 1) with 32. change (33 - 32 + 1) with 2. fold (psel h 32 32). fold (psel h 32 2). split; [lia|]. exists (psel h 34 30). lia.
Qed.

Section P.
Variable p : bw_param.
Hypothesis OK : bw_ok p.
Let W := 2 ^ bp_lw p.
Lemma W2 : 2 <= W.
Proof. destruct OK as [L _]. unfold W. replace (bp_lw p) with (bp_lw p - 1 + 1) by lia. rewrite Z.pow_add_r by lia. pose proof (Z.pow_pos_nonneg 2 (bp_lw p - 1) ltac:(lia) ltac:(lia)). lia. Qed.
Lemma SB_eq : SB p = 4 * W.
Proof. reflexivity. Qed.
(** The offset in double words. *)
Definition ofs (h : Z) : Z := (waddr p h mod SB p) / 4.
Lemma ofs_ok h : waddr p h mod SB p = 4 * ofs h /\ 0 <= ofs h < W /\ bw_o p (bh_addr p h mod 2 ^ bp_aw p) = ofs h.
Proof.
  pose proof W2 as W2. destruct OK as [L [A _]]. destruct (waddr_eq p h) as [E [k [K WA]]]. unfold ofs. rewrite E, WA, SB_eq. rewrite Z.mul_mod_distr_l by lia. rewrite (Z.mul_comm 4 (k mod W)), Z.div_mul by lia.
  pose proof (Z.mod_pos_bound k W ltac:(lia)). split; [lia|]. split; [lia|]. unfold bw_o, psel. change (2 ^ 2) with 4.
  replace (2 ^ bp_aw p) with (4 * (W * 2 ^ (bp_aw p - bp_lw p - 2))) by (unfold W; rewrite <- Z.pow_add_r by lia; change 4 with (2 ^ 2); rewrite <- Z.pow_add_r by lia; f_equal; lia).
  set (c := 2 ^ (bp_aw p - bp_lw p - 2)). assert (0 < c) by (apply Z.pow_pos_nonneg; lia). rewrite Z.mul_mod_distr_l by nia. rewrite (Z.mul_comm 4), Z.div_mul by lia. fold W.
  rewrite Z.rem_mul_r by lia. rewrite (Z.mul_comm W), Z.mod_add by lia. apply Z.mod_mod. lia.
Qed.
Lemma div4 x : 1 <= x -> (4 * x - 1) / (4 * W) = (x - 1) / W.
Proof. intros X. pose proof W2. rewrite <- Z.div_div by lia. f_equal. symmetry. apply (Z.div_unique _ _ _ 3); lia. Qed.
Lemma beats_eq h : beats_in p h = (dws h - 1) / W + 1 /\ beats_out p h = (ofs h + dws h - 1) / W + 1.
Proof.
  destruct (ofs_ok h) as [E [R _]]. destruct (len_eq h) as [_ N]. unfold beats_in, beats_out. rewrite E, SB_eq. rewrite div4 by lia. split; [reflexivity|].
  replace (4 * ofs h + 4 * dws h - 1) with (4 * (ofs h + dws h) - 1) by lia. rewrite div4 by lia. reflexivity.
Qed.
(** The beat counts. *)
Lemma beats_rel h : 1 <= beats_in p h /\ beats_in p h <= beats_out p h <= beats_in p h + 1 /\ W * (beats_out p h - 1) < ofs h + dws h <= W * beats_out p h /\ W * (beats_in p h - 1) < dws h <= W * beats_in p h.
Proof.
  destruct (beats_eq h) as [-> ->]. destruct (ofs_ok h) as [_ [R _]]. destruct (len_eq h) as [_ N]. pose proof W2.
  pose proof (Z.div_mod (dws h - 1) W ltac:(lia)). pose proof (Z.mod_pos_bound (dws h - 1) W ltac:(lia)).
  pose proof (Z.div_mod (ofs h + dws h - 1) W ltac:(lia)). pose proof (Z.mod_pos_bound (ofs h + dws h - 1) W ltac:(lia)).
  set (a := (dws h - 1) / W) in *. set (b := (ofs h + dws h - 1) / W) in *. nia.
Qed.

(** * The beat *)
Lemma strb0_bit f l : 0 <= bf_fbe f < 16 -> 0 <= bf_off f < W -> 0 <= l < SB p ->
  Z.testbit (bw_strb0 p f) l = if bf_first f then (4 * bf_off f <=? l) && (if l - 4 * bf_off f <? 4 then Z.testbit (bf_fbe f) (l - 4 * bf_off f) else true) else true.
Proof.
  intros F O L. pose proof W2 as W2. rewrite SB_eq in L. unfold bw_strb0. change (bp_s p) with (4 * W). destruct (bf_first f).
  - rewrite tb_mod by lia. replace (l <? 4 * W) with true by lia. cbn [andb]. rewrite (Z.mul_comm (bf_off f) 4). destruct (Z.leb_spec (4 * bf_off f) l).
    + rewrite Z.mul_pow2_bits by lia. rewrite tb_cat by lia. cbn [andb]. destruct (Z.ltb_spec (l - 4 * bf_off f) 4); [reflexivity|]. rewrite tb_ones by lia. lia.
    + now rewrite Z.mul_pow2_bits_low by lia.
  - rewrite tb_ones by lia. lia.
Qed.
Lemma mask_bit lbe lc l : 0 <= lbe < 16 -> 1 <= lc <= W -> 0 <= l < SB p ->
  Z.testbit ((lbe * 2 ^ (bp_s p - 4) + (2 ^ (bp_s p - 4) - 1)) / 2 ^ (bp_s p - lc * 4)) l = if l <? 4 * lc - 4 then true else if l <? 4 * lc then Z.testbit lbe (l - (4 * lc - 4)) else false.
Proof.
  intros B C L. pose proof W2 as W2. rewrite SB_eq in L. change (bp_s p) with (4 * W). rewrite Z.div_pow2_bits by lia.
  assert (P : 0 < 2 ^ (4 * W - 4)) by (apply Z.pow_pos_nonneg; lia). rewrite tb_cat by lia.
  replace (l + (4 * W - lc * 4) <? 4 * W - 4) with (l <? 4 * lc - 4) by lia. destruct (Z.ltb_spec l (4 * lc - 4)); [rewrite tb_ones by lia; lia|].
  replace (l + (4 * W - lc * 4) - (4 * W - 4)) with (l - (4 * lc - 4)) by lia. destruct (Z.ltb_spec l (4 * lc)); [reflexivity|]. apply (tb_small lbe 4); lia.
Qed.
Lemma land_rng a b n : 0 <= n -> 0 <= a < 2 ^ n -> 0 <= Z.land a b < 2 ^ n.
Proof.
  intros N A. replace (Z.land a b) with (Z.land a b mod 2 ^ n); [apply Z.mod_pos_bound; apply Z.pow_pos_nonneg; lia|].
  apply Z.bits_inj'. intros i I. rewrite tb_mod by lia. rewrite Z.land_spec. destruct (Z.ltb_spec i n); [reflexivity|]. rewrite (tb_small a n) by lia. reflexivity.
Qed.
Lemma strb_rng f : 0 <= bw_strb p f < 2 ^ SB p.
Proof.
  pose proof W2. assert (P : 0 < 2 ^ SB p) by (apply Z.pow_pos_nonneg; rewrite ?SB_eq; lia).
  assert (B : 0 <= bw_strb0 p f < 2 ^ SB p). { unfold bw_strb0. change (bp_s p) with (SB p). destruct (bf_first f); [apply Z.mod_pos_bound; lia | lia]. }
  unfold bw_strb. destruct (bf_last f && (bf_op f =? 0)); [|exact B]. apply land_rng; [rewrite SB_eq; lia | exact B].
Qed.

Record fregs (f : bw_fsm) (h k : Z) : Prop := mkFregs {
  fr_off : bf_off f = ofs h; fr_fbe : bf_fbe f = fld h 67 64; fr_lbe : bf_lbe f = (if dws h =? 1 then fld h 67 64 else fld h 71 68);
  fr_op : bf_op f = 0; fr_lco : bf_lco f = (ofs h + dws h) mod W;
  fr_first : bf_first f = (k =? 0); fr_last : bf_last f = (k =? beats_out p h - 1) }.

Lemma fld4 h lo : 0 <= fld h (lo + 3) lo < 16.
Proof. unfold fld. replace (lo + 3 - lo + 1) with 4 by lia. change 16 with (2 ^ 4). apply Z.mod_pos_bound. lia. Qed.

Lemma strb_ok f h k l : fregs f h k -> 0 <= k < beats_out p h -> 0 <= l < SB p -> Z.testbit (bw_strb p f) l = enabled h (k * SB p + l - waddr p h mod SB p).
Proof.
  intros [F1 F2 F3 F4 F5 F6 F7] K L. destruct (ofs_ok h) as [E [R _]]. destruct (len_eq h) as [_ N]. destruct (beats_rel h) as [B1 [B2 [B3 B4]]]. pose proof W2 as W2.
  pose proof (fld4 h 64) as X1. pose proof (fld4 h 68) as X2. change (64 + 3) with 67 in X1. change (68 + 3) with 71 in X2. rewrite E. rewrite SB_eq in *.
  set (n := dws h) in *. set (o := ofs h) in *. set (bo := beats_out p h) in *.
  assert (FB : 0 <= bf_fbe f < 16) by (rewrite F2; exact X1). assert (LB : 0 <= bf_lbe f < 16) by (rewrite F3; destruct (n =? 1); assumption).
  pose proof (strb0_bit f l FB ltac:(rewrite F1; exact R) ltac:(rewrite SB_eq; lia)) as S0. rewrite F1, F2, F6 in S0.
  unfold enabled. fold n. set (q := k * (4 * W) + l - 4 * o).
  assert (S1 : Z.testbit (bw_strb p f) l = Z.testbit (bw_strb0 p f) l && (if k =? bo - 1 then (if q <? 4 * n - 4 then true else if q <? 4 * n then Z.testbit (bf_lbe f) (q mod 4) else false) else true)).
  { unfold bw_strb. rewrite F4, F7. cbn [Z.eqb]. rewrite andb_true_r. destruct (Z.eqb_spec k (bo - 1)) as [KE|KE]; [|now rewrite andb_true_r]. rewrite Z.land_spec. f_equal.
    set (lc := o + n - k * W). assert (LC : 1 <= lc <= W) by (unfold lc; nia).
    assert (D : (if 0 <? bf_lco f then 2 ^ (bp_s p - bf_lco f * 4) else 1) = 2 ^ (bp_s p - lc * 4)).
    { rewrite F5. replace (o + n) with (lc + k * W) by (unfold lc; lia). rewrite Z.mod_add by lia. destruct (Z.eq_dec lc W) as [LE|LE].
      - rewrite LE, Z.mod_same by lia. cbn [Z.ltb Z.compare]. change (bp_s p) with (4 * W). replace (4 * W - W * 4) with 0 by lia. reflexivity.
      - rewrite Z.mod_small by lia. now replace (0 <? lc) with true by lia. }
    rewrite D, mask_bit; [|exact LB|exact LC|rewrite SB_eq; lia].
    assert (QL : q - 4 * n = l - 4 * lc) by (unfold q, lc; lia).
    replace (q <? 4 * n - 4) with (l <? 4 * lc - 4) by lia. replace (q <? 4 * n) with (l <? 4 * lc) by lia. destruct (Z.ltb_spec l (4 * lc - 4)); [reflexivity|]. destruct (Z.ltb_spec l (4 * lc)); [|reflexivity].
    f_equal. apply (Z.mod_unique q 4 (n - 1)); lia. }
  rewrite S1, S0. clear S1 S0.
  assert (KL : k <> bo - 1 -> q < 4 * n - 4). { intros. unfold q. nia. }
  destruct (Z.eqb_spec k 0) as [K0|K0].
  - subst k. replace (4 * o <=? l) with (negb (q <? 0)) by (unfold q; lia). replace (l - 4 * o) with q by (unfold q; lia). destruct (Z.ltb_spec q 0); [reflexivity|]. cbn [negb andb].
    destruct (Z.ltb_spec q 4) as [Q4|Q4].
    + destruct (Z.eqb_spec 0 (bo - 1)) as [KE|KE]; [|now rewrite andb_true_r]. destruct (Z.ltb_spec q (4 * n - 4)); [now rewrite andb_true_r|]. assert (N1 : n = 1) by lia. replace (q <? 4 * n) with true by lia.
      rewrite F3. replace (n =? 1) with true by lia. rewrite Z.mod_small by lia. now rewrite andb_diag.
    + cbn [andb]. destruct (Z.eqb_spec 0 (bo - 1)) as [KE|KE]; [|specialize (KL KE); now replace (q <? 4 * n - 4) with true by lia].
      destruct (Z.ltb_spec q (4 * n - 4)); [reflexivity|]. destruct (Z.ltb_spec q (4 * n)); [|reflexivity]. rewrite F3. replace (n =? 1) with false by lia. reflexivity.
  - assert (Q4 : 4 <= q). { unfold q. nia. } replace (q <? 0) with false by lia. replace (q <? 4) with false by lia. cbn [andb].
    destruct (Z.eqb_spec k (bo - 1)) as [KE|KE]; [|specialize (KL KE); now replace (q <? 4 * n - 4) with true by lia].
    destruct (Z.ltb_spec q (4 * n - 4)); [reflexivity|]. destruct (Z.ltb_spec q (4 * n)); [|reflexivity]. rewrite F3. replace (n =? 1) with false by lia. reflexivity.
Qed.

Lemma beat_ok f h ins k save rx : fregs f h k -> 0 <= k < beats_out p h ->
  (exists d, nth_error ins (Z.to_nat (k - 1)) = Some d /\ save = d mod 2 ^ (32 * W)) -> (0 < k < beats_in p h -> nth_error ins (Z.to_nat k) = Some rx) ->
  beat_is p (mkJob h ins k) (mkBb (bw_data p f save rx) (bw_strb p f) (bf_last f)).
Proof.
  intros F K [d [D SV]] RX. pose proof W2 as W2. destruct (ofs_ok h) as [E [R _]]. destruct (len_eq h) as [_ N]. destruct (beats_rel h) as [B1 [B2 [B3 B4]]].
  split; [|split; [cbn [bb_strb]; apply strb_rng | cbn [bb_last jb_k jb_h]; apply (fr_last f h k F)]].
  cbn [bb_strb bb_data jb_k jb_h jb_in]. intros l L. cbn zeta. split; [now apply strb_ok|]. rewrite E. intros EN. rewrite SB_eq in *. set (q := k * (4 * W) + l - 4 * ofs h) in *.
  assert (Q : 0 <= q < 4 * dws h). { unfold enabled in EN. destruct (Z.ltb_spec q 0); [discriminate|]. destruct (Z.ltb_spec q 4); [lia|]. destruct (Z.ltb_spec q (4 * dws h - 4)); [lia|]. destruct (Z.ltb_spec q (4 * dws h)); [lia | discriminate]. }
  assert (WP : 0 < 2 ^ (32 * W)) by (apply Z.pow_pos_nonneg; lia). assert (SR : 0 <= save < 2 ^ (32 * W)) by (subst save; apply Z.mod_pos_bound; lia).
  assert (SBT : forall i, 0 <= i < 32 * W -> Z.testbit save i = Z.testbit d i). { intros i I. subst save. rewrite tb_mod by lia. now replace (i <? 32 * W) with true by lia. }
  unfold bw_data. rewrite (fr_off f h k F), (fr_first f h k F). change (bp_w p) with W. set (o := ofs h) in *.
  destruct (Z.eqb_spec k 0) as [K0|K0].
  - subst k. replace (q / (4 * W)) with 0 by (symmetry; apply Z.div_small; lia). replace (q mod (4 * W)) with q by (symmetry; apply Z.mod_small; lia). exists d. split; [exact D|].
    apply byte_eq; try lia. intros t T. rewrite tb_mod by lia. replace (8 * l + t <? 32 * W) with true by lia. cbn [andb]. rewrite Z.div_pow2_bits by lia. rewrite Z.mul_pow2_bits by lia.
    rewrite SBT by lia. f_equal. unfold q. lia.
  - assert (TB : forall t, 0 <= t < 8 -> Z.testbit (((rx * 2 ^ (32 * W) + save) / 2 ^ ((W - o) * 32)) mod 2 ^ (32 * W)) (8 * l + t) = if l <? 4 * o then Z.testbit save (8 * (4 * W + l - 4 * o) + t) else Z.testbit rx (8 * (l - 4 * o) + t)).
    { intros t T. rewrite tb_mod by lia. replace (8 * l + t <? 32 * W) with true by lia. cbn [andb]. rewrite Z.div_pow2_bits by lia. rewrite tb_cat by lia. 
      destruct (Z.ltb_spec l (4 * o)).
      - replace (8 * l + t + (W - o) * 32 <? 32 * W) with true by lia. f_equal. lia.
      - replace (8 * l + t + (W - o) * 32 <? 32 * W) with false by lia. f_equal. lia. }
    destruct (Z.ltb_spec l (4 * o)) as [LO|LO].
    + assert (QD : q / (4 * W) = k - 1 /\ q mod (4 * W) = 4 * W + l - 4 * o). { split; symmetry; [apply (Z.div_unique q _ _ (4 * W + l - 4 * o)) | apply (Z.mod_unique q _ (k - 1))]; unfold q; lia. }
      destruct QD as [-> ->]. exists d. split; [exact D|]. apply byte_eq; try lia. intros t T. rewrite TB by lia. apply SBT. lia.
    + assert (QD : q / (4 * W) = k /\ q mod (4 * W) = l - 4 * o). { split; symmetry; [apply (Z.div_unique q _ _ (l - 4 * o)) | apply (Z.mod_unique q _ k)]; unfold q; lia. }
      destruct QD as [-> ->]. exists rx. split; [apply RX; split; [lia|]; unfold q in *; nia|]. apply byte_eq; try lia. intros t T. now rewrite TB by lia.
Qed.
End P.
