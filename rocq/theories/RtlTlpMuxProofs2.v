(** Lemmas on the TLP multiplexer (C92): bits of the full vectors and the registers of one port. *)
From Verif Require Import PyBase RtlModel RtlProofs RtlFcProofs RtlMuxModel RtlTlpMuxModel RtlRamDemuxSpec RtlTlpMuxSpec RtlTlpMuxProofs.
From Coq Require Import Lia.

Definition zrange (a b : Z) : list Z := map (fun k => a + Z.of_nat k) (seq 0 (Z.to_nat (b - a))).
Lemma zrange_in : forall a b j, In j (zrange a b) <-> a <= j < b.
Proof.
  intros a b j. unfold zrange. rewrite in_map_iff. split.
  - intros (k & <- & K). apply in_seq in K. lia.
  - intros H. exists (Z.to_nat (j - a)). split; [lia|]. apply in_seq. lia.
Qed.
Lemma zrange_nil : forall a b, b <= a -> zrange a b = [].
Proof. intros. unfold zrange. replace (Z.to_nat (b - a)) with O by lia. reflexivity. Qed.
Lemma zrange_app : forall a b c, a <= b <= c -> zrange a c = zrange a b ++ zrange b c.
Proof.
  intros a b c H. unfold zrange. replace (Z.to_nat (c - a)) with (Z.to_nat (b - a) + Z.to_nat (c - b))%nat by lia. rewrite seq_app, map_app. f_equal. cbn [plus].
  replace (Z.to_nat (b - a)) with (Z.to_nat (b - a) + 0)%nat at 1 by lia. generalize (Z.to_nat (c - b)) as m. generalize O as z. intros z m. revert z. induction m as [|m IH]; intros z; [reflexivity|]. cbn [seq map]. f_equal; [lia|].
  replace (S (Z.to_nat (b - a) + z)) with (Z.to_nat (b - a) + S z)%nat by lia. apply IH.
Qed.
Lemma zrange_len : forall a b, a <= b -> Z.of_nat (length (zrange a b)) = b - a.
Proof. intros. unfold zrange. rewrite map_length, seq_length. lia. Qed.
Lemma zrange_shift : forall a b c, zrange (a + c) (b + c) = map (fun k => k + c) (zrange a b).
Proof. intros a b c. unfold zrange. rewrite map_map. replace (b + c - (a + c)) with (b - a) by lia. apply map_ext. intros. lia. Qed.
Lemma loop_zrange : forall n, loop n = zrange 0 n.
Proof. intros. unfold loop, zrange. rewrite Z.sub_0_r. apply map_ext. intros. lia. Qed.
Lemma zrange_snoc : forall a b, a <= b -> zrange a (b + 1) = zrange a b ++ [b].
Proof. intros a b H. rewrite (zrange_app a b (b + 1)) by lia. f_equal. unfold zrange. replace (Z.to_nat (b + 1 - b)) with 1%nat by lia. cbn. f_equal. lia. Qed.
(** Filtering a range by a bound. *)
Lemma filter_range : forall (f : Z -> bool) a lo hi b, a <= lo -> lo <= hi -> hi <= b -> (forall j, a <= j < b -> f j = (lo <=? j) && (j <? hi)) -> filter f (zrange a b) = zrange lo hi.
Proof.
  intros f a lo hi b H1 H2 H3 F. rewrite (zrange_app a lo b), (zrange_app lo hi b), !filter_app by lia.
  assert (K : forall l v, (forall j, In j l -> f j = v) -> filter f l = if v then l else []).
  { induction l as [|x l IH]; intros v V; [now destruct v|]. cbn. rewrite (V x (or_introl eq_refl)), (IH v) by (intros; apply V; now right). now destruct v. }
  rewrite (K (zrange a lo) false), (K (zrange lo hi) true), (K (zrange hi b) false).
  - now rewrite app_nil_r.
  - intros j J. apply zrange_in in J. rewrite F by lia. destruct (Z.leb_spec lo j), (Z.ltb_spec j hi); cbn; auto; lia.
  - intros j J. apply zrange_in in J. rewrite F by lia. destruct (Z.leb_spec lo j), (Z.ltb_spec j hi); cbn; auto; lia.
  - intros j J. apply zrange_in in J. rewrite F by lia. destruct (Z.leb_spec lo j), (Z.ltb_spec j hi); cbn; auto; lia.
Qed.
Lemma ones_bits : forall m j, 0 <= m -> 0 <= j -> Z.testbit (2 ^ m - 1) j = (j <? m).
Proof. intros m j M J. replace (2 ^ m - 1) with (Z.ones m) by (rewrite Z.ones_equiv; lia). apply Z.testbit_ones_nonneg; assumption. Qed.

Section port.
Context {D : Type}.
Variable d0 : D.
Variable p : tm_param.
Hypothesis S1 : 1 <= tm_s p.
Notation s := (tm_s p).

Lemma full_bit : forall i r j, 0 <= j < 2 * s -> Z.testbit (full s i r) j = if j <? s then Z.testbit r j else Z.testbit i (j - s).
Proof.
  intros i r j J. unfold full. pose proof (psel_range r 0 s ltac:(lia)) as R.
  assert (E : psel r 0 s + psel i 0 s * 2 ^ s = Z.lor (psel r 0 s) (Z.shiftl (psel i 0 s) s)).
  { rewrite Z.shiftl_mul_pow2 by lia. rewrite <- Z.lxor_lor, Z.add_nocarry_lxor; auto; apply Z.bits_inj'; intros k K; rewrite Z.land_spec, Z.bits_0, psel_bits, <- Z.shiftl_mul_pow2, Z.shiftl_spec by lia;
      (destruct (Z.ltb_spec k s); [rewrite (Z.testbit_neg_r _ (k - s)) by lia; apply andb_false_r | reflexivity]). }
  rewrite E, Z.lor_spec, psel_bits, Z.shiftl_spec by lia. destruct (Z.ltb_spec j s).
  - rewrite (Z.testbit_neg_r _ (j - s)) by lia. rewrite orb_false_r. reflexivity.
  - cbn [andb orb]. rewrite psel_bits by lia. replace (j - s <? s) with true by (symmetry; apply Z.ltb_lt; lia). reflexivity.
Qed.
Lemma full_range : forall i r, 0 <= full s i r < 2 ^ (2 * s).
Proof.
  intros i r. unfold full. pose proof (psel_range r 0 s ltac:(lia)). pose proof (psel_range i 0 s ltac:(lia)). replace (2 * s) with (s + s) by lia. rewrite Z.pow_add_r by lia. nia.
Qed.
Lemma rotate_bit : forall v off k, 0 <= v < 2 ^ (2 * s) -> 0 <= off -> 0 <= k -> off + k < 2 * s -> k < 2 * s -> Z.testbit (rotate s v off) k = Z.testbit v (off + k).
Proof.
  intros v off k V O K B K2. unfold rotate. rewrite psel_bits by lia. replace (k <? 2 * s) with true by (symmetry; apply Z.ltb_lt; lia). cbn [andb].
  rewrite <- (Z.mod_pow2_bits_low _ (2 * s) (off + k)) by lia. rewrite Z.mod_add by (apply Z.pow_nonzero; lia). rewrite Z.mod_small by assumption. reflexivity.
Qed.

(** What is known of the registers of a port; its valid segments end at [m]. *)
Record preg_ok (r : tm_preg D) (m : Z) : Prop := {
  po_off : 0 <= pr_off r < s;
  po_m : pr_off r <= m <= s;
  po_bits : forall j, pr_off r <= j -> Z.testbit (pr_valid r) j = (j <? m);
  po_pos : forall j, Z.testbit (pr_valid r) j = true -> 0 <= j < s;
  po_nn : 0 <= pr_valid r;
  po_zero : pr_valid r = 0 -> pr_off r = 0 }.

Definition rseg (r : tm_preg D) (j : Z) : @mseg D := (Z.testbit (pr_sop r) j, Z.testbit (pr_eop r) j, pr_data r j).
Definition iseg (x : tm_pin D) (j : Z) : @mseg D := (Z.testbit (pi_sop x) j, Z.testbit (pi_eop x) j, pi_data x j).
Definition fseg (r : tm_preg D) (x : tm_pin D) (j : Z) : @mseg D :=
  (Z.testbit (full s (pi_sop x) (pr_sop r)) j, Z.testbit (full s (pi_eop x) (pr_eop r)) j, full_data s (pi_data x) (pr_data r) j).
Lemma fseg_eq : forall r x j, 0 <= j < 2 * s -> fseg r x j = if j <? s then rseg r j else iseg x (j - s).
Proof. intros r x j J. unfold fseg, rseg, iseg, full_data. rewrite !full_bit by assumption. destruct (j <? s); reflexivity. Qed.
Definition fvalid (r : tm_preg D) (x : tm_pin D) (j : Z) : bool := Z.testbit (full s (pi_valid x) (pr_valid r)) j.
Lemma fvalid_eq : forall r x m mi j, preg_ok r m -> pi_valid x = 2 ^ mi - 1 -> 0 <= mi -> pr_off r <= j < 2 * s -> fvalid r x j = if j <? s then j <? m else j - s <? mi.
Proof.
  intros r x m mi j H HX M J. unfold fvalid. pose proof (po_off _ _ H). rewrite full_bit by lia. destruct (Z.ltb_spec j s); [apply (po_bits _ _ H); lia|]. rewrite HX. apply ones_bits; lia.
Qed.
Lemma left_bits : forall (r : tm_preg D) offn j, 0 <= offn -> (forall j, Z.testbit (pr_valid r) j = true -> 0 <= j < s) -> 0 <= j -> Z.testbit (tm_left p r offn) j = Z.testbit (pr_valid r) j && (offn <=? j).
Proof.
  intros r offn j O B J. unfold tm_left. rewrite Z.land_spec, psel_bits by lia. rewrite Z.add_0_l, Z.shiftl_spec by lia. destruct (Z.testbit (pr_valid r) j) eqn:E; [|reflexivity]. apply B in E. cbn [andb].
  replace (j <? s) with true by (symmetry; apply Z.ltb_lt; lia). cbn [andb]. destruct (Z.leb_spec offn j); [apply Z.ones_spec_low; lia|apply Z.testbit_neg_r; lia].
Qed.
Lemma zero_bits : forall v, 0 <= v -> (v = 0 <-> forall j, 0 <= j -> Z.testbit v j = false).
Proof. intros v V. split; [intros -> j J; apply Z.bits_0|]. intros H. apply Z.bits_inj'. intros j J. rewrite Z.bits_0. now apply H. Qed.

(** The segments of a port in the registers. *)
Definition pend (r : tm_preg D) (m : Z) : list (@mseg D) := map (rseg r) (zrange (pr_off r) m).
Definition beat_segs (x : tm_pin D) : list (@mseg D) := map (fun k => (Z.testbit (pi_sop x) k, Z.testbit (pi_eop x) k, pi_data x k)) (filter (fun k => Z.testbit (pi_valid x) k) (count_up s)).
Lemma beat_segs_eq : forall x mi, pi_valid x = 2 ^ mi - 1 -> 0 <= mi <= s -> beat_segs x = map (iseg x) (zrange 0 mi).
Proof.
  intros x mi HX M. unfold beat_segs. change (count_up s) with (loop s). rewrite loop_zrange, (filter_range _ 0 0 mi s); [reflexivity|lia|lia|lia|]. intros j J. rewrite HX, ones_bits by lia. replace (0 <=? j) with true by (symmetry; apply Z.leb_le; lia). reflexivity.
Qed.

(** One clock of a port of which [c] segments are used. *)
Lemma port_step : forall r x m mi c, preg_ok r m -> pi_valid x = 2 ^ mi - 1 -> 0 <= mi <= s -> 0 <= c <= s -> (forall k, 0 <= k < c -> fvalid r x (pr_off r + k) = true) ->
  let offn := pr_off r + c in let r' := tm_preg_step p false r x offn in
  exists m', preg_ok r' m' /\ pend r m ++ (if tm_in_ready p r offn then beat_segs x else []) = map (fseg r x) (zrange (pr_off r) offn) ++ pend r' m' /\ (m' = mi /\ (m' = 0 -> pr_off r' = 0) \/ m' = m).
Proof.
  intros r x m mi c H HX M C US offn r'. pose proof H as H0. destruct H as [PO PM PB PP PN PZ]. set (of := pr_off r) in *.
  assert (FV : forall j, of <= j < 2 * s -> fvalid r x j = if j <? s then j <? m else j - s <? mi) by (intros; now apply fvalid_eq).
  assert (LB : forall j, 0 <= j -> Z.testbit (tm_left p r offn) j = Z.testbit (pr_valid r) j && (offn <=? j)) by (intros; apply left_bits; auto; unfold offn; lia).
  assert (LN : 0 <= tm_left p r offn). { unfold tm_left. apply Z.land_nonneg. left. exact PN. }
  assert (LZ : tm_left p r offn = 0 <-> m <= offn).
  { rewrite (zero_bits _ LN). split.
    - intros Z0. destruct (Z.le_gt_cases m offn) as [|G]; [assumption|]. specialize (Z0 offn ltac:(unfold offn; lia)). rewrite LB in Z0 by (unfold offn; lia). rewrite PB in Z0 by (unfold offn, of; lia).
      rewrite Z.leb_refl, andb_true_r in Z0. apply Z.ltb_ge in Z0. lia.
    - intros G j J. rewrite LB by assumption. destruct (Z.leb_spec offn j); [|apply andb_false_r]. rewrite andb_true_r, PB by (unfold offn, of in *; lia). apply Z.ltb_ge. lia. }
  (* the used segments *)
  assert (UR : forall j, of <= j < offn -> j < s -> j < m). { intros j J JS. specialize (US (j - of) ltac:(unfold offn in *; lia)). replace (of + (j - of)) with j in US by lia. rewrite FV in US by (unfold offn in *; lia). replace (j <? s) with true in US by (symmetry; apply Z.ltb_lt; lia). now apply Z.ltb_lt in US. }
  assert (UI : forall j, s <= j < offn -> j - s < mi). { intros j J. specialize (US (j - of) ltac:(unfold offn in *; lia)). replace (of + (j - of)) with j in US by lia. rewrite FV in US by (unfold offn in *; lia). replace (j <? s) with false in US by (symmetry; apply Z.ltb_ge; lia). now apply Z.ltb_lt in US. }
  assert (MR : forall a b, 0 <= a -> b <= s -> map (fseg r x) (zrange a b) = map (rseg r) (zrange a b)).
  { intros a b A B. apply map_ext_in. intros j J. apply zrange_in in J. rewrite fseg_eq by lia. replace (j <? s) with true by (symmetry; apply Z.ltb_lt; lia). reflexivity. }
  assert (PX : psel (pi_valid x) 0 s = pi_valid x). { unfold psel. rewrite Z.div_1_r. apply Z.mod_small. rewrite HX. pose proof (Z.pow_pos_nonneg 2 mi ltac:(lia) ltac:(lia)). pose proof (Z.pow_le_mono_r 2 mi s ltac:(lia) ltac:(lia)). lia. }
  assert (VB : forall j, 0 <= j -> Z.testbit (pi_valid x) j = (j <? mi)) by (intros j J; rewrite HX; apply ones_bits; lia).
  assert (VN : 0 <= pi_valid x) by (rewrite HX; pose proof (Z.pow_pos_nonneg 2 mi ltac:(lia) ltac:(lia)); lia).
  unfold r', tm_preg_step, tm_in_ready. destruct (Z.eqb_spec (tm_left p r offn) 0) as [L0|L0].
  - rewrite PX. assert (MO : m <= offn) by now apply LZ.
    assert (NEW : forall no, tm_off p r offn = no -> 0 <= no < s -> no <= mi -> (pi_valid x = 0 -> no = 0) -> preg_ok (mkPr no (pi_valid x) (pi_sop x) (pi_eop x) (pi_data x)) mi).
    { intros no TO NR NM NZ. constructor; cbn [pr_off pr_valid pr_sop pr_eop pr_data]; auto; [lia|intros; apply VB; lia|].
      intros j J. destruct (Z.lt_ge_cases j 0); [rewrite Z.testbit_neg_r in J by lia; discriminate|]. rewrite VB in J by lia. apply Z.ltb_lt in J. lia. }
    exists mi. rewrite (beat_segs_eq x mi HX M).
    assert (PV : pi_valid x = 0 -> mi = 0). { intros Z0. rewrite Z0 in HX. destruct (Z.eq_dec mi 0); [assumption|]. pose proof (Z.pow_gt_1 2 mi ltac:(lia)). lia. }
    unfold tm_off. fold offn. destruct (Z.leb_spec s offn) as [G|G].
    + (* also segments of the new beat are used *)
      assert (m = s). { destruct (Z.eq_dec m s); [assumption|]. specialize (UR (s - 1)). destruct (Z.eq_dec of s); [lia|]. lia. } subst m.
      assert (OI : offn - s <= mi). { destruct (Z.eq_dec offn s); [lia|]. specialize (UI (offn - 1)). lia. }
      split; [apply NEW; [unfold tm_off; fold offn; destruct (Z.leb_spec s offn); [reflexivity|lia]|unfold offn in *; lia|exact OI|intros Z0; specialize (PV Z0); lia]|].
      split; [|left; split; [reflexivity|cbn [pr_off]; intros; lia]].
      unfold pend at 1. cbn [pr_off]. fold of. rewrite (zrange_app of s offn) by (unfold offn in *; lia). rewrite map_app, MR, <- app_assoc by lia. f_equal.
      rewrite (zrange_app 0 (offn - s) mi) by (unfold offn in *; lia). rewrite map_app. f_equal.
      replace (zrange s offn) with (zrange (0 + s) ((offn - s) + s)) by (f_equal; lia). rewrite zrange_shift, map_map. apply map_ext_in. intros j J. apply zrange_in in J. rewrite fseg_eq by (unfold offn in *; lia).
      replace (j + s <? s) with false by (symmetry; apply Z.ltb_ge; lia). f_equal. lia.
    + assert (MO2 : m = offn \/ (c = 0 /\ m <= of)). { destruct (Z.eq_dec c 0); [right; unfold offn in *; lia|left]. specialize (UR (offn - 1)). unfold offn in *. lia. }
      assert (EO : (if negb (pr_valid r =? 0) && (tm_left p r offn =? 0) then 0 else offn) = 0).
      { rewrite L0, Z.eqb_refl, andb_true_r. destruct (Z.eqb_spec (pr_valid r) 0) as [Z0|Z0]; [|reflexivity]. cbn. specialize (PZ Z0). fold of in PZ.
        assert (m = 0). { pose proof (PB 0 ltac:(fold of; lia)) as B. rewrite Z0, Z.bits_0 in B. symmetry in B. apply Z.ltb_ge in B. lia. } unfold offn in *. lia. }
      rewrite EO. split; [apply NEW; [unfold tm_off; fold offn; destruct (Z.leb_spec s offn); [lia|exact EO]|lia|lia|auto]|]. split; [|left; split; reflexivity].
      unfold pend. cbn [pr_off]. fold of. rewrite MR by lia. f_equal. f_equal. destruct MO2 as [->|[-> MO2]]; [reflexivity|]. unfold offn. rewrite Z.add_0_r, !zrange_nil by lia. reflexivity.
  - (* not all segments of the register are used *)
    assert (MO : offn < m). { destruct (Z.le_gt_cases m offn) as [G|G]; [apply LZ in G; contradiction|exact G]. }
    exists m. unfold tm_off. fold offn. destruct (Z.leb_spec s offn) as [G|G]; [lia|]. destruct (Z.eqb_spec (tm_left p r offn) 0); [contradiction|]. rewrite andb_false_r.
    split; [constructor; cbn [pr_off pr_valid pr_sop pr_eop pr_data]; auto; try lia|].
    + intros j J. rewrite LB by (unfold offn in *; lia). rewrite PB by (unfold offn in *; fold of; lia). replace (offn <=? j) with true by (symmetry; apply Z.leb_le; lia). apply andb_true_r.
    + intros j J. destruct (Z.lt_ge_cases j 0); [rewrite Z.testbit_neg_r in J by lia; discriminate|]. rewrite LB in J by lia. apply andb_true_iff in J. now apply PP.
    + split; [|now right]. rewrite app_nil_r. unfold pend. cbn [pr_off]. fold of. rewrite (MR of offn) by lia. rewrite (zrange_app of offn m) by (unfold offn in *; lia). rewrite map_app. reflexivity.
Qed.

(** The odd case with two segments changes nothing in the registers of the port. *)
Lemma glitch_step : forall r x m mi, s = 2 -> preg_ok r m -> pi_valid x = 2 ^ mi - 1 -> 0 <= mi <= s -> fvalid r x (pr_off r) = false -> fvalid r x (pr_off r + 1) = true ->
  tm_preg_step p false r x (pr_off r + 1) = tm_preg_step p false r x (pr_off r) /\ tm_in_ready p r (pr_off r + 1) = tm_in_ready p r (pr_off r).
Proof.
  intros r x m mi S2 H HX M V0 V1. destruct (po_off _ _ H) as [O1 O2]. rewrite (fvalid_eq r x m mi) in V0, V1 by (auto; lia).
  assert (OM : pr_off r = 1 /\ m = 1).
  { pose proof (po_m _ _ H). replace (pr_off r <? s) with true in V0 by (symmetry; apply Z.ltb_lt; lia). apply Z.ltb_ge in V0. destruct (Z.ltb_spec (pr_off r + 1) s).
    - apply Z.ltb_lt in V1. lia.
    - lia. }
  destruct OM as [OF MM].
  assert (LZ : forall offn, 1 <= offn -> tm_left p r offn = 0).
  { intros offn G. apply zero_bits; [unfold tm_left; apply Z.land_nonneg; left; apply (po_nn _ _ H)|]. intros j J. rewrite left_bits by (first [lia | apply (po_pos _ _ H)]). destruct (Z.leb_spec offn j); [|apply andb_false_r].
    rewrite (po_bits _ _ H) by lia. replace (j <? m) with false by (symmetry; apply Z.ltb_ge; lia). reflexivity. }
  assert (NZ : pr_valid r <> 0) by (intros Z0; apply (po_zero _ _ H) in Z0; lia).
  rewrite OF. unfold tm_preg_step, tm_in_ready. rewrite !LZ by lia. rewrite Z.eqb_refl. split; [|reflexivity]. f_equal. unfold tm_off. rewrite S2, !LZ, Z.eqb_refl by lia. change (2 <=? 1 + 1) with true. change (2 <=? 1) with false. cbn iota.
  destruct (Z.eqb_spec (pr_valid r) 0); [contradiction|]. reflexivity.
Qed.
End port.
