(** Lemmas for the UltraScale stream link. *)
From Verif Require Import PyBase BitLemmas TlpModel TlpProofs UsModel UsSpec UsProofs UsStreamModel UsStreamSpec.
From Coq Require Import ZifyBool ZifyNat.
Ltac Zify.zify_post_hook ::= Z.div_mod_to_equations.

(** ** OR-ed fields *)
Lemma ors_app u a c : ors u (a ++ c) = ors (ors u a) c.
Proof. apply fold_left_app. Qed.

Lemma ors_testbit l : forall u n, 0 <= n ->
  Z.testbit (ors u l) n = Z.testbit u n || existsb (fun f => Z.testbit (snd f) (n - fst f)) l.
Proof.
  induction l as [|f l IH]; intros u n Hn; [cbn; now rewrite orb_false_r|].
  change (ors u (f :: l)) with (ors (Z.lor u (Z.shiftl (snd f) (fst f))) l). cbn [existsb]. rewrite IH by assumption. rewrite Z.lor_spec, Z.shiftl_spec by assumption. now rewrite orb_assoc.
Qed.

Definition clear (f : Z * Z) (p w : Z) : Prop :=
  exists w', 0 <= w' /\ 0 <= snd f < 2^w' /\ (fst f + w' <= p \/ p + w <= fst f).

Lemma clear_bit f p w n : clear f p w -> 0 <= n -> p <= n < p + w -> Z.testbit (snd f) (n - fst f) = false.
Proof.
  intros (w' & Hw & Hv & Hd) Hn Hr. destruct Hd as [Hd|Hd].
  - apply (testbit_high _ w'); lia.
  - apply Z.testbit_neg_r. lia.
Qed.

Lemma ors_get l p w v : 0 <= p -> 0 <= w -> 0 <= v < 2^w ->
  Forall (fun f => f = (p, v) \/ clear f p w) l -> (v = 0 \/ In (p, v) l) ->
  Z.land (Z.shiftr (ors 0 l) p) (2^w - 1) = v.
Proof.
  intros Hp Hw Hv HF HI. rewrite land_low_mod by assumption.
  apply Z.bits_inj'. intros n Hn. destruct (Z.lt_ge_cases n w).
  - rewrite Z.mod_pow2_bits_low, Z.shiftr_spec, ors_testbit, Z.bits_0 by lia. cbn [orb].
    destruct (Z.testbit v n) eqn:E.
    + destruct HI as [->|HI]; [now rewrite Z.bits_0 in E|]. apply existsb_exists. exists (p, v). split; [assumption|].
      cbn [fst snd]. now replace (n + p - p) with n by lia.
    + apply not_true_is_false. intros HE. apply existsb_exists in HE. destruct HE as (f & Hf & Ht).
      rewrite Forall_forall in HF. destruct (HF f Hf) as [->|HC].
      * cbn [fst snd] in Ht. replace (n + p - p) with n in Ht by lia. congruence.
      * rewrite (clear_bit _ _ _ _ HC) in Ht by lia. discriminate.
  - rewrite Z.mod_pow2_bits_high by lia. symmetry. apply (testbit_high _ w); lia.
Qed.

Lemma ors_range l w : 0 <= w -> Forall (fun f => 0 <= fst f /\ 0 <= snd f < 2^(w - fst f)) l -> 0 <= ors 0 l < 2^w.
Proof.
  intros Hw HF. assert (HN : forall u, 0 <= u -> 0 <= ors u l).
  { induction HF as [|f l (H1 & H2) HF IH]; intros u Hu; [assumption|].
    change (ors u (f :: l)) with (ors (Z.lor u (Z.shiftl (snd f) (fst f))) l). apply IH. apply Z.lor_nonneg. split; [assumption|].
    apply Z.shiftl_nonneg. lia. }
  split; [now apply HN|].
  destruct (Z.eq_dec (ors 0 l) 0) as [->|Hnz]; [apply Z.pow_pos_nonneg; lia|].
  apply Z.log2_lt_pow2; [specialize (HN 0); lia|]. destruct (Z.lt_ge_cases (Z.log2 (ors 0 l)) w) as [|Hge]; [assumption|]. exfalso.
  assert (HT : Z.testbit (ors 0 l) (Z.log2 (ors 0 l)) = true) by (apply Z.bit_log2; specialize (HN 0); lia).
  rewrite ors_testbit, Z.bits_0 in HT by lia. cbn [orb] in HT. apply existsb_exists in HT. destruct HT as (f & Hf & Ht).
  rewrite Forall_forall in HF. specialize (HF f Hf). destruct HF as (H1 & H2).
  destruct (Z.lt_ge_cases w (fst f)).
  - rewrite Z.pow_neg_r in H2 by lia. lia.
  - rewrite (testbit_high _ (w - fst f)) in Ht by lia. discriminate.
Qed.

(** ** The lane loop *)
Definition has_be (b : us_bus) : bool := match be_pos b with Some _ => true | None => false end.

Fixpoint dfields (i : Z) (xs : list Z) : list (Z * Z) := match xs with [] => [] | x :: r => (i * 32, x) :: dfields (i + 1) r end.
Fixpoint kfields (i : Z) (m : nat) : list (Z * Z) := match m with O => [] | S c => (i, 1) :: kfields (i + 1) c end.
Fixpoint ufields (b : us_bus) (i : Z) (bes ps : list Z) (pad : nat) : list (Z * Z) :=
  match ps with
  | p :: ps' => (match be_pos b with Some q => [(i * 4 + q, hd 0 bes)] | None => [] end) ++ (i * 4 + par_pos b, p) :: ufields b (i + 1) (tl bes) ps' pad
  | [] => (fix padf (i : Z) (m : nat) := match m with O => [] | S c => (i * 4 + par_pos b, 0xf) :: padf (i + 1) c end) i pad
  end.

Lemma src_lanes_ok b c : forall i data be par d k u last,
  length par = length data -> (has_be b = true -> length be = length data) ->
  src_lanes b c i data be par d k u last =
  Ok ((ors d (dfields i (firstn c data)), ors k (kfields i (min c (length data))),
       ors u (ufields b i (if has_be b then firstn c be else []) (firstn c par) (c - length data)),
       if (min c (length data) =? 0)%nat then last else i + Z.of_nat (min c (length data)) - 1),
      (skipn c data, if has_be b then skipn c be else be, skipn c par)).
Proof.
  induction c as [|c IH]; intros i data be par d k u last HP HB.
  - cbn. now destruct (has_be b).
  - destruct data as [|x data]; destruct par as [|pr par]; try discriminate HP.
    + cbn [src_lanes]. rewrite IH; [|reflexivity|exact HB].
      rewrite !skipn_nil, !firstn_nil. cbn [length]. rewrite !Nat.min_0_r, !Nat.sub_0_r.
      assert (EB : (if has_be b then skipn c be else be) = (if has_be b then skipn (S c) be else be)).
      { destruct (has_be b) eqn:E; [|reflexivity]. specialize (HB eq_refl). destruct be; [now rewrite !skipn_nil|discriminate]. }
      rewrite EB. assert (EF : (if has_be b then firstn c be else []) = (if has_be b then firstn (S c) be else [])).
      { destruct (has_be b) eqn:E; [|reflexivity]. specialize (HB eq_refl). destruct be; [now rewrite !firstn_nil|discriminate]. }
      rewrite EF. reflexivity.
    + cbn [src_lanes]. unfold has_be in *. destruct (be_pos b) as [q|] eqn:EQ.
      * destruct be as [|e be]; [specialize (HB eq_refl); discriminate|]. cbn [pop0 bind].
        rewrite IH by (cbn in HP |- *; try lia; intros _; specialize (HB eq_refl); cbn in HB; lia).
        assert (EL : (if (Nat.min c (length data) =? 0)%nat then i else i + 1 + Z.of_nat (Nat.min c (length data)) - 1) =
          (if (Nat.min (S c) (length (x :: data)) =? 0)%nat then last else i + Z.of_nat (Nat.min (S c) (length (x :: data))) - 1)).
        { cbn [Nat.min length]. destruct (Nat.min c (length data)) eqn:EM; cbn [Nat.eqb]; lia. }
        rewrite EL. cbn [firstn ufields hd tl app length Nat.sub skipn Nat.min kfields dfields]. rewrite EQ. reflexivity.
      * cbn [pop0 bind]. rewrite IH by (cbn in HP |- *; try lia; discriminate).
        assert (EL : (if (Nat.min c (length data) =? 0)%nat then i else i + 1 + Z.of_nat (Nat.min c (length data)) - 1) =
          (if (Nat.min (S c) (length (x :: data)) =? 0)%nat then last else i + Z.of_nat (Nat.min (S c) (length (x :: data))) - 1)).
        { cbn [Nat.min length]. destruct (Nat.min c (length data)) eqn:EM; cbn [Nat.eqb]; lia. }
        rewrite EL. cbn [firstn ufields hd tl app length Nat.sub skipn Nat.min kfields dfields]. rewrite EQ. reflexivity.
Qed.

(** ** tkeep *)
Lemma kfields_bit m : forall i n, 0 <= n -> existsb (fun f : Z * Z => Z.testbit (snd f) (n - fst f)) (kfields i m) = (i <=? n) && (n <? i + Z.of_nat m).
Proof.
  induction m as [|m IH]; intros i n Hn; cbn [kfields existsb fst snd]; [lia|].
  rewrite IH by assumption. destruct (Z.eq_dec n i) as [->|Hne].
  - rewrite Z.sub_diag. cbn. lia.
  - assert (E : Z.testbit 1 (n - i) = false).
    { destruct (Z.lt_ge_cases n i); [now apply Z.testbit_neg_r; lia|]. apply (testbit_high 1 1); [|lia..]. pow_norm. lia. }
    rewrite E. cbn [orb]. lia.
Qed.
Lemma keep_value m : ors 0 (kfields 0 m) = 2 ^ Z.of_nat m - 1.
Proof.
  assert (EO : 2 ^ Z.of_nat m - 1 = Z.ones (Z.of_nat m)) by (rewrite Z.ones_equiv; lia). rewrite EO.
  apply Z.bits_inj'. intros n Hn. rewrite ors_testbit, Z.bits_0, kfields_bit by assumption. cbn [orb].
  destruct (Z.lt_ge_cases n (Z.of_nat m)).
  - rewrite Z.ones_spec_low by lia. lia.
  - rewrite Z.ones_spec_high by lia. lia.
Qed.
Lemma ones_bit m i : 0 <= i -> negb (Z.land (2 ^ Z.of_nat m - 1) (Z.shiftl 1 i) =? 0) = (i <? Z.of_nat m).
Proof.
  intros Hi. assert (EO : 2 ^ Z.of_nat m - 1 = Z.ones (Z.of_nat m)) by (rewrite Z.ones_equiv; lia). rewrite EO.
  assert (EB : Z.testbit (Z.ones (Z.of_nat m)) i = (i <? Z.of_nat m)).
  { destruct (Z.lt_ge_cases i (Z.of_nat m)); [rewrite Z.ones_spec_low by lia|rewrite Z.ones_spec_high by lia]; lia. }
  rewrite <- EB. clear EO EB. set (x := Z.ones _). rewrite Z.land_comm. destruct (Z.testbit x i) eqn:E.
  - apply negb_true_iff, Z.eqb_neq. intros H0. assert (HT : Z.testbit (Z.land (Z.shiftl 1 i) x) i = false) by (rewrite H0; apply Z.bits_0).
    rewrite Z.land_spec, Z.shiftl_spec, Z.sub_diag, E in HT by lia. discriminate.
  - apply negb_false_iff, Z.eqb_eq. apply Z.bits_inj'. intros n Hn. rewrite Z.bits_0, Z.land_spec, Z.shiftl_spec by lia.
    destruct (Z.eq_dec n i) as [->|Hne]; [now rewrite E, andb_false_r|].
    assert (E1 : Z.testbit 1 (n - i) = false).
    { destruct (Z.lt_ge_cases n i); [apply Z.testbit_neg_r; lia|]. apply (testbit_high 1 1); [|lia..]. pow_norm. lia. }
    now rewrite E1.
Qed.
Lemma drop_ones_ones m : forall fuel, (m <= fuel)%nat -> drop_ones fuel (2 ^ Z.of_nat m - 1) = Ok 0.
Proof.
  induction m as [|m IH]; intros fuel Hf.
  - destruct fuel; reflexivity.
  - destruct fuel as [|fuel]; [lia|]. cbn [drop_ones].
    rewrite Nat2Z.inj_succ, Z.pow_succ_r by lia.
    assert (E : Z.land (2 * 2 ^ Z.of_nat m - 1) 1 = 1) by (rewrite (land_lo _ 1 1) by lia; pow_norm; lia).
    assert (E2 : Z.shiftr (2 * 2 ^ Z.of_nat m - 1) 1 = 2 ^ Z.of_nat m - 1) by (rewrite Z.shiftr_div_pow2 by lia; pow_norm; lia).
    rewrite E, E2. cbn [Z.eqb Pos.eqb]. apply IH. lia.
Qed.
Lemma check_keep_ok b first last m : (1 <= m <= b_lanes b)%nat -> (last = false -> m = b_lanes b) ->
  check_keep b first last (2 ^ Z.of_nat m - 1) = Ok tt.
Proof.
  intros Hm Hl. unfold check_keep.
  assert (HP : 0 < 2 ^ Z.of_nat (m - 1)) by (apply Z.pow_pos_nonneg; lia).
  assert (EP : 2 ^ Z.of_nat m = 2 * 2 ^ Z.of_nat (m - 1)) by (replace m with (S (m - 1)) at 1 by lia; rewrite Nat2Z.inj_succ, Z.pow_succ_r by lia; reflexivity).
  assert (E1 : Z.land (2 ^ Z.of_nat m - 1) 1 = 1).
  { rewrite (land_lo _ 1 1) by lia. rewrite EP. set (P := 2 ^ Z.of_nat (m - 1)) in *. clearbody P. change (2^1) with 2. lia. }
  replace (2 ^ Z.of_nat m - 1 =? 0) with false by lia.
  assert (ED : drop_zeros (b_lanes b) (2 ^ Z.of_nat m - 1) = Ok (2 ^ Z.of_nat m - 1)).
  { destruct (b_lanes b); cbn [drop_zeros]; rewrite E1; reflexivity. }
  rewrite ED. cbn [bind]. rewrite drop_ones_ones by lia. cbn [bind Z.eqb negb]. rewrite E1. cbn [Z.eqb]. rewrite andb_false_r.
  destruct last; cbn [negb andb]; [reflexivity|]. specialize (Hl eq_refl). subst m.
  pose proof (ones_bit (b_lanes b) (Z.of_nat (b_lanes b) - 1) ltac:(lia)) as HB. apply negb_true_iff in HB || (replace (Z.of_nat (b_lanes b) - 1 <? Z.of_nat (b_lanes b)) with true in HB by lia; apply negb_true_iff in HB).
  rewrite HB. reflexivity.
Qed.

(** ** The sink's lane loop *)
Lemma snk_lanes_ok b d keep u : forall c i f xs bs ps, 0 <= i ->
  length ps = length xs -> (has_be b = true -> length bs = length xs) -> (length xs <= c)%nat ->
  (forall j, (j < c)%nat -> negb (Z.land keep (Z.shiftl 1 (i + Z.of_nat j)) =? 0) = (j <? length xs)%nat) ->
  (forall j, (j < length xs)%nat -> Z.land (Z.shiftr d ((i + Z.of_nat j) * 32)) 0xffffffff = nth j xs 0) ->
  (forall j, (j < length xs)%nat -> Z.land (Z.shiftr u ((i + Z.of_nat j) * 4 + par_pos b)) 0xf = nth j ps 0) ->
  (forall q, be_pos b = Some q -> forall j, (j < length xs)%nat -> Z.land (Z.shiftr u ((i + Z.of_nat j) * 4 + q)) 0xf = nth j bs 0) ->
  snk_lanes b c i d keep u f =
  mkFrame (f_data f ++ xs) (if has_be b then f_byte_en f ++ bs else f_byte_en f) (f_parity f ++ ps)
    (f_first_be f) (f_last_be f) (f_discontinue f) (f_seq_num f).
Proof.
  induction c as [|c IH]; intros i f xs bs ps Hi HP HB Hc HK HD HPP HBB.
  - destruct xs; [|cbn in Hc; lia]. destruct ps; [|discriminate]. cbn [snk_lanes]. rewrite !app_nil_r.
    destruct f. cbn. destruct (has_be b); [|reflexivity]. destruct bs; [|specialize (HB eq_refl); discriminate]. now rewrite app_nil_r.
  - cbn [snk_lanes]. pose proof (HK 0%nat ltac:(lia)) as HK0. replace (i + Z.of_nat 0) with i in HK0 by lia. rewrite HK0.
    destruct xs as [|x xs]; destruct ps as [|pr ps]; try discriminate HP.
    + cbn [length Nat.ltb Nat.leb]. apply (IH (i + 1) f [] bs []); try assumption; try lia.
      * cbn. lia.
      * intros j Hj. specialize (HK (S j) ltac:(lia)). replace (i + 1 + Z.of_nat j) with (i + Z.of_nat (S j)) by lia. exact HK.
      * intros j Hj; cbn in Hj; lia.
      * intros j Hj; cbn in Hj; lia.
      * intros q Hq j Hj; cbn in Hj; lia.
    + cbn [length Nat.ltb Nat.leb]. pose proof (HD 0%nat ltac:(cbn; lia)) as HD0. pose proof (HPP 0%nat ltac:(cbn; lia)) as HP0.
      replace (i + Z.of_nat 0) with i in HD0, HP0 by lia. cbn [nth] in HD0, HP0. rewrite HD0, HP0.
      assert (HBc : exists bs', (has_be b = true -> length bs' = length xs) /\
        (forall q, be_pos b = Some q -> forall j, (j < length xs)%nat -> Z.land (Z.shiftr u ((i + 1 + Z.of_nat j) * 4 + q)) 0xf = nth j bs' 0) /\
        (match be_pos b with Some p => f_byte_en f ++ [Z.land (Z.shiftr u (i * 4 + p)) 0xf] | None => f_byte_en f end ++ (if has_be b then bs' else [])) =
        (if has_be b then f_byte_en f ++ bs else f_byte_en f)).
      { unfold has_be in *. destruct (be_pos b) as [q|].
        - specialize (HB eq_refl). destruct bs as [|e bs]; [discriminate|]. exists bs. split; [intros _; cbn in HB; lia|]. split.
          + intros q' Hq' j Hj. specialize (HBB q' Hq' (S j) ltac:(cbn; lia)). cbn [nth] in HBB. rewrite <- HBB. do 3 f_equal. lia.
          + specialize (HBB q eq_refl 0%nat ltac:(cbn; lia)). replace (i + Z.of_nat 0) with i in HBB by lia. cbn [nth] in HBB. rewrite HBB.
            rewrite <- app_assoc. reflexivity.
        - exists []. split; [discriminate|]. split; [discriminate|]. now rewrite app_nil_r. }
      destruct HBc as (bs' & HB1 & HB2 & HB3).
      rewrite (IH (i + 1) _ xs bs' ps); try assumption; try lia; cbn [f_data f_byte_en f_parity f_first_be f_last_be f_discontinue f_seq_num].
      * f_equal.
        -- rewrite <- app_assoc. reflexivity.
        -- rewrite <- HB3. destruct (has_be b); [reflexivity|now rewrite app_nil_r].
        -- rewrite <- app_assoc. reflexivity.
      * cbn in HP. lia.
      * cbn in Hc. lia.
      * intros j Hj. specialize (HK (S j) ltac:(lia)). replace (i + 1 + Z.of_nat j) with (i + Z.of_nat (S j)) by lia. rewrite HK. reflexivity.
      * intros j Hj. specialize (HD (S j) ltac:(cbn; lia)). cbn [nth] in HD. rewrite <- HD. do 2 f_equal. lia.
      * intros j Hj. specialize (HPP (S j) ltac:(cbn; lia)). cbn [nth] in HPP. rewrite <- HPP. do 3 f_equal. lia.
Qed.

(** ** Extraction of lane fields *)
Lemma clear_intro f p w w' : 0 <= w' -> 0 <= snd f < 2^w' -> fst f + w' <= p \/ p + w <= fst f -> clear f p w.
Proof. intros. exists w'. auto. Qed.

Lemma dfields_above xs : forall i p, Forall dword xs -> p + 32 <= i * 32 -> Forall (fun f => clear f p 32) (dfields i xs).
Proof.
  induction xs as [|x xs IH]; intros i p HF Hp; cbn [dfields]; constructor; inversion HF; subst.
  - apply (clear_intro _ _ _ 32); cbn [fst snd]; [lia|assumption|lia].
  - apply IH; [assumption|lia].
Qed.
Lemma dfields_get xs : forall i j, Forall dword xs -> (j < length xs)%nat ->
  In ((i + Z.of_nat j) * 32, nth j xs 0) (dfields i xs) /\
  Forall (fun f => f = ((i + Z.of_nat j) * 32, nth j xs 0) \/ clear f ((i + Z.of_nat j) * 32) 32) (dfields i xs).
Proof.
  induction xs as [|x xs IH]; intros i j HF Hj; [cbn in Hj; lia|]. inversion HF; subst. cbn [dfields]. destruct j as [|j].
  - replace (i + Z.of_nat 0) with i by lia. cbn [nth]. split; [now left|]. constructor; [now left|].
    eapply Forall_impl; [|apply (dfields_above xs (i + 1) (i * 32)); [assumption|lia]]. auto.
  - cbn [nth]. destruct (IH (i + 1) j H2 ltac:(cbn in Hj; lia)) as (HI & HR).
    replace (i + 1 + Z.of_nat j) with (i + Z.of_nat (S j)) in * by lia. split; [now right|]. constructor; [|assumption].
    right. apply (clear_intro _ _ _ 32); cbn [fst snd]; [lia|assumption|lia].
Qed.
Lemma dfields_range xs : forall i n, Forall dword xs -> 0 <= i -> i + Z.of_nat (length xs) <= n ->
  Forall (fun f => 0 <= fst f /\ 0 <= snd f < 2^(32 * n - fst f)) (dfields i xs).
Proof.
  induction xs as [|x xs IH]; intros i n HF Hi Hn; cbn [dfields]; constructor; inversion HF; subst; cbn [length] in Hn.
  - cbn [fst snd]. split; [lia|]. assert (2^32 <= 2^(32 * n - i * 32)) by (apply Z.pow_le_mono_r; lia). unfold dword in *. lia.
  - apply IH; [assumption|lia..].
Qed.

(** Lane fields sit in the byte enable and parity regions. *)
Definition in_region (b : us_bus) (i n : Z) (f : Z * Z) : Prop :=
  nib (snd f) /\ (i * 4 + par_pos b <= fst f /\ fst f + 4 <= n * 4 + par_pos b \/
  exists q, be_pos b = Some q /\ i * 4 + q <= fst f /\ fst f + 4 <= n * 4 + q).

Lemma ufields_region b ps : forall i bs pad, Forall nib ps -> Forall nib bs ->
  Forall (in_region b i (i + Z.of_nat (length ps) + Z.of_nat pad)) (ufields b i bs ps pad).
Proof.
  induction ps as [|p ps IH]; intros i bs pad HP HB.
  - cbn [ufields length]. revert i. induction pad as [|pad IHp]; intros i; constructor.
    + split; cbn [fst snd]; [unfold nib; lia|left; lia].
    + replace (i + Z.of_nat 0 + Z.of_nat (S pad)) with (i + 1 + Z.of_nat 0 + Z.of_nat pad) by lia.
      eapply Forall_impl; [|apply IHp]. intros f (Hn & HR). split; [assumption|]. destruct HR as [HR|(q & Hq & HR)]; [left; lia|].
      right. exists q. split; [assumption|lia].
  - cbn [ufields length]. inversion HP; subst. apply Forall_app. split.
    + destruct (be_pos b) as [q|] eqn:EQ; constructor; [|constructor]. split; cbn [fst snd].
      * destruct bs; cbn; [unfold nib; lia|]. now inversion HB.
      * right. exists q. split; [assumption|lia].
    + constructor.
      * split; cbn [fst snd]; [assumption|left; lia].
      * replace (i + Z.of_nat (S (length ps)) + Z.of_nat pad) with (i + 1 + Z.of_nat (length ps) + Z.of_nat pad) by lia.
        eapply Forall_impl; [|apply IH; [assumption|]].
        -- intros f (Hn & HR). split; [assumption|]. destruct HR as [HR|(q & Hq & HR)]; [left; lia|]. right. exists q. split; [assumption|lia].
        -- destruct bs; cbn [tl]; [constructor|]. now inversion HB.
Qed.

Lemma ufields_par b ps : forall i bs pad j lanes, Forall nib ps -> Forall nib bs -> (j < length ps)%nat -> 0 <= i ->
  i + Z.of_nat (length ps) + Z.of_nat pad <= lanes -> (forall q, be_pos b = Some q -> lanes * 4 + q <= par_pos b) ->
  let p := (i + Z.of_nat j) * 4 + par_pos b in
  In (p, nth j ps 0) (ufields b i bs ps pad) /\
  Forall (fun f => f = (p, nth j ps 0) \/ clear f p 4) (ufields b i bs ps pad).
Proof.
  induction ps as [|pr ps IH]; intros i bs pad j lanes HP HB Hj Hi HL HQ p; [cbn in Hj; lia|]. inversion HP as [|? ? HP1 HP2]; subst.
  assert (HT : Forall nib (tl bs)) by (destruct bs; cbn [tl]; [constructor|now inversion HB]).
  assert (HH : nib (hd 0 bs)) by (destruct bs; cbn; [unfold nib; lia|now inversion HB]).
  cbn [ufields]. cbn [length] in HL, Hj.
  assert (HBE : Forall (fun f => clear f p 4) (match be_pos b with Some q => [(i * 4 + q, hd 0 bs)] | None => [] end)).
  { destruct (be_pos b) as [q|] eqn:EQ; constructor; [|constructor]. specialize (HQ q eq_refl).
    apply (clear_intro _ _ _ 4); cbn [fst snd]; [lia|exact HH|subst p; lia]. }
  destruct j as [|j].
  - subst p. replace (i + Z.of_nat 0) with i in * by lia. cbn [nth]. split; [apply in_app_iff; right; now left|].
    apply Forall_app. split; [eapply Forall_impl; [|exact HBE]; auto|]. constructor; [now left|].
    eapply Forall_impl; [|apply (ufields_region b ps (i + 1) (tl bs) pad HP2 HT)]. intros f (Hn & HR). right.
    apply (clear_intro _ _ _ 4); [lia|exact Hn|]. destruct HR as [HR|(q & Hq & HR)]; [lia|]. specialize (HQ q Hq). lia.
  - destruct (IH (i + 1) (tl bs) pad j lanes HP2 HT ltac:(lia) ltac:(lia) ltac:(lia) HQ) as (HI & HR).
    subst p. replace (i + 1 + Z.of_nat j) with (i + Z.of_nat (S j)) in * by lia. cbn [nth]. split.
    + apply in_app_iff. right. now right.
    + apply Forall_app. split; [eapply Forall_impl; [|exact HBE]; auto|]. constructor; [|assumption].
      right. apply (clear_intro _ _ _ 4); cbn [fst snd]; [lia|exact HP1|lia].
Qed.

Lemma ufields_be b q ps : forall i bs pad j lanes, Forall nib ps -> Forall nib bs -> (j < length ps)%nat -> length bs = length ps -> 0 <= i ->
  i + Z.of_nat (length ps) + Z.of_nat pad <= lanes -> be_pos b = Some q -> lanes * 4 + q <= par_pos b ->
  let p := (i + Z.of_nat j) * 4 + q in
  In (p, nth j bs 0) (ufields b i bs ps pad) /\
  Forall (fun f => f = (p, nth j bs 0) \/ clear f p 4) (ufields b i bs ps pad).
Proof.
  induction ps as [|pr ps IH]; intros i bs pad j lanes HP HB Hj HLB Hi HL HQ HR p; [cbn in Hj; lia|]. inversion HP as [|? ? HP1 HP2]; subst.
  destruct bs as [|e bs]; [discriminate|]. inversion HB as [|? ? HB1 HB2]; subst.
  cbn [ufields]. cbn [length] in HL, Hj, HLB. rewrite HQ. cbn [app hd tl].
  assert (HPC : clear (i * 4 + par_pos b, pr) p 4) by (apply (clear_intro _ _ _ 4); cbn [fst snd]; [lia|exact HP1|subst p; lia]).
  destruct j as [|j].
  - subst p. replace (i + Z.of_nat 0) with i in * by lia. cbn [nth]. split; [now left|].
    constructor; [now left|]. constructor; [now right|].
    eapply Forall_impl; [|apply (ufields_region b ps (i + 1) bs pad HP2 HB2)]. intros f (Hn & HRR). right.
    apply (clear_intro _ _ _ 4); [lia|exact Hn|]. destruct HRR as [HRR|(q' & Hq' & HRR)]; [lia|]. rewrite HQ in Hq'. injection Hq' as <-. lia.
  - destruct (IH (i + 1) bs pad j lanes HP2 HB2 ltac:(lia) ltac:(lia) ltac:(lia) ltac:(lia) HQ HR) as (HI & HRR).
    subst p. replace (i + 1 + Z.of_nat j) with (i + Z.of_nat (S j)) in * by lia. cbn [nth]. split.
    + right. now right.
    + constructor; [right; apply (clear_intro _ _ _ 4); cbn [fst snd]; [lia|exact HB1|lia]|]. constructor; [now right|assumption].
Qed.

(** ** Head and tail fields against the lane regions *)
Lemma land_nib x : 0 <= Z.land x 15 < 16.
Proof. rewrite (land_lo _ 4 15) by lia. pow_norm. lia. Qed.
Lemma land_63 x : 0 <= Z.land x 63 < 64.
Proof. rewrite (land_lo _ 6 63) by lia. pow_norm. lia. Qed.
Lemma land_3 x : 0 <= Z.land x 3 < 4.
Proof. rewrite (land_lo _ 2 3) by lia. pow_norm. lia. Qed.

Lemma bus_cases b : bus_ok b = true ->
  wide b = true /\ b_lanes b = 16%nat /\ b_user b = (match b_if b with CQ => 183 | CC => 81 | RQ => 137 | RC => 161 end) \/
  wide b = false /\ (2 <= b_lanes b <= 8)%nat /\
  match b_if b with CQ => b_user b = 85 \/ b_user b = 88 | CC => b_user b = 33 | RQ => b_user b = 60 \/ b_user b = 62 | RC => b_user b = 75 end.
Proof.
  unfold bus_ok, wide. destruct (b_lanes b =? 16)%nat eqn:E.
  - intros H. left. split; [reflexivity|]. split; [lia|]. lia.
  - intros H. right. split; [reflexivity|]. apply andb_true_iff in H. destruct H as (H1 & H2). split; [lia|].
    destruct (b_if b); lia.
Qed.

Lemma pos_gap b q : bus_ok b = true -> be_pos b = Some q -> Z.of_nat (b_lanes b) * 4 + q <= par_pos b /\ 0 <= q.
Proof.
  intros HB. destruct (bus_cases b HB) as [(HW & HL & _)|(HW & HL & _)]; unfold be_pos, par_pos; rewrite HW; destruct (b_if b); intros H; inversion H; lia.
Qed.
Lemma par_pos_nonneg b : 1 <= par_pos b.
Proof. unfold par_pos. destruct (b_if b), (wide b); lia. Qed.

Ltac fld := match goal with |- clear _ _ _ => first
  [ apply (clear_intro _ _ _ 1); cbn [fst snd]; [lia|pow_norm; lia|lia]
  | apply (clear_intro _ _ _ 2); cbn [fst snd]; [lia|pow_norm; lia|lia]
  | apply (clear_intro _ _ _ 4); cbn [fst snd]; [lia|pow_norm; lia|lia]
  | apply (clear_intro _ _ _ 6); cbn [fst snd]; [lia|pow_norm; lia|lia] ] end.

Lemma head_clear_lane b first f i p : bus_ok b = true -> 0 <= i < Z.of_nat (b_lanes b) ->
  p = i * 4 + par_pos b \/ (exists q, be_pos b = Some q /\ p = i * 4 + q) ->
  Forall (fun g => clear g p 4) (head_user b first f).
Proof.
  intros HB Hi Hp. unfold head_user.
  pose proof (land_nib (f_first_be f)). pose proof (land_nib (f_last_be f)). pose proof (land_nib (f_seq_num f)).
  pose proof (land_63 (f_seq_num f)). pose proof (land_3 (Z.shiftr (f_seq_num f) 4)).
  unfold be_pos, par_pos in Hp.
  destruct (bus_cases b HB) as [(HW & HL & HU)|(HW & HL & HU)]; rewrite HW in *; destruct (b_if b); cbv zeta;
  (destruct Hp as [Hp|(q & Hq & Hp)]; [|try discriminate Hq; injection Hq as <-]);
  destruct first, (f_discontinue f); cbn [app]; try destruct (b_user b =? 62) eqn:E62; cbn [app];
  repeat (apply Forall_cons || apply Forall_nil); fld.
Qed.

Lemma eof_value l : 0 <= l < 8 -> 0 <= Z.lor 1 (Z.shiftl l 1) < 16.
Proof. intros Hl. rewrite (lor_sum _ _ 1 2) by lia. lia. Qed.

Lemma tail_clear_lane b last i p : bus_ok b = true -> 0 <= i < Z.of_nat (b_lanes b) -> 0 <= last < Z.of_nat (b_lanes b) ->
  p = i * 4 + par_pos b \/ (exists q, be_pos b = Some q /\ p = i * 4 + q) ->
  Forall (fun g => clear g p 4) (tail_user b last).
Proof.
  intros HB Hi Hl Hp. unfold tail_user. pose proof (land_nib last).
  unfold be_pos, par_pos in Hp.
  destruct (bus_cases b HB) as [(HW & HL & HU)|(HW & HL & HU)]; rewrite HW in *; destruct (b_if b);
  (destruct Hp as [Hp|(q & Hq & Hp)]; [|try discriminate Hq; injection Hq as <-]);
  try pose proof (eof_value last ltac:(lia)); repeat (apply Forall_cons || apply Forall_nil); fld.
Qed.

(** ** Range of tuser *)
Lemma pow_ge_16 n : 4 <= n -> 16 <= 2 ^ n.
Proof. intros H. change 16 with (2^4). apply Z.pow_le_mono_r; lia. Qed.

Lemma user_range b first f bs ps pad last tl : bus_ok b = true -> Forall nib ps -> Forall nib bs ->
  Z.of_nat (length ps) + Z.of_nat pad <= Z.of_nat (b_lanes b) -> 0 <= last < Z.of_nat (b_lanes b) ->
  tl = [] \/ tl = tail_user b last ->
  0 <= ors 0 (head_user b first f ++ ufields b 0 bs ps pad ++ tl) < 2 ^ b_user b.
Proof.
  intros HB HP HBS HL Hlast Htl.
  assert (HU0 : 0 <= b_user b) by (destruct (bus_cases b HB) as [(_ & _ & HU)|(_ & _ & HU)]; destruct (b_if b); lia).
  apply ors_range; [assumption|]. apply Forall_app. split; [|apply Forall_app; split].
  - unfold head_user.
    pose proof (land_nib (f_first_be f)). pose proof (land_nib (f_last_be f)). pose proof (land_nib (f_seq_num f)).
    pose proof (land_63 (f_seq_num f)). pose proof (land_3 (Z.shiftr (f_seq_num f) 4)).
    destruct (bus_cases b HB) as [(HW & HL' & HU)|(HW & HL' & HU)]; rewrite HW in *; destruct (b_if b); cbv zeta;
    destruct first, (f_discontinue f); cbn [app]; try destruct (b_user b =? 62) eqn:E62; cbn [app];
    repeat (apply Forall_cons || apply Forall_nil); cbn [fst snd];
    (split; [lia|]); try (destruct HU as [HU|HU]); rewrite HU in *; try discriminate; pow_norm; lia.
  - eapply Forall_impl; [|apply ufields_region; assumption]. intros g (Hn & HR). rewrite Z.add_0_l in HR.
    assert (HT : par_pos b + 4 * Z.of_nat (b_lanes b) <= b_user b).
    { unfold par_pos. destruct (bus_cases b HB) as [(HW & HL' & HU)|(HW & HL' & HU)]; rewrite HW; destruct (b_if b); lia. }
    pose proof (par_pos_nonneg b).
    assert (HG : 0 <= fst g /\ fst g + 4 <= b_user b).
    { destruct HR as [HR|(q & Hq & HR)]; [lia|]. destruct (pos_gap b q HB Hq). lia. }
    split; [lia|]. pose proof (pow_ge_16 (b_user b - fst g) ltac:(lia)). unfold nib in Hn. lia.
  - destruct Htl as [->| ->]; [constructor|]. unfold tail_user. pose proof (land_nib last).
    destruct (bus_cases b HB) as [(HW & HL' & HU)|(HW & HL' & HU)]; rewrite HW in *; destruct (b_if b);
    try pose proof (eof_value last ltac:(lia)); repeat (apply Forall_cons || apply Forall_nil); cbn [fst snd];
    (split; [lia|]); rewrite HU in *; pow_norm; lia.
Qed.

(** ** Extraction of the head fields *)
Lemma region_clear b g p w n : in_region b 0 n g ->
  (p + w <= par_pos b \/ n * 4 + par_pos b <= p) -> (forall q, be_pos b = Some q -> p + w <= q \/ n * 4 + q <= p) -> clear g p w.
Proof.
  intros (Hn & HR) H1 H2. apply (clear_intro _ _ _ 4); [lia|exact Hn|]. destruct HR as [HR|(q & Hq & HR)]; [lia|]. specialize (H2 q Hq). lia.
Qed.

(** The fields that the sink reads from the head. *)
Definition head_ok (b : us_bus) (first : bool) (f : us_frame) (u : Z) : Prop :=
  snk_head b first u = fun g =>
    mkFrame (f_data g) (f_byte_en g) (f_parity g)
      (match b_if b with CQ | RQ => if first then f_first_be f else f_first_be g | _ => f_first_be g end)
      (match b_if b with CQ | RQ => if first then f_last_be f else f_last_be g | _ => f_last_be g end)
      (if f_discontinue f then true else f_discontinue g)
      (match b_if b with RQ => f_seq_num f mod (if b_user b =? 60 then 16 else 64) | _ => f_seq_num g end).

Lemma bit_test x i : 0 <= i -> negb (Z.land x (Z.shiftl 1 i) =? 0) = negb (Z.land (Z.shiftr x i) 1 =? 0).
Proof.
  intros Hi. assert (E : Z.land x (Z.shiftl 1 i) = Z.land (Z.shiftr x i) 1 * 2 ^ i).
  { rewrite <- Z.shiftl_mul_pow2 by assumption. apply Z.bits_inj'. intros n Hn. rewrite Z.land_spec, !Z.shiftl_spec by lia.
    destruct (Z.lt_ge_cases n i).
    - rewrite !Z.testbit_neg_r with (n := n - i) by lia. apply andb_false_r.
    - rewrite Z.land_spec, Z.shiftr_spec by lia. now rewrite Z.sub_add. }
  rewrite E. pose proof (Z.pow_pos_nonneg 2 i ltac:(lia) Hi). f_equal. destruct (Z.eqb_spec (Z.land (Z.shiftr x i) 1) 0) as [->|Hne]; [reflexivity|].
  apply Z.eqb_neq. nia.
Qed.

Lemma user_get b first f bs ps pad tl p w v n :
  Forall nib ps -> Forall nib bs -> n = Z.of_nat (length ps) + Z.of_nat pad ->
  0 <= p -> 0 <= w -> 0 <= v < 2^w ->
  Forall (fun g => g = (p, v) \/ clear g p w) (head_user b first f) ->
  (p + w <= par_pos b \/ n * 4 + par_pos b <= p) -> (forall q, be_pos b = Some q -> p + w <= q \/ n * 4 + q <= p) ->
  Forall (fun g => clear g p w) tl -> (v = 0 \/ In (p, v) (head_user b first f)) ->
  Z.land (Z.shiftr (ors 0 (head_user b first f ++ ufields b 0 bs ps pad ++ tl)) p) (2^w - 1) = v.
Proof.
  intros HP HB Hn H1 H2 H3 H4 H5 H6 H7 H8. apply ors_get; try assumption.
  - apply Forall_app. split; [assumption|]. apply Forall_app. split; [|eapply Forall_impl; [|exact H7]; auto].
    eapply Forall_impl; [|apply ufields_region; assumption]. intros g HR. right. apply (region_clear b g p w n); try assumption.
    rewrite Z.add_0_l, <- Hn in HR. exact HR.
  - destruct H8 as [H8|H8]; [now left|]. right. apply in_app_iff. now left.
Qed.

Ltac head_forall :=
  repeat (apply Forall_cons || apply Forall_nil); first [left; reflexivity|right; fld].
Ltac tail_forall := repeat (apply Forall_cons || apply Forall_nil); fld.

Ltac solve_get HG f :=
  apply HG; try lia; try (destruct (f_discontinue f); cbn [bit]; pow_norm; lia); try (pow_norm; lia);
  try (intros q Hq; injection Hq as <-; lia); try (intros q Hq; discriminate Hq); try solve [tail_forall];
  destruct (f_discontinue f); cbn [app bit]; try (right; cbn [In]; tauto); try (left; reflexivity); head_forall.

Lemma head_get b first f bs ps pad last tl : bus_ok b = true -> frame_ok (b_if b) f -> Forall nib ps -> Forall nib bs ->
  (length ps + pad)%nat = b_lanes b -> 0 <= last < Z.of_nat (b_lanes b) ->
  tl = [] \/ tl = tail_user b last ->
  forall g, snk_head b first (ors 0 (head_user b first f ++ ufields b 0 bs ps pad ++ tl)) g =
    mkFrame (f_data g) (f_byte_en g) (f_parity g)
      (match b_if b with CQ | RQ => if first then f_first_be f else f_first_be g | _ => f_first_be g end)
      (match b_if b with CQ | RQ => if first then f_last_be f else f_last_be g | _ => f_last_be g end)
      (if f_discontinue f then true else f_discontinue g)
      (match b_if b with RQ => f_seq_num f mod (if b_user b =? 60 then 16 else 64) | _ => f_seq_num g end).
Proof.
  intros HB HF HP HBS HL Hlast Htl g.
  assert (HG : forall p w v, 0 <= p -> 0 <= w -> 0 <= v < 2^w ->
    Forall (fun g => g = (p, v) \/ clear g p w) (head_user b first f) ->
    (p + w <= par_pos b \/ Z.of_nat (b_lanes b) * 4 + par_pos b <= p) ->
    (forall q, be_pos b = Some q -> p + w <= q \/ Z.of_nat (b_lanes b) * 4 + q <= p) ->
    Forall (fun g => clear g p w) (tail_user b last) -> (v = 0 \/ In (p, v) (head_user b first f)) ->
    Z.land (Z.shiftr (ors 0 (head_user b first f ++ ufields b 0 bs ps pad ++ tl)) p) (2^w - 1) = v).
  { intros p w v H1 H2 H3 H4 H5 H6 H7 H8. apply (user_get b first f bs ps pad tl p w v (Z.of_nat (b_lanes b))); try assumption; [lia|].
    destruct Htl as [->| ->]; [constructor|assumption]. }
  set (u := ors 0 _) in *. clearbody u. clear Htl.
  destruct HF as (_ & _ & _ & _ & _ & HBE).
  pose proof (land_nib last) as HLN.
  pose proof (land_nib (f_seq_num f)) as HS1.
  pose proof (land_63 (f_seq_num f)) as HS2. pose proof (land_3 (Z.shiftr (f_seq_num f) 4)) as HS3.
  pose proof (land_nib (f_first_be f)) as HN1. pose proof (land_nib (f_last_be f)) as HN2.
  unfold snk_head. unfold head_user, tail_user, par_pos, be_pos in HG.
  destruct (bus_cases b HB) as [(HW & HLL & HU)|(HW & HLL & HU)]; rewrite HW in *; destruct (b_if b) eqn:EI; cbv zeta in HG |- *;
  try pose proof (eof_value last ltac:(lia)) as HEV.
  - (* CQ wide *) destruct HBE as (HE1 & HE2). unfold nib in *.
    rewrite (land_small (f_first_be f) 4) in * by (pow_norm; lia). rewrite (land_small (f_last_be f) 4) in * by (pow_norm; lia).
    rewrite bit_test by lia.
    assert (E3 : Z.land (Z.shiftr u 96) (2^1 - 1) = bit (f_discontinue f)) by (destruct first; solve_get HG f).
    change (2^1 - 1) with 1 in E3. rewrite E3, bit_nz. destruct first; [|reflexivity].
    assert (E1 : Z.land (Z.shiftr u 0) (2^4 - 1) = f_first_be f) by (solve_get HG f).
    assert (E2 : Z.land (Z.shiftr u 8) (2^4 - 1) = f_last_be f) by (solve_get HG f).
    change (2^4 - 1) with 15 in E1, E2. rewrite Z.shiftr_0_r in E1. rewrite E1, E2. reflexivity.
  - (* CC wide *) rewrite bit_test by lia.
    assert (E3 : Z.land (Z.shiftr u 16) (2^1 - 1) = bit (f_discontinue f)) by (destruct first; solve_get HG f).
    change (2^1 - 1) with 1 in E3. rewrite E3, bit_nz. reflexivity.
  - (* RQ wide *) destruct HBE as (HE1 & HE2). unfold nib in *.
    rewrite (land_small (f_first_be f) 4) in * by (pow_norm; lia). rewrite (land_small (f_last_be f) 4) in * by (pow_norm; lia).
    rewrite bit_test by lia.
    assert (E3 : Z.land (Z.shiftr u 36) (2^1 - 1) = bit (f_discontinue f)) by (destruct first; solve_get HG f).
    assert (E4 : Z.land (Z.shiftr u 61) (2^6 - 1) = Z.land (f_seq_num f) 63) by (destruct first; solve_get HG f).
    change (2^1 - 1) with 1 in E3. change (2^6 - 1) with 63 in E4. rewrite E3, bit_nz, E4, HU, (land_lo _ 6 63) by lia. destruct first; [|reflexivity].
    assert (E1 : Z.land (Z.shiftr u 0) (2^4 - 1) = f_first_be f) by (solve_get HG f).
    assert (E2 : Z.land (Z.shiftr u 8) (2^4 - 1) = f_last_be f) by (solve_get HG f).
    change (2^4 - 1) with 15 in E1, E2. rewrite Z.shiftr_0_r in E1. rewrite E1, E2. reflexivity.
  - (* RC wide *) rewrite bit_test by lia.
    assert (E3 : Z.land (Z.shiftr u 96) (2^1 - 1) = bit (f_discontinue f)) by (destruct first; solve_get HG f).
    change (2^1 - 1) with 1 in E3. rewrite E3, bit_nz. reflexivity.
  - (* CQ narrow *) destruct HBE as (HE1 & HE2). unfold nib in *.
    rewrite (land_small (f_first_be f) 4) in * by (pow_norm; lia). rewrite (land_small (f_last_be f) 4) in * by (pow_norm; lia).
    rewrite bit_test by lia.
    assert (E3 : Z.land (Z.shiftr u 41) (2^1 - 1) = bit (f_discontinue f)) by (destruct first; solve_get HG f).
    change (2^1 - 1) with 1 in E3. rewrite E3, bit_nz. destruct first; [|reflexivity].
    assert (E1 : Z.land (Z.shiftr u 0) (2^4 - 1) = f_first_be f) by (solve_get HG f).
    assert (E2 : Z.land (Z.shiftr u 4) (2^4 - 1) = f_last_be f) by (solve_get HG f).
    change (2^4 - 1) with 15 in E1, E2. rewrite Z.shiftr_0_r in E1. rewrite E1, E2. reflexivity.
  - (* CC narrow *)
    assert (E3 : Z.land (Z.shiftr u 0) (2^1 - 1) = bit (f_discontinue f)) by (solve_get HG f).
    change (2^1 - 1) with 1 in E3. rewrite Z.shiftr_0_r in E3. rewrite E3, bit_nz. reflexivity.
  - (* RQ narrow *) destruct HBE as (HE1 & HE2). unfold nib in *.
    rewrite (land_small (f_first_be f) 4) in * by (pow_norm; lia). rewrite (land_small (f_last_be f) 4) in * by (pow_norm; lia).
    rewrite bit_test by lia.
    assert (E3 : Z.land (Z.shiftr u 11) (2^1 - 1) = bit (f_discontinue f)) by (destruct first, (b_user b =? 62); solve_get HG f).
    assert (E4 : Z.land (Z.shiftr u 24) (2^4 - 1) = Z.land (f_seq_num f) 15) by (destruct first, (b_user b =? 62); solve_get HG f).
    assert (ES : (if b_user b =? 62 then Z.lor (Z.land (Z.shiftr u 24) 15) (Z.shiftl (Z.land (Z.shiftr u 60) 3) 4) else Z.land (Z.shiftr u 24) 15) =
      f_seq_num f mod (if b_user b =? 60 then 16 else 64)).
    { change (2^4 - 1) with 15 in E4. rewrite E4. destruct (b_user b =? 62) eqn:E62.
      - assert (E5 : Z.land (Z.shiftr u 60) (2^2 - 1) = Z.land (Z.shiftr (f_seq_num f) 4) 3) by (destruct first; solve_get HG f).
        change (2^2 - 1) with 3 in E5. rewrite E5. replace (b_user b =? 60) with false by lia.
        rewrite (lor_sum _ _ 4 16) by lia. rewrite (land_lo _ 4 15), (land_div _ 4 2) by lia. pow_norm. lia.
      - replace (b_user b =? 60) with true by lia. rewrite (land_lo _ 4 15) by lia. reflexivity. }
    rewrite ES. change (2^1 - 1) with 1 in E3. rewrite E3, bit_nz. destruct first; [|reflexivity].
    assert (E1 : Z.land (Z.shiftr u 0) (2^4 - 1) = f_first_be f) by (destruct (b_user b =? 62); solve_get HG f).
    assert (E2 : Z.land (Z.shiftr u 4) (2^4 - 1) = f_last_be f) by (destruct (b_user b =? 62); solve_get HG f).
    change (2^4 - 1) with 15 in E1, E2. rewrite Z.shiftr_0_r in E1. rewrite E1, E2. reflexivity.
  - (* RC narrow *) rewrite bit_test by lia.
    assert (E3 : Z.land (Z.shiftr u 42) (2^1 - 1) = bit (f_discontinue f)) by (destruct first; solve_get HG f).
    change (2^1 - 1) with 1 in E3. rewrite E3, bit_nz. reflexivity.
Qed.
