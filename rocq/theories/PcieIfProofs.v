(** Lemmas: parity, header codec, tags. *)
From Verif Require Import PyBase BitLemmas TlpModel TlpSpec TlpProofs SplitModel SplitSpec SplitProofs PcieIfModel PcieIfSpec.
From Coq Require Import ZifyBool ZifyNat.
Ltac Zify.zify_post_hook ::= Z.div_mod_to_equations.

Local Arguments parity : simpl never.
Local Arguments dword_parity : simpl never.
Local Arguments flip : simpl never.

(** ---- parity ---- *)
Lemma fold_parity_bit d j : 0 <= j -> Z.testbit (fold_parity d) j = xor_bits d j 8.
Proof.
  intros Hj. unfold fold_parity. cbv zeta. repeat rewrite ?Z.lxor_spec, ?Z.shiftr_spec by lia. cbn [xor_bits].
  replace (j + 1 + 1) with (j + 2) by lia. replace (j + 2 + 1) with (j + 3) by lia. replace (j + 3 + 1) with (j + 4) by lia.
  replace (j + 4 + 1) with (j + 5) by lia. replace (j + 5 + 1) with (j + 6) by lia. replace (j + 6 + 1) with (j + 7) by lia.
  replace (j + 1 + 4) with (j + 5) by lia. replace (j + 2 + 4) with (j + 6) by lia. replace (j + 1 + 2 + 4) with (j + 7) by lia.
  replace (j + 1 + 2) with (j + 3) by lia.
  repeat match goal with |- context[Z.testbit d ?x] => let b := fresh "b" in set (b := Z.testbit d x) in *; clearbody b end.
  repeat match goal with b : bool |- _ => destruct b end; reflexivity.
Qed.

Lemma land_bit d k : 0 <= k -> negb (Z.land d (2^k) =? 0) = Z.testbit d k.
Proof.
  intros Hk. destruct (Z.testbit d k) eqn:E.
  - destruct (Z.eqb_spec (Z.land d (2^k)) 0) as [H|]; [|reflexivity].
    apply (f_equal (fun v => Z.testbit v k)) in H. rewrite Z.land_spec, E, Z.pow2_bits_true, Z.bits_0 in H by lia. discriminate.
  - destruct (Z.eqb_spec (Z.land d (2^k)) 0) as [|H]; [reflexivity|]. exfalso. apply H. apply Z.bits_inj'. intros n Hn.
    rewrite Z.land_spec, Z.pow2_bits_eqb, Z.bits_0 by lia. destruct (Z.eqb_spec k n); [subst; now rewrite E|apply andb_false_r].
Qed.

Lemma xor_bits_high d n : forall m lo, 0 <= d < 2^n -> 0 <= n <= lo -> xor_bits d lo m = false.
Proof.
  induction m as [|m IH]; intros lo Hd Hn; [reflexivity|]. cbn [xor_bits]. rewrite (testbit_high d n lo) by lia. rewrite IH by lia. reflexivity.
Qed.

Lemma dword_parity_range d : 0 <= dword_parity d < 16.
Proof.
  unfold dword_parity. cbv zeta. set (e := fold_parity d).
  assert (HA : Z.land e 1 = 0 \/ Z.land e 1 = 1).
  { pose proof (Z.land_ones e 1 ltac:(lia)) as H. change (Z.ones 1) with 1 in H. change (2^1) with 2 in H. lia. }
  destruct HA as [-> | ->]; do 3 (destruct (negb _)); cbn; lia.
Qed.

Lemma dword_parity_ok d : 0 <= d < 2^32 -> byte_parity_of d (dword_parity d).
Proof.
  intros Hd i Hi. pose proof (dword_parity_range d) as HR.
  destruct (Z.lt_ge_cases i 4) as [H4|H4].
  2:{ rewrite (testbit_high _ 4 i) by lia. symmetry. apply (xor_bits_high d 32); lia. }
  unfold dword_parity. cbv zeta.
  change 0x100 with (2^8). change 0x10000 with (2^16). change 0x1000000 with (2^24).
  rewrite !land_bit by lia.
  assert (E0 : Z.land (fold_parity d) 1 = if Z.testbit (fold_parity d) 0 then 1 else 0).
  { change 1 with (Z.ones 1) at 1. rewrite Z.land_ones by lia. change (2^1) with 2. rewrite <- Z.bit0_mod. destruct (Z.testbit _ 0); reflexivity. }
  rewrite E0. rewrite !fold_parity_bit by lia.
  assert (HI : i = 0 \/ i = 1 \/ i = 2 \/ i = 3) by lia.
  destruct HI as [-> | [-> | [-> | ->]]]; change (8 * 0) with 0; change (8 * 1) with 8; change (8 * 2) with 16; change (8 * 3) with 24;
    destruct (xor_bits d 0 8), (xor_bits d 8 8), (xor_bits d 16 8), (xor_bits d 24 8); reflexivity.
Qed.

Lemma parity_loop_ok D : 0 <= D -> forall fuel k p, 0 <= k -> 0 <= p < 2^k -> Z.shiftr D (8*k) < 2^(Z.of_nat fuel) ->
  (forall i, 0 <= i < k -> Z.testbit p i = Z.testbit D (8 * i)) ->
  exists q, parity_loop fuel (Z.shiftr D (8*k)) (2^k) p = Ok q /\ 0 <= q /\ forall i, 0 <= i -> Z.testbit q i = Z.testbit D (8*i).
Proof.
  intros HD. induction fuel as [|f IH]; intros k p Hk Hp Hf HB.
  - assert (E : Z.shiftr D (8*k) = 0). { assert (0 <= Z.shiftr D (8*k)) by now apply Z.shiftr_nonneg. change (2 ^ Z.of_nat 0) with 1 in Hf. lia. }
    cbn [parity_loop]. replace (Z.shiftr D (8*k) =? 0) with true by lia. exists p. split; [reflexivity|]. split; [lia|]. intros i Hi. destruct (Z.lt_ge_cases i k); [apply HB; lia|].
    rewrite (testbit_high p k i) by lia. replace (8*i) with (8*(i-k) + 8*k) by lia. rewrite <- Z.shiftr_spec by lia. rewrite E. now rewrite Z.bits_0.
  - cbn [parity_loop]. destruct (Z.eqb_spec (Z.shiftr D (8*k)) 0) as [E|E].
    + exists p. split; [reflexivity|]. split; [lia|]. intros i Hi. destruct (Z.lt_ge_cases i k); [apply HB; lia|].
      rewrite (testbit_high p k i) by lia. replace (8*i) with (8*(i-k) + 8*k) by lia. rewrite <- Z.shiftr_spec by lia. rewrite E. now rewrite Z.bits_0.
    + rewrite Z.shiftr_shiftr by lia. replace (8 * k + 8) with (8 * (k + 1)) by lia.
      rewrite Z.shiftl_mul_pow2 by lia. rewrite <- Z.pow_add_r by lia.
      pose proof (land_bit (Z.shiftr D (8*k)) 0 ltac:(lia)) as HL0. rewrite Z.shiftr_spec, Z.add_0_l in HL0 by lia. change (2^0) with 1 in HL0. rewrite HL0.
      apply IH; [lia| | |].
      * rewrite Z.pow_add_r by lia. change (2^1) with 2. destruct (Z.testbit D (8*k)); [|lia].
        pose proof (lor_add_disjoint p 1 k Hk Hp) as HL1. rewrite Z.shiftl_1_l in HL1. rewrite HL1. lia.
      * replace (8 * (k + 1)) with (8 * k + 8) by lia. rewrite <- Z.shiftr_shiftr by lia. rewrite (Z.shiftr_div_pow2 _ 8) by lia.
        rewrite Nat2Z.inj_succ, Z.pow_succ_r in Hf by lia. pose proof (proj2 (Z.shiftr_nonneg D (8*k)) HD). change (2^8) with 256. lia.
      * intros i Hi. destruct (Z.eq_dec i k) as [->|HN].
        -- destruct (Z.testbit D (8*k)) eqn:ED; [rewrite Z.lor_spec, Z.pow2_bits_true by lia; apply orb_true_r|apply (testbit_high p k k); lia].
        -- rewrite <- (HB i) by lia. destruct (Z.testbit D (8*k)); [|reflexivity]. rewrite Z.lor_spec, Z.pow2_bits_eqb by lia.
           destruct (Z.eqb_spec k i); [lia|apply orb_false_r].
Qed.

Lemma parity_ok d : 0 <= d -> exists p, parity d = Ok p /\ 0 <= p /\ byte_parity_of d p.
Proof.
  intros Hd. unfold parity. cbv zeta. set (D := fold_parity d).
  assert (HD : 0 <= D).
  { unfold D, fold_parity. cbv zeta. repeat (apply Z.lxor_nonneg; split; intros _); try apply Z.shiftr_nonneg;
    repeat (apply Z.lxor_nonneg; split; intros _); try apply Z.shiftr_nonneg; repeat (apply Z.lxor_nonneg; split; intros _); try apply Z.shiftr_nonneg; auto. }
  destruct (parity_loop_ok D HD (S (Z.to_nat (Z.log2 D))) 0 0) as (q & H1 & H2 & H3).
  { lia. } { cbn. lia. }
  { change (8*0) with 0. rewrite Z.shiftr_0_r. rewrite Nat2Z.inj_succ, Z2Nat.id by apply Z.log2_nonneg.
    destruct (Z.eq_dec D 0) as [E|E]; [rewrite E; cbn; lia|]. apply Z.log2_spec. lia. }
  { intros i Hi. lia. }
  change (8*0) with 0 in H1. rewrite Z.shiftr_0_r in H1. exists q. split; [exact H1|]. split; [assumption|].
  intros i Hi. rewrite H3 by lia. apply fold_parity_bit. lia.
Qed.

Lemma xor_bits_flip d i : 0 <= i -> forall n lo, 0 <= lo -> xor_bits (flip d i) lo n = xorb (xor_bits d lo n) ((lo <=? i) && (i <? lo + Z.of_nat n)).
Proof.
  intros Hi. induction n as [|n IH]; intros lo Hlo; cbn [xor_bits].
  - replace (i <? lo + Z.of_nat 0) with (negb (lo <=? i)) by lia. rewrite andb_negb_r. reflexivity.
  - rewrite IH by lia. unfold flip. rewrite Z.lxor_spec, Z.pow2_bits_eqb by lia.
    destruct (Z.testbit d lo), (xor_bits d (lo + 1) n), (Z.eqb_spec i lo); cbn [xorb];
      destruct (lo <=? i) eqn:A, (i <? lo + Z.of_nat (S n)) eqn:B, (lo + 1 <=? i) eqn:C, (i <? lo + 1 + Z.of_nat n) eqn:F; cbn; try reflexivity; lia.
Qed.

Lemma byte_parity_flip d i p p' : 0 <= i -> byte_parity_of d p -> byte_parity_of (flip d i) p' -> p <> p'.
Proof.
  intros Hi H H' E. subst p'. specialize (H (i / 8) ltac:(lia)). specialize (H' (i / 8) ltac:(lia)).
  rewrite H in H'. rewrite xor_bits_flip in H' by lia. replace ((8 * (i / 8) <=? i) && (i <? 8 * (i / 8) + Z.of_nat 8)) with true in H' by lia.
  destruct (xor_bits d (8 * (i / 8)) 8); discriminate.
Qed.

Lemma byte_parity_unique d p q : 0 <= p -> 0 <= q -> byte_parity_of d p -> byte_parity_of d q -> p = q.
Proof. intros Hp Hq H1 H2. apply Z.bits_inj'. intros n Hn. rewrite H1, H2 by lia. reflexivity. Qed.

Lemma flip_range d i n : 0 <= d < 2^n -> 0 <= i < n -> 0 <= flip d i < 2^n.
Proof.
  intros Hd Hi. assert (0 <= flip d i). { unfold flip. apply Z.lxor_nonneg. pose proof (Z.pow_nonneg 2 i ltac:(lia)). split; lia. }
  split; [assumption|]. destruct (Z.eq_dec (flip d i) 0) as [->|HN]; [apply Z.pow_pos_nonneg; lia|].
  apply Z.log2_lt_pow2; [lia|]. unfold flip.
  pose proof (Z.log2_lxor d (2^i) ltac:(lia) ltac:(apply Z.pow_nonneg; lia)) as HL. rewrite Z.log2_pow2 in HL by lia.
  destruct (Z.eq_dec d 0) as [->|]; [change (Z.log2 0) with 0 in HL; lia|]. assert (Z.log2 d < n) by (apply Z.log2_lt_pow2; lia). lia.
Qed.

Lemma zl_refl l : TlpModel.zlist_eqb l l = true.
Proof. induction l; cbn; [reflexivity|]. now rewrite Z.eqb_refl. Qed.
Lemma zl_eq a : forall b, TlpModel.zlist_eqb a b = true <-> a = b.
Proof.
  induction a as [|x a IH]; intros [|y b]; cbn; try (split; [discriminate|discriminate]); try tauto.
  rewrite andb_true_iff, Z.eqb_eq, IH. split; [intros [-> ->]; reflexivity|intros [= -> ->]; auto].
Qed.

Lemma update_check f f' : 0 <= f_hdr f -> update_parity f = Ok f' -> check_parity f' = Ok true.
Proof.
  intros Hh H. unfold update_parity in H. destruct (parity_ok (f_hdr f) Hh) as (p & Hp & _). rewrite Hp in H. cbn in H. injection H as <-.
  unfold check_parity. cbn. rewrite zl_refl. cbn. rewrite Hp. cbn. now rewrite !Z.eqb_refl.
Qed.

Lemma check_inv f : frame_ok f -> check_parity f = Ok true ->
  f_parity f = map (fun d => Z.lxor (dword_parity d) 0xf) (f_data f) /\ parity (f_hdr f) = Ok (f_hdr_par f) /\ f_tlp_prfx_par f = dword_parity (f_tlp_prfx f).
Proof.
  intros (Hh & _) H. unfold check_parity in H. destruct (TlpModel.zlist_eqb _ _) eqn:E; [|discriminate]. cbn [negb] in H. apply zl_eq in E.
  destruct (parity_ok (f_hdr f) ltac:(lia)) as (p & Hp & _). rewrite Hp in *. cbn [bind] in H. split; [exact E|].
  assert (HB : (f_hdr_par f =? p) && (f_tlp_prfx_par f =? dword_parity (f_tlp_prfx f)) = true) by congruence.
  apply andb_true_iff in HB. destruct HB as (H1 & H2). apply Z.eqb_eq in H1. apply Z.eqb_eq in H2. rewrite H1. auto.
Qed.

Lemma parity_detects f : frame_ok f -> check_parity f = Ok true ->
  (forall i, 0 <= i < 128 -> check_parity (with_hdr f (flip (f_hdr f) i)) = Ok false) /\
  (forall i, 0 <= i < 32 -> check_parity (with_prfx f (flip (f_tlp_prfx f) i)) = Ok false) /\
  (forall l x r i, f_data f = l ++ x :: r -> 0 <= i < 32 -> check_parity (with_data f (l ++ flip x i :: r)) = Ok false).
Proof.
  intros HF HC. pose proof (check_inv f HF HC) as (E1 & E2 & E3). destruct HF as (Hh & Hp & Hd). split; [|split].
  - intros i Hi. unfold check_parity, with_hdr. cbn. rewrite E1, zl_refl. cbn [negb].
    destruct (parity_ok (flip (f_hdr f) i)) as (p' & P1 & P2 & P3). { apply (flip_range _ _ 128); lia. }
    rewrite P1. cbn [bind]. destruct (parity_ok (f_hdr f) ltac:(lia)) as (p & Q1 & Q2 & Q3). rewrite Q1 in E2. injection E2 as <-.
    assert (p <> p') by (apply (byte_parity_flip (f_hdr f) i); auto; lia). destruct (Z.eqb_spec p p'); [contradiction|reflexivity].
  - intros i Hi. unfold check_parity, with_prfx. cbn. rewrite E1, zl_refl, E2. cbn [negb bind]. rewrite Z.eqb_refl, E3. cbn [andb].
    assert (dword_parity (f_tlp_prfx f) <> dword_parity (flip (f_tlp_prfx f) i)).
    { apply (byte_parity_flip (f_tlp_prfx f) i); [lia|apply dword_parity_ok; lia|apply dword_parity_ok; apply flip_range; lia]. }
    destruct (Z.eqb_spec (dword_parity (f_tlp_prfx f)) (dword_parity (flip (f_tlp_prfx f) i))); [contradiction|reflexivity].
  - intros l x r i HE Hi. unfold check_parity, with_data. cbn. rewrite E1, HE.
    assert (HX : 0 <= x < 2^32). { rewrite HE in Hd. apply Forall_app in Hd. destruct Hd as (_ & Hd). inversion Hd; assumption. }
    destruct (TlpModel.zlist_eqb _ _) eqn:E; [|reflexivity]. exfalso. apply zl_eq in E. rewrite !map_app in E. apply app_inv_head in E. cbn in E.
    injection E as E. assert (N : dword_parity x <> dword_parity (flip x i)).
    { apply (byte_parity_flip x i); [lia|apply dword_parity_ok; lia|apply dword_parity_ok; apply flip_range; lia]. }
    apply N. apply (f_equal (fun v => Z.lxor v 15)) in E. rewrite !Z.lxor_assoc, !Z.lxor_nilpotent, !Z.lxor_0_r in E. exact E.
Qed.

(** The stored parity values are the byte parities. *)
Lemma update_values f : frame_ok f -> exists f', update_parity f = Ok f' /\
  f_tlp_prfx f' = f_tlp_prfx f /\ f_hdr f' = f_hdr f /\ f_data f' = f_data f /\
  byte_parity_of (f_hdr f) (f_hdr_par f') /\ byte_parity_of (f_tlp_prfx f) (f_tlp_prfx_par f') /\
  Forall2 (fun d q => forall i, 0 <= i < 4 -> Z.testbit q i = negb (xor_bits d (8*i) 8)) (f_data f) (f_parity f') /\ check_parity f' = Ok true.
Proof.
  intros (Hh & Hp & Hd). destruct (parity_ok (f_hdr f) ltac:(lia)) as (p & P1 & P2 & P3).
  destruct (update_parity f) as [f'|] eqn:E; [|unfold update_parity in E; rewrite P1 in E; discriminate].
  exists f'. assert (HC : check_parity f' = Ok true) by (apply (update_check f); [lia|assumption]).
  unfold update_parity in E. rewrite P1 in E. cbn in E. injection E as <-. cbn in *.
  repeat (split; [reflexivity|]). split; [assumption|]. split; [now apply dword_parity_ok|]. split; [|assumption].
  clear -Hd. induction (f_data f) as [|x r IH]; cbn; [constructor|]. inversion Hd; subst. constructor; [|now apply IH].
  intros i Hi. rewrite Z.lxor_spec. rewrite (dword_parity_ok x H1) by lia.
  assert (E : Z.testbit 15 i = true). { change 15 with (Z.ones 4). apply Z.ones_spec_low. lia. }
  rewrite E. apply xorb_true_r.
Qed.
