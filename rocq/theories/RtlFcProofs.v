(** Proofs about the flow control counters (C81, C82). *)
From Verif Require Import PyBase RtlModel RtlFcModel RtlFcSpec.

Lemma types_table : forallb (fun k => let ft := Z.of_nat k in
   match tlp_fc_type ft with
   | FcP => posted ft && negb (nonposted ft) && negb (completion ft)
   | FcNP => nonposted ft && negb (posted ft) && negb (completion ft)
   | FcCPL => completion ft && negb (nonposted ft) && negb (posted ft)
   | FcX => negb (known ft) && negb (nonposted ft) && negb (posted ft) && negb (completion ft)
   end) (seq 0 256) = true.
Proof. vm_compute. reflexivity. Qed.
Lemma types_ok ft : 0 <= ft < 256 ->
   match tlp_fc_type ft with
   | FcP => posted ft = true /\ nonposted ft = false /\ completion ft = false
   | FcNP => nonposted ft = true /\ posted ft = false /\ completion ft = false
   | FcCPL => completion ft = true /\ nonposted ft = false /\ posted ft = false
   | FcX => nonposted ft = false /\ posted ft = false /\ completion ft = false
   end.
Proof.
  intros H. pose proof (proj1 (forallb_forall _ _) types_table (Z.to_nat ft)) as T. cbv beta zeta in T. rewrite Z2Nat.id in T by lia.
  assert (HI : In (Z.to_nat ft) (seq 0 256)) by (apply in_seq; lia). specialize (T HI). clear HI.
  destruct (tlp_fc_type ft), (posted ft), (nonposted ft), (completion ft), (known ft); cbn in T; try discriminate; auto.
Qed.

Lemma psel_range v lo w : 0 <= w -> 0 <= psel v lo w < 2 ^ w.
Proof. intros. unfold psel. apply Z.mod_pos_bound. apply Z.pow_pos_nonneg; lia. Qed.
Lemma psel_bits v lo w i : 0 <= lo -> 0 <= w -> 0 <= i -> Z.testbit (psel v lo w) i = (i <? w) && Z.testbit v (lo + i).
Proof.
  intros. unfold psel. rewrite <- Z.shiftr_div_pow2 by assumption. destruct (Z.ltb_spec i w).
  - rewrite Z.mod_pow2_bits_low, Z.shiftr_spec by lia. replace (i + lo) with (lo + i) by lia. reflexivity.
  - now rewrite Z.mod_pow2_bits_high by lia.
Qed.
Lemma bsel_test v i : 0 <= i -> (bsel v i =? 0) = negb (Z.testbit v i).
Proof.
  intros. assert (E : bsel v i = Z.b2z (Z.testbit v i)).
  { apply Z.bits_inj'. intros k Hk. unfold bsel. rewrite psel_bits by lia. destruct (Z.ltb_spec k 1).
    - assert (k = 0) as -> by lia. rewrite Z.add_0_r, Z.b2z_bit0. reflexivity.
    - destruct (Z.testbit v i); cbn [Z.b2z]; [|now rewrite Z.bits_0]. destruct k; try lia. change 1 with (2^0). rewrite Z.pow2_bits_false by lia. reflexivity. }
  rewrite E. now destruct (Z.testbit v i).
Qed.

Lemma seg_d_ok hdr s : 0 <= s -> (Z.testbit (psel hdr (128 * s + 120) 8) 6 = true -> dwords (psel hdr (128 * s + 96) 10) <= 512) ->
  seg_fc_d hdr s = credits (psel hdr (128 * s + 120) 8, psel hdr (128 * s + 96) 10).
Proof.
  intros Hs HL. unfold seg_fc_d, credits. rewrite bsel_test by lia. rewrite psel_bits in * by lia. change (6 <? 8) with true in *. cbn [andb] in *.
  replace (128 * s + 120 + 6) with (s * 128 + 126) in * by lia. destruct (Z.testbit hdr (s * 128 + 126)); [|reflexivity]. cbn [negb]. specialize (HL eq_refl).
  replace (s * 128 + 96) with (128 * s + 96) by lia.
  assert (E : psel hdr (128 * s + 96) 9 = psel hdr (128 * s + 96) 10 mod 2 ^ 9).
  { unfold psel. apply Znumtheory.Zmod_div_mod; [reflexivity|reflexivity|]. exists 2. reflexivity. }
  cbv zeta. rewrite E. pose proof (psel_range hdr (128 * s + 96) 10 ltac:(lia)). set (len := psel hdr (128 * s + 96) 10) in *. clearbody len.
  change (2^10) with 1024 in *. change (2^9) with 512 in *. change (2^12) with 4096. unfold dwords in *. destruct (Z.eqb_spec len 0); [lia|].
  destruct (Z.eq_dec len 512) as [->|]; [reflexivity|]. rewrite (Z.mod_small len 512) by lia. destruct (Z.eqb_spec len 0); [lia|].
  replace (0 * 512 + len + 3) with (len + 3) by lia. apply Z.mod_small. split; [apply Z.div_pos; lia|apply Z.div_lt_upper_bound; lia].
Qed.

Lemma count_app cls l l' : count_of cls (l ++ l') = count_of cls l + count_of cls l'.
Proof. unfold count_of. rewrite filter_app. unfold zlen. rewrite app_length. lia. Qed.
Lemma data_app cls l l' : data_of cls (l ++ l') = data_of cls l + data_of cls l'.
Proof.
  unfold data_of. rewrite filter_app, map_app. unfold zsum. generalize (map credits (filter (fun h => cls (fst h)) l')) as b. generalize (map credits (filter (fun h => cls (fst h)) l)) as a.
  induction a as [|x a IH]; intros b; cbn [app fold_right]; [lia|]. rewrite IH. lia.
Qed.

Lemma fc_next_ok hdr valid sop ready : forall n,
  Forall (fun h => Z.testbit (fst h) 6 = true -> dwords (snd h) <= 512) (starts hdr valid sop ready n) ->
  fc_next hdr valid sop ready n = fc_mod (counts_of (starts hdr valid sop ready n)).
Proof.
  induction n as [|n IH]; [reflexivity|]. cbn [fc_next starts]. set (s := Z.of_nat n) in *. set (l := starts hdr valid sop ready n) in *.
  intros F. apply Forall_app in F. destruct F as [F1 F2]. rewrite (IH F1). unfold fc_seg. rewrite !bsel_test, !negb_involutive by lia.
  destruct (Z.testbit sop s && Z.testbit valid s && ready).
  2:{ rewrite app_nil_r. reflexivity. }
  apply Forall_cons_iff in F2. destruct F2 as [F2 _]. cbn [fst snd] in F2.
  rewrite (seg_d_ok hdr s ltac:(lia) F2). replace (s * 128 + 120) with (128 * s + 120) by lia.
  pose proof (types_ok _ (psel_range hdr (128 * s + 120) 8 ltac:(lia))) as T.
  set (ft := psel hdr (128 * s + 120) 8) in *. set (h := (ft, psel hdr (128 * s + 96) 10)).
  assert (C1 : forall cls, count_of cls (l ++ [h]) = count_of cls l + if cls ft then 1 else 0).
  { intros cls. rewrite count_app. unfold count_of at 2. cbn [filter fst h]. now destruct (cls ft). }
  assert (C2 : forall cls, data_of cls (l ++ [h]) = data_of cls l + if cls ft then credits h else 0).
  { intros cls. rewrite data_app. unfold data_of at 2. cbn [filter fst h]. destruct (cls ft); cbn [map zsum fold_right]; lia. }
  unfold counts_of, fc_mod. cbn [fc_ph fc_pd fc_nph fc_npd fc_cplh fc_cpld]. rewrite !C1, !C2. change (2^4) with 16. change (2^9) with 512.
  destruct (tlp_fc_type ft); destruct T as (T1 & T2 & T3); rewrite T1, T2, T3; rewrite ?Z.add_0_r, ?Zplus_mod_idemp_l; reflexivity.
Qed.

(* ---------- P-Tile ---------- *)
Lemma pt_exact w index : 0 < w -> forall l s a, acct_run_ok w a l ->
  pt_limit s = a_lim a mod 2 ^ w -> pt_cap s = a_cap a -> pt_av s = a_old a - a_used a -> pt_inc s = a_lim a - a_old a ->
  0 <= a_cap a < 2 ^ w -> (a_cap a = 0 -> a_lim a = 0) -> a_lim a <= a_used a + a_cap a -> 0 <= a_old a <= a_lim a ->
  let a' := fold_left acct_step l a in pt_av (pt_run w index s (shown w index (a_lim a) l)) = a_old a' - a_used a'.
Proof.
  intros Hw. assert (HP : 0 < 2 ^ w) by (apply Z.pow_pos_nonneg; lia).
  assert (HP1 : 2 ^ (w + 1) = 2 * 2 ^ w) by (rewrite Z.pow_add_r by lia; lia).
  induction l as [|[de dc] l IH]; intros s a HO HL HC HA HI HR HZ HM HO2; cbn [fold_left shown]; [exact HA|].
  cbn [acct_run_ok] in HO. destruct HO as [(O1 & O2 & O3) HO]. cbn [fst snd] in *.
  unfold pt_run. cbn [fold_left]. change (fold_left (pt_step w index) ?x ?y) with (pt_run w index y x).
  set (a1 := acct_step a (de, dc)) in *. change (a_lim a + de) with (a_lim a1).
  assert (S : pt_step w index s (mkPtIn false (a_lim a1 mod 2 ^ w) index dc) = mkPt (a_cap a1) (a_lim a1 mod 2 ^ w) de (a_lim a - a_used a1)).
  { unfold pt_step. cbn [pi_rst pi_limit pi_idx pi_dec]. rewrite Z.eqb_refl. cbn [andb]. rewrite HC, HL, HA, HI.
    unfold a1 in *. cbn [acct_step a_lim a_used a_cap fst snd] in *.
    replace (a_old a - a_used a - dc + (a_lim a - a_old a)) with (a_lim a - (a_used a + dc)) by lia.
    replace (a_lim a - (a_used a + dc) <? 0) with false by lia. f_equal.
    - destruct (Z.eqb_spec (a_cap a) 0) as [E|E]; [|reflexivity]. rewrite (HZ E), Z.add_0_l. apply Z.mod_small. lia.
    - rewrite Zminus_mod_idemp_l, Zminus_mod_idemp_r. replace (a_lim a + de - a_lim a) with de by lia. apply Z.mod_small; lia.
    - rewrite (Z.mod_small _ (2 ^ (w + 1))) by lia. replace (a_lim a - (a_used a + dc) >? a_cap a) with false by lia. apply Z.mod_small. lia. }
  rewrite S. apply (IH _ a1 HO); cbn [pt_limit pt_cap pt_av pt_inc]; unfold a1; cbn [acct_step a_lim a_used a_cap a_old fst snd]; try lia.
  - destruct (a_cap a =? 0); lia.
  - unfold a1 in O3. cbn [acct_step a_lim a_used a_cap fst snd] in O3. destruct (Z.eqb_spec (a_cap a) 0) as [E|E]; [rewrite (HZ E) in *; lia|lia].
  - unfold a1 in O3. cbn [acct_step a_lim a_used a_cap fst snd] in O3. exact O3.
Qed.

Lemma pt_bounded w index : 0 <= w -> forall l s, 0 <= pt_av s <= pt_cap s -> 0 <= pt_cap s ->
  Forall (fun i => 0 <= pi_limit i) l -> let s' := pt_run w index s l in 0 <= pt_av s' <= pt_cap s'.
Proof.
  intros Hw. assert (HP : 0 < 2 ^ w) by (apply Z.pow_pos_nonneg; lia). assert (HP1 : 2 ^ (w + 1) = 2 * 2 ^ w) by (rewrite Z.pow_add_r by lia; lia).
  induction l as [|i l IH]; intros s HA HC F; [exact HA|]. apply Forall_cons_iff in F. destruct F as [F1 F2].
  unfold pt_run. cbn [fold_left]. change (fold_left (pt_step w index) ?x ?y) with (pt_run w index y x).
  assert (G : 0 <= pt_av (pt_step w index s i) <= pt_cap (pt_step w index s i)).
  { unfold pt_step. destruct (pi_rst i); [cbn; lia|]. cbn [pt_av pt_cap]. set (v := pt_av s - pi_dec i + pt_inc s).
    set (c' := if (pi_idx i =? index) && (pt_cap s =? 0) then pi_limit i else pt_cap s).
    assert (HC' : pt_cap s <= c') by (unfold c'; destruct (Z.eqb_spec (pt_cap s) 0); destruct (pi_idx i =? index); cbn [andb]; lia).
    destruct (Z.ltb_spec v 0); [lia|]. destruct (Z.gtb_spec (v mod 2 ^ (w + 1)) (pt_cap s)); [lia|].
    pose proof (Z.mod_pos_bound v (2 ^ w) HP). split; [lia|].
    assert (v mod 2 ^ w <= v mod 2 ^ (w + 1)); [|lia]. rewrite HP1. rewrite (Z.mul_comm 2), Z.rem_mul_r by lia.
    pose proof (Z.mod_pos_bound (v / 2 ^ w) 2 ltac:(lia)). nia. }
  apply IH; [assumption|lia|assumption].
Qed.
