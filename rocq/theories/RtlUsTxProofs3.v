(** The adapters for UltraScale completion and request streams (C111, C112): what is put out for a beat, narrow streams. *)
From Verif Require Import PyBase RtlModel RtlFcProofs RtlRamProofs2 RtlAxmModel RtlAxmSpec RtlAxmProofs RtlUsIfSpec RtlUsIfProofs RtlUsTxModel RtlUsTxSpec RtlUsTxProofs RtlUsTxProofs2.
From Coq Require Import Lia.

Lemma cyc_frame s o : tc_frame (cyc s o) = true /\ tc_port (cyc s o) = o.
Proof. unfold cyc. destruct (act s o); split; reflexivity. Qed.
Lemma pa_ext p s o m m' b : pm_open m' = pm_open m -> pm_pay m' = pm_pay m -> PA p s o m b -> PA p s o m' b.
Proof. intros E1 E2 A. destruct A; [apply pa_h2|apply pa_s1|apply pa_d|apply pa_b]; rewrite ?E1, ?E2; assumption. Qed.
Lemma bok_ext p o m m' b : pm_open m' = pm_open m -> BOK p o m b -> BOK p o m' b.
Proof. intros E [? ? ? ? ? ? ?]. constructor; rewrite ?E; assumption. Qed.
Lemma act_of s f o : ts_frame s = f -> ts_port s = o -> act s o = f.
Proof. intros <- <-. unfold act. rewrite Bool.eqb_reflx. apply andb_true_r. Qed.

Definition total (p : tx_param) (o : bool) (m : tx_pm) (b : tx_beat) : Z := if tb_eop b then tbeats p (HT p + zlen (ppay o m b)) else tfull p (HT p + zlen (ppay o m b)).
Lemma concl_mk p s o m b r e : tp_ok p -> PInv p s o m -> pm_cur m = Some b -> BOK p o m b -> tx_route p (cyc s o) (pbeat o b) = r -> epos p s o m b = e -> 0 <= e -> tc_h1 (cyc s o) = (e =? 0) -> (e * WT p < HT p -> pm_open m = false) ->
  e < total p o m b -> tr_eop r = tb_eop b && (e =? tbeats p (HT p + zlen (ppay o m b)) - 1) -> tr_eop r = negb (tr_frame r) -> tr_h1 r = false ->
  tx_strb p s (cyc s o) r (pbeat o b) = 2 ^ Z.min (WT p) (HT p + zlen (ppay o m b) - e * WT p) - 1 ->
  (forall l, 0 <= l < Z.min (WT p) (HT p + zlen (ppay o m b) - e * WT p) -> lane (tx_data p s (cyc s o) (pbeat o b)) l = if e * WT p + l <? HT p then lane (tx_desc p (tb_hdr b)) (e * WT p + l) else dw (ppay o m b) (e * WT p + l - HT p)) ->
  (tr_read r = true -> total p o m b <= e + 1 /\ tr_frame r = negb (tb_eop b) /\ (tb_eop b = false -> tr_h2 r = false /\ tr_s1 r = false /\ tr_s2 r = false /\ (exists k, 1 <= k /\ zlen (ppay o m b) = k * WT p) /\
    forall s', ts_shd s' = fst (tx_shift p s (pbeat o b)) -> ts_shs s' = snd (tx_shift p s (pbeat o b)) -> Sh p s' (ppay o m b))) ->
  (tr_read r = false -> tr_frame r = true /\ tr_s2 r = false /\ forall s', ts_shd s' = fst (tx_shift p s (pbeat o b)) -> ts_shs s' = snd (tx_shift p s (pbeat o b)) -> ts_h2 s' = tr_h2 r -> ts_s1 s' = tr_s1 r -> act s' o = true -> PA p s' o m b /\ epos p s' o m b = e + 1) ->
  Concl p s o m b.
Proof.
  intros O I C B R EP E0 H1 OP ET EO EF RH KE DA RD NR mps pc npc. cbn zeta. destruct (cyc_frame s o) as [FR PO]. unfold nxt. cbn zeta. rewrite R. destruct (tx_shift p s (pbeat o b)) as [shd shs] eqn:SH. cbn [fst snd] in *.
  eexists. split; [|split; [|split; [exact EF|]]].
  - unfold Rest. rewrite C. unfold pdue. cbn zeta. unfold chk. rewrite EP. fold (total p o m b). rewrite tchunks_cons by exact ET. reflexivity.
  - unfold chk. rewrite EP. eapply (tout_mk p o m b e _ (cyc s o) r); try assumption; cbn [ts_last ts_keep ts_user ts_data]; try reflexivity; assumption.
  - intros q. destruct (tr_read r) eqn:RR.
    + destruct (RD eq_refl) as [TE [FE NE]]. unfold afterrd. split; [|unfold Rest; cbn [pm_cur]; symmetry; apply tchunks_nil; exact TE].
      unfold PInv. rewrite (act_of _ (negb (tb_eop b)) o) by (cbn [ts_frame ts_port]; assumption). cbn [pm_open pm_cur pm_pay ts_h1 ts_s2 ts_h2 ts_s1]. destruct (tb_eop b); cbn [negb]; [split; [discriminate|split; [reflexivity|exact Logic.I]]|].
      destruct (NE eq_refl) as [N1 [N2 [N3 [N4 N5]]]]. split; [intros _; exact N4|]. repeat (split; [assumption || reflexivity|]). apply N5; reflexivity.
    + destruct (NR eq_refl) as [FE [S2 PP]]. unfold afterrd.
      match goal with |- PInv _ ?s' _ _ /\ _ => specialize (PP s' eq_refl eq_refl eq_refl eq_refl); assert (AC : act s' o = true) by (apply act_of; cbn [ts_frame ts_port]; assumption); specialize (PP AC); destruct PP as [PP1 PP2] end.
      split.
      * unfold PInv. rewrite AC. cbn [pm_open pm_cur pm_pay ts_h1 ts_s2]. split; [exact (proj1 I)|]. split; [exact RH|]. split; [exact S2|]. split; [apply (bok_ext p o m); [reflexivity|exact B]|]. apply (pa_ext p _ o m); [reflexivity|reflexivity|exact PP1].
      * unfold Rest. cbn [pm_cur]. unfold pdue. cbn zeta. unfold phdr, pseq. cbn [pm_open pm_hdr pm_seq].
        unfold epos, ppay in PP2 |- *. cbn [pm_open pm_pay]. rewrite PP2. unfold total, ppay. reflexivity.
Qed.

Lemma tb_pbeat o b : tb_eop (pbeat o b) = tb_eop b /\ tb_hdr (pbeat o b) = tb_hdr b /\ tb_valid (pbeat o b) = tb_valid b.
Proof. destruct o; repeat split. Qed.

Lemma emit_cc64 p s o m b : tp_ok p -> tp_narrow p = false -> (tp_lw p =? 1) = true -> PInv p s o m -> pm_cur m = Some b -> Concl p s o m b.
Proof.
  intros O N L I C. destruct (sizes p s o m b I C) as [B [mm [M0 [MO [MC [ZP [DP DQ]]]]]]]. destruct (tb_pbeat o b) as [EB [HB _]].
  assert (T : tp_w p = WT p /\ HT p = 3 /\ tp_k p = 1 /\ WT p = 2 /\ tp_rq p = false).
  { destruct (tcases p O) as [W [We [X|[X|X]]]]; destruct X as [X1 X]; [destruct X as [X _]; congruence| |congruence]. destruct X as [_ [X2 [X3 [X4 X5]]]]. auto. }
  destruct T as [We [H3 [K1 [W2 RQ]]]]. pose proof (bk_n _ _ _ _ B) as BN. rewrite W2 in BN. pose proof (bk_strb _ _ _ _ B) as ST. pose proof (bk_full _ _ _ _ B) as EF. rewrite W2 in EF. pose proof (bk_lane _ _ _ _ B) as BLN. pose proof (bk_open _ _ _ _ B) as BO. set (n := bl o b) in *.
  rewrite W2 in MO, ZP, DP, DQ.
  assert (FN : forall x, tfull p (3 + (mm * 2 + x)) = mm + (3 + x) / 2) by (intros x; pose proof (tfull_at p mm (3 + x) O) as Q; rewrite W2 in Q; rewrite <- Q; f_equal; lia).
  assert (BT : forall x, tbeats p (3 + (mm * 2 + x)) = mm + (4 + x) / 2) by (intros x; pose proof (tbeats_at p mm (3 + x) O) as Q; rewrite W2 in Q; replace (3 + (mm * 2 + x)) with (mm * 2 + (3 + x)) by lia; rewrite Q; do 2 f_equal; lia).
  assert (TT : total p o m b = mm + (if tb_eop b then (4 + n) / 2 else 2)).
  { unfold total. rewrite H3, ZP. destruct (tb_eop b) eqn:E; [rewrite BT; reflexivity|]. rewrite FN. rewrite (EF eq_refl). reflexivity. }
  assert (NC : n = 0 \/ n = 1 \/ n = 2) by lia.
  assert (RT : tc_h1 (cyc s o) = false -> tx_route p (cyc s o) (pbeat o b) = if tb_eop b && (n =? 2) then (if tc_s1 (cyc s o) then mkTr false false false false true true true else mkTr true false false true (tc_s2 (cyc s o)) false false)
                             else mkTr (negb (tb_eop b)) false false (tc_s1 (cyc s o)) (tc_s2 (cyc s o)) (tb_eop b) true).
  { intros H1. unfold tx_route, cc_route. rewrite RQ, L, H1, EB, We, W2, K1, ST. rewrite (proj1 (cyc_frame s o)). cbn [andb]. replace (negb ((2 ^ n - 1) / 2 ^ (2 - 1) =? 0)) with (n =? 2) by (destruct NC as [-> |[-> | ->]]; reflexivity). reflexivity. }
  assert (SHF : tx_shift p s (pbeat o b) = (psel (tb_data (pbeat o b)) 32 32, psel (2 ^ n - 1) 1 1)) by (unfold tx_shift; rewrite N, We, W2, K1, ST; reflexivity).
  assert (TD : tx_data p s (cyc s o) (pbeat o b) = cc64_data s (cyc s o) (pbeat o b)) by (unfold tx_data; rewrite N, L; reflexivity).
  assert (TS : forall r, tx_strb p s (cyc s o) r (pbeat o b) = cc64_strb s (cyc s o) r (pbeat o b)) by (intros; unfold tx_strb; rewrite N, L; reflexivity).
  (* the middle: second beat of a header or data *)
  assert (GO : forall low, tc_h1 (cyc s o) = false -> tc_s1 (cyc s o) = false -> tc_s2 (cyc s o) = false -> epos p s o m b = mm + 1 -> (if tc_h2 (cyc s o) then psel (cc_desc (tb_hdr b)) 64 32 else psel (ts_shd s) 0 32) = low ->
    (if tc_h2 (cyc s o) then 1 else bsel (ts_shs s) 0) = 1 -> lane low 0 = (if mm * 2 + 2 <? 3 then lane (tx_desc p (tb_hdr b)) (mm * 2 + 2) else dw (ppay o m b) (mm * 2 - 1)) -> 0 <= low < 2 ^ 32 ->
    (n = 0 -> mm = 0) -> Concl p s o m b).
  { intros low H1 S1 S2 EP LE KE LL LR NM. specialize (RT H1). rewrite S1, S2 in RT. eapply (concl_mk p s o m b _ (mm + 1) O I C B RT EP); rewrite ?W2, ?H3, ?ZP; try lia.
    - rewrite H1. symmetry. apply Z.eqb_neq. lia.
    - intros LT. destruct (pm_open m) eqn:E; [|reflexivity]. destruct (MO eq_refl). lia.
    - rewrite TT. destruct (tb_eop b); [|lia]. destruct NC as [-> |[-> | ->]]; cbn; lia.
    - rewrite BT. destruct (tb_eop b); cbn [andb]; [|reflexivity]. destruct NC as [-> |[-> | ->]]; cbn; symmetry; [apply Z.eqb_eq|apply Z.eqb_eq|apply Z.eqb_neq]; lia.
    - destruct (tb_eop b), (n =? 2); reflexivity.
    - destruct (tb_eop b), (n =? 2); reflexivity.
    - rewrite TS. unfold cc64_strb. rewrite H1, KE, ST. replace (tr_s2 _) with false by (destruct (tb_eop b), (n =? 2); reflexivity). rewrite bsel_ones by lia. destruct NC as [E|[E|E]]; rewrite E.
      + rewrite (NM E). reflexivity.
      + replace (Z.min 2 _) with 2 by lia. reflexivity.
      + replace (Z.min 2 _) with 2 by lia. reflexivity.
    - intros l Hl. rewrite TD. unfold cc64_data. rewrite H1, HB, LE. change (2 ^ 32) with (2 ^ (32 * 1)). rewrite lane_hl by (try assumption; lia). destruct (Z.ltb_spec l 1).
      + assert (l = 0) as -> by lia. rewrite LL. replace ((mm + 1) * 2 + 0) with (mm * 2 + 2) by lia. replace (mm * 2 + 2 - 3) with (mm * 2 - 1) by lia. reflexivity.
      + assert (l = 1) as -> by lia. rewrite (proj2 (Z.ltb_ge _ _)) by lia. change (1 - 1) with 0. change 32 with (32 * 1) at 1. rewrite lane_lo by lia. rewrite BLN by lia. rewrite DP by lia. f_equal. lia.
    - intros RD. rewrite TT. destruct (tb_eop b) eqn:E; cbn [andb] in *.
      + split; [|split; [destruct (n =? 2); [discriminate|reflexivity]|discriminate]]. destruct NC as [E1|[E1|E1]]; rewrite E1 in *; cbn in *; try discriminate; lia.
      + split; [lia|]. split; [reflexivity|]. intros _. repeat (split; [reflexivity|]). specialize (EF eq_refl). split; [exists (mm + 1); lia|]. rewrite SHF. cbn [fst snd]. intros s' E1 E2 _. rewrite K1, E1, E2, ZP, EF. split; [reflexivity|]. split; [apply psel_range; lia|].
        intros l Hl. change 32 with (32 * 1) at 1 2. rewrite lane_sel by lia. rewrite BLN by lia. rewrite DP by lia. f_equal. lia.
    - intros RD. destruct (tb_eop b) eqn:E; cbn [andb] in *; [|discriminate]. destruct (Z.eqb_spec n 2) as [N2|]; [|discriminate]. cbn [tr_frame tr_s2 tr_h2 tr_s1]. split; [reflexivity|]. split; [reflexivity|]. rewrite SHF. cbn [fst snd]. intros s' E1 E2 E3 E4 AC. split.
      + apply pa_s1; try assumption; fold n; rewrite ?K1, ?W2, ?E1, ?E2.
        * lia.
        * rewrite N2. reflexivity.
        * apply psel_range; lia.
        * intros l Hl. change 32 with (32 * 1) at 1 2. rewrite lane_sel by lia. rewrite BLN by lia. f_equal. 
      + unfold epos. rewrite AC, E3, E4, ZP, H3, FN, N2. change ((3 + 2) / 2) with 2. lia. }
  destruct I as [I0 I1]. destruct (act s o) eqn:A.
  - rewrite C in I1. destruct I1 as [H1 [S2 [_ PAS]]]. destruct PAS as [H2 S1 L1 OP|H2 S1 _ EOP XW SHS SHR SHL|H2 S1 OP SH|? ? ? NN ?]; try congruence.
    + unfold cyc in GO. rewrite A in GO. cbn [tc_h1 tc_s1 tc_s2 tc_h2] in GO. rewrite H2 in GO. specialize (MC OP). subst mm. apply (GO (psel (cc_desc (tb_hdr b)) 64 32)); try assumption; try reflexivity.
      * unfold epos. rewrite A, H2. reflexivity.
      * change (0 * 2 + 2 <? 3) with true. cbv iota. unfold tx_desc. rewrite RQ. change 64 with (32 * 2). change 32 with (32 * 1) at 2. rewrite lane_sel by lia. reflexivity.
      * apply psel_range. lia.
    + (* the extra beat *)
      clear GO. assert (N2 : n = 2) by (unfold n in *; lia). assert (CH : tc_h1 (cyc s o) = false) by (unfold cyc; rewrite A; exact H1). specialize (RT CH). rewrite EOP, N2 in RT. replace (tc_s1 (cyc s o)) with true in RT by (unfold cyc; rewrite A; symmetry; exact S1). cbn in RT.
      assert (CH2 : tc_h2 (cyc s o) = false) by (unfold cyc; rewrite A; exact H2). rewrite K1, W2 in SHS, SHL. fold n in SHS, SHL. rewrite N2 in SHS, SHL. rewrite N2 in ZP.
      eapply (concl_mk p s o m b _ (mm + 2) O (conj I0 _) C B RT); rewrite ?W2, ?H3, ?ZP, ?CH, ?EOP; try lia; try reflexivity.
      * unfold epos. rewrite A, H2, S1, ZP, H3, FN. reflexivity.
      * rewrite TT, EOP, N2. cbn. lia.
      * rewrite BT. cbn. symmetry. apply Z.eqb_eq. lia.
      * rewrite TS. unfold cc64_strb. rewrite CH, CH2, SHS. cbn [tr_s2]. replace (Z.min 2 _) with 1 by lia. reflexivity.
      * intros l Hl. rewrite TD. unfold cc64_data. rewrite CH, CH2. assert (l = 0) as -> by lia. change (2 ^ 32) with (2 ^ (32 * 1)). rewrite lane_hl by (try apply psel_range; lia). change (0 <? 1) with true. cbv iota. change 32 with (32 * 1). rewrite lane_lo by lia. rewrite SHL by lia.
        rewrite (proj2 (Z.ltb_ge _ _)) by lia. rewrite DP by lia. f_equal. lia.
      * intros _. split; [rewrite TT, EOP, N2; cbn; lia|]. split; [reflexivity|discriminate].
      * discriminate.
      Unshelve. rewrite A, C. split; [exact H1|]. split; [exact S2|]. split; [exact B|]. apply pa_s1; try assumption; fold n; rewrite ?K1, ?W2, ?N2; assumption.
    + specialize (SH N). rewrite K1 in SH. destruct SH as [SH1 [SH2 SH3]]. destruct (MO OP) as [MM MZ]. unfold cyc in GO. rewrite A in GO. cbn [tc_h1 tc_s1 tc_s2 tc_h2] in GO. rewrite H2 in GO. apply (GO (psel (ts_shd s) 0 32)); try assumption; try reflexivity.
      * unfold epos. rewrite A, H2, S1, OP, MZ, H3. replace (mm * 2) with (mm * 2 + 0) by lia. rewrite FN. reflexivity.
      * rewrite SH1. reflexivity.
      * rewrite (proj2 (Z.ltb_ge _ _)) by lia. change 32 with (32 * 1). rewrite lane_lo by lia. rewrite SH3 by lia. rewrite MZ. rewrite DQ by (try assumption; lia). f_equal. lia.
      * apply psel_range. lia.
      * intros Z0. specialize (BO OP). lia.
  - rewrite C in I1. destruct I1 as [OP _]. specialize (MC OP). subst mm. clear GO RT. assert (CH : tc_h1 (cyc s o) = true) by (unfold cyc; rewrite A; reflexivity).
    assert (RT : tx_route p (cyc s o) (pbeat o b) = mkTr true false true false false false false) by (unfold tx_route, cc_route, cyc; rewrite RQ, L, A; reflexivity).
    assert (I : PInv p s o m) by (split; [exact I0|rewrite A, C; split; assumption]).
    eapply (concl_mk p s o m b _ 0 O I C B RT); rewrite ?W2, ?H3, ?ZP, ?CH; try lia; try reflexivity.
    + unfold epos. rewrite A. reflexivity.
    + intros _; exact OP.
    + rewrite TT. destruct (tb_eop b); [|lia]. destruct NC as [-> |[-> | ->]]; cbn; lia.
    + cbn [tr_eop]. rewrite BT. destruct (tb_eop b); [|reflexivity]. destruct NC as [-> |[-> | ->]]; reflexivity.
    + rewrite TS. unfold cc64_strb. rewrite CH. replace (Z.min 2 _) with 2 by lia. reflexivity.
    + intros l Hl. rewrite TD. unfold cc64_data, tx_desc. rewrite CH, RQ, HB. rewrite (proj2 (Z.ltb_lt _ _)) by lia. change 64 with (32 * 2). rewrite lane_lo by lia. reflexivity.
    + discriminate.
    + intros _. cbn [tr_frame tr_s2 tr_h2 tr_s1]. split; [reflexivity|]. split; [reflexivity|]. intros s' _ _ E3 E4 AC. split; [apply pa_h2; assumption|]. unfold epos. rewrite AC, E3. reflexivity.
Qed.

Lemma emit_narrow p s o m b : tp_ok p -> tp_narrow p = true -> PInv p s o m -> pm_cur m = Some b -> Concl p s o m b.
Proof.
  intros O N I C. destruct (sizes p s o m b I C) as [B [mm [M0 [MO [MC [ZP [DP DQ]]]]]]]. destruct (tb_pbeat o b) as [EB [HB _]].
  assert (T : tp_w p = WT p /\ HT p = 4 /\ tp_rq p = true /\ (2 <? tp_lw p) = false /\ ((WT p = 2 /\ (tp_lw p =? 1) = true /\ (tp_lw p =? 2) = false) \/ (WT p = 4 /\ (tp_lw p =? 1) = false /\ (tp_lw p =? 2) = true))).
  { destruct (tcases p O) as [W [We [X|[X|X]]]]; destruct X as [X1 X]; try congruence. destruct X as [X2 [X3 [X4 X5]]]. auto. }
  destruct T as [We [H4 [RQ [L2 WC]]]]. pose proof (bk_n _ _ _ _ B) as BN. pose proof (bk_strb _ _ _ _ B) as ST. pose proof (bk_full _ _ _ _ B) as EF. pose proof (bk_lane _ _ _ _ B) as BLN. pose proof (bk_open _ _ _ _ B) as BO. set (n := bl o b) in *.
  assert (H8 : exists hb, 1 <= hb <= 2 /\ hb * WT p = 4 /\ 4 / WT p = hb). { destruct WC as [[-> _]|[-> _]]; [exists 2|exists 1]; split; try lia; split; reflexivity. }
  destruct H8 as [hb [HB1 [HB2 HB3]]]. assert (W0 : 2 <= WT p) by (destruct WC as [[-> _]|[-> _]]; lia).
  assert (FN : forall x, 0 <= x -> tfull p (4 + (mm * WT p + x)) = hb + mm + x / WT p) by (intros x X; pose proof (tfull_at p (hb + mm) x O) as Q; rewrite <- Q; f_equal; lia).
  assert (BT : forall x, 0 <= x -> tbeats p (4 + (mm * WT p + x)) = hb + mm + (x + WT p - 1) / WT p) by (intros x X; pose proof (tbeats_at p (hb + mm) x O) as Q; rewrite <- Q; f_equal; lia).
  assert (N1 : 1 <= n -> (n + WT p - 1) / WT p = 1) by (intros; apply div_is; lia). assert (N0 : (0 + WT p - 1) / WT p = 0) by (apply div_is; lia).
  assert (TT : 1 <= n -> total p o m b = hb + mm + 1).
  { intros. unfold total. rewrite H4, ZP. fold n. destruct (tb_eop b) eqn:E; [rewrite BT by lia; rewrite N1 by lia; reflexivity|]. rewrite FN by lia. rewrite (EF eq_refl). rewrite Z.div_same by lia. reflexivity. }
  assert (TD : tx_data p s (cyc s o) (pbeat o b) = rqn_data p (cyc s o) (pbeat o b)) by (unfold tx_data; rewrite N; reflexivity).
  assert (TS : forall r, tx_strb p s (cyc s o) r (pbeat o b) = rqn_strb p (cyc s o) (pbeat o b)) by (intros; unfold tx_strb; rewrite N; reflexivity).
  destruct (cyc_frame s o) as [FR PO].
  assert (EN : tb_eop b = false -> 1 <= n) by (intros E; rewrite (EF E); lia).
  assert (PE : (hb + mm) * WT p = 4 + mm * WT p) by (clear - HB2; rewrite Z.mul_add_distr_r, HB2; reflexivity).
  (* data *)
  assert (GD : tc_h1 (cyc s o) = false -> tc_h2 (cyc s o) = false -> tc_s1 (cyc s o) = false -> tc_s2 (cyc s o) = false -> epos p s o m b = hb + mm -> 1 <= n -> Concl p s o m b).
  { intros H1 H2 S1 S2 EP NP. assert (RT : tx_route p (cyc s o) (pbeat o b) = mkTr (negb (tb_eop b)) false false false false (tb_eop b) true).
    { unfold tx_route, rq_route. rewrite RQ, H1, H2, L2, EB, S1, S2, FR, !andb_false_r. reflexivity. }
    eapply (concl_mk p s o m b _ (hb + mm) O I C B RT EP); rewrite ?H4, ?ZP; fold n; cbn [tr_frame tr_h1 tr_h2 tr_s1 tr_s2 tr_eop tr_read].
    - clear - HB1 M0. lia.
    - rewrite H1. symmetry. apply Z.eqb_neq. clear - HB1 M0. lia.
    - intros X. exfalso. clear - X HB2 M0 W0. nia.
    - rewrite TT by assumption. lia.
    - rewrite BT by lia. rewrite N1 by lia. destruct (tb_eop b); [|reflexivity]. symmetry. apply Z.eqb_eq. lia.
    - now rewrite negb_involutive.
    - reflexivity.
    - rewrite TS. unfold rqn_strb. rewrite H1, H2, ST. cbn [orb]. rewrite PE. replace (Z.min _ _) with n by (clear - BN; lia). destruct (tp_lw p =? 1); reflexivity.
    - intros l Hl. rewrite TD. unfold rqn_data. rewrite H1, H2. rewrite PE in *. assert (0 <= mm * WT p) by (clear - M0 W0; nia). rewrite (proj2 (Z.ltb_ge _ _)) by (clear - Hl H; lia). rewrite DP by (clear - Hl; lia). replace (4 + mm * WT p + l - 4 - mm * WT p) with l by (clear; lia). assert (0 <= l < n) by (clear - Hl BN; lia). rewrite <- BLN by assumption.
      destruct WC as [[W1 [-> _]]|[W1 [-> _]]]; [change 64 with (32 * 2)|change 128 with (32 * 4)]; apply lane_lo; clear - H0 BN W1; lia.
    - intros _. split; [rewrite TT; lia|]. split; [reflexivity|]. intros E. repeat (split; [reflexivity|]). split; [exists (mm + 1); rewrite (EF E); clear - M0; lia|]. intros s' _ _ X. congruence.
    - discriminate. }
  (* last beat of the header *)
  assert (GH : tc_h1 (cyc s o) = negb (hb =? 2) -> tc_h2 (cyc s o) = (hb =? 2) -> tc_s1 (cyc s o) = false -> tc_s2 (cyc s o) = false -> epos p s o m b = hb - 1 -> pm_open m = false -> Concl p s o m b).
  { intros H1 H2 S1 S2 EP OP. specialize (MC OP). subst mm. assert (RT : tx_route p (cyc s o) (pbeat o b) = if tb_eop b && (n =? 0) then mkTr false false false false false true true else mkTr true false false false false false false).
    { unfold tx_route, rq_route. rewrite RQ, H1, H2, L2, EB, S1, S2, FR, ST, ones_eq0 by lia. destruct WC as [[W1 [X1 X2]]|[W1 [X1 X2]]]; rewrite X1, X2; rewrite W1 in *.
      - assert (hb = 2) as -> by lia. reflexivity.
      - assert (hb = 1) as -> by lia. reflexivity. }
    eapply (concl_mk p s o m b _ (hb - 1) O I C B RT EP); rewrite ?H4, ?ZP; fold n.
    - clear - HB1. lia.
    - rewrite H1. assert (hb = 1 \/ hb = 2) as [-> | ->] by lia; reflexivity.
    - intros _; exact OP.
    - assert (n = 0 \/ 1 <= n) as [Z0|Z0] by lia; [|rewrite TT by lia; lia]. unfold total. rewrite H4, ZP. fold n. rewrite Z0. destruct (tb_eop b) eqn:E; [rewrite BT, N0 by lia; lia|specialize (EN eq_refl); lia].
    - rewrite BT by lia. destruct (tb_eop b) eqn:E; cbn [andb tr_eop]; [|reflexivity]. destruct (Z.eqb_spec n 0) as [Z0|Z0]; cbn [tr_eop]; symmetry; [rewrite Z0, N0; apply Z.eqb_eq; lia|rewrite N1 by lia; apply Z.eqb_neq; lia].
    - destruct (tb_eop b && _); reflexivity.
    - destruct (tb_eop b && _); reflexivity.
    - rewrite TS. unfold rqn_strb. rewrite H1, H2. destruct WC as [[W1 [X1 X2]]|[W1 [X1 X2]]]; rewrite X1; rewrite W1 in *.
      + assert (hb = 2) as -> by lia. replace (Z.min _ _) with 2 by lia. reflexivity.
      + assert (hb = 1) as -> by lia. replace (Z.min _ _) with 4 by lia. reflexivity.
    - intros l Hl. rewrite TD. unfold rqn_data, tx_desc. rewrite H1, H2, RQ, HB. destruct WC as [[W1 [X1 X2]]|[W1 [X1 X2]]]; rewrite X1; rewrite W1 in *.
      + assert (hb = 2) as -> by lia. change (negb (2 =? 2)) with false. change (2 =? 2) with true. cbv iota zeta. rewrite (proj2 (Z.ltb_lt _ _)) by lia. change 64 with (32 * 2). rewrite lane_sel by lia. f_equal. 
      + assert (hb = 1) as -> by lia. change (negb (1 =? 2)) with true. cbv iota zeta. rewrite (proj2 (Z.ltb_lt _ _)) by lia. f_equal. 
    - intros RD. destruct (tb_eop b) eqn:E; cbn [andb] in *; [|discriminate]. destruct (Z.eqb_spec n 0) as [Z0|Z0]; [|discriminate]. unfold total. rewrite E, H4, ZP. fold n. rewrite Z0, BT, N0 by lia. split; [lia|]. split; [reflexivity|discriminate].
    - intros RD. assert (NP : tb_eop b = true -> 1 <= n). { intros E. rewrite E in RD. cbn [andb] in RD. destruct (Z.eqb_spec n 0); [discriminate|lia]. } destruct (tb_eop b && _); [discriminate|]. cbn [tr_frame tr_s2 tr_h2 tr_s1]. split; [reflexivity|]. split; [reflexivity|].
      intros s' _ _ E3 E4 AC. split; [apply pa_b; assumption|]. unfold epos. rewrite AC, E3, E4, OP, HB3. lia. }
  destruct I as [I0 I1]. destruct (act s o) eqn:A.
  - rewrite C in I1. destruct I1 as [H1 [S2 [_ PAS]]]. unfold cyc in GD, GH. rewrite A in GD, GH. cbn [tc_h1 tc_s1 tc_s2 tc_h2] in GD, GH. destruct PAS as [H2 S1 L1 OP|? ? NN|H2 S1 OP SH|H2 S1 OP NN EE]; try congruence.
    + destruct WC as [[W1 [X1 X2]]|[W1 [X1 X2]]]; [|congruence]. rewrite W1 in *. assert (hb = 2) as -> by lia. apply GH; try assumption. unfold epos. rewrite A, H2. reflexivity.
    + destruct (MO OP) as [MM MZ]. apply GD; try assumption; [|exact (BO OP)]. unfold epos. rewrite A, H2, S1, OP, H4, MZ. replace (mm * WT p) with (mm * WT p + 0) by lia. rewrite FN by lia. rewrite Z.div_0_l by lia. lia.
    + specialize (MC OP). apply GD; try assumption; [|destruct (tb_eop b) eqn:E; [exact (EE eq_refl)|exact (EN eq_refl)]]. unfold epos. rewrite A, H2, S1, OP, HB3. lia.
  - rewrite C in I1. destruct I1 as [OP _]. destruct WC as [[W1 [X1 X2]]|[W1 [X1 X2]]].
    + specialize (MC OP). subst mm. clear GH GD. assert (CH : tc_h1 (cyc s o) = true) by (unfold cyc; rewrite A; reflexivity).
      assert (RT : tx_route p (cyc s o) (pbeat o b) = mkTr true false true false false false false) by (unfold tx_route, rq_route, cyc; rewrite RQ, X1, A; reflexivity).
      assert (I : PInv p s o m) by (split; [exact I0|rewrite A, C; split; assumption]). rewrite W1 in *. assert (hb = 2) as -> by lia.
      eapply (concl_mk p s o m b _ 0 O I C B RT); rewrite ?W1, ?H4, ?ZP, ?CH.
      * unfold epos. rewrite A. reflexivity.
      * lia.
      * reflexivity.
      * intros _; exact OP.
      * assert (n = 0 \/ 1 <= n) as [Z0|Z0] by lia; [|rewrite TT by lia; lia]. unfold total. rewrite H4, ZP. fold n. rewrite Z0. destruct (tb_eop b) eqn:E; [rewrite BT by lia; cbn; lia|specialize (EN eq_refl); lia].
      * cbn [tr_eop]. fold n. rewrite BT by lia. destruct (tb_eop b); [|reflexivity]. symmetry. cbn [andb]. apply Z.eqb_neq. assert (0 <= (n + 2 - 1) / 2) by (apply Z.div_pos; lia). lia.
      * reflexivity.
      * reflexivity.
      * rewrite TS. unfold rqn_strb. rewrite CH, X1. fold n. replace (Z.min _ _) with 2 by lia. reflexivity.
      * intros l Hl. rewrite TD. unfold rqn_data, tx_desc. rewrite CH, RQ, HB, X1. rewrite (proj2 (Z.ltb_lt _ _)) by lia. cbv zeta. change 64 with (32 * 2). rewrite lane_lo by lia. reflexivity.
      * discriminate.
      * intros _. cbn [tr_frame tr_s2 tr_h2 tr_s1]. split; [reflexivity|]. split; [reflexivity|]. intros s' _ _ E3 E4 AC. split; [apply pa_h2; assumption|]. unfold epos. rewrite AC, E3. reflexivity.
    + rewrite W1 in *. assert (hb = 1) as -> by lia. unfold cyc in GH. rewrite A in GH. apply GH; try reflexivity; [unfold epos; rewrite A; reflexivity|exact OP].
Qed.

Lemma emit p s o m b : tp_ok p -> PInv p s o m -> pm_cur m = Some b -> Concl p s o m b.
Proof.
  intros O I C. destruct (tp_narrow p) eqn:N; [now apply emit_narrow|]. destruct (tp_lw p =? 1) eqn:L; [now apply emit_cc64|now apply emit_wide].
Qed.
