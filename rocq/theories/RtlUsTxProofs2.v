(** The adapters for UltraScale completion and request streams (C111, C112): what is put out for a beat. *)
From Verif Require Import PyBase RtlModel RtlFcProofs RtlRamProofs2 RtlAxmModel RtlAxmSpec RtlAxmProofs RtlUsIfSpec RtlUsIfProofs RtlUsTxModel RtlUsTxSpec RtlUsTxProofs.
From Coq Require Import Lia.

Definition pbeat (o : bool) (b : tx_beat) : tx_beat := if o then b else mkTb (tb_valid b) (tb_eop b) 0 0 (tb_hdr b) (tb_seq b).
Definition act (s : tx_state) (o : bool) : bool := ts_frame s && Bool.eqb (ts_port s) o.
Definition bl (o : bool) (b : tx_beat) : Z := zlen (bpay o b).
Record BOK (p : tx_param) (o : bool) (m : tx_pm) (b : tx_beat) : Prop := mkBOK {
  bk_seq : 0 <= tb_seq b < 2 ^ (tp_sw p - 1); bk_strb : tb_strb (pbeat o b) = 2 ^ bl o b - 1; bk_n : 0 <= bl o b <= WT p; bk_full : tb_eop b = false -> bl o b = WT p; bk_open : pm_open m = true -> 1 <= bl o b;
  bk_lane : forall l, 0 <= l < bl o b -> lane (tb_data (pbeat o b)) l = dw (bpay o b) l; bk_hdr : pm_open m = false -> thdr_ok p (tb_hdr b) }.
Definition Sh (p : tx_param) (s : tx_state) (pay : list Z) : Prop := tp_narrow p = false ->
  ts_shs s = 2 ^ tp_k p - 1 /\ 0 <= ts_shd s < 2 ^ (32 * tp_k p) /\ forall l, 0 <= l < tp_k p -> lane (ts_shd s) l = dw pay (zlen pay - tp_k p + l).
Inductive PA (p : tx_param) (s : tx_state) (o : bool) (m : tx_pm) (b : tx_beat) : Prop :=
| pa_h2 : ts_h2 s = true -> ts_s1 s = false -> (tp_lw p =? 1) = true -> pm_open m = false -> PA p s o m b
| pa_s1 : ts_h2 s = false -> ts_s1 s = true -> tp_narrow p = false -> tb_eop b = true -> WT p < tp_k p + bl o b -> ts_shs s = 2 ^ (bl o b - (WT p - tp_k p)) - 1 -> 0 <= ts_shd s < 2 ^ (32 * tp_k p) ->
    (forall l, 0 <= l < bl o b - (WT p - tp_k p) -> lane (ts_shd s) l = dw (bpay o b) (WT p - tp_k p + l)) -> PA p s o m b
| pa_d : ts_h2 s = false -> ts_s1 s = false -> pm_open m = true -> Sh p s (pm_pay m) -> PA p s o m b
| pa_b : ts_h2 s = false -> ts_s1 s = false -> pm_open m = false -> tp_narrow p = true -> (tb_eop b = true -> 1 <= bl o b) -> PA p s o m b.
Definition PInv (p : tx_param) (s : tx_state) (o : bool) (m : tx_pm) : Prop :=
  (pm_open m = true -> exists k, 1 <= k /\ zlen (pm_pay m) = k * WT p) /\
  (if act s o then ts_h1 s = false /\ ts_s2 s = false /\ match pm_cur m with None => pm_open m = true /\ ts_h2 s = false /\ ts_s1 s = false /\ Sh p s (pm_pay m) | Some b => BOK p o m b /\ PA p s o m b end
   else pm_open m = false /\ match pm_cur m with None => True | Some b => BOK p o m b end).
Definition epos (p : tx_param) (s : tx_state) (o : bool) (m : tx_pm) (b : tx_beat) : Z :=
  if act s o then (if ts_h2 s then 1 else if ts_s1 s then tfull p (HT p + zlen (ppay o m b)) else if pm_open m then tfull p (HT p + zlen (pm_pay m)) else 4 / WT p) else 0.
Definition Rest (p : tx_param) (s : tx_state) (o : bool) (m : tx_pm) : list tchunk := match pm_cur m with None => [] | Some b => pdue p o m b (epos p s o m b) end.
Definition ti0 : tx_in := mkTi false (mkTb false false 0 0 0 0) (mkTb false false 0 0 0 0) false 0 0 0 0.
Definition tout_s (p : tx_param) (c : tchunk) (s : tx_state) : Prop := tout_is p c (mkTv ti0 false false (ts_valid s) (ts_data s) (ts_keep s) (ts_last s) (ts_user s)).
Definition nxt (p : tx_param) (s : tx_state) (c : tx_cyc) (b : tx_beat) (mps : Z) (pc npc : bool) : tx_state :=
  let r := tx_route p c b in let st := tx_strb p s c r b in let '(shd, shs) := tx_shift p s b in
  mkTs (tr_frame r) (tr_h1 r) (tr_h2 r) (tr_s1 r) (tr_s2 r) (tc_port c) shd shs mps pc npc (tx_data p s c b) st true (tr_eop r) (tx_user p c r b st).
Definition cyc (s : tx_state) (o : bool) : tx_cyc := if act s o then mkTc true (ts_h1 s) (ts_h2 s) (ts_s1 s) (ts_s2 s) o else mkTc true true false false false o.
Definition chk (p : tx_param) (s : tx_state) (o : bool) (m : tx_pm) (b : tx_beat) : tchunk := mkTk o (phdr m b) (pseq m b) (ppay o m b) (tb_eop b) (epos p s o m b).
Definition afterrd (rd : bool) (o : bool) (m : tx_pm) (b : tx_beat) (q : list tchunk) : tx_pm :=
  if rd then mkPm None (negb (tb_eop b)) (phdr m b) (pseq m b) (if tb_eop b then [] else ppay o m b) q else mkPm (Some b) (pm_open m) (pm_hdr m) (pm_seq m) (pm_pay m) q.
Definition Concl (p : tx_param) (s : tx_state) (o : bool) (m : tx_pm) (b : tx_beat) : Prop := forall mps pc npc,
  let r := tx_route p (cyc s o) (pbeat o b) in let s' := nxt p s (cyc s o) (pbeat o b) mps pc npc in
  exists rest, Rest p s o m = chk p s o m b :: rest /\ tout_s p (chk p s o m b) s' /\ tr_eop r = negb (tr_frame r) /\ forall q, PInv p s' o (afterrd (tr_read r) o m b q) /\ Rest p s' o (afterrd (tr_read r) o m b q) = rest.

(** * Lanes *)
Lemma lane_hl hi lo k l : 0 <= k -> 0 <= lo < 2 ^ (32 * k) -> 0 <= l -> lane (hi * 2 ^ (32 * k) + lo) l = if l <? k then lane lo l else lane hi (l - k).
Proof.
  intros K R L. assert (P1 : 0 < 2 ^ (32 * k)) by (apply Z.pow_pos_nonneg; lia). destruct (Z.ltb_spec l k).
  - rewrite <- (lane_mod (hi * _ + _) k) by lia. rewrite Z.add_comm, Z_mod_plus_full, Z.mod_small by lia. reflexivity.
  - unfold lane. replace (32 * l) with (32 * k + 32 * (l - k)) by lia. rewrite Z.pow_add_r by lia. assert (P2 : 0 < 2 ^ (32 * (l - k))) by (apply Z.pow_pos_nonneg; lia).
    rewrite <- Z.div_div by lia. rewrite Z.div_add_l by lia. rewrite (Z.div_small lo) by lia. now rewrite Z.add_0_r.
Qed.
Lemma lane_lo v w l : 0 <= l < w -> lane (psel v 0 (32 * w)) l = lane v l.
Proof. intros. change 0 with (32 * 0). rewrite lane_sel by lia. f_equal. Qed.
Lemma psel0 v w : 0 <= w -> 0 <= psel v 0 w < 2 ^ w.
Proof. intros. apply psel_range. assumption. Qed.
Lemma bsel_ones n j : 0 <= n -> 0 <= j -> bsel (2 ^ n - 1) j = if j <? n then 1 else 0.
Proof. intros. unfold bsel. rewrite ones_psel by lia. destruct (Z.ltb_spec j n); [replace (Z.max 0 (Z.min 1 (n - j))) with 1 by lia|replace (Z.max 0 (Z.min 1 (n - j))) with 0 by lia]; reflexivity. Qed.
Lemma ones_eq0 n : 0 <= n -> (2 ^ n - 1 =? 0) = (n =? 0).
Proof. intros N. destruct (Z.eqb_spec n 0) as [-> |]; [reflexivity|]. pose proof (Z.pow_le_mono_r 2 1 n ltac:(lia) ltac:(lia)). change (2 ^ 1) with 2 in *. apply Z.eqb_neq. lia. Qed.

Lemma tout_mk p o m b i s' c r st : tp_ok p -> BOK p o m b -> tc_h1 c = (i =? 0) -> tc_port c = o -> 0 <= i -> (i * WT p < HT p -> pm_open m = false) ->
  ts_last s' = tr_eop r -> tr_eop r = tb_eop b && (i =? tbeats p (HT p + zlen (ppay o m b)) - 1) -> ts_keep s' = 2 ^ Z.min (WT p) (HT p + zlen (ppay o m b) - i * WT p) - 1 -> ts_user s' = tx_user p c r (pbeat o b) st ->
  (forall l, 0 <= l < Z.min (WT p) (HT p + zlen (ppay o m b) - i * WT p) -> lane (ts_data s') l = if i * WT p + l <? HT p then lane (tx_desc p (tb_hdr b)) (i * WT p + l) else dw (ppay o m b) (i * WT p + l - HT p)) ->
  tout_s p (mkTk o (phdr m b) (pseq m b) (ppay o m b) (tb_eop b) i) s'.
Proof.
  intros O B H1 C0 I0 OP LA EO KE US DA. unfold tout_s, tout_is. cbn [tk_port tk_hdr tk_seq tk_pay tk_all tk_i tv_last tv_keep tv_user tv_data]. cbn zeta.
  split; [rewrite LA; exact EO|]. split; [exact KE|]. split.
  - rewrite US, LA. unfold user_is, tx_user. cbn [tk_port tk_hdr tk_seq tk_pay tk_all tk_i]. destruct (tp_rq p).
    + assert (SB : tb_seq (pbeat o b) = tb_seq b) by (destruct o; reflexivity). assert (HB : tb_hdr (pbeat o b) = tb_hdr b) by (destruct o; reflexivity).
      pose proof (rq_user_ok p (tc_port c) (pbeat o b)) as U. rewrite SB, HB, C0 in U. specialize (U (bk_seq _ _ _ _ B)). cbn zeta in U. rewrite C0. destruct U as [U1 [U2 [U3 U4]]]. split; [|exact U4]. intros Z0. subst i.
      unfold phdr, pseq. rewrite OP; [|destruct (tcases p O) as [W _]; unfold HT; destruct (tp_rq p); lia]. split; [exact U1|]. split; [exact U2|exact U3].
    + pose proof (cc_user_ok p (tc_h1 c) (tr_eop r) st) as U. cbn zeta in U. rewrite H1 in *. exact U.
  - intros l L. rewrite DA by exact L. destruct (Z.ltb_spec (i * WT p + l) (HT p)); [|reflexivity]. destruct (tcases p O) as [W _]. assert (OF : pm_open m = false) by (apply OP; lia). unfold phdr. rewrite OF.
    apply desc_dw_ok; [exact (bk_hdr _ _ _ _ B OF)|]. nia.
Qed.

(** * The size of what was read and of the beat *)
Lemma sizes p s o m b : PInv p s o m -> pm_cur m = Some b -> BOK p o m b /\ exists mm, 0 <= mm /\ (pm_open m = true -> 1 <= mm /\ zlen (pm_pay m) = mm * WT p) /\ (pm_open m = false -> mm = 0) /\ zlen (ppay o m b) = mm * WT p + bl o b /\
  (forall j, mm * WT p <= j -> dw (ppay o m b) j = dw (bpay o b) (j - mm * WT p)) /\ (forall j, pm_open m = true -> 0 <= j < mm * WT p -> dw (ppay o m b) j = dw (pm_pay m) j).
Proof.
  intros [OP A] C. rewrite C in A. split; [destruct (act s o); [exact (proj1 (proj2 (proj2 A)))|exact (proj2 A)]|]. unfold ppay, bl. destruct (pm_open m) eqn:E.
  - destruct (OP eq_refl) as [k [K1 K2]]. exists k. split; [lia|]. split; [intros _; split; assumption|]. split; [discriminate|]. split; [rewrite zlen_app, K2; lia|]. split.
    + intros j J. rewrite dw_app2 by lia. f_equal. lia.
    + intros j _ J. apply dw_app1. lia.
  - exists 0. split; [lia|]. split; [discriminate|]. split; [reflexivity|]. split; [reflexivity|]. split; [intros j _; cbn [app]; f_equal; lia|discriminate].
Qed.

(** * Wide: everything but 64 bits and requests at 128 bits *)
Lemma route_wide p c o b m : tp_ok p -> tp_narrow p = false -> (tp_lw p =? 1) = false -> BOK p o m b ->
  tx_route p c (pbeat o b) = if tb_eop b && (WT p <? tp_k p + bl o b) then (if tc_s1 c then mkTr false false false false true true true else mkTr (tc_frame c) false false true (tc_s2 c) false false)
                             else mkTr (tc_frame c && negb (tb_eop b)) false false (tc_s1 c) (tc_s2 c) (tb_eop b) true.
Proof.
  intros O N L B. assert (EB : tb_eop (pbeat o b) = tb_eop b) by (destruct o; reflexivity). destruct (tcases p O) as [W [We C]].
  assert (X : negb (tb_strb (pbeat o b) / 2 ^ (WT p - tp_k p) =? 0) = (WT p <? tp_k p + bl o b) /\ (tp_rq p = true -> tp_k p = 4 /\ (tp_lw p =? 2) = false /\ (2 <? tp_lw p) = true)).
  { destruct C as [C|[C|C]]; destruct C as [C1 C]; try congruence; [|destruct C as [C _]; congruence]. destruct C as [_ [_ [K1 [K2 K3]]]]. split; [|intros R; destruct (K3 R) as [? [? ?]]; auto].
    rewrite (bk_strb _ _ _ _ B). pose proof (bk_n _ _ _ _ B) as BN. rewrite ones_div by lia. rewrite ones_eq0 by lia. destruct (Z.eqb_spec (Z.max 0 (bl o b - (WT p - tp_k p))) 0), (Z.ltb_spec (WT p) (tp_k p + bl o b)); first [reflexivity|exfalso; lia]. }
  destruct X as [X R]. unfold tx_route, rq_route, cc_route. rewrite EB, We, L. cbn [andb]. destruct (tp_rq p) eqn:Q; [|rewrite X; reflexivity].
  destruct (R eq_refl) as [K4 [L2 L3]]. rewrite L2, L3. cbn [andb orb]. rewrite <- K4, X. reflexivity.
Qed.
Ltac facts O := match type of O with tp_ok ?p => pose proof (tcases p O) end.
Lemma emit_wide p s o m b : tp_ok p -> tp_narrow p = false -> (tp_lw p =? 1) = false -> PInv p s o m -> pm_cur m = Some b -> Concl p s o m b.
Proof.
  intros O N L I C. destruct (sizes p s o m b I C) as [B [mm [M0 [MO [MC [ZP [DP DQ]]]]]]].
  assert (T : tp_w p = WT p /\ HT p = tp_k p /\ tp_k p < WT p /\ 3 <= tp_k p <= 4 /\ 2 <= WT p <= 16).
  { destruct (tcases p O) as [W [We [X|[X|X]]]]; destruct X as [X1 X]; [|destruct X as [X _]; congruence|congruence]. destruct X as [_ [X2 [X3 [X4 _]]]]. auto. }
  destruct T as [We [HK [KW [K3 W2]]]]. pose proof (bk_n _ _ _ _ B) as BN. set (n := bl o b) in *.
  assert (FN : forall x, tfull p (HT p + (mm * WT p + x)) = mm + (HT p + x) / WT p) by (intros x; rewrite <- tfull_at by assumption; f_equal; lia).
  assert (BT : tbeats p (HT p + (mm * WT p + n)) = mm + (HT p + n + WT p - 1) / WT p) by (rewrite <- tbeats_at by assumption; f_equal; lia).
  assert (EF : tb_eop b = false -> n = WT p) by (exact (bk_full _ _ _ _ B)).
  assert (ST : tb_strb (pbeat o b) = 2 ^ n - 1) by exact (bk_strb _ _ _ _ B).
  assert (DR : 0 <= tx_desc p (tb_hdr b) < 2 ^ (32 * tp_k p)) by (rewrite <- HK; apply desc_range).
  assert (HB : tb_hdr (pbeat o b) = tb_hdr b) by (destruct o; reflexivity). assert (EB : tb_eop (pbeat o b) = tb_eop b) by (destruct o; reflexivity).
  assert (K32 : 0 <= 32 * tp_k p) by lia.
  (* the first beats: not the extra one *)
  assert (GO : tc_s1 (cyc s o) = false -> tc_s2 (cyc s o) = false -> epos p s o m b = mm -> tc_h1 (cyc s o) = (mm =? 0) -> (tc_h1 (cyc s o) = false -> pm_open m = true /\ Sh p s (pm_pay m)) -> tc_h1 (cyc s o) = negb (pm_open m) ->
    tc_frame (cyc s o) = true -> tc_port (cyc s o) = o -> Concl p s o m b).
  { intros S1 S2 EP H1 SH HO FR PO mps' pc' npc'. cbn zeta. rewrite (route_wide p (cyc s o) o b m) by assumption. unfold nxt. cbn zeta. rewrite (route_wide p (cyc s o) o b m) by assumption.
    unfold tx_shift, tx_data, tx_strb. rewrite N, L, We, S1, S2, FR. cbn [andb]. fold n.
    assert (LOW : 0 <= (if tc_h1 (cyc s o) then tx_desc p (tb_hdr (pbeat o b)) else ts_shd s) < 2 ^ (32 * tp_k p)).
    { rewrite HB. destruct (tc_h1 (cyc s o)) eqn:E; [exact DR|]. exact (proj1 (proj2 (proj2 (SH eq_refl) N))). }
    assert (DAT : forall l, 0 <= l < Z.min (WT p) (HT p + (mm * WT p + n) - mm * WT p) -> lane (wide_data p s (cyc s o) (pbeat o b)) l = if mm * WT p + l <? HT p then lane (tx_desc p (tb_hdr b)) (mm * WT p + l) else dw (ppay o m b) (mm * WT p + l - HT p)).
    { intros l Hl. unfold wide_data. rewrite We. rewrite lane_hl by (try assumption; lia). destruct (Z.ltb_spec l (tp_k p)).
      - rewrite HB. destruct (tc_h1 (cyc s o)) eqn:E.
        + assert (Mz : mm = 0) by (destruct (Z.eqb_spec mm 0); [assumption|discriminate]). rewrite Mz, Z.mul_0_l, Z.add_0_l. rewrite (proj2 (Z.ltb_lt _ _)) by lia. reflexivity.
        + destruct (SH eq_refl) as [OP SH']. destruct (MO OP) as [MM MZ]. destruct (Z.ltb_spec (mm * WT p + l) (HT p)); [nia|]. destruct (SH' N) as [_ [_ SL]]. rewrite SL by lia. rewrite MZ. rewrite DQ by (try assumption; nia). f_equal. lia.
      - destruct (Z.ltb_spec (mm * WT p + l) (HT p)); [nia|]. rewrite lane_lo by lia. rewrite (bk_lane _ _ _ _ B) by (unfold bl in *; fold n; lia). rewrite DP by lia. f_equal. lia. }
    assert (KEE : forall r, tr_s2 r = false -> wide_strb p s (cyc s o) r (pbeat o b) = 2 ^ Z.min (WT p) (HT p + (mm * WT p + n) - mm * WT p) - 1).
    { intros r R2. unfold wide_strb. rewrite R2, We, ST, ones_psel by lia. assert (E : (if tc_h1 (cyc s o) then 2 ^ tp_k p - 1 else ts_shs s) = 2 ^ tp_k p - 1) by (destruct (tc_h1 (cyc s o)) eqn:E; [reflexivity|exact (proj1 (proj2 (SH eq_refl) N))]).
      rewrite E. replace (Z.min (WT p) (HT p + (mm * WT p + n) - mm * WT p)) with (Z.max 0 (Z.min (WT p - tp_k p) (n - 0)) + tp_k p) by lia. rewrite Z.pow_add_r by lia. ring. }
    assert (ACT' : forall f h1' h2' s1' s2' a b' m' pc'' np d k v la u, act (mkTs f h1' h2' s1' s2' (tc_port (cyc s o)) a b' m' pc'' np d k v la u) o = f).
    { intros. unfold act. cbn [ts_frame ts_port]. rewrite PO. destruct o; cbn; now rewrite andb_true_r. }
    assert (FI : mm < (if tb_eop b then tbeats p (HT p + zlen (ppay o m b)) else tfull p (HT p + zlen (ppay o m b)))).
    { rewrite ZP. fold n. destruct (tb_eop b) eqn:E; [rewrite BT|rewrite FN, (EF eq_refl)].
      - assert (1 <= (HT p + n + WT p - 1) / WT p) by (apply Z.div_le_lower_bound; lia). lia.
      - rewrite (div_is (HT p + WT p) (WT p) 1) by lia. lia. }
    eexists. split; [|split].
    { unfold Rest. rewrite C. unfold pdue. cbn zeta. unfold chk. rewrite EP. rewrite tchunks_cons by exact FI. reflexivity. }
    { unfold chk. rewrite EP. match goal with |- tout_s _ _ (mkTs _ _ _ _ _ _ _ _ _ _ _ _ _ _ (tr_eop ?r) _) => eapply (tout_mk p o m b mm _ (cyc s o) r) end; try assumption; cbn [ts_last ts_keep ts_user ts_data].
      - intros LT. destruct (tc_h1 (cyc s o)) eqn:E; [destruct (pm_open m); [discriminate|reflexivity]|]. destruct (SH eq_refl) as [OP _]. destruct (MO OP). nia.
      - reflexivity.
      - rewrite ZP. fold n. rewrite BT. destruct (tb_eop b) eqn:E; cbn [andb tr_eop]; [|reflexivity]. destruct (Z.ltb_spec (WT p) (tp_k p + n)).
        + cbn [tr_eop]. rewrite (div_is (HT p + n + WT p - 1) (WT p) 2) by lia. destruct (Z.eqb_spec mm (mm + 2 - 1)); [lia|reflexivity].
        + cbn [tr_eop]. rewrite (div_is (HT p + n + WT p - 1) (WT p) 1) by lia. destruct (Z.eqb_spec mm (mm + 1 - 1)); [reflexivity|lia].
      - rewrite ZP. fold n. apply KEE. destruct (tb_eop b && _); reflexivity.
      - reflexivity.
      - intros l Hl. rewrite ZP in Hl. exact (DAT l Hl). }
    split; [destruct (tb_eop b), (WT p <? tp_k p + n); reflexivity|]. intros q. destruct (tb_eop b && (WT p <? tp_k p + n)) eqn:X; cbn [tr_frame tr_h1 tr_h2 tr_s1 tr_s2 tr_read tr_eop].
    - apply andb_prop in X. destruct X as [X1 X2]. apply Z.ltb_lt in X2. unfold afterrd. split.
      + unfold PInv. rewrite ACT'. cbn [pm_open pm_cur pm_pay ts_h1 ts_s2]. split; [exact (proj1 I)|]. split; [reflexivity|]. split; [reflexivity|]. split; [destruct B; constructor; assumption|].
        apply pa_s1; cbn [ts_h2 ts_s1 ts_shs ts_shd]; try assumption; try reflexivity.
        * rewrite ST, ones_psel by lia. f_equal. f_equal. fold n. lia.
        * apply psel_range. lia.
        * intros l Hl. fold n in Hl. rewrite lane_sel by lia. rewrite (bk_lane _ _ _ _ B) by (fold n; lia). reflexivity.
      + unfold Rest. cbn [pm_cur]. unfold pdue, epos. rewrite ACT'. cbn [ts_h2 ts_s1]. unfold phdr, pseq, ppay. cbn [pm_open pm_hdr pm_seq pm_pay]. cbn zeta. f_equal.
        fold (ppay o m b). rewrite ZP. fold n. rewrite FN. rewrite (div_is (HT p + n) (WT p) 1) by lia. reflexivity.
    - unfold afterrd. split.
      + unfold PInv. rewrite ACT'. cbn [pm_open pm_cur pm_pay ts_h1 ts_s2 andb]. destruct (tb_eop b) eqn:E; cbn [negb]; (split; [|]); try discriminate.
        * split; [reflexivity|exact Logic.I].
        * intros _. exists (mm + 1). split; [lia|]. rewrite ZP. fold n. rewrite (EF eq_refl). lia.
        * split; [reflexivity|]. split; [reflexivity|]. split; [reflexivity|]. split; [reflexivity|]. split; [reflexivity|]. intros _. cbn [ts_shs ts_shd]. specialize (EF eq_refl).
          split; [rewrite ST, ones_psel by lia; f_equal; f_equal; lia|]. split; [apply psel_range; lia|]. intros l Hl. rewrite lane_sel by lia. rewrite (bk_lane _ _ _ _ B) by (fold n; lia). rewrite DP by (rewrite ZP; fold n; nia). f_equal. rewrite ZP. fold n. lia.
      + unfold Rest. cbn [pm_cur]. symmetry. apply tchunks_nil. rewrite ZP. fold n. destruct (tb_eop b) eqn:E; [rewrite BT|rewrite FN, (EF eq_refl)].
        * cbn [andb] in X. apply Z.ltb_ge in X. rewrite (div_is (HT p + n + WT p - 1) (WT p) 1) by lia. lia.
        * rewrite (div_is (HT p + WT p) (WT p) 1) by lia. lia. }
  destruct I as [I0 I1]. destruct (act s o) eqn:A.
  - rewrite C in I1. destruct I1 as [H1 [S2 [_ PAS]]]. destruct PAS as [? ? L1 ?|H2 S1 _ EOP XW SHS SHR SHL|H2 S1 OP SH|? ? ? NN ?]; try congruence.
    + (* the extra beat *)
      clear GO. intros mps pc npc. cbn zeta. rewrite (route_wide p (cyc s o) o b m) by assumption. unfold nxt. cbn zeta. rewrite (route_wide p (cyc s o) o b m) by assumption. unfold tx_shift, tx_data, tx_strb. rewrite N, L, We.
      unfold cyc. rewrite A. cbn [tc_frame tc_h1 tc_s1 tc_s2 tc_port]. rewrite EOP, S1, H1. rewrite (proj2 (Z.ltb_lt _ _)) by exact XW. cbn [andb]. fold n in XW, SHS, SHL.
      assert (EP : epos p s o m b = mm + 1). { unfold epos. rewrite A, H2, S1, ZP. fold n. rewrite FN. rewrite (div_is (HT p + n) (WT p) 1) by lia. reflexivity. }
      assert (BT2 : tbeats p (HT p + zlen (ppay o m b)) = mm + 2). { rewrite ZP. fold n. rewrite BT. rewrite (div_is (HT p + n + WT p - 1) (WT p) 2) by lia. reflexivity. }
      eexists. split; [|split].
      { unfold Rest. rewrite C. unfold pdue. cbn zeta. unfold chk. rewrite EP, EOP, BT2. rewrite tchunks_cons by lia. reflexivity. }
      { unfold chk. rewrite EP. eapply (tout_mk p o m b (mm + 1) _ (mkTc true (ts_h1 s) (ts_h2 s) (ts_s1 s) (ts_s2 s) o) (mkTr false false false false true true true)); try assumption; cbn [ts_last ts_keep ts_user ts_data tr_eop tc_h1 tc_port]; try reflexivity; try lia.
        - rewrite H1. symmetry. apply Z.eqb_neq. lia.
        - rewrite EOP, BT2. cbn [andb]. symmetry. apply Z.eqb_eq. lia.
        - unfold wide_strb. cbn [tr_s2 tc_h1]. rewrite SHS. rewrite ZP. fold n. rewrite Z.mul_0_l, Z.add_0_l. f_equal. f_equal. nia.
        - rewrite H1, S1. reflexivity.
        - intros l Hl. rewrite ZP in Hl. fold n in Hl. unfold wide_data. cbn [tc_h1]. rewrite lane_hl by lia. rewrite (proj2 (Z.ltb_lt l _)) by nia. rewrite (proj2 (Z.ltb_ge _ _)) by nia. rewrite SHL by nia. rewrite DP by nia. f_equal. nia. }
      split; [reflexivity|]. intros q. unfold afterrd. cbn [tr_read]. split.
      * unfold PInv, act. cbn [ts_frame andb tr_frame pm_open pm_cur]. rewrite EOP. split; [discriminate|]. split; [reflexivity|exact Logic.I].
      * unfold Rest. cbn [pm_cur]. symmetry. apply tchunks_nil. lia.
    + assert (mm =? 0 = false) as M1 by (apply Z.eqb_neq; destruct (MO OP); lia).
      unfold cyc in GO. rewrite A in GO. apply GO; cbn [tc_frame tc_h1 tc_s1 tc_s2 tc_port]; try assumption; try reflexivity; [|now rewrite H1, M1|intros _; split; assumption|now rewrite H1, OP].
      unfold epos. rewrite A, H2, S1, OP. destruct (MO OP) as [_ ->]. replace (mm * WT p) with (mm * WT p + 0) by lia. rewrite FN. rewrite (div_is (HT p + 0) (WT p) 0) by lia. lia.
  - rewrite C in I1. destruct I1 as [OP _]. specialize (MC OP). subst mm. unfold cyc in GO. rewrite A in GO. apply GO; cbn [tc_frame tc_h1 tc_s1 tc_s2 tc_port]; try reflexivity; [unfold epos; rewrite A; reflexivity|discriminate|now rewrite OP].
Qed.
