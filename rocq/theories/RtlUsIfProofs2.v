(** The invariant of the adapters for UltraScale streams (C107, C108). *)
From Verif Require Import PyBase RtlModel RtlFcProofs RtlRamProofs2 RtlAxmModel RtlAxmSpec RtlAxmProofs RtlUsIfModel RtlUsIfSpec RtlUsIfProofs.
From Coq Require Import Lia.

Definition i0 : ui_in := mkUi false 0 0 false false 0 false.
Definition out_s (p : ui_param) (c : chunk) (s : ui_state) : Prop := out_is p c (ui_event s i0).
Definition out_g (p : ui_param) (c : chunk) (g : ui_gen) : Prop := out_is p c (mkUv i0 (ug_valid g) (ug_data g) (ug_strb g) (ug_meta g) (ug_sop g) (ug_eop g)).
Record Int (p : ui_param) (s : ui_state) (ds : list Z) (be : Z) (fin : bool) (j e : Z) : Prop := mkInt {
  in_j : 1 <= j; in_e : 1 <= e <= WD p; in_len : zlen ds = (j - 1) * WD p + e; in_open : fin = false -> e = WD p; in_fin : fin = true -> HD p <= zlen ds;
  in_is : us_is s = 2 ^ e - 1; in_ise : us_ise s = if fin then 2 ^ (e - 1) else 0; in_isop : us_isop s = (j =? 1); in_id : 0 <= us_id s < 2 ^ (32 * WD p);
  in_lane : forall l, 0 <= l < e -> lane (us_id s) l = dw ds ((j - 1) * WD p + l); in_be : j = 1 -> us_ibe s = be; in_meta : 2 <= j -> meta_is p ds be (us_meta s);
  in_tf : 2 <= j -> up_lw p = 1 -> us_tframe s = (3 <=? j); in_odd : fin = true -> up_rc p = true -> up_lw p = 1 -> 5 <= zlen ds -> e = 2 }.
Definition more (p : ui_param) (j e : Z) : bool := if up_lw p =? 1 then up_rc p else (j =? 1) || (HD p <? e).
Definition tailq (p : ui_param) (ds : list Z) (be : Z) (fin : bool) (j e : Z) : list chunk := if fin && more p j e then [mkCh ds be true (nbeats p (zlen ds) - 1)] else [].
Definition Inv (p : ui_param) (s : ui_state) (m : ui_mon) : Prop := exists t,
  (if us_valid s then exists c, um_q m = c :: t /\ out_s p c s else um_q m = t) /\ us_frame s = negb (zlen (um_ds m) =? 0) /\
  (if us_iv s then exists ds be j e, Int p s ds be (us_ieop s) j e /\ t = tailq p ds be (us_ieop s) j e /\ (if us_ieop s then um_ds m = [] else um_ds m = ds /\ um_be m = be) else um_ds m = [] /\ t = []).

Ltac bb := first [reflexivity | exfalso; lia].
(** * Counting beats *)
Ltac pcases p O := let C := fresh "C" in let lw := fresh "lw" in let rc := fresh "rc" in destruct p as [rc lw]; unfold up_ok in O; cbn [up_lw up_rc] in *; assert (C : lw = 1 \/ lw = 2 \/ lw = 3 \/ lw = 4) by lia; clear O;
  unfold nfull, nbeats, WD, HD in *; cbn [up_lw up_rc] in *; destruct C as [-> |[-> |[-> | ->]]]; destruct rc;
  change (2 ^ 1) with 2 in *; change (2 ^ 2) with 4 in *; change (2 ^ 3) with 8 in *; change (2 ^ 4) with 16 in *; cbn [Z.eqb Pos.eqb] in *.
Lemma nfull_at p j : up_ok p -> 0 <= j -> nfull p (j * WD p) = Z.max 0 (if up_lw p =? 1 then j - 2 else j - 1).
Proof. intros O J. pcases p O; Z.to_euclidean_division_equations; lia. Qed.
Lemma nbeats_wide p j e : up_ok p -> up_lw p =? 1 = false -> 0 <= j -> 1 <= e <= WD p -> HD p <= j * WD p + e -> nbeats p (j * WD p + e) = if (j =? 0) || (HD p <? e) then j + 1 else j.
Proof.
  intros O L J E H. pcases p O; try discriminate L; destruct (Z.eqb_spec j 0); cbn [orb]; try (subst j); repeat match goal with |- context [?a <? ?b] => destruct (Z.ltb_spec a b) | |- context [?a <=? ?b] => destruct (Z.leb_spec a b) end;
    Z.to_euclidean_division_equations; lia.
Qed.
Lemma nbeats_64 p j e : up_ok p -> up_lw p = 1 -> 0 <= j -> 1 <= e <= WD p -> HD p <= j * WD p + e -> (up_rc p = true -> 5 <= j * WD p + e -> e = 2) ->
  1 <= j /\ nbeats p (j * WD p + e) = if up_rc p then j else Z.max 1 (j - 1).
Proof.
  intros O L J E H R. pcases p O; try discriminate L; repeat match goal with |- context [?a <=? ?b] => destruct (Z.leb_spec a b) end; split; try lia;
    (try specialize (R eq_refl)); Z.to_euclidean_division_equations; lia.
Qed.
Lemma HW p : up_ok p -> up_lw p =? 1 = false -> HD p <= WD p /\ 4 <= WD p.
Proof. intros O L. pcases p O; try discriminate L; lia. Qed.
Lemma W2 p : up_lw p =? 1 = true -> WD p = 2.
Proof. intros L. apply Z.eqb_eq in L. unfold WD. rewrite L. reflexivity. Qed.

(** * The saved beat is the last one *)
Lemma gen_closed p s i ds be j e : up_ok p -> Int p s ds be true j e -> us_iv s = true -> us_ieop s = true ->
  let g := ui_gen_of p s i in ug_clear g = true /\ ug_valid g = more p j e /\ (more p j e = true -> out_g p (mkCh ds be true (nbeats p (zlen ds) - 1)) g).
Proof.
  intros O I V E. cbn zeta. pose proof (W_pos p O) as [Wp [We [Ke Kp]]]. destruct I as [Ij Ie Il _ If Is Ise Iso Id Ila Ib Im It Io]. specialize (If eq_refl). specialize (Io eq_refl). cbn [andb] in *.
  unfold ui_gen_of, more. destruct (up_lw p =? 1) eqn:L.
  - pose proof (W2 p L) as W2'. apply Z.eqb_eq in L. assert (NB := nbeats_64 p (j - 1) e O L ltac:(lia) Ie ltac:(lia)). rewrite <- Il in NB. destruct NB as [J2 NB]; [intros R1 R2; apply Io; assumption|].
    destruct (up_rc p) eqn:R.
    + unfold ui_gen_rc64. rewrite V, E, Iso. rewrite (proj2 (Z.eqb_neq j 1)) by lia. cbn [ug_clear ug_valid]. split; [reflexivity|]. split; [reflexivity|]. intros _.
      assert (Hd : HD p = 3) by (unfold HD; now rewrite R).
      unfold out_g, out_is. cbn [ch_ds ch_be ch_all ch_i uv_sop uv_eop uv_strb uv_data uv_meta ug_data ug_strb ug_meta ug_sop ug_eop]. rewrite NB, Il, W2', Hd.
      split; [rewrite (It ltac:(lia) L); destruct (Z.leb_spec 3 j), (Z.eqb_spec (j - 1 - 1) 0); cbn; bb|]. split; [rewrite Z.eqb_refl; reflexivity|].
      rewrite W2' in Il. assert (N : Z.max 0 (Z.min 2 ((j - 1) * 2 + e - 3 - (j - 1 - 1) * 2)) = e - 1) by lia. rewrite N.
      split.
      { unfold bsel, ui_sfull. rewrite We, W2'. rewrite Is. assert (C : e = 1 \/ e = 2) by lia. destruct C as [-> | ->]; unfold psel; change (2 ^ 2) with 4; change (2 ^ 1) with 2.
        - replace ((ui_strb p i * 4 + (2 - 1)) / 2) with (ui_strb p i * 2) by (apply (Z.div_unique _ _ _ 1); lia). rewrite Z_mod_mult. reflexivity.
        - replace ((ui_strb p i * 4 + (4 - 1)) / 2) with (1 + ui_strb p i * 2) by (apply (Z.div_unique _ _ _ 1); lia). rewrite Z_mod_plus_full. reflexivity. }
      split; [|apply Im; lia]. intros l Hl. change 32 with (32 * 1) at 1. change 64 with (32 * 2). rewrite (lane_sel _ 1 2) by lia. rewrite full_lo by (try assumption; lia). rewrite Ila by lia. f_equal; lia.
    + unfold ui_gen_cq64. rewrite V, E, Iso. destruct (j =? 1); cbn [ug_clear ug_valid]; split; try reflexivity; (split; [reflexivity|discriminate]).
  - pose proof (HW p O L) as [HW' W4]. unfold ui_gen_wide. rewrite V, E, Iso, Ise, Is. cbn zeta. cbn [ug_clear ug_valid]. rewrite Ke, We.
    assert (X : negb (2 ^ (e - 1) / 2 ^ HD p =? 0) = (HD p <? e)).
    { destruct (Z.ltb_spec (HD p) e).
      - assert (0 < 2 ^ (e - 1) / 2 ^ HD p). { apply Z.div_str_pos. split; [apply Z.pow_pos_nonneg; lia|apply Z.pow_le_mono_r; lia]. } destruct (Z.eqb_spec (2 ^ (e - 1) / 2 ^ HD p) 0); [lia|reflexivity].
      - rewrite Z.div_small; [reflexivity|]. split; [apply Z.pow_nonneg; lia|apply Z.pow_lt_mono_r; lia]. }
    rewrite X. split; [reflexivity|]. split; [reflexivity|]. intros M. rewrite M.
    assert (NB := nbeats_wide p (j - 1) e O L ltac:(lia) Ie ltac:(lia)). rewrite <- Il in NB.
    assert (NJ : nbeats p (zlen ds) = j). { rewrite NB. replace (j - 1 =? 0) with (j =? 1) by (destruct (Z.eqb_spec j 1), (Z.eqb_spec (j - 1) 0); bb). rewrite M. lia. }
    unfold out_g, out_is. cbn [ch_ds ch_be ch_all ch_i uv_sop uv_eop uv_strb uv_data uv_meta ug_data ug_strb ug_meta ug_sop ug_eop]. rewrite NJ, Il.
    assert (N : Z.max 0 (Z.min (WD p) ((j - 1) * WD p + e - HD p - (j - 1) * WD p)) = Z.max 0 (e - HD p)) by lia. rewrite N.
    split; [destruct (Z.eqb_spec j 1), (Z.eqb_spec (j - 1) 0); bb|]. split; [rewrite Z.eqb_refl; reflexivity|]. split; [apply ones_div; lia|].
    split.
    + intros l Hl. rewrite lane_sel by lia. rewrite full_lo by (try assumption; lia). rewrite Ila by lia. f_equal; lia.
    + destruct (Z.eqb_spec j 1) as [J1|J1]; [|apply Im; lia]. apply meta_ok; [|apply Ib, J1]. intros l Hl. subst j. rewrite full_lo by (try assumption; lia). rewrite Ila by lia. f_equal; lia.
Qed.

(** * The saved beat is not the last one, and there is no other *)
Lemma gen_wait p s i ds be j e : up_ok p -> Int p s ds be false j e -> us_iv s = true -> us_ieop s = false -> ui_valid i = false ->
  let g := ui_gen_of p s i in ug_clear g = false /\ ug_valid g = false /\ (2 <= j -> ug_meta g = us_meta s /\ (up_lw p = 1 -> ug_tframe g = us_tframe s)).
Proof.
  intros O I V E VI. cbn zeta. destruct I as [Ij Ie Il _ _ Is Ise Iso Id Ila Ib Im It _]. unfold ui_gen_of. destruct (up_lw p =? 1) eqn:L; [destruct (up_rc p)|].
  - unfold ui_gen_rc64. rewrite V, E, Iso, VI. destruct (Z.eqb_spec j 1); cbn [ug_clear ug_valid ug_meta ug_tframe orb]; (split; [reflexivity|]; split; [reflexivity|]; intros; split; [try lia; reflexivity|intros; try lia; reflexivity]).
  - unfold ui_gen_cq64. rewrite V, E, Iso, VI. destruct (Z.eqb_spec j 1); cbn [ug_clear ug_valid ug_meta ug_tframe]; (split; [reflexivity|]; split; [reflexivity|]; intros; split; [try lia; reflexivity|intros; try lia; reflexivity]).
  - unfold ui_gen_wide. rewrite V, E, Iso, VI. cbn zeta. cbn [ug_clear ug_valid ug_meta ug_tframe]. split; [reflexivity|]. split; [reflexivity|]. intros. rewrite (proj2 (Z.eqb_neq j 1)) by lia. split; [reflexivity|]. intros; reflexivity.
Qed.

(** * The saved beat is not the last one, and the next one is there *)
Lemma gen_open p s i ds be j e e' : up_ok p -> Int p s ds be false j e -> us_iv s = true -> us_ieop s = false -> ui_valid i = true -> ui_keep i = 2 ^ e' - 1 -> 1 <= e' <= WD p ->
  (if ui_last i then HD p <= zlen ds + e' else e' = WD p) -> (ui_last i = true -> up_rc p = true -> up_lw p = 1 -> 4 <= zlen ds -> e' = 2) ->
  let g := ui_gen_of p s i in let ds' := ds ++ lanes (ui_data i) e' in
  ug_valid g = (if (up_lw p =? 1) && (j =? 1) then negb (up_rc p) && ui_last i else true) /\
  (ug_valid g = true -> out_g p (mkCh ds' be (ui_last i) (Z.max 0 (if up_lw p =? 1 then j - 2 else j - 1))) g) /\
  meta_is p ds' be (ug_meta g) /\ (up_lw p = 1 -> ug_tframe g = (2 <=? j)).
Proof.
  intros O I V E VI K E' FI OD. cbn zeta. pose proof (W_pos p O) as [Wp [We [Ke Kp]]]. destruct I as [Ij Ie Il Io _ Is Ise Iso Id Ila Ib Im It _]. specialize (Io eq_refl). subst e.
  assert (Il' : zlen ds = j * WD p) by lia. clear Il. set (ds' := ds ++ lanes (ui_data i) e') in *.
  assert (LN : zlen ds' = j * WD p + e') by (unfold ds'; rewrite zlen_app, zlen_lanes; lia).
  assert (DL : forall l, 0 <= l < WD p + e' -> lane (ui_full p s i) l = dw ds' ((j - 1) * WD p + l)).
  { intros l Hl. unfold ds'. destruct (Z.lt_ge_cases l (WD p)).
    - rewrite full_lo by (try assumption; lia). rewrite Ila by lia. rewrite dw_app1; [reflexivity|]. rewrite Il'. nia.
    - rewrite full_hi by (try assumption; lia). rewrite dw_app2 by (rewrite Il'; nia). rewrite dw_lanes by (rewrite Il'; lia). f_equal. rewrite Il'. lia. }
  assert (ST : ui_strb p i = 2 ^ e' - 1) by (apply strb_ok; assumption).
  assert (SF : ui_sfull p s i = 2 ^ (WD p + e') - 1) by (apply sfull_ok; assumption).
  assert (ME : forall m, 2 <= j -> meta_is p ds be m -> meta_is p ds' be m).
  { intros m J2. apply meta_ext. intros l Hl. unfold ds'. apply dw_app1. nia. }
  assert (MO : j = 1 -> HD p <= zlen ds' -> meta_is p ds' be (ui_meta_of p s i)).
  { intros J1 Hn. apply meta_ok; [|apply Ib, J1]. intros l Hl. subst j. rewrite DL by lia. f_equal; lia. }
  assert (HN : ui_last i = true -> HD p <= zlen ds') by (intros Z1; rewrite Z1 in FI; rewrite LN; lia).
  assert (EN : ui_last i = false -> e' = WD p) by (intros Z1; rewrite Z1 in FI; exact FI).
  unfold ui_gen_of. destruct (up_lw p =? 1) eqn:L.
  - pose proof (W2 p L) as W2'. apply Z.eqb_eq in L.
    assert (HN' : HD p <= zlen ds') by (destruct (ui_last i); [apply HN; reflexivity|rewrite LN; specialize (EN eq_refl); nia]).
    assert (NB : ui_last i = true -> nbeats p (zlen ds') = if up_rc p then j else Z.max 1 (j - 1)).
    { intros Z1. rewrite LN. apply nbeats_64; try assumption; try lia. }
    destruct (up_rc p) eqn:R.
    + assert (Hd : HD p = 3) by (unfold HD; now rewrite R). unfold ui_gen_rc64. rewrite V, E, Iso, VI. destruct (Z.eqb_spec j 1) as [J1|J1].
      * cbn [ug_valid ug_meta ug_tframe andb negb]. split; [reflexivity|]. split; [discriminate|]. split; [apply MO; assumption|]. intros _. subst j. reflexivity.
      * cbn [ug_valid ug_meta ug_tframe andb negb]. split; [reflexivity|]. split; [|split; [apply ME, Im; lia|intros _; destruct (Z.leb_spec 2 j); bb]]. intros _.
        unfold out_g, out_is. cbn [ch_ds ch_be ch_all ch_i uv_sop uv_eop uv_strb uv_data uv_meta ug_data ug_strb ug_meta ug_sop ug_eop]. rewrite LN, W2', Hd. rewrite Z.max_r by lia.
        assert (N : Z.max 0 (Z.min 2 (j * 2 + e' - 3 - (j - 2) * 2)) = 2) by lia. rewrite N.
        split; [rewrite (It ltac:(lia) L); destruct (Z.leb_spec 3 j), (Z.eqb_spec (j - 2) 0); cbn; bb|].
        split. { destruct (ui_last i) eqn:Z1; [|reflexivity]. rewrite W2' in LN. rewrite <- LN. rewrite (NB eq_refl). cbn [andb]. rewrite (proj2 (Z.eqb_neq _ _)) by lia. reflexivity. }
        split. { rewrite SF, W2', ones_psel by lia. f_equal. f_equal; lia. }
        split; [|apply ME, Im; lia]. intros l Hl. change 32 with (32 * 1) at 1. change 64 with (32 * 2). rewrite (lane_sel _ 1 2) by lia. rewrite DL by lia. f_equal; lia.
    + assert (Hd : HD p = 4) by (unfold HD; now rewrite R). unfold ui_gen_cq64. rewrite V, E, Iso, VI. destruct (Z.eqb_spec j 1) as [J1|J1].
      * destruct (ui_last i) eqn:Z1; cbn [ug_valid ug_meta ug_tframe andb negb]; (split; [reflexivity|]); (split; [|split; [apply MO; assumption|intros _; subst j; reflexivity]]); [|discriminate]. intros _.
        unfold out_g, out_is. cbn [ch_ds ch_be ch_all ch_i uv_sop uv_eop uv_strb uv_data uv_meta ug_data ug_strb ug_meta ug_sop ug_eop]. rewrite (NB eq_refl). rewrite LN, W2', Hd. subst j.
        replace (Z.max 0 (Z.min 2 (1 * 2 + e' - 4 - Z.max 0 (1 - 2) * 2))) with 0 by lia. split; [reflexivity|]. split; [reflexivity|]. split; [reflexivity|]. split; [intros; lia|apply MO; [reflexivity|assumption]].
      * cbn [ug_valid ug_meta ug_tframe andb negb]. split; [reflexivity|]. split; [|split; [apply ME, Im; lia|intros _; destruct (Z.leb_spec 2 j); bb]]. intros _.
        unfold out_g, out_is. cbn [ch_ds ch_be ch_all ch_i uv_sop uv_eop uv_strb uv_data uv_meta ug_data ug_strb ug_meta ug_sop ug_eop]. rewrite LN, W2', Hd. rewrite Z.max_r by lia.
        assert (N : Z.max 0 (Z.min 2 (j * 2 + e' - 4 - (j - 2) * 2)) = e') by lia. rewrite N.
        split; [rewrite (It ltac:(lia) L); destruct (Z.leb_spec 3 j), (Z.eqb_spec (j - 2) 0); cbn; bb|].
        split. { destruct (ui_last i) eqn:Z1; [|reflexivity]. rewrite W2' in LN. rewrite <- LN. rewrite (NB eq_refl). cbn [andb]. destruct (Z.eqb_spec (j - 2) (Z.max 1 (j - 1) - 1)); bb. }
        split. { rewrite SF, W2', ones_psel by lia. f_equal. f_equal; lia. }
        split; [|apply ME, Im; lia]. intros l Hl. change 64 with (32 * 2). rewrite (lane_sel _ 2 2) by lia. rewrite DL by lia. f_equal; lia.
  - pose proof (HW p O L) as [HW' W4]. unfold ui_gen_wide. rewrite V, E, Iso, VI. cbn zeta. cbn [ug_valid ug_meta ug_tframe andb]. rewrite Ke, We.
    assert (MT : meta_is p ds' be (if j =? 1 then ui_meta_of p s i else us_meta s)).
    { destruct (Z.eqb_spec j 1) as [J1|J1]; [apply MO; [exact J1|rewrite LN; nia]|apply ME, Im; lia]. }
    split; [reflexivity|]. split; [|split; [exact MT|intros L1; rewrite L1 in L; discriminate]]. intros _.
    unfold out_g, out_is. cbn [ch_ds ch_be ch_all ch_i uv_sop uv_eop uv_strb uv_data uv_meta ug_data ug_strb ug_meta ug_sop ug_eop]. rewrite Z.max_r by lia.
    split; [destruct (Z.eqb_spec j 1), (Z.eqb_spec (j - 1) 0); bb|].
    split.
    { rewrite (seop_ok p i e') by assumption. destruct (ui_last i) eqn:Z1; [|rewrite Zmod_0_l; reflexivity]. cbn [andb]. rewrite LN, nbeats_wide by (try assumption; lia). rewrite (proj2 (Z.eqb_neq j 0)) by lia. cbn [orb].
      destruct (Z.ltb_spec (HD p) e').
      - replace (2 ^ (e' - 1)) with (2 ^ (e' - 1 - HD p) * 2 ^ HD p) by (rewrite <- Z.pow_add_r by lia; f_equal; lia). rewrite Z_mod_mult. cbn [Z.eqb negb]. destruct (Z.eqb_spec (j - 1) (j + 1 - 1)); bb.
      - rewrite Z.mod_small by (split; [apply Z.pow_nonneg; lia|apply Z.pow_lt_mono_r; lia]). rewrite Z.eqb_refl. assert (0 < 2 ^ (e' - 1)) by (apply Z.pow_pos_nonneg; lia). destruct (Z.eqb_spec (2 ^ (e' - 1)) 0); [lia|reflexivity]. }
    assert (N : Z.max 0 (Z.min (WD p) (zlen ds' - HD p - (j - 1) * WD p)) = Z.max 0 (Z.min (WD p) (WD p + e' - HD p))) by (rewrite LN; f_equal; f_equal; lia). rewrite N.
    split; [rewrite SF, ones_psel by lia; reflexivity|]. split; [|exact MT]. intros l Hl. rewrite lane_sel by lia. rewrite DL by (clear - Hl E' Kp Wp; lia). f_equal; lia.
Qed.
