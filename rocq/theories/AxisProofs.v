(** Proofs for the AXI-Stream endpoints. *)
From Verif Require Import PyBase BitLemmas TlpProofs AxisModel AxisSpec.
From Coq Require Import ZifyBool ZifyNat Arith.
Ltac Zify.zify_post_hook ::= idtac.
Local Arguments Z.mul : simpl never.

Fixpoint packv (wl : Z) (l : list Z) : Z := match l with [] => 0 | x :: r => x + 2 ^ wl * packv wl r end.
Definition words_ok (wl : Z) (l : list Z) : Prop := Forall (fun x => 0 <= x < 2 ^ wl) l.

Lemma packv_range : forall wl l, 0 <= wl -> words_ok wl l -> 0 <= packv wl l < 2 ^ (wl * zlen l).
Proof.
  intros wl l Hwl. induction l as [|x r IH]; intro H; cbn [packv].
  - unfold zlen. cbn. rewrite Z.mul_0_r. cbn. lia.
  - inversion_clear H as [|? ? H1 H2]. specialize (IH H2). assert (0 <= zlen r) by (unfold zlen; lia).
    replace (wl * zlen (x :: r)) with (wl + wl * zlen r) by (unfold zlen; cbn [length]; lia).
    assert (0 <= wl * zlen r) by nia. rewrite Z.pow_add_r by lia. nia.
Qed.

Lemma take_lanes_spec : forall n wl j f data keep, 0 <= wl -> 0 <= j -> words_ok wl f -> 0 <= data < 2 ^ (j * wl) -> 0 <= keep < 2 ^ j ->
  take_lanes n wl j f data keep =
    (data + 2 ^ (j * wl) * packv wl (firstn n f), keep + 2 ^ j * (2 ^ zlen (firstn n f) - 1), skipn n f).
Proof.
  induction n; intros wl j f data keep Hwl Hj Hf Hd Hk; cbn [take_lanes firstn skipn].
  - cbn [packv]. change (zlen (@nil Z)) with 0. cbn [Z.pow Z.pow_pos]. rewrite Z.sub_diag, !Z.mul_0_r, !Z.add_0_r. reflexivity.
  - destruct f as [|x r].
    + cbn [packv]. change (zlen (@nil Z)) with 0. cbn [Z.pow]. rewrite Z.sub_diag, !Z.mul_0_r, !Z.add_0_r. reflexivity.
    + inversion_clear Hf as [|? ? H1 H2].
      assert (Z.lor data (Z.shiftl x (j * wl)) = data + 2 ^ (j * wl) * x) as E1.
      { rewrite lor_add_disjoint by nia. ring. }
      assert (Z.lor keep (Z.shiftl 1 j) = keep + 2 ^ j) as E2.
      { rewrite lor_add_disjoint by lia. ring. }
      assert (0 < 2 ^ (j * wl)) by (apply Z.pow_pos_nonneg; nia). assert (0 < 2 ^ j) by (apply Z.pow_pos_nonneg; lia).
      assert (2 ^ ((j + 1) * wl) = 2 ^ (j * wl) * 2 ^ wl) as E3 by (rewrite <- Z.pow_add_r by nia; f_equal; lia).
      assert (2 ^ (j + 1) = 2 ^ j * 2) as E4 by (rewrite Z.pow_add_r by lia; reflexivity).
      rewrite E1, E2. rewrite IHn; try assumption; try lia; [| rewrite E3; nia].
      rewrite E3, E4. cbn [packv].
      replace (zlen (x :: firstn n r)) with (zlen (firstn n r) + 1) by (unfold zlen; cbn [length]; lia).
      rewrite (Z.pow_add_r 2 (zlen (firstn n r)) 1) by (unfold zlen; lia). change (2 ^ 1) with 2.
      f_equal. f_equal; ring.
Qed.

Lemma packv_shift : forall j wl l, 0 <= wl -> words_ok wl l -> Z.shiftr (packv wl l) (Z.of_nat j * wl) = packv wl (skipn j l).
Proof.
  induction j; intros wl l Hwl Hl.
  - cbn [skipn]. change (Z.of_nat 0 * wl) with 0. apply Z.shiftr_0_r.
  - destruct l as [|x r]; cbn [skipn packv]; [apply Z.shiftr_0_l|]. inversion_clear Hl as [|? ? H1 H2].
    replace (Z.of_nat (S j) * wl) with (wl + Z.of_nat j * wl) by lia. rewrite <- Z.shiftr_shiftr by nia.
    rewrite (Z.shiftr_div_pow2 _ wl) by lia. rewrite (Z.mul_comm (2 ^ wl)), Z.div_add by lia. rewrite Z.div_small by lia. rewrite Z.add_0_l. apply IHj; assumption.
Qed.

Lemma ones_bit : forall k j, 0 <= k -> 0 <= j -> negb (Z.land (2 ^ k - 1) (Z.shiftl 1 j) =? 0) = (j <? k).
Proof.
  intros k j Hk Hj. rewrite Z.shiftl_mul_pow2, Z.mul_1_l by lia. rewrite land_pow2_testbit by lia.
  replace (2 ^ k - 1) with (Z.ones k) by (rewrite Z.ones_equiv; lia). apply Z.testbit_ones_nonneg; lia.
Qed.

Lemma beat_lanes_spec : forall n wl l j id dest user, 0 <= wl -> words_ok wl l ->
  beat_lanes n wl (mkAb (packv wl l) (2 ^ zlen l - 1) id dest user) (Z.of_nat j) = firstn n (skipn j l).
Proof.
  induction n; intros wl l j id dest user Hwl Hl; [reflexivity|]. cbn [beat_lanes ab_keep ab_data].
  rewrite ones_bit by (unfold zlen; lia). replace (Z.of_nat j + 1) with (Z.of_nat (S j)) by lia. rewrite IHn by assumption.
  rewrite packv_shift by assumption. destruct (Z.ltb_spec (Z.of_nat j) (zlen l)) as [L|L]; unfold zlen in L.
  - assert (skipn j l <> []) as Hne. { intro E. apply (f_equal (@length Z)) in E. rewrite skipn_length in E. cbn in E. lia. }
    destruct (skipn j l) as [|x r] eqn:E; [congruence|].
    assert (skipn (S j) l = r) as E1. { clear - E. revert l E. induction j; intros [|y l] E; cbn in *; try discriminate; [congruence|]. destruct l; [destruct j; discriminate|]. exact (IHj (z :: l) E). }
    rewrite E1. cbn [packv firstn]. f_equal.
    assert (words_ok wl (x :: r)) as Hx. { rewrite <- E. unfold words_ok in *. rewrite <- (firstn_skipn j l) in Hl. apply Forall_app in Hl. tauto. }
    inversion_clear Hx as [|? ? H1 H2].
    replace (2 ^ wl - 1) with (Z.ones wl) by (rewrite Z.ones_equiv; lia). rewrite Z.land_ones by lia.
    rewrite (Z.mul_comm (2 ^ wl)), Z.mod_add by lia. apply Z.mod_small. lia.
  - rewrite !skipn_all2 by lia. rewrite !firstn_nil. reflexivity.
Qed.

Lemma n_beats_small : forall m n, (1 <= n <= m)%nat -> n_beats m n = 1%nat.
Proof.
  intros m n H. unfold n_beats. symmetry. apply Nat.div_unique with (r := (n - 1)%nat); lia.
Qed.

Lemma n_beats_step : forall m n, (1 <= m)%nat -> (m < n)%nat -> n_beats m n = S (n_beats m (n - m)).
Proof.
  intros m n Hm H. unfold n_beats. replace (n + m - 1)%nat with ((n - m + m - 1) + 1 * m)%nat by lia.
  rewrite Nat.div_add by lia. lia.
Qed.

Notation keeps := full_keep (only parsing).

Lemma keeps_small : forall m n, (1 <= n <= m)%nat -> keeps m n = [2 ^ Z.of_nat n - 1].
Proof. intros m n H. unfold full_keep. rewrite n_beats_small by lia. cbn [Nat.sub repeat app Nat.mul]. rewrite Nat.sub_0_r. reflexivity. Qed.

Lemma keeps_step : forall m n, (1 <= m)%nat -> (m < n)%nat -> keeps m n = (2 ^ Z.of_nat m - 1) :: keeps m (n - m).
Proof.
  intros m n Hm H. unfold full_keep. rewrite n_beats_step by lia. set (k := n_beats m (n - m)).
  assert (1 <= k)%nat. { unfold k, n_beats. apply Nat.div_le_lower_bound; lia. }
  replace (S k - 1)%nat with (S (k - 1)) by lia. cbn [repeat app]. do 5 f_equal. lia.
Qed.

Definition keep_from (m i n : nat) (k : option (list Z)) : Prop :=
  match k with None => True | Some k => skipn i k = keeps m n end.

Lemma index_skipn : forall (l : list Z) i v r, skipn i l = v :: r -> py_index l (Z.of_nat i) = Ok v /\ skipn (S i) l = r.
Proof.
  intros l i v r H. split.
  - unfold py_index. assert ((Z.of_nat i <? 0) = false) as -> by lia. rewrite Nat2Z.id.
    assert (nth_error l i = Some v) as ->; [|reflexivity]. revert l H. induction i; intros [|x l] H; cbn in *; try discriminate; [congruence|auto].
  - revert l H. induction i; intros [|x l] H; cbn in *; try discriminate; [congruence|]. apply IHi in H. destruct l; [destruct i; cbn in *; congruence|exact H].
Qed.

Definition fvals (i n : nat) (t : tfield) : list Z :=
  match t with TNone => repeat 0 n | TInt z => repeat z n | TList l => skipn i l end.

Lemma field_at_spec : forall t i n, field_fits (i + S n) t -> exists v, field_at t (Z.of_nat i) = Ok v /\ fvals i (S n) t = v :: fvals (S i) n t.
Proof.
  intros [|z|l] i n H; cbn [field_at fvals field_fits] in *.
  - exists 0. split; reflexivity.
  - exists z. split; reflexivity.
  - unfold py_index. rewrite Nat2Z.id. assert ((Z.of_nat i <? 0) = false) as -> by lia.
    destruct (nth_error l i) as [v|] eqn:E; [|apply nth_error_None in E; lia]. exists v. split; [reflexivity|].
    revert l E H. clear. induction i; intros [|x l] E H; cbn in *; try discriminate; [congruence|]. apply IHi; [assumption|]. cbn in H. lia.
Qed.

Lemma build_loop_spec : forall fuel m wl fr f i, (1 <= m)%nat -> 0 <= wl -> f <> [] -> (length f <= fuel)%nat -> words_ok wl f -> keep_from m i (length f) (af_keep fr) ->
  field_fits (i + n_beats m (length f)) (af_id fr) -> field_fits (i + n_beats m (length f)) (af_dest fr) -> field_fits (i + n_beats m (length f)) (af_user fr) ->
  exists bs, build_loop fuel m wl fr f (Z.of_nat i) = Ok bs /\ length bs = n_beats m (length f) /\
    flat_map (fun b => beat_lanes m wl b 0) bs = f /\ map ab_keep bs = keeps m (length f) /\
    map ab_id bs = fvals i (n_beats m (length f)) (af_id fr) /\ map ab_dest bs = fvals i (n_beats m (length f)) (af_dest fr) /\
    map ab_user bs = fvals i (n_beats m (length f)) (af_user fr).
Proof.
  induction fuel; intros m wl fr f i Hm Hwl Hne Hfu Hf Hk F1 F2 F3; (destruct f as [|x0 r0]; [congruence|]); [cbn in Hfu; lia|].
  cbn [build_loop]. set (f := x0 :: r0) in *. assert (1 <= length f)%nat as HL by (cbn; lia).
  rewrite take_lanes_spec by (try assumption; lia). cbn [Z.pow Z.pow_pos].
  change (0 * wl) with 0. change (2 ^ 0) with 1. rewrite !Z.add_0_l, !Z.mul_1_l.
  assert (words_ok wl (firstn m f) /\ words_ok wl (skipn m f)) as [W1 W2].
  { unfold words_ok in *. rewrite <- (firstn_skipn m f) in Hf. apply Forall_app in Hf. assumption. }
  destruct (Nat.le_gt_cases (length f) m) as [Hs|Hs].
  - assert (match af_keep fr with None => Ok (2 ^ zlen (firstn m f) - 1) | Some k => py_index k (Z.of_nat i) end = Ok (2 ^ zlen f - 1)) as ->.
    { rewrite firstn_all2 by lia. unfold keep_from in Hk. rewrite keeps_small in Hk by lia. destruct (af_keep fr) as [kl|]; [|reflexivity]. eapply index_skipn. exact Hk. }
    cbn [bind]. rewrite n_beats_small in * by lia.
    destruct (field_at_spec (af_id fr) i 0 ltac:(assumption)) as (v1 & E1 & G1). destruct (field_at_spec (af_dest fr) i 0 ltac:(assumption)) as (v2 & E2 & G2).
    destruct (field_at_spec (af_user fr) i 0 ltac:(assumption)) as (v3 & E3 & G3). rewrite E1, E2, E3. cbn [bind].
    rewrite (skipn_all2 f) by lia. assert (build_loop fuel m wl fr [] (Z.of_nat i + 1) = Ok []) as -> by (destruct fuel; reflexivity). cbn [bind].
    eexists. split; [reflexivity|]. split; [reflexivity|]. rewrite firstn_all2 by lia.
    assert (forall t v, field_fits (i + 1) t -> fvals i 1 t = v :: fvals (S i) 0 t -> fvals i 1 t = [v]) as FV.
    { intros [|z|l] v HF HG; cbn [fvals] in *; try (rewrite HG; reflexivity). rewrite HG. f_equal. apply skipn_all2. cbn in HF. lia. }
    split; [|split; [|split; [|split]]].
    + cbn [flat_map]. rewrite app_nil_r. rewrite (beat_lanes_spec m wl f 0) by assumption. cbn [skipn]. apply firstn_all2. lia.
    + cbn [map ab_keep]. rewrite keeps_small by lia. reflexivity.
    + cbn [map ab_id]. symmetry. apply FV; assumption.
    + cbn [map ab_dest]. symmetry. apply FV; assumption.
    + cbn [map ab_user]. symmetry. apply FV; assumption.
  - assert (length (firstn m f) = m) as Hfl by (apply firstn_length_le; lia).
    assert (match af_keep fr with None => Ok (2 ^ zlen (firstn m f) - 1) | Some k => py_index k (Z.of_nat i) end = Ok (2 ^ zlen (firstn m f) - 1) /\
            keep_from m (S i) (length f - m) (af_keep fr)) as [-> Hk'].
    { unfold keep_from in *. rewrite keeps_step in Hk by lia. destruct (af_keep fr) as [kl|]; [|split; [reflexivity|exact I]].
      destruct (index_skipn _ _ _ _ Hk) as [K1 K2]. split; [|exact K2]. rewrite K1. unfold zlen. rewrite Hfl. reflexivity. }
    cbn [bind]. rewrite n_beats_step in * by lia. set (n := n_beats m (length f - m)) in *.
    destruct (field_at_spec (af_id fr) i n F1) as (v1 & E1 & G1). destruct (field_at_spec (af_dest fr) i n F2) as (v2 & E2 & G2).
    destruct (field_at_spec (af_user fr) i n F3) as (v3 & E3 & G3). rewrite E1, E2, E3. cbn [bind].
    assert (length (skipn m f) = (length f - m)%nat) as Hl by apply skipn_length.
    destruct (IHfuel m wl fr (skipn m f) (S i)) as (bs & B1 & B2 & B3 & B4 & B5 & B6 & B7); try assumption; try lia;
      try (rewrite Hl; exact Hk'); try (rewrite Hl; fold n; replace (S i + n)%nat with (i + S n)%nat by lia; assumption).
    { intro E. rewrite E in Hl. change (length (@nil Z)) with O in Hl. clear - Hl Hs. clearbody f. lia. }
    replace (Z.of_nat i + 1) with (Z.of_nat (S i)) by lia. rewrite B1. cbn [bind].
    rewrite Hl in B2, B4, B5, B6, B7. fold n in B2, B4, B5, B6, B7.
    eexists. split; [reflexivity|]. split; [cbn [length]; lia|]. split; [|split; [|split; [|split]]].
    + cbn [flat_map]. rewrite B3. rewrite (beat_lanes_spec m wl (firstn m f) 0) by assumption. cbn [skipn].
      rewrite (firstn_all2 (n := m) (firstn m f)) by lia. apply firstn_skipn.
    + cbn [map ab_keep]. rewrite B4, (keeps_step m (length f)) by lia. unfold zlen. rewrite Hfl. reflexivity.
    + cbn [map ab_id]. rewrite B5, G1. reflexivity.
    + cbn [map ab_dest]. rewrite B6, G2. reflexivity.
    + cbn [map ab_user]. rewrite B7, G3. reflexivity.
Qed.

Lemma set_last_user_spec : forall u bs, bs <> [] -> exists bs', set_last_user u bs = Ok bs' /\ length bs' = length bs /\
  map ab_data bs' = map ab_data bs /\ map ab_keep bs' = map ab_keep bs /\ map ab_id bs' = map ab_id bs /\ map ab_dest bs' = map ab_dest bs /\
  map ab_user bs' = removelast (map ab_user bs) ++ [u].
Proof.
  intros u. induction bs as [|b r IH]; intro Hne; [congruence|]. destruct r as [|b2 r].
  - eexists. split; [reflexivity|]. repeat split.
  - destruct IH as (bs' & E & H1 & H2 & H3 & H4 & H5 & H6); [discriminate|]. cbn [set_last_user]. cbn [set_last_user] in E. rewrite E. cbn [bind].
    eexists. split; [reflexivity|]. cbn [map length] in *. split; [lia|]. split; [congruence|]. split; [congruence|]. split; [congruence|]. split; [congruence|].
    rewrite H6. reflexivity.
Qed.

Lemma lanes_depend : forall n wl b b' j, ab_data b = ab_data b' -> ab_keep b = ab_keep b' -> beat_lanes n wl b j = beat_lanes n wl b' j.
Proof. induction n; intros wl b b' j H1 H2; cbn [beat_lanes]; [reflexivity|]. rewrite (IHn wl b b') by assumption. rewrite H1, H2. reflexivity. Qed.

Lemma flat_lanes_depend : forall m wl bs bs', map ab_data bs = map ab_data bs' -> map ab_keep bs = map ab_keep bs' ->
  flat_map (fun b => beat_lanes m wl b 0) bs = flat_map (fun b => beat_lanes m wl b 0) bs'.
Proof.
  intros m wl. induction bs as [|b r IH]; intros [|b' r'] H1 H2; try discriminate; [reflexivity|]. cbn [map flat_map] in *.
  injection H1 as H1 H1'. injection H2 as H2 H2'. rewrite (IH r') by assumption. rewrite (lanes_depend m wl b b') by assumption. reflexivity.
Qed.

Lemma n_beats_pos : forall m n, (1 <= m)%nat -> (1 <= n)%nat -> (1 <= n_beats m n)%nat.
Proof. intros m n Hm Hn. unfold n_beats. apply Nat.div_le_lower_bound; lia. Qed.

Lemma fvals_spread : forall n t, fvals 0 n t = spread n t.
Proof. intros n [|z|l]; reflexivity. Qed.

Lemma build_spec : forall m wl fr, (1 <= m)%nat -> 0 <= wl -> frame_ok m wl fr ->
  exists bs, af_build m wl fr = Ok bs /\ bs <> [] /\ length bs = n_beats m (length (af_data fr)) /\
    flat_map (fun b => beat_lanes m wl b 0) bs = af_data fr /\ map ab_keep bs = keeps m (length (af_data fr)) /\
    map ab_id bs = spread (n_beats m (length (af_data fr))) (af_id fr) /\ map ab_dest bs = spread (n_beats m (length (af_data fr))) (af_dest fr) /\
    map ab_user bs = with_last (af_lcu fr) (spread (n_beats m (length (af_data fr))) (af_user fr)).
Proof.
  intros m wl fr Hm Hwl (H1 & H2 & H3 & H4 & H5 & H6). unfold af_build.
  destruct (build_loop_spec (length (af_data fr)) m wl fr (af_data fr) 0) as (bs & B1 & B2 & B3 & B4 & B5 & B6 & B7); try assumption; try lia.
  { destruct H3 as [H3|H3]; rewrite H3; [exact I|reflexivity]. }
  change (Z.of_nat 0) with 0 in B1. rewrite B1. cbn [bind]. rewrite fvals_spread in B5, B6, B7.
  assert (bs <> []) as Hne. { intros ->. cbn in B2. pose proof (n_beats_pos m (length (af_data fr)) Hm). destruct (af_data fr); [congruence|]. cbn [length] in *. lia. }
  destruct (af_lcu fr) as [u|]; [|exists bs; cbn [with_last]; repeat split; assumption].
  cbn [with_last]. destruct (u =? 0); [exists bs; repeat split; assumption|].
  destruct (set_last_user_spec u bs Hne) as (bs' & E & C1 & C2 & C3 & C4 & C5 & C6).
  exists bs'. split; [assumption|]. split; [intros ->; cbn in C1; destruct bs; [congruence|discriminate]|]. split; [lia|].
  split; [rewrite <- B3; apply flat_lanes_depend; assumption|]. split; [congruence|]. split; [congruence|]. split; [congruence|]. rewrite C6, B7. reflexivity.
Qed.

Lemma last_map : forall (bs : list abeat) b r d, rev bs = b :: r -> last (map ab_user bs) d = ab_user b.
Proof.
  intros bs b r d E. assert (bs = rev r ++ [b]) as -> by (rewrite <- (rev_involutive bs), E; reflexivity).
  rewrite map_app. cbn [map]. apply last_last.
Qed.

Lemma parse_spec : forall m wl fr bs, (1 <= m)%nat -> 0 <= wl -> frame_ok m wl fr -> af_build m wl fr = Ok bs ->
  exists g, af_parse m wl bs = Ok g /\ arrives m fr g.
Proof.
  intros m wl fr bs Hm Hwl Hok E. destruct (build_spec m wl fr Hm Hwl Hok) as (bs' & E' & B0 & B2 & B3 & B4 & B5 & B6 & B7).
  assert (bs' = bs) by congruence. subst bs'. unfold af_parse. destruct (rev bs) as [|b r] eqn:Er.
  - apply (f_equal (@rev abeat)) in Er. rewrite rev_involutive in Er. exfalso. apply B0. exact Er.
  - eexists. split; [reflexivity|]. unfold arrives. cbn [af_data af_keep af_id af_dest af_user af_lcu].
    rewrite B3, B4, B5, B6, B7. repeat split. f_equal. rewrite <- B7. symmetry. eapply last_map. exact Er.
Qed.

Lemma roundtrip : forall m wl f, (1 <= m)%nat -> 0 <= wl -> frame_ok m wl f ->
  exists bs g, af_build m wl f = Ok bs /\ af_parse m wl bs = Ok g /\ arrives m f g.
Proof.
  intros m wl f Hm Hwl Hok. destruct (build_spec m wl f Hm Hwl Hok) as (bs & E & _).
  destruct (parse_spec m wl f bs Hm Hwl Hok E) as (g & P & A). exists bs, g. repeat split; try assumption; apply A.
Qed.

(** ** Equality of the received frame. *)
Lemma list_eqb_refl : forall l, list_eqb l l = true.
Proof. intro l. unfold list_eqb. destruct (list_eq_dec Z.eq_dec l l); congruence. Qed.

Lemma forallb_repeat : forall z n, forallb (Z.eqb z) (repeat z n) = true.
Proof. intros z. induction n; [reflexivity|]. cbn. rewrite Z.eqb_refl, IHn. reflexivity. Qed.

Lemma field_eqb_spread : forall n t, field_eqb t (TList (spread n t)) = true.
Proof. intros n [|z|l]; cbn [field_eqb spread]; [reflexivity|apply forallb_repeat|apply list_eqb_refl]. Qed.

Lemma arrives_equal : forall m wl f g, frame_ok m wl f -> arrives m f g ->
  (af_lcu f = None \/ (exists u, af_lcu f = Some u /\ u <> 0 /\ forall l, af_user f <> TList l)) -> af_eqb f g = true.
Proof.
  intros m wl f g (_ & _ & Hk & _) (A1 & A2 & A3 & A4 & A5 & A6) Hu. unfold af_eqb. rewrite A1, A2, A3, A4, list_eqb_refl, !field_eqb_spread.
  assert (match af_keep f with Some x => list_eqb x (keeps m (length (af_data f))) | None => true end = true) as -> by (destruct Hk as [-> | ->]; [reflexivity|apply list_eqb_refl]).
  cbn [andb].
  rewrite A5, A6. destruct Hu as [Hu|(u & Hu & H0 & Hl)]; rewrite Hu; cbn [with_last].
  - apply field_eqb_spread.
  - destruct (Z.eqb_spec u 0) as [|Hn]; [congruence|]. rewrite last_last, Z.eqb_refl. cbn [andb].
    destruct (af_user f) as [|z|l]; cbn [user_eqb_lcu spread]; [reflexivity| |exfalso; eapply Hl; reflexivity].
    rewrite removelast_last. destruct (n_beats m (length (af_data f))) as [|n]; [reflexivity|].
    replace (S n) with (n + 1)%nat by lia. rewrite repeat_app. cbn [repeat]. rewrite removelast_last. apply forallb_repeat.
Qed.

(** ** The sink's checks. *)
Lemma land1 : forall x, Z.land x 1 = x mod 2.
Proof. intro x. exact (Z.land_ones x 1 ltac:(lia)). Qed.

Lemma strip1_ones : forall n k, (k <= n)%nat -> strip1 n (2 ^ Z.of_nat k - 1) = 0.
Proof.
  induction n; intros k H; cbn [strip1].
  - replace k with O by lia. reflexivity.
  - destruct k as [|k]; [reflexivity|].
    replace (2 ^ Z.of_nat (S k) - 1) with (2 * (2 ^ Z.of_nat k - 1) + 1) by (replace (Z.of_nat (S k)) with (Z.of_nat k + 1) by lia; rewrite Z.pow_add_r by lia; change (2 ^ 1) with 2; ring).
    assert (Z.land (2 * (2 ^ Z.of_nat k - 1) + 1) 1 = 1) as ->.
    { rewrite land1. rewrite Z.add_comm, Z.mul_comm, Z.mod_add by lia. reflexivity. }
    cbn [Z.eqb Pos.eqb]. rewrite Z.shiftr_div_pow2 by lia. change (2 ^ 1) with 2. rewrite Z.add_comm, Z.mul_comm, Z.div_add by lia.
    change (1 / 2) with 0. rewrite Z.add_0_l. apply IHn. lia.
Qed.

Lemma ones_odd : forall k, (1 <= k)%nat -> Z.land (2 ^ Z.of_nat k - 1) 1 = 1.
Proof.
  intros k H. destruct k as [|k]; [lia|].
  replace (2 ^ Z.of_nat (S k) - 1) with (2 * (2 ^ Z.of_nat k - 1) + 1) by (replace (Z.of_nat (S k)) with (Z.of_nat k + 1) by lia; rewrite Z.pow_add_r by lia; change (2 ^ 1) with 2; ring).
  rewrite land1. rewrite Z.add_comm, Z.mul_comm, Z.mod_add by lia. reflexivity.
Qed.

Lemma keep_checks_ok : forall m k first last, (1 <= k <= m)%nat -> (last = false -> k = m) -> keep_checks m (2 ^ Z.of_nat k - 1) first last = Ok tt.
Proof.
  intros m k first last Hk Hl. unfold keep_checks. pose proof (ones_odd k ltac:(lia)) as O.
  destruct (Z.eqb_spec (2 ^ Z.of_nat k - 1) 0) as [E|E]; [rewrite E in O; discriminate|].
  assert (strip0 m (2 ^ Z.of_nat k - 1) = 2 ^ Z.of_nat k - 1) as -> by (destruct m; cbn [strip0]; [reflexivity|rewrite O; reflexivity]).
  rewrite strip1_ones by lia. cbn [Z.eqb negb]. rewrite O. cbn [Z.eqb]. rewrite andb_false_r.
  destruct last; cbn [negb andb]; [reflexivity|]. rewrite Hl by reflexivity.
  pose proof (ones_bit (Z.of_nat m) (Z.of_nat m - 1) ltac:(lia) ltac:(lia)) as B.
  destruct (Z.land (2 ^ Z.of_nat m - 1) (Z.shiftl 1 (Z.of_nat m - 1)) =? 0) eqn:G; [|reflexivity]. cbn [negb] in B. lia.
Qed.

(** ** Runs. *)
Fixpoint tagged (bs : list abeat) : list (abeat * bool) :=
  match bs with [] => [] | b :: r => (b, match r with [] => true | _ => false end) :: tagged r end.

Lemma tag_split : forall acc b l rest bs rest', bs <> [] ->
  map (fun x => (x, false)) acc ++ (b, l) :: rest = tagged bs ++ rest' ->
  exists r, bs = acc ++ b :: r /\ l = match r with [] => true | _ => false end /\ rest = tagged r ++ rest'.
Proof.
  induction acc as [|a acc IH]; intros b l rest bs rest' Hne E; (destruct bs as [|x r]; [congruence|]); cbn [map app tagged] in E.
  - injection E as -> -> ->. exists r. repeat split.
  - injection E as E0 E1 E. subst x. destruct r as [|y r]; [discriminate|].
    destruct (IH b l rest (y :: r) rest') as (r' & -> & -> & ->); [discriminate|exact E|]. exists r'. repeat split.
Qed.

Definition fb (m : nat) (wl : Z) (f : aframe) : list abeat := match af_build m wl f with Ok bs => bs | Err _ => [] end.
Definition stream (m : nat) (wl : Z) (fs : list aframe) : list (abeat * bool) := flat_map (fun f => tagged (fb m wl f)) fs.

Record ainv (m : nat) (wl : Z) (fs : list aframe) (s : astate) : Prop := mkAinv {
  av_ok : Forall (frame_ok m wl) fs;
  av_flow : exists done todo, fs = done ++ todo /\ Forall2 (arrives m) done (sk_queue (a_snk s)) /\
    map (fun x => (x, false)) (sk_acc (a_snk s)) ++ (if sr_valid (a_src s) then [(sr_bus (a_src s), sr_last (a_src s))] else []) ++
      tagged (sr_data (a_src s)) ++ stream m wl (sr_queue (a_src s)) = stream m wl todo;
  av_valid : if sr_valid (a_src s) then sr_last (a_src s) = match sr_data (a_src s) with [] => true | _ => false end /\ sk_ready (a_snk s) = true
             else sr_data (a_src s) = [];
  av_queue : Forall (frame_ok m wl) (sr_queue (a_src s)) }.

Lemma copy_ok : forall m wl f, frame_ok m wl f -> frame_ok m wl (af_copy f).
Proof.
  intros m wl f (H1 & H2 & H3 & H4 & H5 & H6). unfold frame_ok, af_copy. cbn [af_data af_keep af_id af_dest af_user].
  repeat split; try assumption; [destruct (af_id f)|destruct (af_dest f)]; cbn; try exact I; assumption.
Qed.

Lemma copy_arrives : forall m f g, arrives m (af_copy f) g -> arrives m f g.
Proof.
  intros m f g (A1 & A2 & A3 & A4 & A5 & A6). unfold arrives, af_copy in *. cbn [af_data af_keep af_id af_dest af_user af_lcu] in *.
  repeat split; try assumption; [destruct (af_id f)|destruct (af_dest f)]; cbn [none_zero spread] in *; assumption.
Qed.

Lemma ainv0 : forall m wl, ainv m wl [] ast0.
Proof.
  intros m wl. constructor; cbn.
  - constructor.
  - exists [], []. repeat split. constructor.
  - reflexivity.
  - constructor.
Qed.

Lemma stream_app : forall m wl a b, stream m wl (a ++ b) = stream m wl a ++ stream m wl b.
Proof. intros. unfold stream. apply flat_map_app. Qed.

Lemma fb_spec : forall m wl f, (1 <= m)%nat -> 0 <= wl -> frame_ok m wl f -> af_build m wl f = Ok (fb m wl f) /\ fb m wl f <> [].
Proof.
  intros m wl f Hm Hwl Hok. destruct (build_spec m wl f Hm Hwl Hok) as (bs & E & H & _). unfold fb. rewrite E. split; [reflexivity|assumption].
Qed.

Lemma keep_at : forall m wl f acc b r, (1 <= m)%nat -> 0 <= wl -> frame_ok m wl f -> fb m wl f = acc ++ b :: r ->
  exists k, ab_keep b = 2 ^ Z.of_nat k - 1 /\ (1 <= k <= m)%nat /\ (r <> [] -> k = m).
Proof.
  intros m wl f acc b r Hm Hwl Hok E. destruct (build_spec m wl f Hm Hwl Hok) as (bs & Eb & _ & B2 & _ & B4 & _).
  unfold fb in E. rewrite Eb in E. subst bs. set (n := length (af_data f)) in *. set (N := n_beats m n) in *.
  assert (1 <= n)%nat as Hn. { destruct Hok as (H & _). unfold n. destruct (af_data f); [congruence|cbn; lia]. }
  pose proof (n_beats_pos m n Hm Hn) as HN. fold N in HN.
  assert (nth (length acc) (map ab_keep (acc ++ b :: r)) 0 = ab_keep b) as Hnth.
  { rewrite map_app, app_nth2, map_length, Nat.sub_diag by (rewrite map_length; lia). reflexivity. }
  rewrite B4 in Hnth. unfold full_keep in Hnth. fold N in Hnth. rewrite app_length in B2. cbn [length] in B2.
  destruct r as [|b2 r].
  - cbn [length] in B2. rewrite app_nth2 in Hnth by (rewrite repeat_length; lia). rewrite repeat_length in Hnth.
    replace (length acc - (N - 1))%nat with O in Hnth by lia. cbn [nth] in Hnth. exists (n - (N - 1) * m)%nat. split; [congruence|].
    split; [|congruence].
    assert (N = (n + m - 1) / m)%nat as EN by reflexivity. pose proof (Nat.div_mod (n + m - 1) m ltac:(lia)) as D.
    pose proof (Nat.mod_upper_bound (n + m - 1) m ltac:(lia)) as U. rewrite <- EN in D. nia.
  - cbn [length] in B2. rewrite app_nth1 in Hnth by (rewrite repeat_length; lia).
    rewrite (nth_indep _ 0 (2 ^ Z.of_nat m - 1)) in Hnth by (rewrite repeat_length; lia). rewrite nth_repeat in Hnth.
    exists m. split; [congruence|]. split; [lia|reflexivity].
Qed.

Definition outstanding (m : nat) (wl : Z) (s : asrc) : nat :=
  ((if sr_valid s then 1 else 0) + length (sr_data s) + length (stream m wl (sr_queue s)))%nat.

Lemma tagged_length : forall bs, length (tagged bs) = length bs.
Proof. induction bs; cbn [tagged length]; congruence. Qed.

Lemma src_edge_spec : forall m wl pause ready s, (1 <= m)%nat -> 0 <= wl -> Forall (frame_ok m wl) (sr_queue s) ->
  (if sr_valid s then sr_last s = match sr_data s with [] => true | _ => false end else sr_data s = []) ->
  exists s', src_edge m wl pause ready s = Ok s' /\ Forall (frame_ok m wl) (sr_queue s') /\
    (if sr_valid s' then sr_last s' = match sr_data s' with [] => true | _ => false end else sr_data s' = []) /\
    let fire := ready && negb pause && (sr_valid s && negb pause) in
    (if fire then tagged (sr_data s) ++ stream m wl (sr_queue s)
     else (if sr_valid s then [(sr_bus s, sr_last s)] else []) ++ tagged (sr_data s) ++ stream m wl (sr_queue s)) =
    (if sr_valid s' then [(sr_bus s', sr_last s')] else []) ++ tagged (sr_data s') ++ stream m wl (sr_queue s') /\
    (sr_valid s = false \/ fire = true -> sr_valid s' = false -> sr_data s' = [] /\ sr_queue s' = []).
Proof.
  intros m wl pause ready [data bus last valid queue] Hm Hwl HQ HV. cbn [sr_queue sr_data sr_valid sr_last sr_bus] in *. unfold src_edge. cbn [sr_queue sr_data sr_valid sr_last sr_bus].
  set (fire := ready && negb pause && (valid && negb pause)).
  assert (forall f q, queue = f :: q -> exists b r, af_build m wl f = Ok (b :: r) /\ stream m wl queue = tagged (b :: r) ++ stream m wl q /\ Forall (frame_ok m wl) q) as HB.
  { intros f q Eq. rewrite Eq in HQ. inversion_clear HQ as [|? ? H1 H2]. destruct (fb_spec m wl f Hm Hwl H1) as [E1 E2].
    destruct (fb m wl f) as [|b r] eqn:Ef; [congruence|]. exists b, r. split; [assumption|]. split; [|assumption]. rewrite Eq. unfold stream at 1. cbn [flat_map]. rewrite Ef. reflexivity. }
  destruct fire eqn:F.
  - assert (valid = true) as -> by (unfold fire in F; destruct valid; [reflexivity|rewrite ?andb_false_r in F; cbn in F; rewrite ?andb_false_r in F; discriminate]).
    destruct data as [|b r].
    + rewrite HV. cbn [bind andb orb]. destruct queue as [|f q].
      * eexists. split; [reflexivity|]. cbn [sr_queue sr_data sr_valid sr_last sr_bus]. split; [constructor|]. split; [reflexivity|]. split; [reflexivity|]. split; reflexivity.
      * destruct (HB f q eq_refl) as (b & r & E1 & E2 & E3). rewrite E1. cbn [bind drive]. eexists. split; [reflexivity|]. cbn [sr_queue sr_data sr_valid sr_last sr_bus].
        split; [assumption|]. split; [reflexivity|]. split; [rewrite E2; reflexivity|]. discriminate.
    + rewrite HV. cbn [bind drive andb orb negb]. eexists. split; [reflexivity|]. cbn [sr_queue sr_data sr_valid sr_last sr_bus].
      split; [assumption|]. split; [reflexivity|]. split; [reflexivity|discriminate].
  - cbn [bind]. rewrite andb_false_r. cbn [orb]. destruct valid; cbn [negb].
    + eexists. split; [reflexivity|]. cbn [sr_queue sr_data sr_valid sr_last sr_bus]. split; [assumption|]. split; [assumption|]. split; [reflexivity|].
      intros [H|H]; discriminate.
    + subst data. destruct queue as [|f q].
      * eexists. split; [reflexivity|]. cbn [sr_queue sr_data sr_valid sr_last sr_bus]. split; [constructor|]. split; [reflexivity|]. split; [reflexivity|]. split; reflexivity.
      * destruct (HB f q eq_refl) as (b & r & E1 & E2 & E3). rewrite E1. cbn [bind drive]. eexists. split; [reflexivity|]. cbn [sr_queue sr_data sr_valid sr_last sr_bus].
        split; [assumption|]. split; [reflexivity|]. split; [rewrite E2; reflexivity|]. discriminate.
Qed.

Lemma edge_spec : forall m wl sp kp fs s, (1 <= m)%nat -> 0 <= wl -> ainv m wl fs s ->
  exists s', a_step m wl s (AEdge sp kp) = Ok s' /\ ainv m wl fs s' /\ sk_ready (a_snk s') = true /\
    (sp = false -> kp = false -> sk_ready (a_snk s) = true ->
      (outstanding m wl (a_src s') = outstanding m wl (a_src s) - (if sr_valid (a_src s) then 1 else 0))%nat /\
      (sr_valid (a_src s') = false -> outstanding m wl (a_src s') = 0%nat)).
Proof.
  intros m wl sp kp fs s Hm Hwl [Hok (done & todo & Hfs & Hdone & Hflow) Hval HQ]. cbn [a_step].
  destruct (src_edge_spec m wl sp (sk_ready (a_snk s) && negb kp) (a_src s) Hm Hwl HQ) as (src & Es & S1 & S2 & S3 & S4).
  { destruct (sr_valid (a_src s)); [apply Hval|assumption]. }
  rewrite Es. cbn [bind].
  assert (exists snk done' todo', snk_edge m wl kp (sr_valid (a_src s) && negb sp) (sr_bus (a_src s)) (sr_last (a_src s)) (a_snk s) = Ok snk /\
     sk_ready snk = true /\ fs = done' ++ todo' /\ Forall2 (arrives m) done' (sk_queue snk) /\
     map (fun x => (x, false)) (sk_acc snk) ++ (if sr_valid src then [(sr_bus src, sr_last src)] else []) ++ tagged (sr_data src) ++ stream m wl (sr_queue src) = stream m wl todo')
    as (snk & done' & todo' & K1 & K2 & K3 & K4 & K5).
  { cbn zeta in S3. unfold snk_edge. destruct (sr_valid (a_src s)) eqn:V; cbn [andb].
    2:{ exists (mkSnk true (sk_acc (a_snk s)) (sk_first (a_snk s)) (sk_queue (a_snk s))), done, todo.
        split; [reflexivity|]. split; [reflexivity|]. split; [assumption|]. split; [assumption|]. cbn [sk_acc].
        rewrite ?andb_false_r in S3. rewrite <- S3. assumption. }
    destruct Hval as [HL HR]. rewrite HR in S3. cbn [andb] in S3.
    destruct (negb sp && negb kp) eqn:T.
    2:{ exists (mkSnk true (sk_acc (a_snk s)) (sk_first (a_snk s)) (sk_queue (a_snk s))), done, todo.
        split; [reflexivity|]. split; [reflexivity|]. split; [assumption|]. split; [assumption|]. cbn [sk_acc].
        assert (negb kp && negb sp && negb sp = false) as G by (destruct sp, kp; cbn in *; congruence). rewrite G in S3. rewrite <- S3. assumption. }
    assert (negb kp && negb sp && negb sp = true) as G by (destruct sp, kp; cbn in *; congruence). rewrite G in S3. clear G. rewrite <- S3. clear S3 S4.
    cbn [app] in Hflow. destruct todo as [|f todo].
    { unfold stream at 2 in Hflow. cbn [flat_map] in Hflow. destruct (sk_acc (a_snk s)); discriminate. }
    assert (frame_ok m wl f) as Hf. { rewrite Hfs in Hok. apply Forall_app in Hok. destruct Hok as [_ Hok]. inversion Hok; assumption. }
    destruct (fb_spec m wl f Hm Hwl Hf) as [Eb Ene].
    change (stream m wl (f :: todo)) with (tagged (fb m wl f) ++ stream m wl todo) in Hflow.
    destruct (tag_split _ _ _ _ _ _ Ene Hflow) as (r & R1 & R2 & R3).
    destruct (keep_at m wl f _ _ _ Hm Hwl Hf R1) as (k & Q1 & Q2 & Q3).
    rewrite Q1, keep_checks_ok; [|assumption|intro; apply Q3; intros ->; congruence]. cbn [bind]. rewrite R2. destruct r as [|b2 r].
    - destruct (parse_spec m wl f (fb m wl f) Hm Hwl Hf Eb) as (g & P1 & P2). rewrite <- R1, P1. cbn [bind].
      exists (mkSnk true [] true (sk_queue (a_snk s) ++ [g])), (done ++ [f]), todo.
      split; [reflexivity|]. split; [reflexivity|]. split; [rewrite <- app_assoc; assumption|]. split; [apply Forall2_app; [assumption|constructor; [assumption|constructor]]|].
      cbn [sk_acc map app]. exact R3.
    - exists (mkSnk true (sk_acc (a_snk s) ++ [sr_bus (a_src s)]) false (sk_queue (a_snk s))), done, (f :: todo).
      split; [reflexivity|]. split; [reflexivity|]. split; [assumption|]. split; [assumption|]. cbn [sk_acc].
      rewrite map_app, <- app_assoc. cbn [map app]. change (stream m wl (f :: todo)) with (tagged (fb m wl f) ++ stream m wl todo).
      rewrite <- Hflow. rewrite R2. reflexivity. }
  rewrite K1. cbn [bind]. eexists. split; [reflexivity|]. split; [|split; [exact K2|]].
  - constructor; cbn [a_src a_snk].
    + assumption.
    + exists done', todo'. split; [assumption|]. split; assumption.
    + destruct (sr_valid src); [split; [apply S2|apply K2]|apply S2].
    + assumption.
  - intros -> -> HR. cbn [a_src]. rewrite HR in S3, S4. cbn [negb andb] in S3, S4. rewrite !andb_true_r in *. unfold outstanding.
    apply (f_equal (@length _)) in S3.
    destruct (sr_valid (a_src s)) eqn:V; rewrite ?app_length, ?tagged_length in S3; cbn [length] in S3.
    + split.
      * destruct (sr_valid src); cbn [length] in S3; lia.
      * intro Hv. rewrite Hv. destruct (S4 (or_intror eq_refl) Hv) as [-> ->]. reflexivity.
    + split.
      * destruct (sr_valid src); cbn [length] in S3; lia.
      * intro Hv. rewrite Hv. destruct (S4 (or_introl eq_refl) Hv) as [-> ->]. reflexivity.
Qed.

Lemma run_spec : forall evs m wl fs s, (1 <= m)%nat -> 0 <= wl -> Forall (frame_ok m wl) (sends evs) -> ainv m wl fs s ->
  exists s', a_run m wl evs s = Ok s' /\ ainv m wl (fs ++ map af_copy (sends evs)) s'.
Proof.
  induction evs as [|[f|sp kp] evs IH]; intros m wl fs s Hm Hwl Hok Hi; cbn [a_run sends map].
  - rewrite app_nil_r. exists s. split; [reflexivity|assumption].
  - cbn [sends] in Hok. inversion_clear Hok as [|? ? H1 H2]. cbn [a_step bind].
    replace (fs ++ af_copy f :: map af_copy (sends evs)) with ((fs ++ [af_copy f]) ++ map af_copy (sends evs)) by (rewrite <- app_assoc; reflexivity).
    apply IH; try assumption. pose proof (copy_ok m wl f H1) as Hc. destruct Hi as [I1 (done & todo & D1 & D2 & D3) I3 I4]. constructor; cbn [a_src a_snk sr_queue sr_data sr_valid sr_last sr_bus].
    + apply Forall_app. split; [assumption|constructor; [assumption|constructor]].
    + exists done, (todo ++ [af_copy f]). split; [rewrite D1, app_assoc; reflexivity|]. split; [assumption|].
      rewrite !stream_app, <- D3, <- !app_assoc. reflexivity.
    + assumption.
    + apply Forall_app. split; [assumption|constructor; [assumption|constructor]].
  - destruct (edge_spec m wl sp kp fs s Hm Hwl Hi) as (s1 & E & I1 & _). rewrite E. cbn [bind]. apply IH; assumption.
Qed.

Definition mu (m : nat) (wl : Z) (s : asrc) : nat :=
  match outstanding m wl s with O => O | n => (n + if sr_valid s then 0 else 1)%nat end.

Lemma free_spec : forall n m wl fs s, (1 <= m)%nat -> 0 <= wl -> ainv m wl fs s -> sk_ready (a_snk s) = true -> (mu m wl (a_src s) <= n)%nat ->
  exists s', a_run m wl (free_clocks n) s = Ok s' /\ ainv m wl fs s' /\ outstanding m wl (a_src s') = 0%nat.
Proof.
  induction n; intros m wl fs s Hm Hwl Hi Hr Hmu.
  - exists s. split; [reflexivity|]. split; [assumption|]. unfold mu in Hmu. destruct (outstanding m wl (a_src s)); [reflexivity|lia].
  - destruct (edge_spec m wl false false fs s Hm Hwl Hi) as (s1 & E & I1 & R1 & M). destruct (M eq_refl eq_refl Hr) as [M1 M2].
    change (free_clocks (S n)) with (AEdge false false :: free_clocks n). cbn [a_run]. rewrite E. cbn [bind].
    apply IHn; try assumption. unfold mu in *. destruct (outstanding m wl (a_src s1)) as [|k] eqn:O1; [lia|].
    destruct (sr_valid (a_src s1)); [|discriminate M2; reflexivity].
    destruct (outstanding m wl (a_src s)) as [|k2] eqn:O2; [lia|]. destruct (sr_valid (a_src s)); lia.
Qed.

Lemma tagged_last : forall bs, bs <> [] -> exists l b, tagged bs = l ++ [(b, true)].
Proof.
  induction bs as [|b r IH]; intro H; [congruence|]. destruct r as [|b2 r].
  - exists [], b. reflexivity.
  - destruct IH as (l & x & E); [discriminate|]. exists ((b, false) :: l), x. cbn [tagged app] in *. rewrite E. reflexivity.
Qed.

Lemma drained : forall m wl fs s, (1 <= m)%nat -> 0 <= wl -> ainv m wl fs s -> outstanding m wl (a_src s) = 0%nat ->
  Forall2 (arrives m) fs (sk_queue (a_snk s)) /\ sr_queue (a_src s) = [].
Proof.
  intros m wl fs s Hm Hwl [Hok (done & todo & Hfs & Hdone & Hflow) Hval HQ] Ho. unfold outstanding in Ho.
  destruct (sr_valid (a_src s)); [lia|]. destruct (sr_data (a_src s)); [|cbn in Ho; lia].
  assert (stream m wl (sr_queue (a_src s)) = []) as Hs by (destruct (stream m wl (sr_queue (a_src s))); [reflexivity|cbn in Ho; lia]).
  rewrite Hs in Hflow. cbn [tagged app] in Hflow. rewrite app_nil_r in Hflow.
  assert (forall fs', Forall (frame_ok m wl) fs' -> forall acc, map (fun x : abeat => (x, false)) acc = stream m wl fs' -> fs' = []) as Hnil.
  { intros [|f fs'] HF acc E; [reflexivity|]. exfalso. inversion_clear HF as [|? ? H1 H2]. destruct (fb_spec m wl f Hm Hwl H1) as [_ Hne].
    destruct (tagged_last _ Hne) as (l & b & Et). unfold stream in E. cbn [flat_map] in E. rewrite Et in E.
    assert (In (b, true) (map (fun x : abeat => (x, false)) acc)) as Hin by (rewrite E, !in_app_iff; left; right; left; reflexivity).
    apply in_map_iff in Hin. destruct Hin as (x & Hx & _). discriminate. }
  split.
  - assert (todo = []) as ->. { eapply Hnil; [|exact Hflow]. rewrite Hfs in Hok. apply Forall_app in Hok. tauto. }
    rewrite Hfs, app_nil_r. assumption.
  - apply (Hnil _ HQ []). symmetry. exact Hs.
Qed.

Lemma forall2_copy : forall m fs qs, Forall2 (arrives m) (map af_copy fs) qs -> Forall2 (arrives m) fs qs.
Proof.
  induction fs as [|f fs IH]; intros qs H; inversion_clear H as [|? g ? qs' H1 H2]; constructor; [apply copy_arrives; assumption|apply IH; assumption].
Qed.

Lemma in_order : forall m wl evs, (1 <= m)%nat -> 0 <= wl -> Forall (frame_ok m wl) (sends evs) ->
  exists s, a_run m wl evs ast0 = Ok s /\ exists k, (k <= length (sends evs))%nat /\ Forall2 (arrives m) (firstn k (sends evs)) (sk_queue (a_snk s)).
Proof.
  intros m wl evs Hm Hwl Hok. destruct (run_spec evs m wl [] ast0 Hm Hwl Hok (ainv0 m wl)) as (s & E & [_ (done & todo & H1 & H2 & _) _ _]).
  exists s. split; [assumption|]. cbn [app] in H1. exists (length done). split.
  - apply (f_equal (@length _)) in H1. rewrite map_length, app_length in H1. lia.
  - apply forall2_copy. rewrite <- firstn_map, H1, firstn_app, Nat.sub_diag, firstn_all. cbn [firstn]. rewrite app_nil_r. assumption.
Qed.

Lemma a_run_app : forall m wl a b s, a_run m wl (a ++ b) s = let! t := a_run m wl a s in a_run m wl b t.
Proof. induction a as [|e a IH]; intros b s; cbn [app a_run bind]; [reflexivity|]. destruct (a_step m wl s e); cbn [bind]; [apply IH|reflexivity]. Qed.

Lemma completes : forall m wl evs, (1 <= m)%nat -> 0 <= wl -> Forall (frame_ok m wl) (sends evs) ->
  exists n s, a_run m wl (evs ++ free_clocks n) ast0 = Ok s /\ Forall2 (arrives m) (sends evs) (sk_queue (a_snk s)) /\ sr_queue (a_src s) = [].
Proof.
  intros m wl evs Hm Hwl Hok. destruct (run_spec evs m wl [] ast0 Hm Hwl Hok (ainv0 m wl)) as (s & E & Hi).
  destruct (edge_spec m wl false false _ s Hm Hwl Hi) as (s1 & E1 & I1 & R1 & _).
  destruct (free_spec (mu m wl (a_src s1)) m wl _ s1 Hm Hwl I1 R1 (le_n _)) as (s2 & E2 & I2 & O2).
  destruct (drained m wl _ s2 Hm Hwl I2 O2) as [D1 D2].
  exists (S (mu m wl (a_src s1))), s2. split; [|split; [apply forall2_copy; exact D1|exact D2]].
  rewrite a_run_app, E. cbn [bind]. change (free_clocks (S ?n)) with (AEdge false false :: free_clocks n). cbn [free_clocks repeat a_run]. rewrite E1. cbn [bind]. exact E2.
Qed.
