(** Proofs for the segmented RAM interface: packed signals, one clock edge per segment. *)
From Verif Require Import PyBase BitLemmas TlpProofs PsdpModel PsdpSpec.
From Coq Require Import ZifyBool ZifyNat.
Ltac Zify.zify_post_hook ::= Z.div_mod_to_equations.
Local Arguments Z.mul : simpl never.

Lemma p_mask_ones : forall w, p_mask w = Z.ones w.
Proof. intros. unfold p_mask. rewrite Z.ones_equiv. lia. Qed.

Lemma one_bit : forall s i, 0 <= s -> 0 <= i -> Z.testbit (Z.shiftl 1 s) i = (i =? s).
Proof.
  intros s i Hs Hi. rewrite Z.shiftl_spec by lia.
  destruct (Z.eqb_spec i s) as [->|Hn]; [rewrite Z.sub_diag; reflexivity|].
  destruct (Z.lt_ge_cases i s); [apply Z.testbit_neg_r; lia|].
  apply (testbit_high 1 1); lia.
Qed.

Lemma seg_bit_testbit : forall x i, 0 <= i -> seg_bit x i = Z.testbit x i.
Proof.
  intros t i Hi. unfold seg_bit. destruct (Z.testbit t i) eqn:E.
  - destruct (Z.eqb_spec (Z.land t (Z.shiftl 1 i)) 0) as [H|H]; [|reflexivity].
    exfalso. assert (Z.testbit (Z.land t (Z.shiftl 1 i)) i = true) as B.
    { rewrite Z.land_spec, E, one_bit by lia. rewrite Z.eqb_refl. reflexivity. }
    rewrite H, Z.testbit_0_l in B. discriminate.
  - replace (Z.land t (Z.shiftl 1 i)) with 0; [reflexivity|].
    symmetry. apply Z.bits_inj'. intros j Hj. rewrite Z.land_spec, Z.testbit_0_l, one_bit by lia.
    destruct (Z.eqb_spec j i) as [->|Hn]; [rewrite E; reflexivity|]. apply andb_false_r.
Qed.

Lemma set_bit : forall x s i, 0 <= s -> 0 <= i -> Z.testbit (Z.lor x (Z.shiftl 1 s)) i = Z.testbit x i || (i =? s).
Proof. intros. rewrite Z.lor_spec, one_bit by lia. reflexivity. Qed.

Lemma clear_bit : forall x s i, 0 <= s -> 0 <= i -> Z.testbit (Z.land x (Z.lnot (Z.shiftl 1 s))) i = Z.testbit x i && negb (i =? s).
Proof. intros. rewrite Z.land_spec, Z.lnot_spec, one_bit by lia. reflexivity. Qed.

Lemma get_field_testbit : forall w s x j, 0 <= w -> 0 <= s -> 0 <= j ->
  Z.testbit (get_field w s x) j = (j <? w) && Z.testbit x (w * s + j).
Proof.
  intros w s x j Hw Hs Hj. unfold get_field. rewrite p_mask_ones, Z.land_spec, Z.shiftr_spec by lia.
  rewrite Z.testbit_ones_nonneg by lia. rewrite (Z.add_comm j), andb_comm. reflexivity.
Qed.

Lemma get_field_range : forall w s x, 0 <= w -> 0 <= get_field w s x < 2 ^ w.
Proof.
  intros. unfold get_field. rewrite p_mask_ones, Z.land_ones by lia. apply Z.mod_pos_bound. apply Z.pow_pos_nonneg; lia.
Qed.

Lemma get_put : forall w s i x v, 0 <= w -> 0 <= s -> 0 <= i ->
  get_field w i (put_field w s x v) = if i =? s then Z.land v (p_mask w) else get_field w i x.
Proof.
  intros w s i x v Hw Hs Hi. apply Z.bits_inj'. intros j Hj.
  rewrite get_field_testbit by lia. unfold put_field. rewrite p_mask_ones.
  rewrite Z.lor_spec, Z.land_spec, Z.lnot_spec by nia.
  rewrite !Z.shiftl_spec by nia.
  destruct (Z.ltb_spec j w) as [Hjw|Hjw]; cbn [andb].
  - destruct (Z.eqb_spec i s) as [->|Hne].
    + replace (w * s + j - w * s) with j by lia. rewrite Z.testbit_ones_nonneg by lia.
      replace (j <? w) with true by (symmetry; apply Z.ltb_lt; lia). cbn [negb]. rewrite andb_false_r. reflexivity.
    + rewrite get_field_testbit by lia. replace (j <? w) with true by (symmetry; apply Z.ltb_lt; lia). cbn [andb].
      assert (Z.testbit (Z.ones w) (w * i + j - w * s) = false) as ->.
      { destruct (Z.lt_ge_cases i s); [apply Z.testbit_neg_r; nia|].
        rewrite Z.testbit_ones_nonneg by nia. apply Z.ltb_ge. nia. }
      assert (Z.testbit (Z.land v (Z.ones w)) (w * i + j - w * s) = false) as ->.
      { destruct (Z.lt_ge_cases i s); [apply Z.testbit_neg_r; nia|].
        rewrite Z.land_spec, (Z.testbit_ones_nonneg w (w * i + j - w * s)) by nia.
        replace (w * i + j - w * s <? w) with false by (symmetry; apply Z.ltb_ge; nia). apply andb_false_r. }
      cbn [negb]. rewrite andb_true_r, orb_false_r. reflexivity.
  - destruct (Z.eqb_spec i s) as [->|Hne].
    + rewrite Z.land_spec, Z.testbit_ones_nonneg by lia.
      replace (j <? w) with false by (symmetry; apply Z.ltb_ge; lia). rewrite andb_false_r. reflexivity.
    + rewrite get_field_testbit by lia. replace (j <? w) with false by (symmetry; apply Z.ltb_ge; lia). reflexivity.
Qed.

Lemma mask_small : forall w v, 0 <= w -> 0 <= v < 2 ^ w -> Z.land v (p_mask w) = v.
Proof. intros. rewrite p_mask_ones, Z.land_ones by lia. apply Z.mod_small. lia. Qed.

(** ** The write master, one segment at a time. *)
Definition op_ok (c : pcfg) (o : segop) : Prop :=
  0 <= o_addr o < 2 ^ p_aw c /\ 0 <= o_data o < 2 ^ (8 * p_sbl c) /\ 0 <= o_be o < 2 ^ p_sbl c.

Definition mask_op (c : pcfg) (o : segop) : segop :=
  mkOp (Z.land (o_addr o) (p_mask (p_aw c))) (Z.land (o_data o) (p_mask (8 * p_sbl c))) (Z.land (o_be o) (p_mask (p_sbl c))).

Lemma mask_op_ok : forall c o, pcfg_ok c -> op_ok c o -> mask_op c o = o.
Proof.
  intros c [a d b] (_ & Hs & Hw) (H1 & H2 & H3). unfold mask_op. cbn [o_addr o_data o_be] in *.
  rewrite !mask_small by lia. reflexivity.
Qed.

(** The command a segment shows on the bus. *)
Definition bus_op (c : pcfg) (b : wbus) (i : Z) : segop :=
  mkOp (get_field (p_aw c) i (w_addr b)) (get_field (8 * p_sbl c) i (w_data b)) (get_field (p_sbl c) i (w_be b)).

Definition infl (c : pcfg) (b : wbus) (i : Z) : list segop := if Z.testbit (w_valid b) i then [bus_op c b i] else [].

Lemma bus_op_range : forall c b i, pcfg_ok c -> op_ok c (bus_op c b i).
Proof.
  intros c b i (_ & Hs & Hw). unfold op_ok, bus_op. cbn [o_addr o_data o_be].
  repeat split; apply get_field_range; lia.
Qed.

(** One edge of the master, seen from segment [i]. *)
Definition mw_next (c : pcfg) (ready : Z) (pause : bool) (b : wbus) (q : Z -> list segop) (i : Z) : list segop * list segop :=
  if Z.testbit ready i || negb (Z.testbit (w_valid b) i) then
    match q i with
    | o :: r => if pause then ([], o :: r) else ([mask_op c o], r)
    | [] => ([], [])
    end
  else (infl c b i, q i).

Lemma mw_seg_spec : forall c ready done pause s b q r b' q' r', pcfg_ok c -> 0 <= s ->
  mw_seg c ready done pause s (b, q, r) = (b', q', r') ->
  forall i, 0 <= i ->
    (infl c b' i, q' i) = (if i =? s then mw_next c ready pause b q i else (infl c b i, q i)) /\
    r' i = r i + (if (i =? s) && Z.testbit done i then 1 else 0).
Proof.
  intros c ready done pause s b q r b' q' r' (Hc1 & Hc2 & Hc3) Hs E i Hi.
  unfold mw_seg in E. rewrite !seg_bit_testbit in E by lia.
  assert (r' = if Z.testbit done s then pupd r s (r s + 1) else r) as Hr.
  { destruct (if Z.testbit ready s || _ then _ else _) in E. congruence. }
  split.
  2:{ rewrite Hr. destruct (Z.eqb_spec i s) as [->|Hn]; cbn [andb].
      - destruct (Z.testbit done s); unfold pupd; [rewrite Z.eqb_refl|]; lia.
      - destruct (Z.testbit done s); unfold pupd; [|lia]. replace (i =? s) with false by (symmetry; apply Z.eqb_neq; lia). lia. }
  clear Hr. unfold mw_next.
  destruct (Z.testbit ready s || negb (Z.testbit (w_valid b) s)) eqn:G.
  - destruct (q s) as [|o rest] eqn:Eq.
    + injection E as <- <- _. unfold infl. cbn [w_valid]. rewrite clear_bit by lia.
      destruct (Z.eqb_spec i s) as [->|Hn]; cbn [negb]; [rewrite G, Eq, andb_false_r; reflexivity|].
      rewrite andb_true_r. reflexivity.
    + destruct pause; cbn [negb] in E.
      * injection E as <- <- _. unfold infl. cbn [w_valid]. rewrite clear_bit by lia.
        destruct (Z.eqb_spec i s) as [->|Hn]; cbn [negb]; [rewrite G, Eq, andb_false_r; reflexivity|].
        rewrite andb_true_r. reflexivity.
      * injection E as <- <- _. unfold infl, bus_op. cbn [w_valid w_addr w_data w_be].
        rewrite set_bit by lia. rewrite !get_put by lia. unfold pupd.
        destruct (Z.eqb_spec i s) as [->|Hn].
        -- rewrite orb_true_r, G, Eq. reflexivity.
        -- rewrite orb_false_r. reflexivity.
  - injection E as <- <- _. destruct (Z.eqb_spec i s) as [->|Hn]; [rewrite G|]; reflexivity.
Qed.

Lemma mw_segs_spec : forall n c ready done pause s b q r b' q' r', pcfg_ok c -> 0 <= s ->
  mw_segs n c ready done pause s (b, q, r) = (b', q', r') ->
  forall i, 0 <= i ->
    (infl c b' i, q' i) = (if (s <=? i) && (i <? s + Z.of_nat n) then mw_next c ready pause b q i else (infl c b i, q i)) /\
    r' i = r i + (if (s <=? i) && (i <? s + Z.of_nat n) && Z.testbit done i then 1 else 0).
Proof.
  induction n; intros c ready done pause s b q r b' q' r' Hc Hs E i Hi; cbn [mw_segs] in E.
  - injection E as <- <- <-. assert ((s <=? i) && (i <? s + Z.of_nat 0) = false) as -> by lia. cbn [andb]. split; [reflexivity|lia].
  - destruct (mw_seg c ready done pause s (b, q, r)) as [[b1 q1] r1] eqn:E1.
    pose proof (mw_seg_spec _ _ _ _ _ _ _ _ _ _ _ Hc Hs E1) as H1.
    destruct (IHn c ready done pause (s + 1) b1 q1 r1 b' q' r' Hc ltac:(lia) E i Hi) as [H2 H3].
    rewrite H2, H3. destruct (H1 i Hi) as [H4 H5]. clear H2 H3 E E1.
    destruct (Z.eqb_spec i s) as [->|Hn].
    + assert ((s + 1 <=? s) && (s <? s + 1 + Z.of_nat n) = false) as -> by lia.
      assert ((s <=? s) && (s <? s + Z.of_nat (S n)) = true) as -> by lia.
      cbn [andb] in *. split; [exact H4|lia].
    + replace ((s <=? i) && (i <? s + Z.of_nat (S n))) with ((s + 1 <=? i) && (i <? s + 1 + Z.of_nat n)) by lia.
      cbn [andb] in *. injection H4 as H4 H6. split.
      * destruct ((s + 1 <=? i) && (i <? s + 1 + Z.of_nat n)); [|congruence].
        unfold mw_next. rewrite H6. rewrite H4.
        assert (Z.testbit (w_valid b1) i = Z.testbit (w_valid b) i) as ->; [|reflexivity].
        unfold infl in H4. destruct (Z.testbit (w_valid b1) i), (Z.testbit (w_valid b) i); congruence.
      * rewrite H5. lia.
Qed.

(** ** The RAM write port. *)
Definition op_base (c : pcfg) (s : Z) (o : segop) : Z := (o_addr o * p_n c + s) * p_sbl c.

(** The byte at [x] after an operation on segment [s]. *)
Definition op_byte (c : pcfg) (s : Z) (o : segop) (old x : Z) : Z :=
  let base := op_base c s o in
  if (base <=? x) && (x <? base + p_sbl c) && Z.testbit (o_be o) (x - base)
  then nth (Z.to_nat (x - base)) (le_bytes (Z.to_nat (p_sbl c)) (o_data o)) 0 else old.

Lemma nth_slice' : forall (l : list Z) s e k, 0 <= s -> 0 <= k < e - s -> nth (Z.to_nat k) (slice l s e) 0 = nth (Z.to_nat (s + k)) l 0.
Proof.
  intros l s e k Hs Hk. unfold slice.
  replace (Z.to_nat (s + k)) with (Z.to_nat s + Z.to_nat k)%nat by lia.
  assert (forall n k (l : list Z), (k < n)%nat -> nth k (firstn n l) 0 = nth k l 0) as F.
  { induction n; intros k' l' Hk'; [lia|]. destruct l'; [destruct k'; reflexivity|]. destruct k'; cbn; [reflexivity|]. apply IHn. lia. }
  rewrite F by lia. clear. generalize (Z.to_nat k) as n. generalize (Z.to_nat s) as m. clear.
  intros m n. revert l. induction m; intro l; cbn; [reflexivity|]. destruct l; cbn; [destruct n; reflexivity|]. apply IHm.
Qed.

Lemma zlen_slice' : forall (l : list Z) s e, 0 <= s <= e -> e <= zlen l -> zlen (slice l s e) = e - s.
Proof. intros l s e H1 H2. unfold slice, zlen in *. rewrite firstn_length, skipn_length. lia. Qed.

Lemma lane_ops_spec : forall n size be a data i start m,
  0 <= i -> 0 <= a -> a + zlen data <= size ->
  (match start with Some s => 0 <= s < i /\ i <= zlen data | None => True end) ->
  (forall j, i <= j < i + Z.of_nat n -> Z.testbit be j = true -> j < zlen data) ->
  exists m', mm_writes size m (lane_ops n be a data i start) = Ok m' /\
    forall x, m' x =
      if ((match start with Some s => (a + s <=? x) && (x <? a + i) | None => false end)
          || ((a + i <=? x) && (x <? a + i + Z.of_nat n) && Z.testbit be (x - a)))
      then nth (Z.to_nat (x - a)) data 0 else m x.
Proof.
  assert (forall size m a data s i, 0 <= a -> a + zlen data <= size -> 0 <= s < i -> i <= zlen data ->
    exists m', mm_write size m (a + s) (slice data s i) = Ok m' /\
      forall x, m' x = if (a + s <=? x) && (x <? a + i) then nth (Z.to_nat (x - a)) data 0 else m x) as W.
  { intros size m a data s i Ha Hsz Hs Hi. unfold mm_write. rewrite zlen_slice' by lia.
    assert ((a + s <? 0) || (size <? a + s + (i - s)) = false) as -> by lia.
    eexists. split; [reflexivity|]. intro x. unfold mem_store. rewrite zlen_slice' by lia.
    replace (a + s + (i - s)) with (a + i) by lia.
    destruct ((a + s <=? x) && (x <? a + i)) eqn:E; [|reflexivity].
    rewrite nth_slice' by lia. do 2 f_equal. lia. }
  induction n; intros size be a data i start m Hi Ha Hsz Hst Hbe; cbn [lane_ops].
  - destruct start as [s|].
    + assert (negb (i =? s) = true) as -> by lia.
      destruct (W size m a data s i) as (m' & E & HH); try lia.
      cbn [mm_writes]. rewrite E. cbn [bind]. exists m'. split; [reflexivity|]. intro x. rewrite HH.
      assert ((a + i <=? x) && (x <? a + i + Z.of_nat 0) = false) as -> by lia. cbn [andb]. rewrite orb_false_r. reflexivity.
    + exists m. split; [reflexivity|]. intro x.
      assert ((a + i <=? x) && (x <? a + i + Z.of_nat 0) = false) as -> by lia. reflexivity.
  - rewrite seg_bit_testbit by lia. destruct (Z.testbit be i) eqn:Eb.
    + set (st := match start with None => Some i | Some s => Some s end).
      assert (i < zlen data) by (apply Hbe; [lia|exact Eb]).
      destruct (IHn size be a data (i + 1) st m ltac:(lia) Ha Hsz) as (m' & E & HH).
      { unfold st. destruct start; lia. }
      { intros. apply Hbe; [lia|assumption]. }
      exists m'. split; [exact E|]. intro x. rewrite HH.
      assert ((match st with Some s => (a + s <=? x) && (x <? a + (i + 1)) | None => false end) =
              (match start with Some s => (a + s <=? x) && (x <? a + i) | None => false end) || (x =? a + i)) as ->.
      { unfold st. destruct start; lia. }
      replace ((match start with Some s => (a + s <=? x) && (x <? a + i) | None => false end)
          || ((a + i <=? x) && (x <? a + i + Z.of_nat (S n)) && Z.testbit be (x - a)))
        with ((match start with Some s => (a + s <=? x) && (x <? a + i) | None => false end) || (x =? a + i)
           || (a + (i + 1) <=? x) && (x <? a + (i + 1) + Z.of_nat n) && Z.testbit be (x - a)); [reflexivity|].
      destruct (Z.eqb_spec x (a + i)) as [->|Hx].
      * replace (a + i - a) with i by lia. rewrite Eb, orb_true_r. cbn [orb]. symmetry. apply orb_true_iff. right. lia.
      * rewrite orb_false_r. f_equal. f_equal. lia.
    + assert (forall x, (a + i <=? x) && (x <? a + i + Z.of_nat (S n)) && Z.testbit be (x - a) =
                        (a + (i + 1) <=? x) && (x <? a + (i + 1) + Z.of_nat n) && Z.testbit be (x - a)) as Hx.
      { intro x. destruct (Z.eqb_spec x (a + i)) as [->|Hx].
        - replace (a + i - a) with i by lia. rewrite Eb. rewrite !andb_false_r. reflexivity.
        - f_equal. lia. }
      destruct start as [s|].
      * assert (negb (i =? s) = true) as -> by lia.
        destruct (W size m a data s i) as (m1 & E1 & H1); try lia.
        cbn [mm_writes]. rewrite E1. cbn [bind].
        destruct (IHn size be a data (i + 1) None m1 ltac:(lia) Ha Hsz I) as (m' & E & HH).
        { intros. apply Hbe; [lia|assumption]. }
        exists m'. split; [exact E|]. intro x. rewrite HH, Hx, H1. cbn [orb].
        destruct ((a + (i + 1) <=? x) && (x <? a + (i + 1) + Z.of_nat n) && Z.testbit be (x - a)); [rewrite orb_true_r|rewrite orb_false_r]; reflexivity.
      * destruct (IHn size be a data (i + 1) None m ltac:(lia) Ha Hsz I) as (m' & E & HH).
        { intros. apply Hbe; [lia|assumption]. }
        exists m'. split; [exact E|]. intro x. rewrite HH, Hx. reflexivity.
Qed.

Lemma length_le_bytes : forall n v, length (le_bytes n v) = n.
Proof. induction n; intro v; cbn; [reflexivity|]. rewrite IHn. reflexivity. Qed.

Lemma op_base_range : forall c s o, pcfg_ok c -> op_ok c o -> 0 <= s < p_n c -> 0 <= op_base c s o /\ op_base c s o + p_sbl c <= capacity c.
Proof.
  intros c s o (H1 & H2 & H3) (Ha & _ & _) Hs. unfold op_base, capacity. fold (p_n c).
  split; [apply Z.mul_nonneg_nonneg; nia|].
  assert (o_addr o * p_n c + s + 1 <= 2 ^ p_aw c * p_n c) by nia. nia.
Qed.

Lemma testbit_land3 : forall a b s, 0 <= s -> negb (Z.land (Z.land a b) (Z.shiftl 1 s) =? 0) = Z.testbit a s && Z.testbit b s.
Proof. intros. fold (seg_bit (Z.land a b) s). rewrite seg_bit_testbit, Z.land_spec by lia. reflexivity. Qed.

Lemma rw_seg_spec : forall c size ready b s m done, pcfg_ok c -> capacity c <= size -> 0 <= s < p_n c ->
  exists m', rw_seg c size ready b s (m, done) = Ok (m', if Z.testbit ready s && Z.testbit (w_valid b) s then Z.lor done (Z.shiftl 1 s) else done) /\
    forall x, m' x = if Z.testbit ready s && Z.testbit (w_valid b) s then op_byte c s (bus_op c b s) (m x) x else m x.
Proof.
  intros c size ready b s m done Hc Hsz Hs. unfold rw_seg. rewrite testbit_land3 by lia.
  destruct (Z.testbit ready s && Z.testbit (w_valid b) s); [|exists m; split; reflexivity].
  pose proof (bus_op_range c b s Hc) as Ho. pose proof (op_base_range c s _ Hc Ho Hs) as [B1 B2].
  unfold op_base in B1, B2. cbn [o_addr bus_op] in B1, B2.
  destruct Hc as (Hc1 & Hc2 & Hc3).
  set (base := (get_field (p_aw c) s (w_addr b) * p_n c + s) * p_sbl c) in *.
  set (data := le_bytes (Z.to_nat (p_sbl c)) (get_field (8 * p_sbl c) s (w_data b))).
  set (be := get_field (p_sbl c) s (w_be b)).
  assert (zlen data = p_sbl c) as Hl by (unfold data, zlen; rewrite length_le_bytes; lia).
  destruct (lane_ops_spec (Z.to_nat (p_bl c)) size be base data 0 None m ltac:(lia) B1 ltac:(lia) I) as (m' & E & HH).
  { intros j Hj Hb. rewrite Hl. unfold be in Hb. rewrite get_field_testbit in Hb by lia. lia. }
  rewrite E. cbn [bind]. exists m'. split; [reflexivity|]. intro x. rewrite HH.
  unfold op_byte. unfold op_base. cbn [o_addr o_be o_data bus_op]. fold base be data.
  assert (p_sbl c <= p_bl c) as Hbl.
  { unfold p_bl. assert (1 <= p_n c) by (unfold p_n; lia). nia. }
  replace (false || (base + 0 <=? x) && (x <? base + 0 + Z.of_nat (Z.to_nat (p_bl c))) && Z.testbit be (x - base))
    with ((base <=? x) && (x <? base + p_sbl c) && Z.testbit be (x - base)); [reflexivity|].
  cbn [orb]. apply eq_true_iff_eq. rewrite !andb_true_iff, !Z.leb_le, !Z.ltb_lt.
  split; intros [[G1 G2] G3]; (split; [split|]); try lia; try assumption.
  unfold be in G3. rewrite get_field_testbit in G3 by lia. lia.
Qed.

(** The segment of an address. *)
Definition seg_at (c : pcfg) (x : Z) : Z := (x / p_sbl c) mod p_n c.

Lemma seg_at_range : forall c x, pcfg_ok c -> 0 <= seg_at c x < p_n c.
Proof. intros c x (H & _). unfold seg_at. apply Z.mod_pos_bound. unfold p_n. lia. Qed.

Lemma base_word : forall c s o x, pcfg_ok c -> 0 <= s < p_n c ->
  op_base c s o <= x < op_base c s o + p_sbl c <-> x / p_sbl c = o_addr o * p_n c + s.
Proof.
  intros c s o x (_ & H & _) Hs. unfold op_base. generalize (o_addr o * p_n c + s). intro w.
  pose proof (Z.div_mod x (p_sbl c) ltac:(lia)). pose proof (Z.mod_pos_bound x (p_sbl c) ltac:(lia)).
  split; intro; nia.
Qed.

Lemma op_byte_other : forall c s o old x, pcfg_ok c -> 0 <= s < p_n c -> seg_at c x <> s -> op_byte c s o old x = old.
Proof.
  intros c s o old x Hc Hs Hx. unfold op_byte.
  destruct ((op_base c s o <=? x) && (x <? op_base c s o + p_sbl c)) eqn:E; [|reflexivity].
  exfalso. apply Hx. unfold seg_at. assert (op_base c s o <= x < op_base c s o + p_sbl c) as B by lia.
  apply base_word in B; [|assumption|assumption]. rewrite B. rewrite Z.add_comm, Z.mod_add by lia. apply Z.mod_small. lia.
Qed.

Lemma rw_segs_spec : forall n c size ready b s m done, pcfg_ok c -> capacity c <= size -> 0 <= s -> s + Z.of_nat n <= p_n c ->
  exists m' done', rw_segs n c size ready b s (m, done) = Ok (m', done') /\
    (forall x, m' x = if (s <=? seg_at c x) && (seg_at c x <? s + Z.of_nat n) && (Z.testbit ready (seg_at c x) && Z.testbit (w_valid b) (seg_at c x))
                      then op_byte c (seg_at c x) (bus_op c b (seg_at c x)) (m x) x else m x) /\
    (forall i, 0 <= i -> Z.testbit done' i = Z.testbit done i || ((s <=? i) && (i <? s + Z.of_nat n) && (Z.testbit ready i && Z.testbit (w_valid b) i))).
Proof.
  induction n; intros c size ready b s m done Hc Hsz Hs Hn; cbn [rw_segs].
  - exists m, done. split; [reflexivity|]. split.
    + intro x. assert ((s <=? seg_at c x) && (seg_at c x <? s + Z.of_nat 0) = false) as -> by lia. reflexivity.
    + intros i Hi. assert ((s <=? i) && (i <? s + Z.of_nat 0) = false) as -> by lia. rewrite orb_false_r. reflexivity.
  - destruct (rw_seg_spec c size ready b s m done Hc Hsz ltac:(lia)) as (m1 & E1 & H1). rewrite E1. cbn [bind].
    destruct (IHn c size ready b (s + 1) m1 (if Z.testbit ready s && Z.testbit (w_valid b) s then Z.lor done (Z.shiftl 1 s) else done) Hc Hsz ltac:(lia) ltac:(lia))
      as (m' & done' & E & H2 & H3).
    exists m', done'. split; [exact E|]. split.
    + intro x. rewrite H2, H1. set (sx := seg_at c x). 
      destruct (Z.eqb_spec sx s) as [Hx|Hx].
      * assert ((s + 1 <=? sx) && (sx <? s + 1 + Z.of_nat n) = false) as -> by lia.
        assert ((s <=? sx) && (sx <? s + Z.of_nat (S n)) = true) as -> by lia. cbn [andb]. rewrite Hx. reflexivity.
      * replace ((s <=? sx) && (sx <? s + Z.of_nat (S n))) with ((s + 1 <=? sx) && (sx <? s + 1 + Z.of_nat n)) by lia.
        rewrite (op_byte_other c s _ _ x Hc ltac:(lia) Hx).
        destruct (Z.testbit ready s && Z.testbit (w_valid b) s); reflexivity.
    + intros i Hi. rewrite H3 by lia.
      destruct (Z.eqb_spec i s) as [->|Hx].
      * assert ((s + 1 <=? s) && (s <? s + 1 + Z.of_nat n) = false) as -> by lia.
        assert ((s <=? s) && (s <? s + Z.of_nat (S n)) = true) as -> by lia. cbn [andb].
        destruct (Z.testbit ready s && Z.testbit (w_valid b) s); [|reflexivity].
        rewrite set_bit by lia. rewrite Z.eqb_refl, orb_true_r. reflexivity.
      * replace ((s <=? i) && (i <? s + Z.of_nat (S n))) with ((s + 1 <=? i) && (i <? s + 1 + Z.of_nat n)) by lia.
        f_equal. destruct (Z.testbit ready s && Z.testbit (w_valid b) s); [|reflexivity].
        rewrite set_bit by lia. replace (i =? s) with false by (symmetry; apply Z.eqb_neq; lia). apply orb_false_r.
Qed.
