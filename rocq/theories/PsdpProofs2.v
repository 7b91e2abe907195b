(** Proofs for the segmented RAM interface: the segment operations of a write. *)
From Verif Require Import PyBase BitLemmas TlpProofs PcieIfProofs4 PsdpModel PsdpSpec PsdpProofs.
From Coq Require Import ZifyBool ZifyNat.
Ltac Zify.zify_post_hook ::= idtac.
Local Arguments Z.mul : simpl never.

Lemma word_of : forall s w x, 0 < s -> (w * s <= x < w * s + s <-> x / s = w).
Proof.
  intros s w x Hs. pose proof (Z.div_mod x s ltac:(lia)). pose proof (Z.mod_pos_bound x s ltac:(lia)). split; intro; nia.
Qed.

(** ** Bytes of a little-endian value. *)
Lemma nth_le_bytes : forall n v j, (j < n)%nat -> 0 <= v -> nth j (le_bytes n v) 0 = (v / 2 ^ (8 * Z.of_nat j)) mod 256.
Proof.
  induction n; intros v j Hj Hv; [lia|]. cbn [le_bytes]. destruct j as [|j].
  - cbn [nth]. change (8 * Z.of_nat 0) with 0. rewrite Z.pow_0_r, Z.div_1_r. reflexivity.
  - cbn [nth]. rewrite IHn by (try lia; apply Z.div_pos; lia).
    rewrite Z.div_div by (try lia; apply Z.pow_pos_nonneg; lia). do 2 f_equal.
    change 256 with (2 ^ 8). rewrite <- Z.pow_add_r by lia. f_equal. lia.
Qed.

Lemma le_val_byte : forall l j, Forall is_byte l -> (j < length l)%nat -> (le_val l / 2 ^ (8 * Z.of_nat j)) mod 256 = nth j l 0.
Proof.
  intros l j Hl Hj. pose proof (le_val_range l Hl). rewrite <- (nth_le_bytes (length l)) by lia.
  rewrite le_bytes_val by assumption. reflexivity.
Qed.

Lemma le_val_app : forall l r, le_val (l ++ r) = le_val l + 2 ^ (8 * zlen l) * le_val r.
Proof.
  induction l as [|b l IH]; intro r; cbn [app le_val].
  - unfold zlen. cbn. destruct (le_val r); reflexivity.
  - rewrite IH. unfold zlen. cbn [length]. replace (8 * Z.of_nat (S (length l))) with (8 + 8 * Z.of_nat (length l)) by lia.
    rewrite Z.pow_add_r by lia. change (2 ^ 8) with 256. lia.
Qed.

Lemma skipn_nth_cons : forall (d : list Z) k z, (k < length d)%nat -> skipn k d = nth k d z :: skipn (S k) d.
Proof.
  induction d as [|y d IH]; intros k z Hk; cbn [length] in Hk; [lia|].
  destruct k; [reflexivity|]. cbn [skipn nth]. rewrite (IH k z) by lia. reflexivity.
Qed.

(** ** Gathering bytes into a word. *)
Lemma gather_spec : forall n d off j v, 0 <= off -> 0 <= j -> off + Z.of_nat n <= zlen d -> Forall is_byte d -> 0 <= v < 2 ^ (8 * j) ->
  gather n d off j v = Ok (v + 2 ^ (8 * j) * le_val (slice d off (off + Z.of_nat n)), off + Z.of_nat n).
Proof.
  induction n; intros d off j v Ho Hj Hn Hd Hv; cbn [gather].
  - replace (off + Z.of_nat 0) with off by lia. unfold slice. rewrite Z.sub_diag. cbn [Z.to_nat firstn le_val]. do 2 f_equal. lia.
  - rewrite (py_index_nth d off 0) by (unfold zlen in *; lia). cbn [bind].
    set (b := nth (Z.to_nat off) d 0).
    assert (is_byte b) as Hb. { rewrite Forall_forall in Hd. apply Hd, nth_In. unfold zlen in Hn. lia. }
    unfold is_byte in Hb. rewrite (Z.mul_comm j 8), lor_add_disjoint by lia.
    assert (2 ^ (8 * (j + 1)) = 2 ^ (8 * j) * 256) as Hp.
    { replace (8 * (j + 1)) with (8 * j + 8) by lia. rewrite Z.pow_add_r by lia. reflexivity. }
    assert (0 < 2 ^ (8 * j)) by (apply Z.pow_pos_nonneg; lia).
    rewrite IHn by (try lia; try assumption; rewrite Hp; nia).
    replace (off + 1 + Z.of_nat n) with (off + Z.of_nat (S n)) by lia.
    assert (slice d off (off + Z.of_nat (S n)) = b :: slice d (off + 1) (off + Z.of_nat (S n))) as ->.
    { unfold slice. replace (Z.to_nat (off + Z.of_nat (S n) - off)) with (S n) by lia.
      replace (Z.to_nat (off + Z.of_nat (S n) - (off + 1))) with n by lia.
      replace (Z.to_nat (off + 1)) with (S (Z.to_nat off)) by lia.
      assert (Z.to_nat off < length d)%nat by (unfold zlen in Hn; lia).
      unfold b. rewrite (skipn_nth_cons d (Z.to_nat off) 0) by assumption. reflexivity. }
    cbn [le_val]. rewrite Hp. do 2 f_equal. lia.
Qed.

(** ** Which words a transfer touches. *)
Lemma seg_num_eq : forall c a n, pcfg_ok c -> 0 <= a -> 0 <= n -> seg_num c a n = (a + n - 1) / p_sbl c - a / p_sbl c + 1.
Proof.
  intros c a n (_ & Hs & _) Ha Hn. unfold seg_num.
  replace (n + a mod p_sbl c + p_sbl c - 1) with ((a + n - 1) + (1 - a / p_sbl c) * p_sbl c)
    by (pose proof (Z.div_mod a (p_sbl c) ltac:(lia)); lia).
  rewrite Z.div_add by lia. lia.
Qed.

Lemma word_seg : forall c w, pcfg_ok c -> (w + 1) mod p_n c = ((w mod p_n c) + 1) mod p_n c.
Proof. intros c w (H & _). rewrite Z.add_mod_idemp_l by (unfold p_n; lia). reflexivity. Qed.

Lemma word_addr : forall c a k, pcfg_ok c -> (a + k * p_sbl c) / p_bl c = (a / p_sbl c + k) / p_n c.
Proof.
  intros c a k (H & Hs & _). unfold p_bl. rewrite (Z.mul_comm (p_n c)).
  rewrite <- Z.div_div by (try lia; unfold p_n; lia). rewrite Z.div_add by lia. reflexivity.
Qed.

(** The operation for word [w] of the transfer does its part of the store. *)
Definition does (c : pcfg) (a : Z) (d : list Z) (w : Z) (o : segop) : Prop :=
  op_ok c o /\ o_addr o = w / p_n c /\
  forall old x, op_byte c (w mod p_n c) o old x = if (x / p_sbl c =? w) && (a <=? x) && (x <? a + zlen d) then nth (Z.to_nat (x - a)) d 0 else old.

Fixpoint does_all (c : pcfg) (a : Z) (d : list Z) (w : Z) (ops : list (Z * segop)) : Prop :=
  match ops with
  | [] => True
  | (s, o) :: r => s = w mod p_n c /\ does c a d w o /\ does_all c a d (w + 1) r
  end.

Lemma be_bits : forall c start stop j, 0 <= p_sbl c -> 0 <= start -> stop <= p_sbl c -> 0 <= j ->
  Z.testbit (Z.land (Z.shiftl (p_mask (p_sbl c)) start) (p_mask (p_sbl c))) j = (start <=? j) && (j <? p_sbl c) /\
  Z.testbit (Z.shiftr (p_mask (p_sbl c)) (p_sbl c - stop)) j = (j <? stop).
Proof.
  intros c start stop j Hc Hs Hp Hj. rewrite p_mask_ones. split.
  - rewrite Z.land_spec, Z.shiftl_spec by lia. rewrite (Z.testbit_ones_nonneg _ j) by lia.
    destruct (Z.leb_spec start j); cbn [andb].
    + rewrite Z.testbit_ones_nonneg by lia. lia.
    + rewrite Z.testbit_neg_r by lia. reflexivity.
  - rewrite Z.shiftr_spec by lia. rewrite Z.testbit_ones_nonneg by lia. lia.
Qed.

(** One generated operation: bytes [start, stop) of word [w] carry the data. *)
Lemma does_one : forall c a d w start stop off be v,
  pcfg_ok c -> in_cap c a (zlen d) -> Forall is_byte d ->
  0 <= w < 2 ^ p_aw c * p_n c ->
  0 <= start <= stop -> stop <= p_sbl c ->
  (forall x, x / p_sbl c = w -> (a <= x < a + zlen d <-> w * p_sbl c + start <= x < w * p_sbl c + stop)) ->
  0 <= off -> off + (stop - start) <= zlen d -> (start < stop -> a + off = w * p_sbl c + start) ->
  v = 2 ^ (8 * start) * le_val (slice d off (off + (stop - start))) ->
  0 <= be < 2 ^ p_sbl c -> (forall j, 0 <= j < p_sbl c -> Z.testbit be j = (start <=? j) && (j <? stop)) ->
  does c a d w (mkOp (w / p_n c) v be).
Proof.
  intros c a d w start stop off be v Hc Hcap Hd Hw Hst Hsp Hrange Ho Hol Hao Hv Hbe Hbits.
  destruct Hc as (Hc1 & Hc2 & Hc3). assert (1 <= p_n c) as HN by (unfold p_n; lia).
  set (sl := slice d off (off + (stop - start))) in *.
  assert (zlen sl = stop - start) as Hsl by (unfold sl; rewrite zlen_slice' by lia; lia).
  assert (Forall is_byte sl) as Hslb.
  { unfold sl, slice. rewrite Forall_forall in *. intros y Hy. apply Hd.
    rewrite <- (firstn_skipn (Z.to_nat off) d). apply in_or_app. right.
    rewrite <- (firstn_skipn (Z.to_nat (off + (stop - start) - off)) (skipn (Z.to_nat off) d)). apply in_or_app. left. exact Hy. }
  pose proof (le_val_range sl Hslb) as Hlv.
  assert (0 < 2 ^ (8 * start)) by (apply Z.pow_pos_nonneg; lia).
  assert (0 <= v < 2 ^ (8 * p_sbl c)) as Hvr.
  { assert (le_val sl < 2 ^ (8 * (stop - start))) as L.
    { rewrite <- Hsl. rewrite Z.pow_mul_r by (unfold zlen; lia). apply Hlv. }
    assert (2 ^ (8 * start) * 2 ^ (8 * (stop - start)) <= 2 ^ (8 * p_sbl c)) as L2.
    { rewrite <- Z.pow_add_r by lia. apply Z.pow_le_mono_r; lia. }
    destruct Hlv as [Hlv _]. rewrite Hv. clear - H L L2 Hlv. split; nia. }
  clear Hlv.
  assert (w / p_n c * p_n c + w mod p_n c = w) as Hww by (pose proof (Z.div_mod w (p_n c) ltac:(lia)); lia).
  split; [|split; [reflexivity|]].
  - unfold op_ok. cbn [o_addr o_data o_be]. split; [|split; assumption].
    split; [apply Z.div_pos; lia|]. apply Z.div_lt_upper_bound; lia.
  - intros old x. unfold op_byte. unfold op_base. cbn [o_addr o_data o_be]. rewrite Hww.
    clear Hww Hvr Hw Hbe Hcap.
    pose proof (Z.div_mod x (p_sbl c) ltac:(lia)) as Dx. pose proof (Z.mod_pos_bound x (p_sbl c) ltac:(lia)) as Mx.
    assert ((w * p_sbl c <=? x) && (x <? w * p_sbl c + p_sbl c) = (x / p_sbl c =? w)) as ->.
    { apply eq_true_iff_eq. rewrite andb_true_iff, Z.leb_le, Z.ltb_lt, Z.eqb_eq. apply word_of. lia. }
    destruct (Z.eqb_spec (x / p_sbl c) w) as [E|E]; cbn [andb]; [|reflexivity].
    assert (0 <= x - w * p_sbl c < p_sbl c) as Hj by (apply word_of in E; lia).
    rewrite Hbits by assumption.
    assert ((start <=? x - w * p_sbl c) && (x - w * p_sbl c <? stop) = (a <=? x) && (x <? a + zlen d)) as ->.
    { specialize (Hrange x E). apply eq_true_iff_eq. rewrite !andb_true_iff, !Z.leb_le, !Z.ltb_lt. split; intro; lia. }
    destruct ((a <=? x) && (x <? a + zlen d)) eqn:E2; [|reflexivity].
    apply andb_true_iff in E2. rewrite Z.leb_le, Z.ltb_lt in E2.
    apply Hrange in E2; [|assumption]. clear Hrange Hbits Dx Mx E.
    assert (start < stop) as Hlt by (clear - E2; lia). specialize (Hao Hlt).
    remember (w * p_sbl c) as ws eqn:Ews. clear Ews.
    remember (x - ws) as j eqn:Ej. assert (start <= j < stop) as Hjs by (clear - E2 Ej; lia).
    assert (x - a = off + (j - start)) as Hxa by (clear - Ej Hao; lia). rewrite Hxa.
    assert (0 <= off + (j - start)) by (clear - Ho Hjs; lia).
    clear Ej E2 Hao Hxa.
    rewrite nth_le_bytes by (first [lia|(rewrite Hv; apply Z.mul_nonneg_nonneg; [lia|]; apply (le_val_range sl Hslb))]).
    replace (8 * Z.of_nat (Z.to_nat j)) with (8 * start + 8 * Z.of_nat (Z.to_nat (j - start))) by lia.
    rewrite Hv, Z.pow_add_r, <- Z.div_div by (first [apply Z.pow_nonzero; lia|apply Z.pow_pos_nonneg; lia|lia]).
    rewrite (Z.mul_comm (2 ^ (8 * start))), Z.div_mul by lia.
    rewrite le_val_byte by (try assumption; unfold zlen in Hsl; lia).
    unfold sl. rewrite nth_slice' by lia. reflexivity.
Qed.

Lemma geom : forall s a n k qa ra qe re w start stop, 0 < s -> 0 <= a -> 0 <= n -> 0 <= k ->
  a = s * qa + ra -> 0 <= ra < s -> a + n - 1 = s * qe + re -> 0 <= re < s -> w = qa + k -> w <= qe ->
  start = (if k =? 0 then ra else 0) -> stop = (if k =? qe - qa + 1 - 1 then re + 1 else s) ->
  0 <= start <= stop /\ stop <= s /\ w * s + start = Z.max a (w * s) /\ w * s + stop = Z.min (a + n) ((w + 1) * s) /\
  Z.min n (Z.max 0 (w * s - a)) = Z.max 0 (w * s - a) /\
  Z.max 0 (w * s - a) + (stop - start) = Z.min n (Z.max 0 ((w + 1) * s - a)).
Proof.
  intros s a n k qa ra qe re w start stop Hs Ha Hn Hk Da Ra De Re Hw Hq Est Esp.
  assert (w * s + start = Z.max a (w * s) /\ 0 <= start < s) as [Hlo Hst].
  { rewrite Est. destruct (Z.eqb_spec k 0) as [K|K].
    - assert (w * s = s * qa) by (rewrite Hw, K; ring). lia.
    - assert (s * qa + s <= w * s) by (rewrite Hw; nia). lia. }
  assert (w * s + stop = Z.min (a + n) ((w + 1) * s) /\ 0 < stop <= s) as [Hhi Hsp].
  { rewrite Esp. destruct (Z.eqb_spec k (qe - qa + 1 - 1)) as [K|K].
    - assert (w * s = s * qe) by (rewrite Hw; replace qe with (qa + k) by lia; ring). lia.
    - assert (w * s + s <= s * qe) by nia. lia. }
  assert (w * s <= a + n - 1) by nia.
  assert (a <= (w + 1) * s) by nia.
  replace ((w + 1) * s) with (w * s + s) in * by ring.
  assert (start <= stop) by lia. repeat split; lia.
Qed.

Lemma seg_ops_spec : forall n c a d k,
  pcfg_ok c -> in_cap c a (zlen d) -> Forall is_byte d -> 0 <= k -> k + Z.of_nat n = seg_num c a (zlen d) ->
  exists ops,
    seg_ops n c a d k ((a / p_sbl c + k) mod p_n c) (Z.min (zlen d) (Z.max 0 ((a / p_sbl c + k) * p_sbl c - a))) = Ok ops /\
    does_all c a d (a / p_sbl c + k) ops /\ length ops = n.
Proof.
  induction n; intros c a d k Hc Hcap Hd Hk Hn; cbn [seg_ops].
  - exists []. repeat split.
  - pose proof Hc as (Hc1 & Hc2 & Hc3). assert (1 <= p_n c) as HN by (unfold p_n; lia).
    pose proof Hcap as (Ha & Hl & Hal). unfold capacity in Ha, Hal. fold (p_n c) in Ha, Hal.
    assert (0 <= zlen d) as Hz by (unfold zlen; lia).
    rewrite seg_num_eq in Hn by (try assumption; lia). rewrite (seg_num_eq c) by (try assumption; lia).
    set (w := a / p_sbl c + k) in *.
    pose proof (Z.div_mod a (p_sbl c) ltac:(lia)) as Da. pose proof (Z.mod_pos_bound a (p_sbl c) ltac:(lia)) as Ma.
    pose proof (Z.div_mod (a + zlen d - 1) (p_sbl c) ltac:(lia)) as De. pose proof (Z.mod_pos_bound (a + zlen d - 1) (p_sbl c) ltac:(lia)) as Me.
    unfold seg_start, seg_end in *.
    set (qa := a / p_sbl c) in *. set (ra := a mod p_sbl c) in *.
    set (qe := (a + zlen d - 1) / p_sbl c) in *. set (re := (a + zlen d - 1) mod p_sbl c) in *.
    set (start := if k =? 0 then ra else 0). set (stop := if k =? qe - qa + 1 - 1 then re + 1 else p_sbl c).
    set (be0 := p_mask (p_sbl c)).
    set (bs := Z.land (Z.shiftl be0 ra) be0). set (be_ := Z.shiftr be0 (p_sbl c - (re + 1))).
    set (be := let b := if k =? 0 then Z.land be0 bs else be0 in if k =? qe - qa + 1 - 1 then Z.land b be_ else b).
    set (off := Z.min (zlen d) (Z.max 0 (w * p_sbl c - a))).
    assert (w <= qe) as Hwq by (unfold w; lia).
    assert (0 <= qa) as Hqa by (unfold qa; apply Z.div_pos; lia).
    destruct (geom (p_sbl c) a (zlen d) k qa ra qe re w start stop) as ((Hst & Hss) & Hsp & Hlo & Hhi & Hoff & Hoff2);
      [lia|lia|lia|lia|exact Da|exact Ma|exact De|exact Me|reflexivity|exact Hwq|reflexivity|reflexivity|].
    fold off in Hoff. rewrite <- Hoff in Hoff2.
    assert (0 <= w < 2 ^ p_aw c * p_n c) as HB.
    { split; [unfold w; clear - Hqa Hk; lia|].
      assert (w * p_sbl c < p_n c * p_sbl c * 2 ^ p_aw c) as B.
      { assert (w * p_sbl c <= a + zlen d - 1) by (rewrite De; clear - Hwq Hc2 Me; nia).
        clear - H Ha Hal. lia. }
      clear - B Hc2. nia. }
    clear Ha Hal Da De. assert (0 <= a) as Ha by (destruct Hcap; clear - H; lia).
    assert (0 <= off) as Hoff0 by (clear - Hoff; lia). assert (off + (stop - start) <= zlen d) as Hoffd by (clear - Hoff2; lia).
    destruct (if k =? 0 then (ra, Z.land be0 bs) else (0, be0)) as [st0 b0] eqn:E1.
    destruct (if k =? qe - qa + 1 - 1 then (re + 1, Z.land b0 be_) else (p_sbl c, b0)) as [sp0 b1] eqn:E2.
    assert (st0 = start /\ b0 = if k =? 0 then Z.land be0 bs else be0) as [-> Hb0].
    { unfold start. destruct (k =? 0); injection E1 as <- <-; auto. }
    assert (sp0 = stop /\ b1 = be) as [-> ->].
    { unfold stop, be. rewrite <- Hb0. destruct (k =? qe - qa + 1 - 1); injection E2 as <- <-; auto. }
    rewrite gather_spec.
    2:{ assumption. } 2:{ assumption. } 2:{ rewrite Z2Nat.id by lia. assumption. } 2:{ assumption. } 2:{ split; [lia|]. apply Z.pow_pos_nonneg; lia. }
    cbn [bind]. rewrite Z2Nat.id by lia. rewrite Z.add_0_l.
    rewrite <- word_seg by assumption. rewrite Hoff2.
    replace (w + 1) with (qa + (k + 1)) by (unfold w; lia).
    destruct (IHn c a d (k + 1) Hc Hcap Hd ltac:(lia)) as (ops & E & HA & HL).
    { rewrite seg_num_eq by (try assumption; lia). fold qa qe. lia. }
    fold qa in E, HA. rewrite E. cbn [bind].
    eexists. split; [reflexivity|]. split; [|cbn [length]; rewrite HL; reflexivity].
    cbn [does_all]. split; [reflexivity|]. replace (qa + (k + 1)) with (w + 1) in * by (unfold w; lia). split; [|exact HA].
    rewrite word_addr by assumption. fold qa w.
    apply (does_one c a d w start stop off); try assumption; try reflexivity.
    + split; assumption.
    + intros x Hx. apply word_of in Hx; [|lia]. rewrite Hlo, Hhi. replace ((w + 1) * p_sbl c) with (w * p_sbl c + p_sbl c) by ring. 
      clear - Hx. lia.
    + intro. clear - Hlo Hhi Hoff H. lia.
    + rewrite Hoff2. reflexivity.
    + unfold be. split.
      * assert (0 <= be0) by (unfold be0, p_mask; pose proof (Z.pow_pos_nonneg 2 (p_sbl c)); lia).
        cbn zeta. destruct (k =? 0), (k =? qe - qa + 1 - 1); try (apply Z.land_nonneg; left); try (apply Z.land_nonneg; left); assumption.
      * assert (forall y, 0 <= Z.land be0 y < 2 ^ p_sbl c) as L.
        { intro y. unfold be0. rewrite Z.land_comm, p_mask_ones. apply land_ones_range. lia. }
        assert (0 <= be0 < 2 ^ p_sbl c) by (unfold be0, p_mask; pose proof (Z.pow_pos_nonneg 2 (p_sbl c)); lia).
        cbn zeta. destruct (k =? 0), (k =? qe - qa + 1 - 1); try rewrite <- Z.land_assoc; try apply L; lia.
    + intros j Hj. unfold be, bs, be_, be0, start, stop. cbn zeta.
      destruct (be_bits c ra (re + 1) j ltac:(lia) ltac:(lia) ltac:(lia) ltac:(lia)) as [B1 B2].
      assert (Z.testbit (p_mask (p_sbl c)) j = true) as B0.
      { rewrite p_mask_ones, Z.testbit_ones_nonneg by lia. lia. }
      destruct (k =? 0), (k =? qe - qa + 1 - 1); rewrite ?Z.land_spec, ?B0 in *; rewrite ?B2; cbn [andb];
        rewrite ?andb_true_r in *; try rewrite B1; lia.
Qed.

Lemma write_ops_spec : forall c a d, pcfg_ok c -> in_cap c a (zlen d) -> Forall is_byte d ->
  exists ops, write_ops c a d = Ok ops /\ does_all c a d (a / p_sbl c) ops /\ length ops = Z.to_nat (seg_num c a (zlen d)).
Proof.
  intros c a d Hc Hcap Hd. pose proof Hc as (Hc1 & Hc2 & Hc3). pose proof Hcap as (Ha & Hl & Hal). unfold write_ops, first_seg.
  pose proof (seg_num_eq c a (zlen d) Hc ltac:(lia) ltac:(lia)) as Hs.
  assert (0 <= seg_num c a (zlen d)).
  { rewrite Hs. assert (a / p_sbl c <= (a + zlen d) / p_sbl c) by (apply Z.div_le_mono; lia).
    assert ((a + zlen d) / p_sbl c <= (a + zlen d - 1) / p_sbl c + 1); [|lia].
    rewrite <- (Z.div_add (a + zlen d - 1) 1) by lia. apply Z.div_le_mono; lia. }
  destruct (seg_ops_spec (Z.to_nat (seg_num c a (zlen d))) c a d 0 Hc Hcap Hd ltac:(lia) ltac:(lia)) as (ops & E & HA & HL).
  rewrite Z.add_0_r in E, HA. exists ops. split; [|split; assumption].
  rewrite <- E. f_equal.
  pose proof (Z.div_mod a (p_sbl c) ltac:(lia)). pose proof (Z.mod_pos_bound a (p_sbl c) ltac:(lia)). lia.
Qed.
