(** AXI-Lite: words of a command and word accesses of the RAM. *)
From Verif Require Import PyBase BitLemmas TlpProofs SplitProofs PsdpProofs2 AxilModel AxilSpec.
From Coq Require Import ZifyBool ZifyNat Arith.
Ltac Zify.zify_post_hook ::= idtac.
Local Arguments Z.mul : simpl never.

Lemma truediv_exact : forall x y, 0 <= x < 2 ^ 53 -> int_truediv x y = x / y.
Proof.
  intros x y H. unfold int_truediv. assert (Z.log2 x + 1 <=? 53 = true) as ->; [|reflexivity].
  destruct (Z.eq_dec x 0) as [->|Hx]; [reflexivity|]. assert (Z.log2 x < 53) by (apply Z.log2_lt_pow2; lia). lia.
Qed.

Lemma lanes_range : forall bw, lanes_ok bw -> 1 <= bw <= 128.
Proof.
  intros bw (k & Hk & ->). change 128 with (2 ^ 7). split; [apply (Z.pow_le_mono_r 2 0 k); lia|apply Z.pow_le_mono_r; lia].
Qed.

Lemma nth_set1 : forall (l : list Z) p x j, 0 <= p < zlen l -> (j < length l)%nat ->
  nth j (slice_set l p [x]) 0 = if (Z.of_nat j =? p) then x else nth j l 0.
Proof.
  intros l p x j Hp Hj. unfold slice_set. change (zlen [x]) with 1. unfold zlen in Hp.
  assert (length (firstn (Z.to_nat p) l) = Z.to_nat p) as HL by (apply firstn_length_le; lia).
  destruct (Z.eqb_spec (Z.of_nat j) p) as [E|E].
  - rewrite app_nth2 by lia. rewrite HL. replace (j - Z.to_nat p)%nat with O by lia. reflexivity.
  - destruct (Nat.lt_ge_cases j (Z.to_nat p)) as [L|L].
    + rewrite app_nth1 by lia. apply nth_firstn_lt. assumption.
    + rewrite app_nth2 by lia. rewrite app_nth2 by (cbn; lia). rewrite nth_skipn_add. f_equal. rewrite HL. cbn [length]. lia.
Qed.

Lemma zlen_set1 : forall (l : list Z) p x, 0 <= p < zlen l -> zlen (slice_set l p [x]) = zlen l.
Proof.
  intros l p x Hp. unfold slice_set, zlen in *. change (Z.of_nat (length [x])) with 1. rewrite !app_length, firstn_length_le, skipn_length by lia. cbn [length]. lia.
Qed.

Lemma byte_land : forall v, is_byte (Z.land v 0xff).
Proof. intro v. change 0xff with (2 ^ 8 - 1). rewrite land_low_mod by lia. unfold is_byte. apply Z.mod_pos_bound. reflexivity. Qed.

Lemma bytes_set1 : forall (l : list Z) p x, Forall is_byte l -> is_byte x -> Forall is_byte (slice_set l p [x]).
Proof.
  intros l p x H Hx. unfold slice_set. apply Forall_app. split; [apply Forall_firstn; assumption|]. apply Forall_app.
  split; [constructor; [assumption|constructor]|apply Forall_skipn; assumption].
Qed.

Lemma store_spec : forall n size i val strb l p m, holds size l m -> Forall is_byte l -> 0 <= p -> p + Z.of_nat n <= size -> 0 <= i ->
  exists l', lm_store n i val strb (mkLm l p) = Ok (mkLm l' (p + Z.of_nat n)) /\ Forall is_byte l' /\
    holds size l' (fun x => if (p <=? x) && (x <? p + Z.of_nat n) && Z.testbit strb (i + x - p)
                            then Z.land (Z.shiftr val ((i + x - p) * 8)) 0xff else m x).
Proof.
  induction n; intros size i val strb l p m [H1 H2] HB Hp Hn Hi; cbn [lm_store].
  - rewrite Z.add_0_r. exists l. split; [reflexivity|]. split; [assumption|]. split; [assumption|]. intros j Hj.
    assert ((p <=? j) && (j <? p) = false) as -> by lia. apply H2. assumption.
  - rewrite (Z.shiftl_mul_pow2 1 i), Z.mul_1_l, land_pow2_testbit by assumption.
    destruct (Z.testbit strb i) eqn:T.
    + unfold lm_write1. cbn [lm_pos lm_data]. assert (p <? zlen l = true) as -> by lia. cbn [bind].
      set (l1 := slice_set l p [Z.land (Z.shiftr val (i * 8)) 255]).
      set (m1 := fun x => if x =? p then Z.land (Z.shiftr val (i * 8)) 255 else m x).
      destruct (IHn size (i + 1) val strb l1 (p + 1) m1) as (l' & E & B & [G1 G2]); try lia.
      { split; [unfold l1; rewrite zlen_set1 by lia; assumption|]. intros j Hj. unfold l1, m1. rewrite nth_set1 by (unfold zlen in *; lia).
        rewrite Z2Nat.id by lia. destruct (j =? p); [reflexivity|apply H2; lia]. }
      { unfold l1. apply bytes_set1; [assumption|apply byte_land]. }
      exists l'. split; [rewrite E; do 2 f_equal; lia|]. split; [assumption|]. split; [assumption|]. intros j Hj. rewrite G2 by assumption. unfold m1.
      replace (i + 1 + j - (p + 1)) with (i + j - p) by lia. destruct (Z.eqb_spec j p) as [->|N].
      * assert (p + 1 <=? p = false) as -> by lia. cbn [andb]. assert (p <=? p = true) as -> by lia. assert (p <? p + Z.of_nat (S n) = true) as -> by lia.
        replace (i + p - p) with i by lia. rewrite T. reflexivity.
      * replace ((p + 1 <=? j) && (j <? p + 1 + Z.of_nat n)) with ((p <=? j) && (j <? p + Z.of_nat (S n))) by lia. reflexivity.
    + unfold lm_seek. cbn [lm_pos lm_data]. assert ((p + 1 <? 0) || (zlen l <? p + 1) = false) as -> by lia. cbn [bind].
      destruct (IHn size (i + 1) val strb l (p + 1) m) as (l' & E & B & [G1 G2]); try lia; try assumption; [split; assumption|].
      exists l'. split; [rewrite E; do 2 f_equal; lia|]. split; [assumption|]. split; [assumption|]. intros j Hj. rewrite G2 by assumption.
      replace (i + 1 + j - (p + 1)) with (i + j - p) by lia. destruct (Z.eq_dec j p) as [->|N].
      * assert (p + 1 <=? p = false) as -> by lia. cbn [andb]. replace (i + p - p) with i by lia. rewrite T, andb_false_r. reflexivity.
      * replace ((p + 1 <=? j) && (j <? p + 1 + Z.of_nat n)) with ((p <=? j) && (j <? p + Z.of_nat (S n))) by lia. reflexivity.
Qed.

Lemma put_ops_app : forall size m a b, put_ops size m (a ++ b) = put_ops size (put_ops size m a) b.
Proof. intros. unfold put_ops. apply fold_left_app. Qed.

Lemma put_range : forall size d a m x, 0 < size -> 0 <= x < size -> a mod size + zlen d <= size ->
  put_ops size m (byte_ops a d) x = if (a mod size <=? x) && (x <? a mod size + zlen d) then nth (Z.to_nat (x - a mod size)) d 0 else m x.
Proof.
  intros size. induction d as [|b d IH]; intros a m x Hs Hx Hd.
  - change (zlen (@nil Z)) with 0 in *. rewrite Z.add_0_r. assert ((a mod size <=? x) && (x <? a mod size) = false) as -> by lia. reflexivity.
  - assert (zlen (b :: d) = zlen d + 1) as EL by (unfold zlen; cbn [length]; lia). rewrite EL in *. pose proof (zlen_nonneg d).
    pose proof (Z.mod_pos_bound a size Hs) as Hm. cbn [byte_ops]. unfold put_ops. cbn [fold_left fst snd]. fold (put_ops size (fun y => if y =? a mod size then b else m y) (byte_ops (a + 1) d)).
    destruct (Z.eq_dec (zlen d) 0) as [E0|E0].
    + destruct d; [|unfold zlen in E0; cbn in E0; lia]. cbn [byte_ops]. unfold put_ops. cbn [fold_left]. destruct (Z.eqb_spec x (a mod size)) as [->|N].
      * rewrite E0. assert ((a mod size <=? a mod size) && (a mod size <? a mod size + (0 + 1)) = true) as -> by lia. rewrite Z.sub_diag. reflexivity.
      * rewrite E0. assert ((a mod size <=? x) && (x <? a mod size + (0 + 1)) = false) as -> by lia. reflexivity.
    + assert ((a + 1) mod size = a mod size + 1) as EM.
      { rewrite (Z.div_mod a size) at 1 by lia. replace (size * (a / size) + a mod size + 1) with (a mod size + 1 + a / size * size) by ring. rewrite Z.mod_add by lia. apply Z.mod_small. lia. }
      rewrite IH by lia. rewrite EM. destruct (Z.eqb_spec x (a mod size)) as [->|N].
      * assert (a mod size + 1 <=? a mod size = false) as -> by lia. cbn [andb]. assert ((a mod size <=? a mod size) && (a mod size <? a mod size + (zlen d + 1)) = true) as -> by lia. rewrite Z.sub_diag. reflexivity.
      * destruct ((a mod size + 1 <=? x) && (x <? a mod size + 1 + zlen d)) eqn:C.
        -- assert ((a mod size <=? x) && (x <? a mod size + (zlen d + 1)) = true) as -> by lia.
           replace (Z.to_nat (x - a mod size)) with (S (Z.to_nat (x - (a mod size + 1)))) by lia. reflexivity.
        -- assert ((a mod size <=? x) && (x <? a mod size + (zlen d + 1)) = false) as -> by lia. reflexivity.
Qed.

(** The bytes of a word. *)
Definition word_byte (v i : Z) : Z := Z.land (Z.shiftr v (i * 8)) 0xff.

Lemma word_byte_le : forall l i s, Forall is_byte l -> 0 <= s <= i -> i < s + zlen l -> word_byte (Z.shiftl (le_val l) (s * 8)) i = nth (Z.to_nat (i - s)) l 0.
Proof.
  intros l i s HB Hs Hi. unfold word_byte. rewrite Z.shiftr_shiftl_r by lia. replace (i * 8 - s * 8) with (8 * (i - s)) by ring.
  change 0xff with (2 ^ 8 - 1). rewrite land_low_mod by lia. rewrite Z.shiftr_div_pow2 by lia. remember (Z.to_nat (i - s)) as j. assert (i - s = Z.of_nat j) as -> by lia.
  assert (j < length l)%nat as Hj by (unfold zlen in Hi; lia). clear - HB Hj. revert l HB Hj. induction j; intros [|x l] HB Hj; cbn [length] in Hj; try lia; inversion_clear HB as [|? ? H1 H2]; cbn [nth le_val].
  - change (2 ^ (8 * Z.of_nat 0)) with 1. change (2 ^ 8) with 256. rewrite Z.div_1_r, (Z.mul_comm 256), Z.mod_add by lia. apply Z.mod_small. exact H1.
  - replace (8 * Z.of_nat (S j)) with (8 + 8 * Z.of_nat j) by lia. rewrite Z.pow_add_r by lia. rewrite <- Z.div_div by lia. change (2 ^ 8) with 256.
    rewrite (Z.mul_comm 256), Z.div_add by lia. unfold is_byte in H1. rewrite (Z.div_small x 256) by lia. rewrite Z.add_0_l. change 256 with (2 ^ 8). apply IHj; [assumption|lia].
Qed.

(** A word that stores the bytes [d] at address [a]. *)
Definition word_is (bw : Z) (w : lword) (a : Z) (d : list Z) : Prop :=
  lw_addr w = a /\ 0 <= a < 2 ^ 53 /\ a mod bw + zlen d <= bw /\ Forall is_byte d /\
  (forall i, 0 <= i < bw -> Z.testbit (lw_strb w) i = (a mod bw <=? i) && (i <? a mod bw + zlen d)) /\
  (forall i, a mod bw <= i < a mod bw + zlen d -> word_byte (lw_val w) i = nth (Z.to_nat (i - a mod bw)) d 0).

Lemma base_mod : forall bw size a, 0 < bw -> 0 < size -> (bw | size) -> 0 <= a -> exists p,
  (a / bw * bw) mod size = p /\ 0 <= p /\ p + bw <= size /\ a mod size = p + a mod bw.
Proof.
  intros bw size a Hb Hs (q & ->) Ha. exists ((a / bw) mod q * bw). assert (0 < q) by nia.
  pose proof (Z.mod_pos_bound (a / bw) q ltac:(lia)). pose proof (Z.mod_pos_bound a bw Hb). split; [rewrite Z.mul_mod_distr_r by lia; reflexivity|]. split; [nia|]. split; [nia|].
  rewrite (Z.mul_comm q bw), Z.rem_mul_r by lia. ring.
Qed.

Lemma word_store : forall bw size w a d l m, 0 < bw -> 0 < size -> (bw | size) -> word_is bw w a d -> holds size l m -> Forall is_byte l ->
  exists p l', lm_seek (mkLm l 0) ((int_truediv (lw_addr w) bw * bw) mod size) = Ok (mkLm l p) /\ 0 <= p <= size /\
    (int_truediv (lw_addr w) bw * bw) mod size = p /\
    lm_store (Z.to_nat bw) 0 (lw_val w) (lw_strb w) (mkLm l p) = Ok (mkLm l' (p + bw)) /\ p + bw <= size /\ Forall is_byte l' /\
    holds size l' (put_ops size m (byte_ops a d)).
Proof.
  intros bw size w a d l m Hb Hs Hd (W1 & W2 & W3 & W4 & W5 & W6) Hh HB. rewrite W1, truediv_exact by lia.
  destruct (base_mod bw size a Hb Hs Hd ltac:(lia)) as (p & P1 & P2 & P3 & P4). rewrite P1. exists p.
  destruct (store_spec (Z.to_nat bw) size 0 (lw_val w) (lw_strb w) l p m) as (l' & E & B & G1 & G2); try assumption; try lia.
  exists l'. split; [unfold lm_seek; cbn [lm_data]; destruct Hh as [Hl _]; rewrite Hl; assert ((p <? 0) || (size <? p) = false) as -> by lia; reflexivity|].
  split; [lia|]. split; [reflexivity|]. rewrite Z2Nat.id in E, G2 by lia. split; [assumption|]. split; [assumption|]. split; [assumption|].
  split; [assumption|]. intros x Hx. rewrite G2 by assumption. pose proof (Z.mod_pos_bound a bw Hb) as Hm. pose proof (zlen_nonneg d) as Hz.
  rewrite put_range by (try assumption; lia). rewrite P4.
  destruct ((p <=? x) && (x <? p + bw)) eqn:C.
  - cbn [andb]. rewrite W5 by lia. replace ((a mod bw <=? 0 + x - p) && (0 + x - p <? a mod bw + zlen d)) with ((p + a mod bw <=? x) && (x <? p + a mod bw + zlen d)) by lia.
    destruct ((p + a mod bw <=? x) && (x <? p + a mod bw + zlen d)) eqn:C2; [|reflexivity].
    fold (word_byte (lw_val w) (0 + x - p)). rewrite W6 by lia. f_equal. lia.
  - cbn [andb]. assert ((p + a mod bw <=? x) && (x <? p + a mod bw + zlen d) = false) as -> by lia. reflexivity.
Qed.

(** ** Words of a write command. *)
Lemma gather_val : forall n j data offset val, Forall is_byte data -> 0 <= j -> 0 <= offset -> offset + Z.of_nat n <= zlen data -> 0 <= val < 2 ^ (j * 8) ->
  l_gather n j data offset val = Ok (val + 2 ^ (j * 8) * le_val (slice data offset (offset + Z.of_nat n)), offset + Z.of_nat n).
Proof.
  intros n j data offset val HB Hj Ho Hn Hv.
  revert j offset val Hj Ho Hn Hv. induction n; intros j offset val Hj Ho Hn Hv; cbn [l_gather].
  - unfold slice. replace (offset + Z.of_nat 0 - offset) with 0 by lia. cbn [Z.to_nat firstn le_val]. f_equal. f_equal; lia.
  - assert (exists x, nth_error data (Z.to_nat offset) = Some x) as (x & Ex).
    { destruct (nth_error data (Z.to_nat offset)) eqn:E; [eauto|]. apply nth_error_None in E. unfold zlen in Hn. lia. }
    assert (is_byte x) as Hx by (apply nth_error_In in Ex; revert Ex; apply Forall_forall; assumption). unfold is_byte in Hx.
    unfold py_index. assert (offset <? 0 = false) as -> by lia. rewrite Ex. cbn [bind].
    rewrite lor_add_disjoint by lia.
    assert (2 ^ ((j + 1) * 8) = 2 ^ (j * 8) * 256) as E2 by (replace ((j + 1) * 8) with (j * 8 + 8) by lia; rewrite Z.pow_add_r by lia; reflexivity).
    rewrite IHn; try lia; [|rewrite E2; nia]. rewrite E2.
    assert (slice data offset (offset + Z.of_nat (S n)) = x :: slice data (offset + 1) (offset + 1 + Z.of_nat n)) as ->.
    { unfold slice. replace (Z.to_nat (offset + Z.of_nat (S n) - offset)) with (S n) by lia. replace (Z.to_nat (offset + 1 + Z.of_nat n - (offset + 1))) with n by lia.
      rewrite (skipn_nth_cons data (Z.to_nat offset) 0) by (unfold zlen in Hn; lia). cbn [firstn]. rewrite (nth_error_nth data _ 0 Ex). do 2 f_equal. f_equal. lia. }
    cbn [le_val]. f_equal. f_equal; [ring|lia].
Qed.

Lemma byte_ops_app : forall d e a, byte_ops a (d ++ e) = byte_ops a d ++ byte_ops (a + zlen d) e.
Proof.
  induction d as [|x d IH]; intros e a.
  - cbn [app byte_ops]. change (zlen (@nil Z)) with 0. rewrite Z.add_0_r. reflexivity.
  - cbn [app byte_ops]. rewrite IH. replace (a + 1 + zlen d) with (a + zlen (x :: d)) by (unfold zlen; cbn [length]; lia). reflexivity.
Qed.

Definition pieces_ops (ps : list (Z * list Z)) : list (Z * Z) := flat_map (fun p => byte_ops (fst p) (snd p)) ps.

Definition words_are (bw : Z) (ws : list lword) (ps : list (Z * list Z)) : Prop := Forall2 (fun w p => word_is bw w (fst p) (snd p)) ws ps.

Lemma cycles_spec : forall bw a L, lanes_ok bw -> 0 <= a -> 0 <= L -> a + L <= 2 ^ 52 ->
  let C := l_cycles bw a L in let s := a mod bw in
  0 <= C /\ L + s <= C * bw /\ (1 <= L + s -> 1 <= C /\ (C - 1) * bw < L + s /\ (a + L - 1) mod bw + 1 = s + L - (C - 1) * bw) /\ (L + s = 0 -> C = 0).
Proof.
  intros bw a L Hb Ha HL Hb2. cbn zeta. pose proof (lanes_range bw Hb) as Hr. pose proof (Z.mod_pos_bound a bw ltac:(lia)) as Hm. unfold l_cycles.
  rewrite truediv_exact by lia. set (s := a mod bw) in *. set (x := L + bw - 1 + s). pose proof (Z.div_mod x bw ltac:(lia)) as D. pose proof (Z.mod_pos_bound x bw ltac:(lia)) as M.
  set (C := x / bw) in *. assert (0 <= C) as HC by (apply Z.div_pos; unfold x; lia).
  assert (x = bw * C + x mod bw) as D' by exact D. unfold x in D' at 1.
  split; [assumption|]. split; [lia|]. split.
  - intro H1. assert ((C - 1) * bw < L + s) by lia. assert (1 <= C) by nia. split; [assumption|]. split; [assumption|].
    assert ((a + L - 1) mod bw = s + L - 1 - (C - 1) * bw) as ->; [|lia].
    symmetry. apply Z.mod_unique with (q := a / bw + (C - 1)); [left; lia|]. pose proof (Z.div_mod a bw ltac:(lia)) as Da. fold s in Da. lia.
  - intro H0. destruct (Z.eq_dec C 0); [assumption|]. exfalso. nia.
Qed.

Lemma strb_bits : forall bw start stop (first last : bool) so eo i, 0 < bw -> 0 <= so < bw -> 0 <= eo <= bw -> 0 <= i < bw ->
  start = (if first then so else 0) -> stop = (if last then eo else bw) ->
  Z.testbit (let full := 2 ^ bw - 1 in let strb := if first then Z.land full (Z.land (Z.shiftl full so) full) else full in
             if last then Z.land strb (Z.shiftr full (bw - eo)) else strb) i = (start <=? i) && (i <? stop).
Proof.
  intros bw start stop first last so eo i Hb Hs He Hi -> ->. cbn zeta. replace (2 ^ bw - 1) with (Z.ones bw) by (rewrite Z.ones_equiv; lia).
  assert (forall j, 0 <= j -> Z.testbit (Z.ones bw) j = (j <? bw)) as HO by (intros; apply Z.testbit_ones_nonneg; lia).
  assert (Z.testbit (Z.shiftl (Z.ones bw) so) i = (so <=? i)) as HS.
  { rewrite Z.shiftl_spec by lia. destruct (Z.leb_spec so i); [rewrite HO by lia; lia|apply Z.testbit_neg_r; lia]. }
  assert (Z.testbit (Z.shiftr (Z.ones bw) (bw - eo)) i = (i <? eo)) as HE by (rewrite Z.shiftr_spec by lia; rewrite HO by lia; lia).
  destruct first, last; rewrite ?Z.land_spec, ?HS, ?HE, ?HO by lia; lia.
Qed.

Lemma wloop_spec : forall n bw a data k off, lanes_ok bw -> 0 <= a -> a + zlen data <= 2 ^ 52 -> Forall is_byte data ->
  0 <= k -> k + Z.of_nat n = l_cycles bw a (zlen data) -> off = (if (n =? 0)%nat then zlen data else if k =? 0 then 0 else k * bw - a mod bw) ->
  exists ws ps, l_wloop n bw a (int_truediv a bw * bw) (l_cycles bw a (zlen data)) data k off = Ok ws /\
    length ws = n /\ words_are bw ws ps /\ pieces_ops ps = byte_ops (a + off) (skipn (Z.to_nat off) data).
Proof.
  induction n; intros bw a data k off Hb Ha Hd HB Hk Hn Hoff.
  - cbn [Nat.eqb] in Hoff. subst off. exists [], []. split; [reflexivity|]. split; [reflexivity|]. split; [constructor|].
    rewrite skipn_all2 by (unfold zlen; lia). reflexivity.
  - pose proof (lanes_range bw Hb) as Hr. pose proof (zlen_nonneg data) as HL. destruct (cycles_spec bw a (zlen data) Hb Ha HL Hd) as (C0 & C1 & C2 & C3).
    set (C := l_cycles bw a (zlen data)) in *. set (s := a mod bw) in *. assert (0 <= s < bw) as Hs by (apply Z.mod_pos_bound; lia).
    destruct (Z.eq_dec (zlen data + s) 0) as [Ez|Ez]; [rewrite C3 in Hn by assumption; lia|].
    destruct C2 as (C2a & C2b & C2c); [lia|]. cbn [Nat.eqb] in Hoff. cbn [l_wloop]. fold s. rewrite C2c.
    set (start := if k =? 0 then s else 0). set (eo := s + zlen data - (C - 1) * bw). set (stop := if k =? C - 1 then eo else bw).
    assert (0 <= eo <= bw) as Heo by (unfold eo; lia).
    assert (0 <= off /\ off = k * bw + start - s /\ 0 <= start <= stop /\ stop <= bw /\ start < bw /\ off + (stop - start) <= zlen data /\
            (k = C - 1 -> off + (stop - start) = zlen data) /\ (k <> C - 1 -> off + (stop - start) = (k + 1) * bw - s)) as (O1 & O2 & O3 & O4 & O5 & O6 & O7 & O8).
    { assert (k <> C - 1 -> (k + 1) * bw <= (C - 1) * bw) as Hmul by (intro; apply Z.mul_le_mono_nonneg_r; lia).
      assert (1 <= k -> 1 * bw <= k * bw) as Hmul2 by (intro; apply Z.mul_le_mono_nonneg_r; lia).
      rewrite Hoff. unfold start, stop, eo. destruct (Z.eqb_spec k 0) as [K|K], (Z.eqb_spec k (C - 1)) as [K2|K2].
      - assert (C = 1) as -> by lia. rewrite K. lia.
      - rewrite K in *. specialize (Hmul K2). lia.
      - specialize (Hmul2 ltac:(lia)). rewrite <- K2. assert (k * bw < zlen data + s) by (rewrite K2; assumption). lia.
      - specialize (Hmul2 ltac:(lia)). specialize (Hmul K2). lia. }
    assert (start = if k =? 0 then s else 0) as Est by reflexivity. assert (stop = if k =? C - 1 then eo else bw) as Esp by reflexivity. clearbody start stop.
    assert (int_truediv a bw * bw + start + k * bw = a + off) as Ea.
    { rewrite truediv_exact by lia. pose proof (Z.div_mod a bw ltac:(lia)) as Da. fold s in Da. lia. }
    assert ((a + off) mod bw = start) as Em.
    { rewrite <- Ea, truediv_exact by lia. replace (a / bw * bw + start + k * bw) with (start + (a / bw + k) * bw) by ring. rewrite Z.mod_add by lia. apply Z.mod_small. lia. }
    assert (off + (stop - start) = (if (n =? 0)%nat then zlen data else if k + 1 =? 0 then 0 else (k + 1) * bw - s)) as HN.
    { destruct n; cbn [Nat.eqb]; [apply O7; clear - Hn; lia|]. assert (k + 1 =? 0 = false) as -> by (clear - Hk; lia). apply O8. clear - Hn. lia. }
    assert (0 <= a + off < 2 ^ 53) as Hao by (clear - Ha Hd O1 O6 O3; lia).
    clear O2 O7 O8 C1 C2b C2c Hoff. clearbody eo.
    assert (0 < 2 ^ (start * 8)) by (apply Z.pow_pos_nonneg; lia).
    rewrite gather_val by (try assumption; lia). cbn [bind]. rewrite Z2Nat.id by lia. set (piece := slice data off (off + (stop - start))).
    assert (zlen piece = stop - start) as Lp by (unfold piece; rewrite zlen_slice by lia; lia).
    assert (Forall is_byte piece) as Bp by (apply Forall_slice; assumption).
    destruct (IHn bw a data (k + 1) (off + (stop - start))) as (ws & ps & E & EL & EW & EP); try assumption; try (clear - Hk Hn; fold C; lia).

    fold C in E. rewrite E. cbn [bind].
    eexists _, ((a + off, piece) :: ps). split; [reflexivity|]. split; [cbn [length]; clear - EL; lia|]. split; [constructor; [|exact EW]|].
    + unfold word_is. cbn [lw_addr lw_strb lw_val fst snd]. rewrite Em, Lp. split; [assumption|]. split; [exact Hao|]. split; [clear - O4; lia|]. split; [assumption|]. split.
      * intros i Hi. replace (start + (stop - start)) with stop by (clear; lia).
        apply (strb_bits bw start stop (k =? 0) (k =? C - 1) s eo i); try assumption. clear - Hr. lia.
      * intros i Hi. rewrite Z.add_0_l, (Z.mul_comm (2 ^ (start * 8))), <- Z.shiftl_mul_pow2 by (clear - O3; lia). apply word_byte_le; try assumption; clear - O3 Hi Lp; lia.
    + unfold pieces_ops. cbn [flat_map fst snd]. fold (pieces_ops ps). rewrite EP.
      replace (a + (off + (stop - start))) with (a + off + zlen piece) by (clear - Lp; lia). rewrite <- byte_ops_app. f_equal. unfold piece, slice.
      replace (Z.to_nat (off + (stop - start))) with (Z.to_nat (off + (stop - start) - off) + Z.to_nat off)%nat by (clear - O1 O3; lia).
      rewrite <- (firstn_skipn (Z.to_nat (off + (stop - start) - off)) (skipn (Z.to_nat off) data)) at 2. f_equal.
      clear. revert data. induction (Z.to_nat off) as [|n IH]; intros data; [rewrite Nat.add_0_r; reflexivity|].
      rewrite Nat.add_succ_r. destruct data; [rewrite !skipn_nil; reflexivity|]. cbn [skipn]. apply IH.
Qed.

Lemma write_words_spec : forall bw a d, lanes_ok bw -> 0 <= a -> a + zlen d <= 2 ^ 52 -> Forall is_byte d ->
  exists ws ps, l_write_words bw a d = Ok ws /\ zlen ws = l_cycles bw a (zlen d) /\ words_are bw ws ps /\ pieces_ops ps = byte_ops a d.
Proof.
  intros bw a d Hb Ha Hd HB. pose proof (zlen_nonneg d) as HL. destruct (cycles_spec bw a (zlen d) Hb Ha HL Hd) as (C0 & C1 & C2 & C3).
  pose proof (lanes_range bw Hb) as Hr. pose proof (Z.mod_pos_bound a bw ltac:(lia)) as Hs.
  destruct (wloop_spec (Z.to_nat (l_cycles bw a (zlen d))) bw a d 0 0) as (ws & ps & E1 & E2 & E3 & E4); try assumption; try lia.
  { destruct (Z.to_nat (l_cycles bw a (zlen d)) =? 0)%nat eqn:EC; [|reflexivity]. apply Nat.eqb_eq in EC. assert (l_cycles bw a (zlen d) = 0) as EC' by lia. rewrite EC' in C1. lia. }
  exists ws, ps. split; [exact E1|]. split; [unfold zlen at 1; lia|]. split; [assumption|]. rewrite E4, Z.add_0_r. reflexivity.
Qed.

(** ** Word reads. *)
Definition word_at (size bw : Z) (m : Z -> Z) (a : Z) : Z := le_val (get_bytes size m (a / bw * bw) bw).

Lemma word_val_le : forall d, fold_right (fun x v => Z.shiftl v 8 + x) 0 d = le_val d.
Proof. induction d as [|x d IH]; cbn [fold_right le_val]; [reflexivity|]. rewrite IH, Z.shiftl_mul_pow2 by lia. change (2 ^ 8) with 256. ring. Qed.

Lemma nth_get_bytes : forall size m a n i, (i < Z.to_nat n)%nat -> nth i (get_bytes size m a n) 0 = m ((a + Z.of_nat i) mod size).
Proof.
  intros. unfold get_bytes. rewrite (nth_indep _ 0 (m ((a + Z.of_nat 0) mod size))) by (rewrite map_length, seq_length; lia).
  rewrite (map_nth (fun i => m ((a + Z.of_nat i) mod size))), seq_nth by lia. reflexivity.
Qed.

Lemma rget_spec : forall bw size a l pos m, lanes_ok bw -> 0 < size -> (bw | size) -> 0 <= a < 2 ^ 53 -> holds size l m ->
  exists p, l_rget bw size (int_truediv a bw * bw) (mkLm l pos) = Ok (word_at size bw m a, mkLm l p).
Proof.
  intros bw size a l pos m Hb Hs Hd Ha [H1 H2]. pose proof (lanes_range bw Hb) as Hr. unfold l_rget. rewrite truediv_exact by lia.
  destruct (base_mod bw size a ltac:(lia) Hs Hd ltac:(lia)) as (p & P1 & P2 & P3 & P4). rewrite P1. unfold lm_seek. cbn [lm_data].
  assert ((p <? 0) || (zlen l <? p) = false) as -> by lia. cbn [bind lm_read lm_data lm_pos]. unfold l_word_val.
  assert (zlen (slice l p (p + bw)) = bw) as EL by (rewrite zlen_slice by lia; lia). rewrite EL, Z.ltb_irrefl. cbn [bind].
  exists (p + bw). f_equal. f_equal. rewrite firstn_all2 by (unfold zlen in EL; lia). rewrite word_val_le. unfold word_at. f_equal.
  apply list_eq_nth.
  - unfold get_bytes. rewrite map_length, seq_length. unfold zlen in EL. lia.
  - intros i Hi. unfold zlen in EL. rewrite <- (Nat2Z.id i) at 1. rewrite nth_slice by lia. rewrite nth_get_bytes by lia. rewrite H2 by lia. f_equal.
    destruct (base_mod bw size (a / bw * bw + Z.of_nat i) ltac:(lia) Hs Hd) as (p' & Q1 & Q2 & Q3 & Q4).
    { assert (0 <= a / bw) by (apply Z.div_pos; lia). nia. }
    rewrite Q4. replace (a / bw * bw + Z.of_nat i) with (Z.of_nat i + a / bw * bw) in * by ring.
    rewrite Z.div_add, Z.mod_add in * by lia. rewrite (Z.div_small (Z.of_nat i)) in Q1 by lia. rewrite Z.add_0_l, P1 in Q1. rewrite (Z.mod_small (Z.of_nat i)) by lia. lia.
Qed.

Lemma get_bytes_length : forall size m a n, 0 <= n -> zlen (get_bytes size m a n) = n.
Proof. intros. unfold get_bytes, zlen. rewrite map_length, seq_length. lia. Qed.

Lemma get_bytes_app : forall size m a n k, 0 <= n -> 0 <= k -> get_bytes size m a (n + k) = get_bytes size m a n ++ get_bytes size m (a + n) k.
Proof.
  intros size m a n k Hn Hk. unfold get_bytes. rewrite Z2Nat.inj_add by lia. rewrite seq_app, map_app. f_equal. cbn [Nat.add].
  rewrite <- (Nat.add_0_r (Z.to_nat n)) at 1. generalize O. induction (Z.to_nat k) as [|c IH]; intro z; [reflexivity|]. cbn [seq map]. f_equal; [do 2 f_equal; lia|].
  rewrite <- (IH (S z)). f_equal. f_equal. lia.
Qed.

Lemma lanes_word : forall bw size m a start stop, 0 < bw -> 0 <= start <= stop -> stop <= bw -> 0 < size -> (forall x, 0 <= x < size -> is_byte (m x)) ->
  l_lanes start stop (word_at size bw m a) = get_bytes size m (a / bw * bw + start) (stop - start).
Proof.
  intros bw size m a start stop Hb H1 H2 Hs HB. unfold l_lanes. unfold get_bytes at 1. apply map_ext_in. intros i Hi. apply in_seq in Hi.
  assert (Forall is_byte (get_bytes size m (a / bw * bw) bw)) as HF by (unfold get_bytes; apply Forall_forall; intros x Hx; apply in_map_iff in Hx; destruct Hx as (j & <- & _); apply HB, Z.mod_pos_bound, Hs).
  pose proof (word_byte_le (get_bytes size m (a / bw * bw) bw) (start + Z.of_nat i) 0 HF) as L. rewrite get_bytes_length in L by lia. unfold word_byte in L.
  change (0 * 8) with 0 in L. rewrite Z.shiftl_0_r in L. unfold word_at. rewrite L by lia. rewrite Z.sub_0_r. rewrite nth_get_bytes by lia. do 2 f_equal. lia.
Qed.
