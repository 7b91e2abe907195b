(** The AXI lite interface of the MSI-X module (C94). *)
From Verif Require Import PyBase RtlModel RtlProofs RtlFcProofs RtlRamModel RtlMsixModel RtlMsixSpec RtlMsixProofs.

(** * Bytes *)
Lemma psel_more x lo n : 0 <= n -> 0 <= lo -> psel x lo (n + 8) = psel x lo n + 2 ^ n * psel x (lo + n) 8.
Proof.
  intros Hn Hl. unfold psel. rewrite Z.pow_add_r by lia. rewrite Z.rem_mul_r by (try apply Z.pow_nonzero; try apply Z.pow_pos_nonneg; lia).
  rewrite Z.div_div by (try apply Z.pow_nonzero; try apply Z.pow_pos_nonneg; lia). rewrite <- Z.pow_add_r by lia. reflexivity.
Qed.
Lemma sum_app (f : Z -> Z) l a : fold_right (fun j acc => f j + acc) 0 (l ++ [a]) = fold_right (fun j acc => f j + acc) 0 l + f a.
Proof. induction l as [|x l IH]; cbn; [lia|]. rewrite IH. lia. Qed.
Lemma psel_bytes x lo : 0 <= lo -> forall n, psel x lo (8 * Z.of_nat n) = fold_right (fun j acc => psel x (lo + 8 * j) 8 * 2 ^ (8 * j) + acc) 0 (map Z.of_nat (seq 0 n)).
Proof.
  intros Hl. induction n as [|n IH]; [unfold psel; cbn; apply Z.mod_1_r|].
  rewrite seq_S, map_app. cbn [map]. rewrite (sum_app (fun j => psel x (lo + 8 * j) 8 * 2 ^ (8 * j))). rewrite <- IH. replace (8 * Z.of_nat (S n)) with (8 * Z.of_nat n + 8) by lia.
  rewrite psel_more by lia. cbn [Nat.add]. lia.
Qed.

Fixpoint le (l : list Z) : Z := match l with [] => 0 | x :: r => x + 256 * le r end.
Lemma le_byte l : (forall x, In x l -> 0 <= x < 256) -> forall k, psel (le l) (8 * Z.of_nat k) 8 = nth k l 0.
Proof.
  induction l as [|x l IH]; intros Hl k.
  - destruct k; unfold psel; cbn [le nth]; rewrite Z.div_0_l by (apply Z.pow_nonzero; lia); reflexivity.
  - cbn [le]. assert (Hx := Hl x (or_introl eq_refl)). destruct k as [|k]; cbn [nth].
    + unfold psel. change (2 ^ (8 * Z.of_nat 0)) with 1. change (2 ^ 8) with 256. rewrite Z.div_1_r, (Z.mul_comm 256), Z.mod_add by lia. apply Z.mod_small. lia.
    + rewrite <- IH by (intros y Hy; apply Hl; right; exact Hy). unfold psel. replace (8 * Z.of_nat (S k)) with (8 + 8 * Z.of_nat k) by lia. rewrite Z.pow_add_r by lia. change (2 ^ 8) with 256.
      rewrite <- Z.div_div by (try apply Z.pow_pos_nonneg; lia). rewrite (Z.mul_comm 256 (le l)), Z.div_add, (Z.div_small x) by lia. reflexivity.
Qed.
Lemma merge_byte p old a d s k : 0 <= k < 8 -> psel (ax_merge p old a d s) (8 * k) 8 =
  if Z.testbit ((s * 2 ^ (ax_word p a * mx_sw p)) mod 2 ^ 8) k then psel d (8 * (k mod mx_sw p)) 8 else psel old (8 * k) 8.
Proof.
  intros Hk. unfold ax_merge. cbv zeta. set (be := _ mod 2 ^ 8). set (f := fun k => if Z.testbit be k then psel d (8 * (k mod mx_sw p)) 8 else psel old (8 * k) 8).
  assert (Hf : forall j, 0 <= f j < 256) by (intros j; unfold f; destruct (Z.testbit be j); apply RtlFcProofs.psel_range; lia).
  change (psel (fold_right (fun k0 acc => f k0 * 2 ^ (8 * k0) + acc) 0 [0; 1; 2; 3; 4; 5; 6; 7]) (8 * k) 8 = f k).
  clearbody f. clear be. transitivity (psel (le (map f [0; 1; 2; 3; 4; 5; 6; 7])) (8 * k) 8).
  { f_equal. cbn [fold_right map le]. change (2 ^ (8 * 0)) with 1. change (2 ^ (8 * 1)) with 256. change (2 ^ (8 * 2)) with 65536. change (2 ^ (8 * 3)) with 16777216. change (2 ^ (8 * 4)) with 4294967296.
    change (2 ^ (8 * 5)) with 1099511627776. change (2 ^ (8 * 6)) with 281474976710656. change (2 ^ (8 * 7)) with 72057594037927936. ring. }
  rewrite <- (Z2Nat.id k) by lia. rewrite le_byte.
  - assert (Hc : (Z.to_nat k < 8)%nat) by lia. destruct (Z.to_nat k) as [|[|[|[|[|[|[|[|n]]]]]]]]; try reflexivity. lia.
  - intros x Hx. apply in_map_iff in Hx. destruct Hx as (j & <- & _). apply Hf.
Qed.

(** * Addresses *)
Lemma first_split p a : ax_ok p -> 0 <= a -> first_byte p a = 8 * ax_index p a + ax_word p a * mx_sw p /\ 0 <= ax_word p a * mx_sw p /\ ax_word p a * mx_sw p + mx_sw p <= 8
  /\ 0 <= ax_index p a < 2 ^ (mx_w p + 1) /\ (ax_word p a * mx_sw p) mod mx_sw p = 0 /\ 0 < mx_sw p.
Proof.
  intros (Hw & _ & Hd) Ha. unfold first_byte, ax_index, ax_word, mx_tbw, mx_sw, mx_wshift, mx_wsel, mx_ishift.
  assert (HP : 0 < 2 ^ (mx_w p + 1)) by (apply Z.pow_pos_nonneg; lia).
  replace (2 ^ (mx_w p + 4)) with (8 * 2 ^ (mx_w p + 1)) by (change 8 with (2 ^ 3); rewrite <- Z.pow_add_r by lia; f_equal; lia).
  assert (Hm := Z.mod_pos_bound (a / 8) (2 ^ (mx_w p + 1)) HP).
  assert (Hgen : forall q r, 0 <= r < 8 -> (8 * q + r) mod (8 * 2 ^ (mx_w p + 1)) = 8 * (q mod 2 ^ (mx_w p + 1)) + r).
  { intros q r Hr. rewrite Z.rem_mul_r by lia. replace (8 * q + r) with (r + q * 8) by lia. rewrite Z.mod_add, (Z.mod_small r) by lia. rewrite Z.div_add, (Z.div_small r) by lia. rewrite Z.add_0_l. lia. }
  change (clog2 (64 / 8)) with 3. change (2 ^ 3) with 8.
  destruct Hd as [-> | [-> | [-> | ->]]].
  - change (8 / 8) with 1. change (8 <? 64) with true. cbn iota. change (clog2 1) with 0. change (clog2 ((64 + 7) / 8) - 0) with 3. change (2 ^ 0) with 1. change (2 ^ 3) with 8.
    rewrite Z.div_1_r. pose proof (Z.mod_pos_bound a 8 ltac:(lia)). repeat split; try lia; try apply Z.mod_1_r.
    rewrite <- (Hgen (a / 8) (a mod 8 * 1)) by lia. f_equal. pose proof (Z.div_mod a 8). lia.
  - change (16 / 8) with 2. change (16 <? 64) with true. cbn iota. change (clog2 2) with 1. change (clog2 ((64 + 7) / 8) - 1) with 2. change (2 ^ 1) with 2. change (2 ^ 2) with 4.
    pose proof (Z.mod_pos_bound (a / 2) 4 ltac:(lia)). repeat split; try lia; try (apply Z.mod_mul; lia).
    rewrite <- (Hgen (a / 8) ((a / 2) mod 4 * 2)) by lia. f_equal. pose proof (Z.div_mod (a / 2) 4). rewrite Z.div_div in * by lia. change (2 * 4) with 8 in *. lia.
  - change (32 / 8) with 4. change (32 <? 64) with true. cbn iota. change (clog2 4) with 2. change (clog2 ((64 + 7) / 8) - 2) with 1. change (2 ^ 1) with 2. change (2 ^ 2) with 4.
    pose proof (Z.mod_pos_bound (a / 4) 2 ltac:(lia)). repeat split; try lia; try (apply Z.mod_mul; lia).
    rewrite <- (Hgen (a / 8) ((a / 4) mod 2 * 4)) by lia. f_equal. pose proof (Z.div_mod (a / 4) 2). rewrite Z.div_div in * by lia. change (4 * 2) with 8 in *. lia.
  - change (64 / 8) with 8. change (64 <? 64) with false. cbn iota. repeat split; try lia.
    rewrite <- (Hgen (a / 8) (0 * 8)) by lia. f_equal. lia.
Qed.
Lemma top_table p a : ax_ok p -> 0 <= a < 2 ^ mx_aw p -> ax_top p a = negb (in_table p a).
Proof.
  intros (Hw & Haw & _) Ha. unfold ax_top, in_table. assert (HP : 0 < 2 ^ (mx_aw p - 1)) by (apply Z.pow_pos_nonneg; lia).
  assert (H2 : 2 ^ mx_aw p = 2 * 2 ^ (mx_aw p - 1)) by (rewrite <- Z.pow_succ_r by lia; f_equal; lia).
  rewrite Z.testbit_eqb by lia. destruct (Z.ltb_spec a (2 ^ (mx_aw p - 1))).
  - rewrite Z.div_small by lia. reflexivity.
  - assert (a / 2 ^ (mx_aw p - 1) = 1). { symmetry. apply (Z.div_unique _ _ 1 (a - 2 ^ (mx_aw p - 1))); lia. } rewrite H0. reflexivity.
Qed.
Lemma byte_psel m b : byte_of m b = psel (m (b / 8)) (8 * (b mod 8)) 8.
Proof. reflexivity. Qed.

(** Reading. *)
Lemma read_psel p m a : ax_ok p -> 0 <= a ->
  read_bytes p (byte_of m) a = psel (m (ax_index p a)) (if mx_dw p <? 64 then ax_word p a * mx_dw p else 0) (mx_dw p).
Proof.
  intros Hp Ha. destruct (first_split p a Hp Ha) as (F1 & F2 & F3 & F4 & F5 & F6). unfold read_bytes. rewrite F1.
  assert (Hd : mx_dw p = 8 * mx_sw p) by (unfold mx_sw; destruct Hp as (_ & _ & [-> | [-> | [-> | ->]]]); reflexivity).
  assert (Hlo : (if mx_dw p <? 64 then ax_word p a * mx_dw p else 0) = 8 * (ax_word p a * mx_sw p)).
  { destruct (mx_dw p <? 64) eqn:E; [lia|]. unfold ax_word. rewrite E. reflexivity. }
  rewrite Hlo. transitivity (psel (m (ax_index p a)) (8 * (ax_word p a * mx_sw p)) (8 * Z.of_nat (Z.to_nat (mx_sw p)))); [|f_equal; lia].
  rewrite psel_bytes by lia.
  assert (Hin : forall j, In j (map Z.of_nat (seq 0 (Z.to_nat (mx_sw p)))) -> 0 <= j < mx_sw p).
  { intros j Hj. apply in_map_iff in Hj. destruct Hj as (k & <- & Hk). apply in_seq in Hk. lia. }
  change (mx_dw p / 8) with (mx_sw p). revert Hin. induction (map Z.of_nat (seq 0 (Z.to_nat (mx_sw p)))) as [|j l IH]; intros Hin; [reflexivity|]. cbn [fold_right]. rewrite IH by (intros k Hk; apply Hin; right; exact Hk).
  f_equal. f_equal. specialize (Hin j (or_introl eq_refl)). rewrite byte_psel.
  replace (8 * ax_index p a + ax_word p a * mx_sw p + j) with (ax_word p a * mx_sw p + j + ax_index p a * 8) by lia. rewrite Z.div_add, Z.mod_add by lia. rewrite Z.div_small, Z.mod_small by lia. rewrite Z.add_0_l. f_equal. lia.
Qed.
(** Writing. *)
Lemma write_merge p tbl a d st b : ax_ok p -> 0 <= a -> 0 <= st < 2 ^ mx_sw p -> 0 <= b ->
  byte_of (upd tbl (ax_index p a) (ax_merge p (tbl (ax_index p a)) a d st)) b = write_bytes p (byte_of tbl) a d st b.
Proof.
  intros Hp Ha Hst Hb. destruct (first_split p a Hp Ha) as (F1 & F2 & F3 & F4 & F5 & F6). unfold write_bytes. rewrite F1. change (mx_dw p / 8) with (mx_sw p). cbv zeta.
  set (w := ax_word p a * mx_sw p) in *. pose proof (Z.div_mod b 8 ltac:(lia)) as Hdm. pose proof (Z.mod_pos_bound b 8 ltac:(lia)) as Hm.
  rewrite !byte_psel. unfold upd. destruct (Z.eqb_spec (b / 8) (ax_index p a)) as [E|E].
  - rewrite merge_byte by lia. fold w. rewrite E. set (k := b mod 8) in *. replace (b - (8 * ax_index p a + w)) with (k - w) by lia.
    rewrite Z.mod_pow2_bits_low by lia. rewrite <- Z.shiftl_mul_pow2 by lia. rewrite Z.shiftl_spec by lia.
    destruct (Z.leb_spec 0 (k - w)) as [H0|H0]; cbn [andb].
    2:{ rewrite Z.testbit_neg_r by lia. reflexivity. }
    destruct (Z.ltb_spec (k - w) (mx_sw p)) as [H1|H1]; cbn [andb].
    2:{ assert (Z.testbit st (k - w) = false) as ->; [|reflexivity]. rewrite <- (Z.mod_small st (2 ^ mx_sw p)) by lia. apply Z.mod_pow2_bits_high. lia. }
    destruct (Z.testbit st (k - w)); [|reflexivity].
    assert (k mod mx_sw p = k - w) as ->; [|reflexivity]. unfold w. symmetry. apply (Z.mod_unique k (mx_sw p) (ax_word p a) (k - w)); unfold w in *; lia.
  - assert (Hout : (0 <=? b - (8 * ax_index p a + w)) && (b - (8 * ax_index p a + w) <? mx_sw p) = false).
    { destruct (Z.leb_spec 0 (b - (8 * ax_index p a + w))), (Z.ltb_spec (b - (8 * ax_index p a + w)) (mx_sw p)); try reflexivity. exfalso. apply E. symmetry. apply (Z.div_unique b 8 (ax_index p a) (b - 8 * ax_index p a)); lia. }
    rewrite Hout. reflexivity.
Qed.
