(** Proofs for bus enumeration, part 2: programming of the bridge registers. *)
From Coq Require Import ZifyBool ZifyNat.
From Verif Require Import PyBase BitLemmas TlpModel TlpSpec TlpProofs BarModel BarSpec BarProofs EnumModel RouteModel EnumSpec.

Ltac Zify.zify_post_hook ::= Z.div_mod_to_equations.

Ltac cw_ops ops := unfold config_write; match goal with |- context[config_write_ops ?n ?a ?d] =>
    assert (config_write_ops n a d = Ok ops) as -> by (vm_compute; reflexivity) end; cbn [bind fst snd]; cbn [apply_writes];
  match goal with |- context[(4 <=? ?r) && (?r <? 6)] => change ((4 <=? r) && (r <? 6)) with false end; cbv iota.
Lemma cw7 b r a0 a1 : config_write true (b, r) 0x01C [a0; a1] =
  (let! r := bridge_write r 7 (le_val [a0; a1; 0; 0]) 3 in Ok (b, r)).
Proof. cw_ops [(7, le_val [a0; a1; 0; 0], 3)]. reflexivity. Qed.
Lemma cw6 b r a0 a1 a2 : config_write true (b, r) 0x018 [a0; a1; a2] =
  (let! r := bridge_write r 6 (le_val [a0; a1; a2; 0]) 7 in Ok (b, r)).
Proof. cw_ops [(6, le_val [a0; a1; a2; 0], 7)]. reflexivity. Qed.
Lemma cw8 b r a0 a1 a2 a3 : config_write true (b, r) 0x020 [a0; a1; a2; a3] =
  (let! r := bridge_write r 8 (le_val [a0; a1; a2; a3]) 15 in Ok (b, r)).
Proof. cw_ops [(8, le_val [a0; a1; a2; a3], 15)]. reflexivity. Qed.
Lemma cw9 b r a0 a1 a2 a3 : config_write true (b, r) 0x024 [a0; a1; a2; a3] =
  (let! r := bridge_write r 9 (le_val [a0; a1; a2; a3]) 15 in Ok (b, r)).
Proof. cw_ops [(9, le_val [a0; a1; a2; a3], 15)]. reflexivity. Qed.
Lemma cw10 b r a0 a1 a2 a3 : config_write true (b, r) 0x028 [a0; a1; a2; a3] =
  (let! r := bridge_write r 10 (le_val [a0; a1; a2; a3]) 15 in Ok (b, r)).
Proof. cw_ops [(10, le_val [a0; a1; a2; a3], 15)]. reflexivity. Qed.
Lemma cw11 b r a0 a1 a2 a3 : config_write true (b, r) 0x02c [a0; a1; a2; a3] =
  (let! r := bridge_write r 11 (le_val [a0; a1; a2; a3]) 15 in Ok (b, r)).
Proof. cw_ops [(11, le_val [a0; a1; a2; a3], 15)]. reflexivity. Qed.
Lemma cw12 b r a0 a1 a2 a3 : config_write true (b, r) 0x030 [a0; a1; a2; a3] =
  (let! r := bridge_write r 12 (le_val [a0; a1; a2; a3]) 15 in Ok (b, r)).
Proof. cw_ops [(12, le_val [a0; a1; a2; a3], 15)]. reflexivity. Qed.

(** One [byte_mask_update] whose byte mask and bit mask select bits p..q-1. *)
Definition sets (p q : Z) (old new v : Z) : Prop :=
  forall i, 0 <= i -> Z.testbit v i = if (p <=? i) && (i <? q) then Z.testbit new i else Z.testbit old i.

Lemma mask_bits lo hi i : 0 <= lo <= hi -> 0 <= i -> Z.testbit (2^hi - 2^lo) (i / 8) = (8 * lo <=? i) && (i <? 8 * hi).
Proof. intros H Hi. rewrite himask_bit by lia. lia. Qed.

Lemma bmu_all old lo hi new : 0 <= lo <= hi ->
  exists v, byte_mask_update old (2^hi - 2^lo) new (-1) = Ok v /\ sets (8 * lo) (8 * hi) old new v.
Proof.
  intros H. assert (2^lo <= 2^hi) by (apply Z.pow_le_mono_r; lia).
  destruct (byte_mask_update_spec old (2^hi - 2^lo) new (-1) ltac:(lia)) as (v & E & Hv).
  exists v. split; [exact E|]. intros i Hi. rewrite Hv by exact Hi. rewrite mask_bits by lia. now rewrite Z.bits_m1.
Qed.
Lemma bmu_part old lo hi new k n : 0 <= lo <= hi -> 0 <= k <= n -> n <= 8 * hi -> 8 * lo <= n ->
  exists v, byte_mask_update old (2^hi - 2^lo) new (2^n - 2^k) = Ok v /\ sets (Z.max (8 * lo) k) n old new v.
Proof.
  intros H Hk Hn1 Hn2. assert (2^lo <= 2^hi) by (apply Z.pow_le_mono_r; lia).
  destruct (byte_mask_update_spec old (2^hi - 2^lo) new (2^n - 2^k) ltac:(lia)) as (v & E & Hv).
  exists v. split; [exact E|]. intros i Hi. rewrite Hv, mask_bits, himask_bit by lia.
  destruct (Z.leb_spec (8 * lo) i), (Z.ltb_spec i (8 * hi)), (Z.leb_spec k i), (Z.ltb_spec i n), (Z.leb_spec (Z.max (8 * lo) k) i); cbn [andb]; try reflexivity; lia.
Qed.
Lemma bmu_none old new bm : exists v, byte_mask_update old 0 new bm = Ok v /\ v = old.
Proof.
  destruct (byte_mask_update_spec old 0 new bm ltac:(lia)) as (v & E & Hv). exists v. split; [exact E|].
  apply Z.bits_inj'. intros i Hi. rewrite Hv by exact Hi. now rewrite Z.bits_0.
Qed.

Lemma le2_bit b0 r i : is_byte b0 -> 0 <= i -> Z.testbit (b0 + 256 * r) i = if i <? 8 then Z.testbit b0 i else Z.testbit r (i - 8).
Proof.
  intros Hb Hi. unfold is_byte in Hb. rewrite (Z.mul_comm 256). change 256 with (2^8). rewrite <- lor_add_disjoint by lia.
  rewrite Z.lor_spec. destruct (Z.ltb_spec i 8).
  - rewrite (Z.shiftl_spec_low r 8 i) by lia. apply orb_false_r.
  - rewrite (testbit_high b0 8) by lia. rewrite Z.shiftl_spec_high by lia. reflexivity.
Qed.

Lemma lev22 x y : 0 <= x < 65536 -> 0 <= y < 65536 -> exists a0 a1 a2 a3,
  le_bytes 2 x ++ le_bytes 2 y = [a0; a1; a2; a3] /\ le_val [a0; a1; a2; a3] = x + 2^16 * y.
Proof.
  intros Hx Hy. eexists _, _, _, _. split; [cbn [le_bytes app]; reflexivity|]. cbn [le_val]. lia.
Qed.
Lemma lev4 x : 0 <= x < 2^32 -> exists a0 a1 a2 a3,
  le_bytes 4 x = [a0; a1; a2; a3] /\ le_val [a0; a1; a2; a3] = x.
Proof.
  intros Hx. eexists _, _, _, _. split; [cbn [le_bytes]; reflexivity|]. cbn [le_val]. lia.
Qed.
Lemma lohi_bit n x y i : 0 <= n -> 0 <= x < 2^n -> 0 <= i -> Z.testbit (x + 2^n * y) i = if i <? n then Z.testbit x i else Z.testbit y (i - n).
Proof.
  intros Hn Hb Hi. rewrite (Z.mul_comm (2^n)). rewrite <- lor_add_disjoint by lia.
  rewrite Z.lor_spec. destruct (Z.ltb_spec i n).
  - rewrite (Z.shiftl_spec_low y n i) by lia. apply orb_false_r.
  - rewrite (testbit_high x n) by lia. rewrite Z.shiftl_spec_high by lia. reflexivity.
Qed.
Lemma low_bit0 x k i : 0 <= i < k -> x mod 2^k = 0 -> Z.testbit x i = false.
Proof.
  intros Hi Hx. rewrite <- (Z.mod_pow2_bits_low x k i) by lia. rewrite Hx. apply Z.bits_0.
Qed.
Lemma low_bit1 x k i : 0 <= i < k -> (x + 1) mod 2^k = 0 -> Z.testbit x i = true.
Proof.
  intros Hi Hx. rewrite <- (Z.mod_pow2_bits_low x k i) by lia.
  assert (HP : 0 < 2^k) by (apply Z.pow_pos_nonneg; lia).
  replace (x mod 2^k) with (Z.ones k).
  - rewrite Z.testbit_ones by lia. lia.
  - rewrite Z.ones_equiv. pose proof (Z.div_mod (x + 1) (2^k) ltac:(lia)) as E. rewrite Hx in E.
    apply (Z.mod_unique_pos x (2^k) ((x + 1) / 2^k - 1)); lia.
Qed.

Ltac ifb := repeat match goal with |- context[if ?b then _ else _] =>
  first [ replace b with true by lia | replace b with false by lia ]; cbv iota end.

(** I/O base: bits 12-15 through register 7, bits 16-31 through register 12. *)
Lemma io_base_field old a1 v1 v2 io hi : 0 <= old < 2^32 -> old mod 2^12 = 0 -> 0 <= io < 2^32 -> io mod 2^12 = 0 ->
  sets 12 16 old (Z.shiftl (le_val [Z.land (Z.shiftr io 8) 0xf0; a1; 0; 0]) 8) v1 ->
  sets 16 32 v1 (Z.shiftl (Z.shiftr io 16 + 2^16 * hi) 16) v2 -> v2 = io.
Proof.
  intros Ho Hom Hi Him H1 H2. apply Z.bits_inj'. intros i Hi0. rewrite H2, H1 by lia.
  assert (Hb : is_byte (Z.land (Z.shiftr io 8) 0xf0)).
  { unfold is_byte. change 256 with (2^8). apply bits_range; [lia|]. intros j Hj. rewrite Z.land_spec.
    rewrite (testbit_high 0xf0 8) by lia. apply andb_false_r. }
  destruct (Z.ltb_spec i 12).
  { ifb. ifb. 
    rewrite (low_bit0 old 12), (low_bit0 io 12) by lia. reflexivity. }
  destruct (Z.ltb_spec i 16).
  { ifb. ifb. 
    rewrite Z.shiftl_spec_high by lia. cbn [le_val]. rewrite le2_bit by (assumption || lia).
    replace (i - 8 <? 8) with true by lia. rewrite Z.land_spec, Z.shiftr_spec by lia. replace (i - 8 + 8) with i by lia.
    assert (Z.testbit 0xf0 (i - 8) = true) as ->; [|apply andb_true_r].
    change 0xf0 with (2^8 - 2^4). rewrite himask_bit by lia. lia. }
  destruct (Z.ltb_spec i 32).
  { ifb. rewrite Z.shiftl_spec_high by lia.
    rewrite lohi_bit; [|lia| |lia].
    2:{ rewrite Z.shiftr_div_pow2 by lia. lia. }
    replace (i - 16 <? 16) with true by lia. rewrite Z.shiftr_spec by lia. f_equal. lia. }
  ifb. ifb. 
  rewrite (testbit_high old 32), (testbit_high io 32) by lia. reflexivity.
Qed.

Lemma io_limit_field old a0 v1 v2 io lo : 0 <= old < 2^32 -> is_byte a0 -> 0 <= io < 2^32 -> (io + 1) mod 2^12 = 0 -> 0 <= lo < 65536 ->
  sets 12 16 old (le_val [a0; Z.land (Z.shiftr io 8) 0xf0; 0; 0]) v1 ->
  sets 16 32 (Z.lor v1 0xfff) (lo + 2^16 * Z.shiftr io 16) v2 -> v2 = io.
Proof.
  intros Ho Ha Hi Him Hlo H1 H2. apply Z.bits_inj'. intros i Hi0. rewrite H2, Z.lor_spec, H1 by lia.
  assert (Hb : is_byte (Z.land (Z.shiftr io 8) 0xf0)).
  { unfold is_byte. change 256 with (2^8). apply bits_range; [lia|]. intros j Hj. rewrite Z.land_spec.
    rewrite (testbit_high 0xf0 8) by lia. apply andb_false_r. }
  change 0xfff with (2^12 - 2^0) at 1. rewrite himask_bit by lia.
  destruct (Z.ltb_spec i 12).
  { ifb. ifb. 
    rewrite (low_bit1 io 12) by lia. ifb. replace ((0 <=? i) && true) with true by lia. apply orb_true_r. }
  destruct (Z.ltb_spec i 16).
  { ifb. ifb. 
    ifb. rewrite ?andb_false_r, ?orb_false_r. ifb.
    cbn [le_val]. rewrite le2_bit by (assumption || lia).
    replace (i <? 8) with false by lia. rewrite le2_bit by (assumption || lia). replace (i - 8 <? 8) with true by lia.
    rewrite Z.land_spec, Z.shiftr_spec by lia. replace (i - 8 + 8) with i by lia.
    assert (Z.testbit 0xf0 (i - 8) = true) as ->; [|apply andb_true_r].
    change 0xf0 with (2^8 - 2^4). rewrite himask_bit by lia. lia. }
  ifb. rewrite ?andb_false_r, ?orb_false_r. ifb.
  destruct (Z.ltb_spec i 32).
  { ifb. 
    rewrite lohi_bit by lia. replace (i <? 16) with false by lia. rewrite Z.shiftr_spec by lia. f_equal. lia. }
  ifb. ifb. 
  rewrite (testbit_high old 32), (testbit_high io 32) by lia. reflexivity.
Qed.

(** Memory base: bits 20-31 through register 8 (and 9); prefetchable upper half through 10 / 11. *)
Lemma mem_base_field old v m hi n : 32 <= n -> 0 <= old < 2^n -> old mod 2^20 = 0 -> 0 <= m < 2^n -> m mod 2^20 = 0 ->
  sets 20 32 old (Z.shiftl (Z.land (Z.shiftr m 16) 0xfff0 + 2^16 * hi) 16) v ->
  forall i, 0 <= i -> Z.testbit v i = if i <? 32 then Z.testbit m i else Z.testbit old i.
Proof.
  intros Hn Ho Hom Hm Hmm H i Hi. rewrite H by lia.
  assert (Hb : 0 <= Z.land (Z.shiftr m 16) 0xfff0 < 2^16).
  { apply bits_range; [lia|]. intros j Hj. rewrite Z.land_spec. rewrite (testbit_high 0xfff0 16) by lia. apply andb_false_r. }
  destruct (Z.ltb_spec i 20).
  { ifb. ifb. 
    rewrite (low_bit0 old 20), (low_bit0 m 20) by lia. reflexivity. }
  destruct (Z.ltb_spec i 32).
  { ifb. rewrite Z.shiftl_spec_high by lia. rewrite lohi_bit by lia.
    replace (i - 16 <? 16) with true by lia. rewrite Z.land_spec, Z.shiftr_spec by lia. replace (i - 16 + 16) with i by lia.
    assert (Z.testbit 0xfff0 (i - 16) = true) as ->; [|apply andb_true_r].
    change 0xfff0 with (2^16 - 2^4). rewrite himask_bit by lia. lia. }
  ifb. rewrite ?andb_false_r. reflexivity.
Qed.
Lemma mem_limit_field old v m lo n : 32 <= n -> 0 <= old < 2^n -> 0 <= m < 2^n -> (m + 1) mod 2^20 = 0 -> 0 <= lo < 65536 ->
  sets 20 32 old (lo + 2^16 * Z.land (Z.shiftr m 16) 0xfff0) v ->
  forall i, 0 <= i -> Z.testbit (Z.lor v 0xfffff) i = if i <? 32 then Z.testbit m i else Z.testbit old i.
Proof.
  intros Hn Ho Hm Hmm Hlo H i Hi. rewrite Z.lor_spec, H by lia.
  change 0xfffff with (2^20 - 2^0). rewrite himask_bit by lia.
  destruct (Z.ltb_spec i 20).
  { ifb. ifb. 
    rewrite (low_bit1 m 20) by lia. ifb. replace ((0 <=? i) && true) with true by lia. apply orb_true_r. }
  ifb. rewrite ?andb_false_r, ?orb_false_r. ifb.
  destruct (Z.ltb_spec i 32).
  { ifb. rewrite lohi_bit by lia.
    replace (i <? 16) with false by lia. rewrite Z.land_spec, Z.shiftr_spec by lia. replace (i - 16 + 16) with i by lia.
    assert (Z.testbit 0xfff0 (i - 16) = true) as ->; [|apply andb_true_r].
    change 0xfff0 with (2^16 - 2^4). rewrite himask_bit by lia. lia. }
  ifb. rewrite ?andb_false_r. reflexivity.
Qed.
Lemma mem32_done v m old : 0 <= old < 2^32 -> 0 <= m < 2^32 ->
  (forall i, 0 <= i -> Z.testbit v i = if i <? 32 then Z.testbit m i else Z.testbit old i) -> v = m.
Proof.
  intros Ho Hm H. apply Z.bits_inj'. intros i Hi. rewrite H by exact Hi. destruct (Z.ltb_spec i 32); [reflexivity|].
  rewrite (testbit_high old 32), (testbit_high m 32) by lia. reflexivity.
Qed.
Lemma mem64_done v1 v2 m old : 0 <= old < 2^64 -> 0 <= m < 2^64 ->
  (forall i, 0 <= i -> Z.testbit v1 i = if i <? 32 then Z.testbit m i else Z.testbit old i) ->
  sets 32 64 v1 (Z.shiftl (Z.shiftr m 32) 32) v2 -> v2 = m.
Proof.
  intros Ho Hm H1 H2. apply Z.bits_inj'. intros i Hi. rewrite H2, H1 by exact Hi.
  destruct (Z.ltb_spec i 32).
  { ifb. reflexivity. }
  destruct (Z.ltb_spec i 64).
  { ifb. rewrite Z.shiftl_spec_high, Z.shiftr_spec by lia. f_equal. lia. }
  ifb. rewrite ?andb_false_r. rewrite (testbit_high old 64), (testbit_high m 64) by lia. reflexivity.
Qed.
Lemma bus_field old b v : is_byte old -> is_byte b -> (forall i, 0 <= i < 8 -> Z.testbit v i = Z.testbit b i) ->
  forall w, sets 0 8 old v w -> w = b.
Proof.
  unfold is_byte. intros Ho Hb H w Hw. apply Z.bits_inj'. intros i Hi. rewrite Hw by lia.
  destruct (Z.ltb_spec i 8).
  - ifb. apply H. lia.
  - ifb. rewrite ?andb_false_r. rewrite (testbit_high old 8), (testbit_high b 8) by lia. reflexivity.
Qed.

Definition with_bus (r : bridge_regs) (p s u : Z) : bridge_regs :=
  mkBr p s u (br_sec_lat r) (br_io_base r) (br_io_limit r) (br_sec_status r) (br_mem_base r) (br_mem_limit r) (br_pf_base r) (br_pf_limit r).
Lemma write_bus b r p s u : is_byte (br_pri r) -> is_byte (br_sec r) -> is_byte (br_sub r) -> is_byte p -> is_byte s -> is_byte u ->
  config_write true (b, r) 0x018 [p; s; u] = Ok (b, with_bus r p s u).
Proof.
  intros H1 H2 H3 Hp Hs Hu. rewrite cw6. unfold bridge_write.
  change (6 =? 6) with true. cbv iota.
  change (Z.land 7 1) with (2^1 - 2^0). change (Z.land (Z.shiftr 7 1) 1) with (2^1 - 2^0). change (Z.land (Z.shiftr 7 2) 1) with (2^1 - 2^0).
  change (Z.land (Z.shiftr 7 3) 1) with 0.
  cbn [le_val].
  destruct (bmu_all (br_pri r) 0 1 (p + 256 * (s + 256 * (u + 256 * (0 + 256 * 0)))) ltac:(lia)) as (v1 & -> & S1). cbn [bind].
  destruct (bmu_all (br_sec r) 0 1 (Z.shiftr (p + 256 * (s + 256 * (u + 256 * (0 + 256 * 0)))) 8) ltac:(lia)) as (v2 & -> & S2). cbn [bind].
  destruct (bmu_all (br_sub r) 0 1 (Z.shiftr (p + 256 * (s + 256 * (u + 256 * (0 + 256 * 0)))) 16) ltac:(lia)) as (v3 & -> & S3). cbn [bind].
  destruct (bmu_none (br_sec_lat r) (Z.shiftr (p + 256 * (s + 256 * (u + 256 * (0 + 256 * 0)))) 24) (-1)) as (v4 & -> & ->). cbn [bind].
  apply (bus_field (br_pri r) p) in S1; [|assumption|assumption|].
  2:{ intros i Hi. rewrite le2_bit by (assumption || lia). replace (i <? 8) with true by lia. reflexivity. }
  apply (bus_field (br_sec r) s) in S2; [|assumption|assumption|].
  2:{ intros i Hi. rewrite Z.shiftr_spec by lia. rewrite le2_bit by (assumption || lia). replace (i + 8 <? 8) with false by lia.
      replace (i + 8 - 8) with i by lia. rewrite le2_bit by (assumption || lia). replace (i <? 8) with true by lia. reflexivity. }
  apply (bus_field (br_sub r) u) in S3; [|assumption|assumption|].
  2:{ intros i Hi. rewrite Z.shiftr_spec by lia. rewrite le2_bit by (assumption || lia). replace (i + 16 <? 8) with false by lia.
      replace (i + 16 - 8) with (i + 8) by lia. rewrite le2_bit by (assumption || lia). replace (i + 8 <? 8) with false by lia.
      replace (i + 8 - 8) with i by lia. rewrite le2_bit by (assumption || lia). replace (i <? 8) with true by lia. reflexivity. }
  subst. reflexivity.
Qed.

Definition node_range (n : node) : Prop :=
  0 <= n_io_base n < 2^32 /\ n_io_base n mod 2^12 = 0 /\ 0 <= n_io_limit n < 2^32 /\ (n_io_limit n + 1) mod 2^12 = 0 /\
  0 <= n_mem_base n < 2^32 /\ n_mem_base n mod 2^20 = 0 /\ 0 <= n_mem_limit n < 2^32 /\ (n_mem_limit n + 1) mod 2^20 = 0 /\
  0 <= n_pf_base n < 2^64 /\ n_pf_base n mod 2^20 = 0 /\ 0 <= n_pf_limit n < 2^64 /\ (n_pf_limit n + 1) mod 2^20 = 0.

Lemma byte_f0 x : is_byte (Z.land x 0xf0).
Proof.
  unfold is_byte. change 256 with (2^8). apply bits_range; [lia|]. intros j Hj. rewrite Z.land_spec.
  rewrite (testbit_high 0xf0 8) by lia. apply andb_false_r.
Qed.
Lemma half_fff0 x : 0 <= Z.land x 0xfff0 < 65536.
Proof.
  change 65536 with (2^16). apply bits_range; [lia|]. intros j Hj. rewrite Z.land_spec.
  rewrite (testbit_high 0xfff0 16) by lia. apply andb_false_r.
Qed.
Lemma pack_hh_ok a b : 0 <= a < 65536 -> 0 <= b < 65536 -> pack_hh a b = Ok (le_bytes 2 a ++ le_bytes 2 b).
Proof. intros. unfold pack_hh. replace ((0 <=? a) && (a <? 65536) && (0 <=? b) && (b <? 65536)) with true by lia. reflexivity. Qed.

Lemma program_ok b r bus sec sub n : br_ok r -> is_byte bus -> is_byte sec -> is_byte sub -> node_range n ->
  program_bridge (b, r) bus sec sub n =
  Ok (b, mkBr bus sec sub (br_sec_lat r) (n_io_base n) (n_io_limit n) (br_sec_status r)
              (n_mem_base n) (n_mem_limit n) (n_pf_base n) (n_pf_limit n)).
Proof.
  intros (R1 & R2 & R3 & R4 & R5 & R6 & R7 & R8 & R9 & R10 & R11 & R12) Hbus Hsec Hsub
         (N1 & N2 & N3 & N4 & N5 & N6 & N7 & N8 & N9 & N10 & N11 & N12).
  unfold program_bridge, bus_bytes. unfold is_byteb.
  replace (((0 <=? bus) && (bus <? 256)) && ((0 <=? sec) && (sec <? 256)) && ((0 <=? sub) && (sub <? 256))) with true by (unfold is_byte in *; lia).
  cbn [bind]. rewrite write_bus by assumption. cbn [bind]. unfold with_bus.
  (* register 7 *)
  rewrite cw7. unfold bridge_write. change (7 =? 6) with false. change (7 =? 7) with true. cbv iota.
  cbn [br_pri br_sec br_sub br_sec_lat br_io_base br_io_limit br_sec_status br_mem_base br_mem_limit br_pf_base br_pf_limit].
  change (Z.shiftl (Z.land 3 1) 1) with (2^2 - 2^1). change (Z.land 3 2) with (2^2 - 2^1). change 0xf000 with (2^16 - 2^12).
  change (Z.land (Z.shiftr 3 2) 1) with 0.
  match goal with |- context[byte_mask_update (br_io_base r) _ ?d _] => destruct (bmu_part (br_io_base r) 1 2 d 12 16 ltac:(lia) ltac:(lia) ltac:(lia) ltac:(lia)) as (v1 & -> & S1) end.
  cbn [bind].
  match goal with |- context[byte_mask_update (br_io_limit r) _ ?d _] => destruct (bmu_part (br_io_limit r) 1 2 d 12 16 ltac:(lia) ltac:(lia) ltac:(lia) ltac:(lia)) as (v2 & -> & S2) end.
  cbn [bind].
  match goal with |- context[byte_mask_update (br_sec_status r) _ ?d ?m] => destruct (bmu_none (br_sec_status r) d m) as (v3 & -> & ->) end.
  cbn [bind].
  (* register 12 *)
  assert (I1 : 0 <= Z.shiftr (n_io_base n) 16 < 65536) by (rewrite Z.shiftr_div_pow2 by lia; lia).
  assert (I2 : 0 <= Z.shiftr (n_io_limit n) 16 < 65536) by (rewrite Z.shiftr_div_pow2 by lia; lia).
  rewrite pack_hh_ok by assumption. cbn [bind].
  destruct (lev22 _ _ I1 I2) as (a0 & a1 & a2 & a3 & -> & EV). rewrite cw12, EV. clear EV a0 a1 a2 a3.
  unfold bridge_write. change (12 =? 6) with false. change (12 =? 7) with false. change (12 =? 8) with false.
  change (12 =? 9) with false. change (12 =? 10) with false. change (12 =? 11) with false. change (12 =? 12) with true. cbv iota.
  cbn [br_pri br_sec br_sub br_sec_lat br_io_base br_io_limit br_sec_status br_mem_base br_mem_limit br_pf_base br_pf_limit].
  change (Z.shiftl (Z.land 15 3) 2) with (2^4 - 2^2). change (Z.land 15 12) with (2^4 - 2^2).
  match goal with |- context[byte_mask_update v1 _ ?d _] => destruct (bmu_all v1 2 4 d ltac:(lia)) as (w1 & -> & T1) end.
  cbn [bind].
  match goal with |- context[byte_mask_update (Z.lor v2 0xfff) _ ?d _] => destruct (bmu_all (Z.lor v2 0xfff) 2 4 d ltac:(lia)) as (w2 & -> & T2) end.
  cbn [bind].
  apply (io_base_field _ _ v1 w1 (n_io_base n) _ R1 R2 N1 N2 S1) in T1. subst w1. clear S1 v1.
  apply (io_limit_field _ _ v2 w2 (n_io_limit n) _ R3 (byte_f0 _) N3 N4 I1 S2) in T2. subst w2. clear S2 v2.
  (* register 8 *)
  rewrite pack_hh_ok by apply half_fff0. cbn [bind].
  destruct (lev22 _ _ (half_fff0 (Z.shiftr (n_mem_base n) 16)) (half_fff0 (Z.shiftr (n_mem_limit n) 16))) as (a0 & a1 & a2 & a3 & -> & EV).
  rewrite cw8, EV. clear EV a0 a1 a2 a3.
  unfold bridge_write. change (8 =? 6) with false. change (8 =? 7) with false. change (8 =? 8) with true. cbv iota.
  cbn [br_pri br_sec br_sub br_sec_lat br_io_base br_io_limit br_sec_status br_mem_base br_mem_limit br_pf_base br_pf_limit].
  change (Z.shiftl (Z.land 15 3) 2) with (2^4 - 2^2). change (Z.land 15 12) with (2^4 - 2^2). change 0xfff00000 with (2^32 - 2^20).
  match goal with |- context[byte_mask_update (br_mem_base r) _ ?d _] => destruct (bmu_part (br_mem_base r) 2 4 d 20 32 ltac:(lia) ltac:(lia) ltac:(lia) ltac:(lia)) as (v1 & -> & S1) end.
  cbn [bind].
  match goal with |- context[byte_mask_update (br_mem_limit r) _ ?d _] => destruct (bmu_part (br_mem_limit r) 2 4 d 20 32 ltac:(lia) ltac:(lia) ltac:(lia) ltac:(lia)) as (v2 & -> & S2) end.
  cbn [bind].
  pose proof (mem32_done _ _ _ R4 N5 (mem_base_field _ v1 (n_mem_base n) _ 32 ltac:(lia) R4 R5 N5 N6 S1)) as E1. subst v1. clear S1.
  pose proof (mem32_done _ _ _ R6 N7 (mem_limit_field _ v2 (n_mem_limit n) _ 32 ltac:(lia) R6 N7 N8 (half_fff0 _) S2)) as E2. rewrite E2. clear S2 E2 v2.
  (* register 9 *)
  rewrite pack_hh_ok by apply half_fff0. cbn [bind].
  destruct (lev22 _ _ (half_fff0 (Z.shiftr (n_pf_base n) 16)) (half_fff0 (Z.shiftr (n_pf_limit n) 16))) as (a0 & a1 & a2 & a3 & -> & EV).
  rewrite cw9, EV. clear EV a0 a1 a2 a3.
  unfold bridge_write. change (9 =? 6) with false. change (9 =? 7) with false. change (9 =? 8) with false. change (9 =? 9) with true. cbv iota.
  cbn [br_pri br_sec br_sub br_sec_lat br_io_base br_io_limit br_sec_status br_mem_base br_mem_limit br_pf_base br_pf_limit].
  change (Z.shiftl (Z.land 15 3) 2) with (2^4 - 2^2). change (Z.land 15 12) with (2^4 - 2^2). change 0xfff00000 with (2^32 - 2^20).
  match goal with |- context[byte_mask_update (br_pf_base r) _ ?d _] => destruct (bmu_part (br_pf_base r) 2 4 d 20 32 ltac:(lia) ltac:(lia) ltac:(lia) ltac:(lia)) as (v1 & -> & S1) end.
  cbn [bind].
  match goal with |- context[byte_mask_update (br_pf_limit r) _ ?d _] => destruct (bmu_part (br_pf_limit r) 2 4 d 20 32 ltac:(lia) ltac:(lia) ltac:(lia) ltac:(lia)) as (v2 & -> & S2) end.
  cbn [bind].
  pose proof (mem_base_field _ v1 (n_pf_base n) _ 64 ltac:(lia) R7 R8 N9 N10 S1) as E1. clear S1.
  pose proof (mem_limit_field _ v2 (n_pf_limit n) _ 64 ltac:(lia) R9 N11 N12 (half_fff0 _) S2) as E2. clear S2.
  (* register 10 *)
  assert (I3 : 0 <= Z.shiftr (n_pf_base n) 32 < 2^32) by (rewrite Z.shiftr_div_pow2 by lia; lia).
  assert (I4 : 0 <= Z.shiftr (n_pf_limit n) 32 < 2^32) by (rewrite Z.shiftr_div_pow2 by lia; lia).
  unfold pack_u32. replace ((0 <=? Z.shiftr (n_pf_base n) 32) && (Z.shiftr (n_pf_base n) 32 <? 2^32)) with true by lia. cbn [bind].
  destruct (lev4 _ I3) as (a0 & a1 & a2 & a3 & -> & EV). rewrite cw10, EV. clear EV a0 a1 a2 a3.
  unfold bridge_write. change (10 =? 6) with false. change (10 =? 7) with false. change (10 =? 8) with false. change (10 =? 9) with false. change (10 =? 10) with true. cbv iota.
  cbn [br_pri br_sec br_sub br_sec_lat br_io_base br_io_limit br_sec_status br_mem_base br_mem_limit br_pf_base br_pf_limit].
  change (Z.shiftl 15 4) with (2^8 - 2^4).
  match goal with |- context[byte_mask_update v1 _ ?d _] => destruct (bmu_all v1 4 8 d ltac:(lia)) as (w1 & -> & T1) end.
  cbn [bind].
  apply (mem64_done v1 w1 _ _ R7 N9 E1) in T1. subst w1. clear E1 v1.
  (* register 11 *)
  replace ((0 <=? Z.shiftr (n_pf_limit n) 32) && (Z.shiftr (n_pf_limit n) 32 <? 2^32)) with true by lia. cbn [bind].
  destruct (lev4 _ I4) as (a0 & a1 & a2 & a3 & -> & EV). rewrite cw11, EV. clear EV a0 a1 a2 a3.
  unfold bridge_write. change (11 =? 6) with false. change (11 =? 7) with false. change (11 =? 8) with false. change (11 =? 9) with false. change (11 =? 10) with false. change (11 =? 11) with true. cbv iota.
  cbn [br_pri br_sec br_sub br_sec_lat br_io_base br_io_limit br_sec_status br_mem_base br_mem_limit br_pf_base br_pf_limit].
  change (Z.shiftl 15 4) with (2^8 - 2^4).
  match goal with |- context[byte_mask_update (Z.lor v2 ?m) _ ?d _] => destruct (bmu_all (Z.lor v2 m) 4 8 d ltac:(lia)) as (w2 & -> & T2) end.
  cbn [bind].
  apply (mem64_done _ w2 _ _ R9 N11 E2) in T2. subst w2. reflexivity.
Qed.
