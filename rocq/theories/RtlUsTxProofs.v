(** Lemmas on the adapters for UltraScale completion and request streams (C111, C112): descriptors, user signals, counting. *)
From Verif Require Import PyBase RtlModel RtlFcProofs RtlRamProofs2 RtlAxmModel RtlAxmSpec RtlAxmProofs RtlUsIfSpec RtlUsIfProofs RtlUsTxModel RtlUsTxSpec.
From Coq Require Import Lia.

(** * Descriptors *)
Lemma lane_fld v j hi lo : 0 <= j -> 0 <= lo -> lo <= hi -> hi < 32 -> fld (lane v j) hi lo = fld v (32 * j + hi) (32 * j + lo).
Proof. intros. rewrite fld_lane by lia. rewrite fld_psel. f_equal. lia. Qed.
Lemma lane_full v : lane v 1 = fld v 63 32.
Proof. rewrite fld_psel, lane_psel. reflexivity. Qed.
Ltac lf := rewrite ?lane_fld by lia; match goal with |- context [fld (cat ?l) ?hi ?lo] => let h' := eval lazy in hi in let l' := eval lazy in lo in change (fld (cat l) hi lo) with (fld (cat l) h' l') end.
Ltac qq := rewrite ?fld_psel; repeat rewrite RtlRamProofs2.psel_psel by lia; rewrite ?psel_zero; try reflexivity.
Lemma psel_wide v lo w w' : 0 <= w <= w' -> psel (psel v lo w) 0 w' = psel v lo w.
Proof. intros. apply psel_small. pose proof (psel_range v lo w ltac:(lia)). pose proof (Z.pow_le_mono_r 2 w w' ltac:(lia) ltac:(lia)). lia. Qed.
Lemma cc_dw_ok h j : cc_hdr_ok h -> 0 <= j < 3 -> cc_dw_is h j (lane (cc_desc h) j).
Proof.
  intros [B L] J. unfold cc_dw_is, cc_desc, bsel. split; [intros ->|split; intros ->].
  - split; [lf; cf 18%nat; qq|]. split; [lf; cf 16%nat; qq|]. split.
    + lf. cf 14%nat. change (psel (psel h 64 12) (16 - 16) (28 - 16 + 1)) with (psel (psel h 64 12) 0 13). rewrite psel_wide by lia. unfold cc_bytes. rewrite (proj2 (Z.eqb_neq (fld h 75 64) 0)) by lia. qq.
    + split; [lf; cf 17%nat; qq|]. split; [lf; cf 15%nat; qq|]. rewrite lane_fld by lia. change (32 * 0 + 31) with 31. change (32 * 0 + 29) with 29. 
      rewrite fld_psel. change (31 - 29 + 1) with (2 + 1). 
      match goal with |- psel (cat ?l) 29 _ = 0 => assert (A : fld (cat l) 29 29 = 0) by (cf 13%nat; qq); assert (B' : fld (cat l) 31 30 = 0) by (cf 12%nat; qq) end.
      rewrite fld_psel in A, B'. change (29 - 29 + 1) with 1 in A. change (31 - 30 + 1) with 2 in B'. revert A B'. match goal with |- context [cat ?l] => generalize (cat l) end. intros v A B'.
      apply Z.bits_inj'. intros n N. rewrite psel_bits, Z.bits_0 by lia. destruct (Z.ltb_spec n (2 + 1)); [|reflexivity]. cbn [andb].
      destruct (Z.eq_dec n 0) as [-> |]; [apply (f_equal (fun x => Z.testbit x 0)) in A; rewrite psel_bits, Z.bits_0 in A by lia; exact A|].
      apply (f_equal (fun x => Z.testbit x (n - 1))) in B'. rewrite psel_bits, Z.bits_0 in B' by lia. rewrite (proj2 (Z.ltb_lt _ _)) in B' by lia. cbn [andb] in B'. replace (29 + n) with (30 + (n - 1)) by lia. exact B'.
  - split.
    + lf. cf 11%nat. change (psel (psel h 96 10) (32 - 32) (42 - 32 + 1)) with (psel (psel h 96 10) 0 11). rewrite psel_wide by lia. unfold cc_dwords. change (psel h 96 10) with (fld h 105 96).
      destruct (fld h 126 126 =? 1); [|exact L]. rewrite (proj2 (Z.eqb_neq (fld h 105 96) 0)) by lia. reflexivity.
    + split; [lf; cf 10%nat; qq|]. split; [lf; cf 9%nat; qq|]. split; [lf; cf 8%nat; qq|]. lf; cf 7%nat; qq.
  - split; [lf; cf 6%nat; qq|]. split; [lf; cf 5%nat; qq|]. split; [lf; cf 4%nat; qq|]. split; [lf; cf 3%nat; qq|]. split; [lf; cf 2%nat; qq|]. split; [lf; cf 1%nat; qq|]. lf; cf 0%nat; qq.
Qed.
Ltac slv := solve [reflexivity | split; slv | left; slv | right; slv].
Lemma rq_kind_ok f t : (exists k, rq_kind_is f t k) -> rq_kind_is f t (rq_kind f t) /\ 0 <= rq_kind f t < 16.
Proof.
  intros [k K]. unfold rq_kind_is, rq_kinds in *. cbn [In] in K. decompose [or and] K; clear K; try contradiction; subst;
    repeat match goal with Q : (_, _) = (_, _) |- _ => injection Q; clear Q; intros; subst end; try discriminate;
    (split; [|vm_compute; split; [discriminate|reflexivity]]); match goal with |- context [rq_kind ?a ?b] => let x := eval vm_compute in (rq_kind a b) in change (rq_kind a b) with x end; cbn [In]; slv.
Qed.
Lemma rq_dw_ok h j : rq_hdr_ok h -> 0 <= j < 4 -> rq_dw_is h j (lane (rq_desc h) j).
Proof.
  intros [B K] J. unfold rq_dw_is, rq_desc, bsel, rq_addr_lo, rq_addr_hi. rewrite B. change (1 =? 1) with true. cbv iota. apply rq_kind_ok in K. destruct K as [K1 K2].
  split; [intros ->|split; [intros ->|split; intros ->]].
  - split; [lf; cf 12%nat; qq|]. lf; cf 11%nat; qq.
  - rewrite lane_full. cf 11%nat; qq.
  - split.
    + lf. cf 10%nat. change (fld h 105 96) with (psel h 96 10). pose proof (psel_range h 96 10 ltac:(lia)) as R. change (2 ^ 10) with 1024 in R.
      match goal with |- psel ?x _ _ = _ => change (psel x (64 - 64) (74 - 64 + 1)) with (psel x 0 11) end. rewrite psel_small; destruct (Z.eqb_spec (psel h 96 10) 0); change (2 ^ 11) with 2048; lia.
    + split; [|split; [lf; cf 8%nat; qq|lf; cf 7%nat; qq]]. lf. cf 9%nat. match goal with |- context [psel (rq_kind ?a ?b) _ _] => change (psel (rq_kind a b) (75 - 75) (78 - 75 + 1)) with (psel (rq_kind a b) 0 4) end.
      rewrite psel_small; [exact K1|exact K2].
  - split; [lf; cf 6%nat; qq|]. split; [lf; cf 5%nat; qq|]. split; [lf; cf 4%nat; qq|]. split; [lf; cf 3%nat; qq|]. split; [lf; cf 2%nat; qq|]. split; [lf; cf 1%nat; qq|]. lf; cf 0%nat; qq.
Qed.
Lemma desc_dw_ok p h j : thdr_ok p h -> 0 <= j < HT p -> desc_dw_is p h j (lane (tx_desc p h) j).
Proof. unfold thdr_ok, HT, desc_dw_is, tx_desc. destruct (tp_rq p); [apply rq_dw_ok|apply cc_dw_ok]. Qed.
Lemma desc_range p h : 0 <= tx_desc p h < 2 ^ (32 * HT p).
Proof. unfold tx_desc, HT. destruct (tp_rq p); [unfold rq_desc|unfold cc_desc]; match goal with |- context [cat ?l] => exact (cat_range l eq_refl) end. Qed.

(** * User signals *)
Lemma lor_flag a k : 0 <= k -> 0 <= a < 2 ^ k -> Z.lor a (2 ^ k) = a + 2 ^ k.
Proof.
  intros K A. assert (D : Z.land a (2 ^ k) = 0).
  { apply Z.bits_inj'. intros n N. rewrite Z.land_spec, Z.bits_0, Z.pow2_bits_eqb by lia. destruct (Z.eqb_spec k n) as [<-|]; [|now rewrite andb_false_r].
    replace a with (a mod 2 ^ k) by (apply Z.mod_small; lia). rewrite Z.mod_pow2_bits_high by lia. reflexivity. }
  rewrite Z.add_nocarry_lxor by exact D. rewrite Z.lxor_lor by exact D. reflexivity.
Qed.
Lemma sw_pos p : 3 <= tp_sw p - 1 <= 5.
Proof. unfold tp_sw. destruct (_ || _); lia. Qed.
Lemma rq_seq_ok p port b : 0 <= tb_seq b < 2 ^ (tp_sw p - 1) -> rq_seq p port b = tb_seq b + (if port then 0 else 2 ^ (tp_sw p - 1)) /\ 0 <= rq_seq p port b < 2 ^ tp_sw p.
Proof.
  intros S. pose proof (sw_pos p). assert (E : rq_seq p port b = tb_seq b + (if port then 0 else 2 ^ (tp_sw p - 1))).
  { unfold rq_seq. destruct port; [rewrite Z.lor_0_r; lia|]. apply lor_flag; [lia|exact S]. }
  split; [exact E|]. rewrite E. replace (tp_sw p) with (tp_sw p - 1 + 1) at 3 by lia. rewrite Z.pow_add_r by lia. destruct port; lia.
Qed.
Lemma rq_user_ok p port b : 0 <= tb_seq b < 2 ^ (tp_sw p - 1) -> let u := rq_user p port b in
  fld u 3 0 = fld (tb_hdr b) 67 64 /\ (if tp_lw p =? 4 then fld u 11 8 else fld u 7 4) = fld (tb_hdr b) 71 68 /\ seq_of p u = tb_seq b + (if port then 0 else 2 ^ (tp_sw p - 1)) /\ (if tp_lw p =? 4 then fld u 36 36 else fld u 11 11) = 0.
Proof.
  intros S. cbn zeta. destruct (rq_seq_ok p port b S) as [E R]. rewrite <- E. clear E S. unfold rq_user, seq_of, tp_sw in *. cbn zeta. set (q := rq_seq p port b) in *. destruct (tp_lw p =? 4).
  - cbn [orb] in R. split; [cf 9%nat; qq|]. split; [cf 7%nat; qq|]. split; [|cf 3%nat; qq]. cf 2%nat. change (psel q (61 - 61) (66 - 61 + 1)) with (psel q 0 6). now rewrite psel_small.
  - cbn [orb] in R. destruct (tp_u62 p).
    + split; [cf 5%nat; qq|]. split; [cf 4%nat; qq|]. split; [|cf 3%nat; qq]. cf 2%nat. cf 0%nat. change (psel q (24 - 24) (27 - 24 + 1)) with (psel q 0 4). change (psel (q / 16) (60 - 60) (61 - 60 + 1)) with (psel (q / 16) 0 2).
      rewrite (psel_small (q / 16)); [|change (2 ^ 6) with 64 in R; change (2 ^ 2) with 4; split; [apply Z.div_pos; lia|apply Z.div_lt_upper_bound; lia]].
      unfold psel. change (2 ^ 0) with 1. rewrite Z.div_1_r. change (2 ^ 4) with 16. pose proof (Z.div_mod q 16 ltac:(lia)). lia.
    + split; [cf 4%nat; qq|]. split; [cf 3%nat; qq|]. split; [|cf 2%nat; qq]. cf 1%nat. change (psel q (24 - 24) (27 - 24 + 1)) with (psel q 0 4). now rewrite psel_small.
Qed.
Lemma cc_user_ok p sop eop st : let u := cc_user p sop eop st in
  if tp_lw p =? 4 then fld u 1 0 = (if sop then 1 else 0) /\ fld u 3 2 = 0 /\ fld u 7 6 = (if eop then 1 else 0) /\ fld u 16 16 = 0 else fld u 0 0 = 0.
Proof.
  cbn zeta. unfold cc_user. destruct (tp_lw p =? 4); [|reflexivity]. split; [cf 7%nat; destruct sop; reflexivity|]. split; [cf 6%nat; qq|]. split; [cf 4%nat; destruct eop; reflexivity|]. cf 1%nat; qq.
Qed.

(** * Counting *)
Lemma div_is x w q : 0 < w -> q * w <= x < (q + 1) * w -> x / w = q.
Proof. intros. symmetry. apply (Z.div_unique _ _ _ (x - q * w)); lia. Qed.
Lemma tcases p : tp_ok p -> let w := WT p in let h := HT p in let k := tp_k p in
  2 <= w <= 16 /\ tp_w p = w /\
  ((tp_narrow p = false /\ (tp_lw p =? 1) = false /\ h = k /\ k < w /\ 3 <= k <= 4 /\ (tp_rq p = true -> (tp_lw p =? 2) = false /\ (2 <? tp_lw p) = true /\ k = 4)) \/
   (tp_narrow p = false /\ (tp_lw p =? 1) = true /\ h = 3 /\ k = 1 /\ w = 2 /\ tp_rq p = false) \/
   (tp_narrow p = true /\ tp_rq p = true /\ h = 4 /\ (2 <? tp_lw p) = false /\ ((w = 2 /\ (tp_lw p =? 1) = true /\ (tp_lw p =? 2) = false) \/ (w = 4 /\ (tp_lw p =? 1) = false /\ (tp_lw p =? 2) = true)))).
Proof.
  intros O. cbn zeta. destruct p as [rq lw u]. unfold tp_ok in O. cbn [tp_lw] in O. assert (C : lw = 1 \/ lw = 2 \/ lw = 3 \/ lw = 4) by lia. clear O.
  unfold WT, HT, tp_k, tp_w, tp_narrow. cbn [tp_lw tp_rq].
  destruct C as [-> |[-> |[-> | ->]]]; destruct rq; cbn; (split; [lia|]); (split; [reflexivity|]);
    first [left; repeat split; (reflexivity || lia || discriminate) | right; left; repeat split; (reflexivity || lia) | right; right; repeat split; (reflexivity || lia || (left; repeat split; reflexivity) || (right; repeat split; reflexivity))].
Qed.
Lemma tfull_at p m x : tp_ok p -> tfull p (m * WT p + x) = m + x / WT p.
Proof. intros O. destruct (tcases p O) as [W _]. unfold tfull. rewrite Z.div_add_l by lia. reflexivity. Qed.
Lemma tbeats_at p m x : tp_ok p -> tbeats p (m * WT p + x) = m + (x + WT p - 1) / WT p.
Proof. intros O. destruct (tcases p O) as [W _]. unfold tbeats. replace (m * WT p + x + WT p - 1) with (m * WT p + (x + WT p - 1)) by lia. rewrite Z.div_add_l by lia. reflexivity. Qed.
Lemma tchunks_cons port h sq pay all a b : a < b -> tchunks port h sq pay all a b = mkTk port h sq pay all a :: tchunks port h sq pay all (a + 1) b.
Proof.
  intros L. unfold tchunks. replace (Z.to_nat (b - a)) with (S (Z.to_nat (b - (a + 1)))) by lia. cbn [seq map]. f_equal; [f_equal; lia|]. rewrite <- seq_shift, map_map. apply map_ext. intros j. f_equal. lia.
Qed.
Lemma tchunks_nil port h sq pay all a b : b <= a -> tchunks port h sq pay all a b = [].
Proof. intros L. unfold tchunks. replace (Z.to_nat (b - a)) with O by lia. reflexivity. Qed.
