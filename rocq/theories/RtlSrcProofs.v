(** Lemmas on the AXI stream source (C97): segments, addresses and lengths. *)
From Verif Require Import PyBase RtlModel RtlProofs RtlFcProofs RtlRamModel RtlDemuxModel RtlRamDemuxModel RtlRamDemuxProofs RtlSrcModel RtlSrcSpec.
From Coq Require Import Lia.

Section geo.
Variable p : cl_param.
Variables e1 e2 e3 : Z.
Hypothesis H1 : 0 <= e1.
Hypothesis H2 : 0 <= e2.
Hypothesis H3 : 0 <= e3 <= e1 + e2.
Hypothesis Haw : e1 + e2 <= cl_aw p.
Hypothesis Hlw : e3 <= cl_lw p.
Hypothesis Hws : 1 <= cl_ws p.
Hypothesis Hkw : 1 <= cl_kw p.
Hypothesis Hs : cl_segs p = 2 ^ e1.
Hypothesis Hb : cl_be p = 2 ^ e2.
Hypothesis Hk : beat_words p = 2 ^ e3.
Hypothesis Hwide : src_wide p.
Notation K := (2 ^ e3).
Notation E := (2 ^ e2).
Notation B := (2 ^ (e1 + e2)).

Lemma pos_K : 0 < K. Proof. apply Z.pow_pos_nonneg; lia. Qed.
Lemma pos_E : 0 < E. Proof. apply Z.pow_pos_nonneg; lia. Qed.
Lemma pos_B : 0 < B. Proof. apply Z.pow_pos_nonneg; lia. Qed.
Lemma pos_A : 0 < 2 ^ cl_aw p. Proof. apply Z.pow_pos_nonneg; lia. Qed.
Lemma int_K : cl_int p = K. Proof. exact Hk. Qed.
Lemma segs_be : cl_segs p * cl_be p = B. Proof. rewrite Hs, Hb, Z.pow_add_r by lia. reflexivity. Qed.
Lemma parts_K : cl_parts p = 2 ^ (e1 + e2 - e3).
Proof. unfold cl_parts. rewrite segs_be, int_K. rewrite <- Z.pow_sub_r by lia. reflexivity. Qed.
Lemma B_K : B = 2 ^ (e1 + e2 - e3) * K.
Proof. rewrite <- Z.pow_add_r by lia. f_equal. lia. Qed.
Lemma A_B : 2 ^ cl_aw p = 2 ^ (cl_aw p - (e1 + e2)) * B.
Proof. rewrite <- Z.pow_add_r by lia. f_equal. lia. Qed.
Lemma A_K : 2 ^ cl_aw p = 2 ^ (cl_aw p - e3) * K.
Proof. rewrite <- Z.pow_add_r by lia. f_equal. lia. Qed.
Lemma B_E : B = 2 ^ e1 * E.
Proof. rewrite <- Z.pow_add_r by lia. reflexivity. Qed.
Lemma clog2_pow e : 0 <= e -> clog2 (2 ^ e) = e.
Proof. intros. unfold clog2. apply Z.log2_up_pow2. lia. Qed.

(** Beat addresses. *)
Definition beat_addr (a : Z) : Prop := 0 <= a < 2 ^ cl_aw p /\ a mod K = 0.
Definition xof (a : Z) : Z := a mod B.

Lemma x_K a : beat_addr a -> xof a mod K = 0.
Proof.
  intros [_ H]. unfold xof. pose proof pos_K. pose proof pos_B. rewrite (Z.mod_eq a B) by lia. rewrite B_K.
  replace (a - 2 ^ (e1 + e2 - e3) * K * (a / (2 ^ (e1 + e2 - e3) * K))) with (a + (- (2 ^ (e1 + e2 - e3) * (a / (2 ^ (e1 + e2 - e3) * K)))) * K) by ring.
  rewrite Z.mod_add by lia. exact H.
Qed.
Lemma x_range a : 0 <= xof a /\ xof a + K <= B \/ ~ beat_addr a.
Proof.
  destruct (Z.eq_dec (a mod K) 0) as [E0|]; [|right; intros [_ ?]; contradiction].
  destruct (Z_le_dec 0 a) as [L|]; [|right; intros [? _]; lia]. destruct (Z_lt_dec a (2 ^ cl_aw p)) as [L2|]; [|right; intros [? _]; lia].
  left. pose proof (x_K a (conj (conj L L2) E0)) as X. pose proof pos_K. pose proof pos_B. pose proof (Z.mod_pos_bound a B ltac:(lia)) as R. fold (xof a) in R. split; [lia|].
  pose proof (Z.div_mod (xof a) K ltac:(lia)) as D. rewrite X in D. rewrite B_K in R |- *. set (c := xof a / K) in *. set (n := 2 ^ (e1 + e2 - e3)) in *.
  assert (c < n) by nia. nia.
Qed.
Lemma x_lim a : beat_addr a -> 0 <= xof a /\ xof a + K <= B.
Proof. intros H. destruct (x_range a); [assumption | contradiction]. Qed.

Lemma part_x a : beat_addr a -> 1 < cl_parts p -> cl_part p a = xof a / K /\ 1 < K.
Proof.
  intros HA HP. pose proof pos_K. pose proof pos_B. assert (W : 1 < K).
  { destruct Hwide as [W|W]; rewrite Hk in W; [exact W|]. rewrite segs_be in W. rewrite parts_K, Z.pow_sub_r in HP by lia. rewrite W, Z.div_same in HP by lia. lia. }
  split; [|exact W]. unfold cl_part, cl_pow, cl_pcw. rewrite int_K. rewrite (proj2 (Z.ltb_lt _ _) W), (proj2 (Z.ltb_lt _ _) HP). rewrite parts_K, !clog2_pow by lia.
  rewrite Z.shiftr_div_pow2 by lia. rewrite Z.land_ones by lia. unfold xof. rewrite B_K.
  pose proof (Z.pow_pos_nonneg 2 (e1 + e2 - e3) ltac:(lia) ltac:(lia)).
  rewrite (Z.mul_comm _ K). rewrite Z.rem_mul_r by lia. destruct HA as [_ HA]. rewrite HA, Z.add_0_l. rewrite Z.mul_comm, Z.div_mul by lia. reflexivity.
Qed.

(** The segments of a beat. *)
Definition uses (a s : Z) : bool := (xof a / E <=? s) && (s <=? (xof a + K - 1) / E).

Lemma ones_bit n i : 0 <= n -> 0 <= i -> Z.testbit (Z.ones n) i = (i <? n).
Proof. intros. rewrite Z.testbit_ones by lia. destruct (i <? n) eqn:L; [|now rewrite Bool.andb_false_r]. rewrite (proj2 (Z.leb_le 0 i)) by lia. reflexivity. Qed.

Lemma uses_lim a s : beat_addr a -> uses a s = true -> 0 <= s < cl_segs p.
Proof.
  intros HA U. unfold uses in U. apply andb_true_iff in U. destruct U as [U1 U2]. apply Z.leb_le in U1. apply Z.leb_le in U2. pose proof (x_lim a HA) as [X1 X2].
  pose proof pos_E. pose proof pos_K. pose proof (Z.div_pos (xof a) E X1 ltac:(lia)). split; [lia|]. rewrite Hs. apply Z.le_lt_trans with (1 := U2). apply Z.div_lt_upper_bound; [lia|]. rewrite Z.mul_comm, <- B_E. lia.
Qed.

Lemma mask_uses a s : beat_addr a -> 0 <= s -> Z.testbit (cl_mask p a) s = uses a s.
Proof.
  intros HA S0. pose proof pos_E as PE. pose proof pos_K as PK. pose proof (x_lim a HA) as [X1 X2]. pose proof (x_K a HA) as XK.
  assert (LIM : uses a s = true -> s < cl_segs p) by (intros U; apply uses_lim in U; [lia | exact HA]).
  assert (PS : 0 < cl_segs p) by (rewrite Hs; apply Z.pow_pos_nonneg; lia).
  unfold cl_mask. destruct (1 <? cl_parts p) eqn:P1.
  - apply Z.ltb_lt in P1. destruct (part_x a HA P1) as [-> W]. 
    assert (G : 0 <= xof a / K / cl_pps p * cl_spp p /\ 0 <= cl_spp p /\ (uses a s = (xof a / K / cl_pps p * cl_spp p <=? s) && (s <? xof a / K / cl_pps p * cl_spp p + cl_spp p))).
    { unfold cl_spp, cl_pps, uses. rewrite int_K, Hb. pose proof (Z.div_mod (xof a) K ltac:(lia)) as DX. rewrite XK in DX. destruct (Z.le_gt_cases e3 e2) as [L|L].
      - assert (EK : E = 2 ^ (e2 - e3) * K) by (rewrite <- Z.pow_add_r by lia; f_equal; lia). pose proof (Z.pow_pos_nonneg 2 (e2 - e3) ltac:(lia) ltac:(lia)) as PD.
        set (D := 2 ^ (e2 - e3)) in *.
        assert (S1 : (K + E - 1) / E = 1). { symmetry. apply (Z.div_unique _ _ _ (K - 1)); nia. }
        assert (S2 : (E + K - 1) / K = D). { symmetry. apply (Z.div_unique _ _ _ (K - 1)); nia. }
        rewrite S1, S2. rewrite Z.div_div by lia. rewrite (Z.mul_comm K D), <- EK. rewrite Z.mul_1_r.
        assert (S3 : (xof a + K - 1) / E = xof a / E).
        { pose proof (Z.div_mod (xof a) E ltac:(lia)) as D1. pose proof (Z.mod_pos_bound (xof a) E ltac:(lia)) as D2.
          assert (XM : exists m, xof a mod E = m * K). { exists (xof a / K - D * (xof a / E)). rewrite (Z.mod_eq (xof a) E) by lia. set (q := xof a / E) in *. set (c := xof a / K) in *.
            replace (E * q) with (D * K * q) by (rewrite <- EK; ring). rewrite DX. ring. }
          destruct XM as [m XM]. symmetry. apply (Z.div_unique _ _ _ (xof a mod E + K - 1)); [|lia]. left. rewrite XM in *. assert (m < D) by nia. nia. }
        rewrite S3. pose proof (Z.div_pos (xof a) E X1 ltac:(lia)). split; [lia|]. split; [lia|].
        destruct (xof a / E <=? s) eqn:Q1; [|reflexivity]. destruct (s <=? xof a / E) eqn:Q2, (s <? xof a / E + 1) eqn:Q3; try reflexivity; lia.
      - assert (EK : K = 2 ^ (e3 - e2) * E) by (rewrite <- Z.pow_add_r by lia; f_equal; lia). pose proof (Z.pow_pos_nonneg 2 (e3 - e2) ltac:(lia) ltac:(lia)) as PD.
        set (D := 2 ^ (e3 - e2)) in *.
        assert (D2 : 2 <= D). { unfold D. replace (e3 - e2) with (1 + (e3 - e2 - 1)) by lia. rewrite Z.pow_add_r by lia. pose proof (Z.pow_pos_nonneg 2 (e3 - e2 - 1) ltac:(lia) ltac:(lia)). lia. }
        assert (S1 : (K + E - 1) / E = D). { symmetry. apply (Z.div_unique _ _ _ (E - 1)); nia. }
        assert (S2 : (E + K - 1) / K = 1). { symmetry. apply (Z.div_unique _ _ _ (E - 1)); nia. }
        rewrite S1, S2, Z.div_1_r. set (c := xof a / K) in *.
        assert (XE : xof a / E = c * D). { symmetry. apply (Z.div_unique _ _ _ 0); nia. }
        assert (XE2 : (xof a + K - 1) / E = c * D + D - 1). { symmetry. apply (Z.div_unique _ _ _ (E - 1)); nia. }
        rewrite XE, XE2. pose proof (Z.div_pos (xof a) K X1 ltac:(lia)). split; [nia|]. split; [lia|].
        f_equal. destruct (s <=? c * D + D - 1) eqn:Q2, (s <? c * D + D) eqn:Q3; try reflexivity; lia. }
    destruct G as [G1 [G2 G3]]. set (n := xof a / K / cl_pps p * cl_spp p) in *. set (w := cl_spp p) in *.
    assert (T : Z.testbit (Z.shiftl (Z.ones w) n) s = uses a s).
    { rewrite Z.shiftl_spec by lia. rewrite G3. destruct (Z_lt_dec s n) as [L|L].
      - rewrite Z.testbit_neg_r by lia. rewrite (proj2 (Z.leb_gt n s)) by lia. reflexivity.
      - rewrite ones_bit by lia. rewrite (proj2 (Z.leb_le n s)) by lia. cbn [andb]. destruct (s - n <? w) eqn:Q, (s <? n + w) eqn:Q2; try reflexivity; lia. }
    destruct (Z_lt_dec s (cl_segs p)) as [L|L].
    + rewrite Z.mod_pow2_bits_low by lia. exact T.
    + rewrite Z.mod_pow2_bits_high by lia. destruct (uses a s); [specialize (LIM eq_refl); lia | reflexivity].
  - apply Z.ltb_ge in P1. rewrite ones_bit by lia.
    assert (EQ : e1 + e2 = e3). { rewrite parts_K in P1. destruct (Z.eq_dec (e1 + e2) e3); [assumption|]. exfalso. replace (e1 + e2 - e3) with (1 + (e1 + e2 - e3 - 1)) in P1 by lia. rewrite Z.pow_add_r in P1 by lia. pose proof (Z.pow_pos_nonneg 2 (e1 + e2 - e3 - 1) ltac:(lia) ltac:(lia)). lia. }
    assert (X0 : xof a = 0). { rewrite EQ in X2. lia. }
    unfold uses. rewrite X0. rewrite Z.div_0_l by lia. rewrite (proj2 (Z.leb_le 0 s)) by lia. cbn [andb].
    assert (Q : (0 + K - 1) / E = cl_segs p - 1). { symmetry. apply (Z.div_unique _ _ _ (E - 1)); [lia|]. rewrite Hs, <- EQ, B_E. ring. }
    rewrite Q. destruct (s <? cl_segs p) eqn:Q2, (s <=? cl_segs p - 1) eqn:Q3; try reflexivity; lia.
Qed.
Lemma mask_range a : beat_addr a -> 0 <= cl_mask p a < 2 ^ cl_segs p.
Proof.
  intros HA. assert (PS : 0 < cl_segs p) by (rewrite Hs; apply Z.pow_pos_nonneg; lia). unfold cl_mask. destruct (1 <? cl_parts p).
  - apply Z.mod_pos_bound. apply Z.pow_pos_nonneg; lia.
  - rewrite Z.ones_equiv. pose proof (Z.pow_pos_nonneg 2 (cl_segs p)). lia.
Qed.
(** A segment used by a beat has a word of the beat, and the other way round. *)
Lemma uses_word a j : beat_addr a -> 0 <= j < K -> uses a ((xof a + j) / E) = true.
Proof.
  intros HA J. pose proof pos_E. unfold uses. apply andb_true_iff. split; apply Z.leb_le; apply Z.div_le_mono; lia.
Qed.
Lemma word_uses a s : beat_addr a -> uses a s = true -> exists j, 0 <= j < K /\ (xof a + j) / E = s.
Proof.
  intros HA U. unfold uses in U. apply andb_true_iff in U. destruct U as [U1 U2]. apply Z.leb_le in U1. apply Z.leb_le in U2. pose proof pos_E as PE. pose proof pos_K as PK.
  pose proof (Z.div_mod (xof a) E ltac:(lia)) as D1. pose proof (Z.mod_pos_bound (xof a) E ltac:(lia)) as D2.
  pose proof (Z.div_mod (xof a + K - 1) E ltac:(lia)) as D3. pose proof (Z.mod_pos_bound (xof a + K - 1) E ltac:(lia)) as D4.
  destruct (Z.eq_dec s (xof a / E)) as [->|N].
  - exists 0. split; [lia|]. f_equal. lia.
  - exists (s * E - xof a). split; [nia|]. replace (xof a + (s * E - xof a)) with (s * E) by ring. apply Z.div_mul. lia.
Qed.
Lemma seg_addr a : beat_addr a -> psel a (cl_aw p - cl_saw p) (cl_saw p) = a / B.
Proof.
  intros [HA _]. unfold psel, cl_saw. rewrite segs_be, clog2_pow by lia. replace (cl_aw p - (cl_aw p - (e1 + e2))) with (e1 + e2) by lia. apply Z.mod_small.
  pose proof pos_B. split; [apply Z.div_pos; lia|]. apply Z.div_lt_upper_bound; [lia|]. rewrite Z.mul_comm, <- A_B. lia.
Qed.
Lemma seg_word_at a w : beat_addr a -> 0 <= w < B -> seg_word p (w / E) (a / B) (w mod E) = a / B * B + w.
Proof.
  intros HA W. unfold seg_word. rewrite Hs, Hb. pose proof pos_E. pose proof (Z.div_mod w E ltac:(lia)) as D. rewrite B_E. 
  set (q := a / (2 ^ e1 * E)) in *. replace ((q * 2 ^ e1 + w / E) * E + w mod E) with (q * (2 ^ e1 * E) + (E * (w / E) + w mod E)) by ring. now rewrite <- D.
Qed.
Lemma a_x a : a = a / B * B + xof a.
Proof. unfold xof. pose proof pos_B. pose proof (Z.div_mod a B ltac:(lia)). lia. Qed.

(** Lengths *)
Definition nbeats (len : Z) : Z := (len + K - 1) / K.
Lemma nb_pos len : 1 <= len -> 1 <= nbeats len.
Proof. intros. unfold nbeats. pose proof pos_K. apply Z.div_le_lower_bound; lia. Qed.
Lemma nb_cycles len : nbeats len = (len - 1) / K + 1.
Proof. unfold nbeats. pose proof pos_K. replace (len + K - 1) with (len - 1 + 1 * K) by ring. now rewrite Z.div_add by lia. Qed.
Lemma nb_lim len : (nbeats len - 1) * K < len <= nbeats len * K.
Proof. rewrite nb_cycles. pose proof pos_K. pose proof (Z.div_mod (len - 1) K ltac:(lia)). pose proof (Z.mod_pos_bound (len - 1) K ltac:(lia)). nia. Qed.
Lemma ccw_pos : 1 <= cl_ccw p.
Proof. unfold cl_ccw. rewrite int_K, clog2_pow by lia. lia. Qed.
Lemma nb_ccw len : 1 <= len < 2 ^ cl_lw p -> nbeats len - 1 < 2 ^ (cl_ccw p - 1).
Proof.
  intros L. rewrite nb_cycles. unfold cl_ccw. rewrite int_K, clog2_pow by lia. replace (cl_lw p - e3 + 1 - 1) with (cl_lw p - e3) by lia. pose proof pos_K.
  replace ((len - 1) / K + 1 - 1) with ((len - 1) / K) by ring. apply Z.div_lt_upper_bound; [lia|]. rewrite <- Z.pow_add_r by lia. replace (e3 + (cl_lw p - e3)) with (cl_lw p) by lia. lia.
Qed.
Lemma cycles_nb len : 1 <= len < 2 ^ cl_lw p -> cl_cycles p len = nbeats len - 1.
Proof.
  intros L. pose proof (nb_ccw len L) as C. pose proof (nb_pos len ltac:(lia)) as P. unfold cl_cycles. rewrite int_K, clog2_pow by lia.
  assert (M : (len - 1) mod 2 ^ Z.max 32 (Z.max (cl_lw p) (cl_ccw p)) = len - 1).
  { apply Z.mod_small. split; [lia|]. apply Z.lt_le_trans with (2 ^ cl_lw p); [lia|]. apply Z.pow_le_mono_r; lia. }
  rewrite M, Z.shiftr_div_pow2 by lia. rewrite nb_cycles in *. pose proof ccw_pos. rewrite Z.mod_small; [lia|]. split; [lia|].
  replace (cl_ccw p) with (cl_ccw p - 1 + 1) by lia. rewrite Z.pow_add_r by lia. lia.
Qed.
Lemma offset_mod len : 0 <= len -> cl_offset p len = len mod K.
Proof.
  intros. unfold cl_offset, cl_omask, cl_pow. rewrite int_K. destruct (1 <? K) eqn:Q.
  - rewrite clog2_pow by lia. rewrite Z.land_ones by lia. reflexivity.
  - apply Z.ltb_ge in Q. pose proof pos_K. replace K with 1 by lia. rewrite Z.mod_1_r. apply Z.land_0_r.
Qed.
Lemma align_ok a : 0 <= a < 2 ^ cl_aw p -> cl_align p a = a - a mod K /\ beat_addr (a - a mod K).
Proof.
  intros L. pose proof pos_K. pose proof (Z.div_mod a K ltac:(lia)) as D. pose proof (Z.mod_pos_bound a K ltac:(lia)) as R. split.
  - unfold cl_align. rewrite int_K, clog2_pow by lia. replace (a - a mod K) with (Z.shiftl (Z.shiftr a e3) e3) by (rewrite Z.shiftl_mul_pow2, Z.shiftr_div_pow2 by lia; lia).
    apply Z.bits_inj'. intros n N. rewrite Z.land_spec, Z.shiftl_spec by lia.
    destruct (Z_lt_dec n (cl_aw p)) as [L1|L1].
    + rewrite Z.mod_pow2_bits_low by lia. rewrite Z.shiftl_spec by lia. destruct (Z_lt_dec n e3).
      * rewrite !(Z.testbit_neg_r _ (n - e3)) by lia. apply Bool.andb_false_r.
      * rewrite ones_bit by lia. rewrite (proj2 (Z.ltb_lt _ _)) by lia. rewrite Z.shiftr_spec by lia. rewrite Bool.andb_true_r. f_equal. lia.
    + rewrite Z.mod_pow2_bits_high by lia. rewrite Bool.andb_false_r. destruct (Z_lt_dec n e3); [now rewrite Z.testbit_neg_r by lia|].
      rewrite Z.shiftr_spec by lia. replace (n - e3 + e3) with n by lia. symmetry. rewrite <- (Z.mod_small a (2 ^ cl_aw p)) by lia. apply Z.mod_pow2_bits_high. lia.
  - pose proof (Z.mod_le a K ltac:(lia) ltac:(lia)). split; [lia|]. replace (a - a mod K) with ((a / K) * K) by lia. apply Z.mod_mul. lia.
Qed.

(** The beats of a descriptor. *)
Definition base (d : cl_desc) : Z := de_addr d - de_addr d mod K.
Definition addr_of (d : cl_desc) (k : Z) : Z := (base d + k * K) mod 2 ^ cl_aw p.
Definition nb (d : cl_desc) : Z := nbeats (de_len d).
Lemma addr_of_ok d k : 0 <= de_addr d < 2 ^ cl_aw p -> beat_addr (addr_of d k).
Proof.
  intros L. unfold addr_of. pose proof pos_A. pose proof pos_K. pose proof pos_B. split; [apply Z.mod_pos_bound; lia|].
  destruct (align_ok _ L) as [_ [_ M]]. fold (base d) in M. rewrite A_K. set (n := 2 ^ (cl_aw p - e3)) in *.
  assert (N : 0 < n) by (apply Z.pow_pos_nonneg; lia). rewrite (Z.mod_eq _ (n * K)) by nia.
  replace (base d + k * K - n * K * ((base d + k * K) / (n * K))) with (base d + (k - n * ((base d + k * K) / (n * K))) * K) by ring. rewrite Z.mod_add by lia. exact M.
Qed.
Lemma addr_next d k : (addr_of d k + K) mod 2 ^ cl_aw p = addr_of d (k + 1).
Proof. unfold addr_of. pose proof pos_A. rewrite Z.add_mod_idemp_l by lia. f_equal. ring. Qed.
Lemma addr_first d : 0 <= de_addr d < 2 ^ cl_aw p -> cl_align p (de_addr d) = addr_of d 0.
Proof. intros L. destruct (align_ok _ L) as [-> [M _]]. unfold addr_of, base. rewrite Z.mul_0_l, Z.add_0_r. symmetry. apply Z.mod_small. exact M. Qed.
Lemma block_addr d k j : 0 <= de_addr d < 2 ^ cl_aw p -> 0 <= j < K -> block_word p d (k * K + j) = addr_of d k + j.
Proof.
  intros L J. pose proof (addr_of_ok d k L) as [R M]. unfold block_word. rewrite Hk. fold (base d). unfold addr_of in *. rewrite Z.add_assoc. pose proof pos_A. pose proof pos_K.
  rewrite <- Z.add_mod_idemp_l by lia. apply Z.mod_small. set (x := (base d + k * K) mod 2 ^ cl_aw p) in *. split; [lia|].
  pose proof (Z.div_mod x K ltac:(lia)) as D. rewrite M in D. rewrite A_K in R |- *. set (n := 2 ^ (cl_aw p - e3)) in *. assert (x / K < n) by nia. nia.
Qed.
(** Words of the answers. *)
Lemma psel_psel v a w b u : 0 <= a -> 0 <= b -> 0 <= u -> b + u <= w -> psel (psel v a w) b u = psel v (a + b) u.
Proof.
  intros. apply Z.bits_inj'. intros n N. rewrite !psel_bits by lia. destruct (n <? u) eqn:Q; [|reflexivity]. apply Z.ltb_lt in Q. rewrite (proj2 (Z.ltb_lt _ _)) by lia. cbn [andb]. f_equal. lia.
Qed.
Lemma data_word a v j : beat_addr a -> 0 <= j < K ->
  psel (if 1 <? cl_parts p then psel v (cl_part p a * cl_dw p) (cl_dw p) else psel v 0 (cl_dw p)) (j * cl_ws p) (cl_ws p) = psel v ((xof a + j) * cl_ws p) (cl_ws p).
Proof.
  intros HA J. pose proof (x_lim a HA) as [X1 X2]. pose proof (x_K a HA) as XK. pose proof pos_K. unfold cl_dw. rewrite int_K. destruct (1 <? cl_parts p) eqn:P1.
  - apply Z.ltb_lt in P1. destruct (part_x a HA P1) as [-> _]. pose proof (Z.div_mod (xof a) K ltac:(lia)) as D. rewrite XK in D.
    replace (xof a / K * (K * cl_ws p)) with (xof a * cl_ws p) by nia. rewrite psel_psel by nia. f_equal. ring.
  - apply Z.ltb_ge in P1. assert (X0 : xof a = 0).
    { assert (EQ : e1 + e2 = e3). { rewrite parts_K in P1. destruct (Z.eq_dec (e1 + e2) e3); [assumption|]. exfalso. replace (e1 + e2 - e3) with (1 + (e1 + e2 - e3 - 1)) in P1 by lia. rewrite Z.pow_add_r in P1 by lia. pose proof (Z.pow_pos_nonneg 2 (e1 + e2 - e3 - 1) ltac:(lia) ltac:(lia)). lia. }
      rewrite EQ in X2. lia. }
    rewrite X0. rewrite psel_psel by nia. f_equal.
Qed.
(** The keep bits of the last beat. *)
Lemma keep_last len j : 1 <= len -> 0 <= j < K -> 
  Z.testbit (if 0 <? len mod K then Z.shiftr (Z.ones K) (K - len mod K) else Z.ones K) j = ((nbeats len - 1) * K + j <? len).
Proof.
  intros L J. pose proof pos_K. pose proof (Z.div_mod len K ltac:(lia)) as D. pose proof (Z.mod_pos_bound len K ltac:(lia)) as R. pose proof (nb_lim len) as N.
  destruct (0 <? len mod K) eqn:Q.
  - apply Z.ltb_lt in Q. rewrite Z.shiftr_spec by lia. rewrite ones_bit by lia.
    assert (NB : nbeats len - 1 = len / K). { nia. } rewrite NB. destruct (j + (K - len mod K) <? K) eqn:Q1, (len / K * K + j <? len) eqn:Q2; try reflexivity; lia.
  - apply Z.ltb_ge in Q. rewrite ones_bit by lia. assert (NB : nbeats len = len / K). { nia. } rewrite NB. destruct (j <? K) eqn:Q1, ((len / K - 1) * K + j <? len) eqn:Q2; try reflexivity; nia.
Qed.
Lemma keep_range (b : bool) off : 0 <= off <= K -> 0 <= (if b then Z.shiftr (Z.ones K) (K - off) else Z.ones K) < 2 ^ K.
Proof.
  intros O. pose proof pos_K. pose proof (Z.pow_pos_nonneg 2 K ltac:(lia) ltac:(lia)) as PP. destruct b; [|rewrite Z.ones_equiv; lia].
  rewrite Z.shiftr_div_pow2 by lia. pose proof (Z.pow_pos_nonneg 2 (K - off) ltac:(lia) ltac:(lia)). rewrite Z.ones_equiv. split; [apply Z.div_pos; lia|]. apply Z.div_lt_upper_bound; [lia|]. nia.
Qed.

(** * The beats still to come *)
Definition item : Type := cl_desc * Z.
Fixpoint rem (d : cl_desc) (k : Z) (c : nat) : list item := match c with O => [] | S c => (d, k) :: rem d (k + 1) c end.
Definition all (d : cl_desc) : list item := rem d 0 (Z.to_nat (nb d)).
Definition iaddr (it : item) : Z := addr_of (fst it) (snd it).
Definition flat (q : list cl_desc) (pos : Z) : list item :=
  match q with [] => [] | d :: r => rem d (pos / K) (Z.to_nat (nb d - pos / K)) ++ flat_map all r end.
Definition mon_ok (m : src_mon) : Prop :=
  (forall d, In d (sm_q m) -> desc_ok p d) /\ match sm_q m with [] => sm_pos m = 0 | d :: _ => exists k, sm_pos m = k * K /\ 0 <= k < nb d end.
Variable mem : Z -> Z.
Definition beat_ok (it : item) (b : cl_beat) : Prop := beat_is p mem (fst it) (snd it * K) (src_show p b).
Definition axr (a : src_ax) (C : list item) (AD : list cl_desc) : Prop :=
  if sa_read a then exists d k, desc_ok p d /\ 0 <= k < nb d /\ C = rem d k (Z.to_nat (nb d - k)) /\ AD = [d] /\ sa_addr a = addr_of d k /\ sa_mask a = cl_mask p (addr_of d k)
    /\ sa_off a = de_len d mod K /\ sa_cnt a = nb d - 1 - k /\ sa_lastc a = (nb d - 1 - k =? 0) /\ sa_meta a = de_meta d /\ sa_status a = false
  else C = [] /\ AD = [].
Definition cmr (c : src_cmd) (D : list item) (CD : list cl_desc) : Prop :=
  if sc_valid c then exists d, desc_ok p d /\ D = all d /\ CD = [d] /\ sc_addr c = addr_of d 0 /\ sc_off c = de_len d mod K /\ sc_cnt c = nb d - 1 /\ sc_meta c = de_meta d
  else D = [] /\ CD = [].
Definition rdr (r : src_rd) (R : list item) : Prop :=
  if sr_read r then exists d k, desc_ok p d /\ 0 <= k < nb d /\ R = rem d k (Z.to_nat (nb d - k)) /\ sr_addr r = addr_of d k /\ sr_mask r = cl_mask p (addr_of d k) /\ sr_cnt r = nb d - 1 - k
  else R = [].
Definition str (a : src_ax) (SD : list cl_desc) : Prop := if sa_status a then exists d, SD = [d] /\ me_tag (sa_meta a) = me_tag (de_meta d) else SD = [].
Definition outr (o : src_out) (O F : list item) : Prop :=
  (if so_valid o then exists it, O = [it] /\ beat_ok it (so_beat o) else O = []) /\ ptr_ok (so_wr o) (so_rdp o) /\ Forall2 beat_ok F (ring (so_wr o) (so_rdp o) (so_mem o))
  /\ (length F <= 17)%nat /\ (so_half o = false -> (length F <= 16)%nat).
Definition queues (q : ram_q) (r : src_rd) (P : list item) : Prop :=
  forall s, 0 <= s -> q s ++ (if Z.testbit (sr_cvalid r) s then [sr_caddr r s] else []) = map (fun it => iaddr it / B) (filter (fun it => uses (iaddr it) s) P).
Record inv (s : src_state) (q : ram_q) (m : src_mon) (O F C D P R : list item) (SD AD CD : list cl_desc) : Prop := mkInv {
  i_flat : flat (sm_q m) (sm_pos m) = O ++ F ++ C ++ D; i_mon : mon_ok m; i_out : outr (ss_out s) O F; i_ax : axr (ss_ax s) C AD; i_cmd : cmr (ss_cmd s) D CD; i_rd : rdr (ss_rd s) R;
  i_pr : C ++ D = P ++ R; i_q : queues q (ss_rd s) P; i_ready : sr_ready (ss_rd s) = true -> sr_read (ss_rd s) = false /\ sc_valid (ss_cmd s) = false;
  i_str : str (ss_ax s) SD; i_st : sm_st m = SD ++ AD ++ CD; i_cv : 0 <= sr_cvalid (ss_rd s) < 2 ^ cl_segs p;
  i_half : so_half (ss_out s) = true -> F <> [] \/ C ++ D = [] }.

Lemma nb_ok d : desc_ok p d -> 1 <= nb d.
Proof. intros [_ L]. apply nb_pos. lia. Qed.
Lemma rem_cons d k n : k < n -> rem d k (Z.to_nat (n - k)) = (d, k) :: rem d (k + 1) (Z.to_nat (n - (k + 1))).
Proof. intros L. replace (Z.to_nat (n - k)) with (S (Z.to_nat (n - (k + 1)))) by lia. reflexivity. Qed.
Lemma rem_nil d k n : n <= k -> rem d k (Z.to_nat (n - k)) = [].
Proof. intros L. replace (Z.to_nat (n - k)) with O by lia. reflexivity. Qed.
Lemma rem_in d c : forall k x, In x (rem d k c) -> fst x = d /\ k <= snd x < k + Z.of_nat c.
Proof. induction c as [|c IH]; intros k x H; [destruct H|]. cbn [rem] in H. destruct H as [<-|H]; [cbn [fst snd]; split; [reflexivity | lia]|]. apply IH in H. destruct H as [H0 H4]. split; [exact H0 | lia]. Qed.
Lemma all_eq d : all d = rem d 0 (Z.to_nat (nb d - 0)).
Proof. unfold all. now rewrite Z.sub_0_r. Qed.

Lemma F2_len {X Y} (R : X -> Y -> Prop) l l' : Forall2 R l l' -> length l = length l'.
Proof. induction 1; cbn [length]; congruence. Qed.
(** The output FIFO. *)
Lemma out_ok s i O F it : outr (ss_out s) O F -> si_rst i = false -> (src_go s i = true -> beat_ok it (src_beat p s i)) ->
  exists O' F', outr (src_out_step p s i) O' F' /\ (if so_valid (ss_out s) && si_tready i then O else []) ++ O' ++ F' = O ++ F ++ (if src_go s i then [it] else []) /\
    (so_half (src_out_step p s i) = true -> F' <> []).
Proof.
  intros [HO [HP [HF [HL HH]]]] NR BG. unfold src_out_step. rewrite NR. cbn [negb andb].
  set (o := ss_out s) in *. set (go := src_go s i) in *.
  assert (GH : go = true -> so_half o = false). { intros E0. unfold go, src_go in E0. fold o in E0. destruct (so_half o); [|reflexivity]. cbn [negb] in E0. rewrite !Bool.andb_false_r in E0. discriminate. }
  pose proof (F2_len _ _ _ HF) as LF.
  assert (NF : ptr_full (so_wr o) (so_rdp o) = false). { apply not_true_is_false. rewrite (ring_full _ _ _ (so_mem o) HP). lia. }
  rewrite NF. cbn [negb andb].
  set (pop := negb (ptr_empty (so_wr o) (so_rdp o)) && (negb (so_valid o) || si_tready i)).
  assert (PE : pop = true -> ptr_empty (so_wr o) (so_rdp o) = false). { unfold pop. destruct (ptr_empty (so_wr o) (so_rdp o)); [discriminate | reflexivity]. }
  destruct (ring_step _ (so_wr o) (so_rdp o) (so_mem o) go pop (src_beat p s i) HP (fun _ => NF) PE) as [HP' HR].
  set (wr' := if go then ptr_inc (so_wr o) else so_wr o) in *. set (rd' := if pop then ptr_inc (so_rdp o) else so_rdp o) in *. set (mem' := if go then upd (so_mem o) (so_wr o mod 32) (src_beat p s i) else so_mem o) in *.
  assert (HF2 : Forall2 beat_ok (F ++ (if go then [it] else [])) (ring (so_wr o) (so_rdp o) (so_mem o) ++ (if go then [src_beat p s i] else []))).
  { apply Forall2_app; [exact HF|]. destruct go; [|constructor]. constructor; [now apply BG | constructor]. }
  rewrite HR in HF2. pose proof (ring_len _ (so_wr o) (so_rdp o) (so_mem o)) as RL.
  assert (HALF : (16 <=? (so_wr o - so_rdp o) mod 64) = false -> (length F <= 15)%nat). { intros Q. apply Z.leb_gt in Q. lia. }
  assert (GL : (go = true -> (length F <= 16)%nat)) by (intros Q; apply HH, GH, Q).
  assert (HALF2 : (16 <=? (so_wr o - so_rdp o) mod 64) = true -> (16 <= length F)%nat). { intros Q. apply Z.leb_le in Q. lia. }
  destruct pop eqn:EP.
  - cbn [app] in HF2. inversion HF2 as [|a b F' r Hab Hr E1 E2]. subst b r.
    assert (LF2 : (length F + (if go then 1 else 0))%nat = S (length F')). { apply (f_equal (@length _)) in E1. rewrite app_length in E1. cbn [length] in E1. rewrite E1. destruct go; reflexivity. }
    exists [a], F'. split; [|split; [|cbn [so_half]; intros Q; apply HALF2 in Q; intros ->; cbn [length] in LF2; destruct go; lia]].
    + unfold outr. cbn [so_valid so_beat so_wr so_rdp so_half so_mem]. split; [exists a; auto|]. split; [exact HP'|]. split; [exact Hr|]. split; [destruct go; lia | intros Q; apply HALF in Q; destruct go; lia].
    + cbn [app].
      destruct (so_valid o) eqn:V.
      * unfold pop in EP. cbn [negb orb] in EP. apply andb_true_iff in EP. destruct EP as [_ ->]. cbn [andb]. reflexivity.
      * cbn [andb app]. rewrite HO. reflexivity.
  - cbn [app] in HF2. exists (if so_valid o && negb (si_tready i) then O else []), (F ++ (if go then [it] else [])). split; [|split; [|cbn [so_half]; intros Q; apply HALF2 in Q; destruct F; [cbn [length] in Q; lia | discriminate]]].
    + unfold outr. cbn [so_valid so_beat so_wr so_rdp so_half so_mem orb]. split; [|split; [exact HP'|]; split; [exact HF2|]].
      * destruct (so_valid o) eqn:V; cbn [andb]; [|reflexivity]. destruct (si_tready i); cbn [negb]; [reflexivity | exact HO].
      * rewrite app_length. split; [destruct go; cbn [length]; [specialize (GL eq_refl); lia | lia]|]. intros Q. apply HALF in Q. destruct go; cbn [length]; lia.
    + destruct (so_valid o) eqn:V; cbn [andb].
      * destruct (si_tready i); cbn [negb app]; reflexivity.
      * cbn [app]. rewrite HO. reflexivity.
Qed.

(** The output side. *)
Lemma ax_ok s i C D AD CD : axr (ss_ax s) C AD -> cmr (ss_cmd s) D CD -> si_rst i = false ->
  exists SD' C' AD', axr (src_ax_step p s i) C' AD' /\ str (src_ax_step p s i) SD' /\
    (src_go s i = false -> C ++ D = C' ++ (if src_load s then [] else D) /\ SD' = []) /\
    (src_go s i = true -> exists d k, desc_ok p d /\ 0 <= k < nb d /\ src_load s = false /\ C = (d, k) :: C' /\ sa_read (ss_ax s) = true /\ sa_mask (ss_ax s) = cl_mask p (addr_of d k)) /\
    AD ++ CD = SD' ++ AD' ++ (if src_load s then [] else CD) /\
    (src_load s = true -> C' = D /\ C = [] /\ src_go s i = false /\ AD' = CD /\ AD = [] /\ SD' = []) /\ (src_go s i = false -> src_load s = false -> C' = C /\ AD' = AD).
Proof.
  intros HA HC NR. unfold src_ax_step. rewrite NR. cbn [negb andb]. unfold axr in HA. destruct (sa_read (ss_ax s)) eqn:SR.
  - destruct HA as [d [k [DK [LK [-> [-> [EA [EM [EO [EC [EL [EME ES]]]]]]]]]]]]. unfold src_load. rewrite SR. cbn [negb andb].
    destruct (src_go s i) eqn:G.
    + pose proof (nb_ok d DK) as NP. pose proof DK as [DA DL]. destruct (Z.eq_dec (nb d - 1 - k) 0) as [Q|Q].
      * exists [d], [], []. unfold axr, str. cbn [sa_read sa_status sa_meta]. rewrite EL, Q. cbn [Z.eqb negb].
        split; [split; reflexivity|]. split; [exists d; rewrite EME; auto|]. split; [discriminate|]. split.
        -- intros _. exists d, k. split; [exact DK|]. split; [lia|]. split; [reflexivity|]. split; [|split; [reflexivity | exact EM]]. rewrite rem_cons by lia. rewrite rem_nil by lia. reflexivity.
        -- split; [reflexivity|]. split; discriminate.
      * assert (C1 : (sa_cnt (ss_ax s) - 1) mod 2 ^ cl_ccw p = nb d - 1 - (k + 1)).
        { rewrite EC. rewrite Z.mod_small; [lia|]. pose proof (nb_ccw _ DL) as W. pose proof ccw_pos. fold (nb d) in W. replace (cl_ccw p) with (cl_ccw p - 1 + 1) by lia. rewrite Z.pow_add_r by lia. lia. }
        exists [], (rem d (k + 1) (Z.to_nat (nb d - (k + 1)))), [d]. unfold axr, str. cbn [sa_read sa_status sa_meta sa_addr sa_mask sa_off sa_cnt sa_lastc]. rewrite EL. rewrite (proj2 (Z.eqb_neq _ _) Q). cbn [negb].
        split; [|split; [reflexivity|]; split; [discriminate|]; split].
        -- exists d, (k + 1). rewrite C1, EA, EO, EME, int_K, addr_next. split; [exact DK|]. split; [lia|]. repeat (split; [reflexivity|]). reflexivity.
        -- intros _. exists d, k. split; [exact DK|]. split; [lia|]. split; [reflexivity|]. split; [apply rem_cons; lia | split; [reflexivity | exact EM]].
        -- split; [reflexivity|]. split; discriminate.
    + exists [], (rem d k (Z.to_nat (nb d - k))), [d]. unfold axr, str. cbn [sa_read sa_status sa_meta sa_addr sa_mask sa_off sa_cnt sa_lastc].
      split; [exists d, k; repeat (split; [assumption || reflexivity|]); reflexivity|]. split; [reflexivity|]. split; [auto|]. split; [discriminate|]. split; [reflexivity|]. split; [discriminate | auto].
  - destruct HA as [-> ->]. assert (G : src_go s i = false) by (unfold src_go; now rewrite SR). rewrite G. unfold src_load. rewrite SR. cbn [negb andb]. unfold cmr in HC. destruct (sc_valid (ss_cmd s)) eqn:CV.
    + destruct HC as [d [DK [-> [-> [EA [EO [EC EM]]]]]]]. pose proof (nb_ok d DK) as NP. exists [], (all d), [d]. unfold axr, str. cbn [sa_read sa_status sa_meta sa_addr sa_mask sa_off sa_cnt sa_lastc].
      split; [|split; [reflexivity|]; split; [intros _; cbn [app]; now rewrite app_nil_r|]; split; [discriminate|]; split; [reflexivity|]; split; [auto 10 | discriminate]].
      exists d, 0. rewrite EA, EO, EC, EM. split; [exact DK|]. split; [lia|]. split; [apply all_eq|]. repeat (split; [reflexivity || lia|]). reflexivity.
    + destruct HC as [-> ->]. exists [], [], []. unfold axr, str. cbn [sa_read sa_status app].
      split; [auto|]. split; [reflexivity|]. split; [auto|]. split; [discriminate|]. split; [reflexivity|]. split; [discriminate | auto].
Qed.

(** The beat made from the answers. *)
Lemma go_beat s i C AD q P R D d k C' (e := src_event p s i) : axr (ss_ax s) C AD -> src_go s i = true -> C = (d, k) :: C' -> desc_ok p d -> 0 <= k < nb d ->
  sa_mask (ss_ax s) = cl_mask p (addr_of d k) -> C ++ D = P ++ R -> queues q (ss_rd s) P -> ram_answers p mem q e ->
  exists P', P = (d, k) :: P' /\ beat_ok (d, k) (src_beat p s i) /\
    (forall n, 0 <= n -> uses (addr_of d k) n = true -> Z.testbit (si_rvalid i) n = true /\ exists r, q n = addr_of d k / B :: r).
Proof.
  intros HA G EC DK LK EM CP HQ RA. pose proof DK as [DA DL]. pose proof (addr_of_ok d k DA) as BA. pose proof pos_K as PK. pose proof pos_E as PE.
  assert (RV : forall n, 0 <= n -> uses (addr_of d k) n = true -> Z.testbit (si_rvalid i) n = true).
  { intros n N U. unfold src_go in G. apply andb_true_iff in G. destruct G as [_ G]. apply andb_true_iff in G. destruct G as [G _]. apply Z.eqb_eq in G.
    apply (f_equal (fun z => Z.testbit z n)) in G. rewrite Z.land_spec, Z.lnot_spec, Z.bits_0 in G by lia. rewrite EM in G. rewrite mask_uses in G by assumption. rewrite U in G.
    cbn [andb] in G. now apply negb_false_iff in G. }
  assert (U0 : uses (addr_of d k) ((xof (addr_of d k) + 0) / E) = true) by (apply uses_word; [exact BA | lia]).
  pose proof (uses_lim _ _ BA U0) as L0.
  destruct P as [|it P'].
  - exfalso. destruct (RA _ L0 (RV _ (proj1 L0) U0)) as [A [r [Q _]]]. specialize (HQ _ (proj1 L0)). rewrite Q in HQ. discriminate.
  - rewrite EC in CP. cbn [app] in CP. injection CP as <- _. exists P'. split; [reflexivity|].
    assert (QH : forall n, 0 <= n < cl_segs p -> uses (addr_of d k) n = true -> exists r, q n = addr_of d k / B :: r /\ forall l, 0 <= l < E -> psel (si_rdata i) ((n * E + l) * cl_ws p) (cl_ws p) = mem (seg_word p n (addr_of d k / B) l)).
    { intros n N U. destruct (RA n N (RV n ltac:(lia) U)) as [A [r [Q W]]]. specialize (HQ n ltac:(lia)). rewrite Q in HQ. cbn [filter] in HQ. unfold iaddr in HQ at 2. cbn [fst snd] in HQ. rewrite U in HQ. cbn [map app] in HQ. injection HQ as HQ _. unfold iaddr in HQ. cbn [fst snd] in HQ.
      exists r. rewrite HQ in *. split; [exact Q|]. intros l Ll. rewrite <- Hb. apply W. rewrite Hb. exact Ll. }
    split.
    + unfold axr in HA. destruct (sa_read (ss_ax s)) eqn:SR; [|destruct HA as [HA _]; rewrite EC in HA; discriminate].
      destruct HA as [d' [k' [_ [LK' [EC' [_ [EA [_ [EO [ECN [EL [EME _]]]]]]]]]]]]. rewrite EC in EC'. rewrite rem_cons in EC' by lia. injection EC' as <- <- _.
      unfold beat_ok, beat_is, src_show, src_beat. cbn [fst snd bt_data bt_keep bt_last bt_id bt_dest bt_user]. rewrite EME, EL, EO, EA, !int_K.
      pose proof (Z.mod_pos_bound (de_len d) K ltac:(lia)) as MB. pose proof (nb_lim (de_len d)) as NL. fold (nb d) in NL.
      rewrite Hk. split; [|split; [|split; [|split; [|split; [|split]]]]].
      * intros j J PJ. rewrite data_word by (assumption || lia). rewrite block_addr by (assumption || lia).
        pose proof (x_lim _ BA) as [X1 X2]. set (w := xof (addr_of d k) + j) in *. pose proof (uses_word _ j BA J) as U. fold w in U. pose proof (uses_lim _ _ BA U) as L.
        destruct (QH _ L U) as [r [_ W]]. specialize (W (w mod E) ltac:(apply Z.mod_pos_bound; lia)). pose proof (Z.div_mod w E ltac:(lia)) as DM.
        replace (w / E * E + w mod E) with w in W by lia. rewrite W. rewrite seg_word_at by (assumption || lia). unfold w. rewrite (a_x (addr_of d k)) at 3. f_equal. lia.
      * destruct (cl_ken p) eqn:KE.
        -- assert (KW : cl_kw p = K) by (rewrite <- Hk; unfold beat_words; now rewrite KE). rewrite KW. apply keep_range. lia.
        -- rewrite Z.ones_equiv. pose proof (Z.pow_pos_nonneg 2 (cl_kw p)). lia.
      * intros j J. unfold bit. destruct (cl_ken p) eqn:KE; [|rewrite ones_bit by lia; apply Z.ltb_lt; lia].
        assert (KW : cl_kw p = K) by (rewrite <- Hk; unfold beat_words; now rewrite KE). rewrite KW in J. destruct (nb d - 1 - k =? 0) eqn:Q.
        -- apply Z.eqb_eq in Q. cbn [andb]. rewrite keep_last by lia. fold (nb d). replace (nb d - 1) with k by lia. reflexivity.
        -- apply Z.eqb_neq in Q. cbn [andb]. rewrite ones_bit by lia. destruct (j <? K) eqn:Q1; [|lia]. symmetry. apply Z.ltb_lt. nia.
      * destruct (cl_last p); [|reflexivity]. destruct (nb d - 1 - k =? 0) eqn:Q; symmetry.
        -- apply Z.eqb_eq in Q. apply Z.leb_le. nia.
        -- apply Z.eqb_neq in Q. apply Z.leb_gt. nia.
      * reflexivity.
      * reflexivity.
      * reflexivity.
    + intros n N U. split; [apply RV; assumption|]. destruct (QH n (uses_lim _ _ BA U) U) as [r [Q _]]. exists r. exact Q.
Qed.

(** The monitor. *)
Lemma flat_new q pos d : (q = [] -> pos = 0) -> flat (q ++ [d]) pos = flat q pos ++ all d.
Proof.
  intros H. destruct q as [|x r]; cbn [app flat].
  - rewrite (H eq_refl). pose proof pos_K. rewrite Z.div_0_l by lia. cbn [flat_map]. rewrite app_nil_r. symmetry. apply all_eq.
  - rewrite flat_map_app. cbn [flat_map]. rewrite app_nil_r. now rewrite app_assoc.
Qed.
Lemma flat_head m it l : mon_ok m -> flat (sm_q m) (sm_pos m) = it :: l -> exists r, sm_q m = fst it :: r /\ sm_pos m = snd it * K /\ desc_ok p (fst it) /\ 0 <= snd it < nb (fst it).
Proof.
  intros [MD MP] FL. destruct (sm_q m) as [|d r] eqn:Q; [discriminate|]. destruct MP as [k [PK LK]]. cbn [flat] in FL. pose proof pos_K. rewrite PK, Z.div_mul in FL by lia. rewrite rem_cons in FL by lia.
  cbn [app] in FL. injection FL as <- _. cbn [fst snd]. exists r. split; [reflexivity|]. split; [exact PK|]. split; [apply MD; left; reflexivity | exact LK].
Qed.
Lemma mon_step m e O l : mon_ok m -> flat (sm_q m) (sm_pos m) = (if se_tvalid e && si_tready (se_in e) then O else []) ++ l -> (se_tvalid e = true -> exists it, O = [it]) ->
  (se_ready e && si_valid (se_in e) = true -> desc_ok p (si_desc (se_in e))) -> si_rst (se_in e) = false ->
  mon_ok (src_next p m e) /\ flat (sm_q (src_next p m e)) (sm_pos (src_next p m e)) = l ++ (if se_ready e && si_valid (se_in e) then all (si_desc (se_in e)) else [])
  /\ sm_st (src_next p m e) = sm_left m e ++ (if se_ready e && si_valid (se_in e) then [si_desc (se_in e)] else []).
Proof.
  intros MO FL OV DN NR. unfold src_next. rewrite NR. pose proof pos_K as PK.
  assert (G : exists q pos, (if se_tvalid e && si_tready (se_in e) then match sm_q m with d :: r => if de_len d <=? sm_pos m + beat_words p then (r, 0) else (sm_q m, sm_pos m + beat_words p) | [] => ([], 0) end else (sm_q m, sm_pos m)) = (q, pos)
     /\ flat q pos = l /\ (forall d, In d q -> desc_ok p d) /\ match q with [] => pos = 0 | d :: _ => exists k, pos = k * K /\ 0 <= k < nb d end).
  { destruct (se_tvalid e) eqn:TV; cbn [andb] in *; [|exists (sm_q m), (sm_pos m); destruct MO; auto]. destruct (si_tready (se_in e)); [|exists (sm_q m), (sm_pos m); destruct MO; auto].
    destruct (OV eq_refl) as [it ->]. destruct (flat_head m it l MO FL) as [r [Q [PO [DO LK]]]]. destruct MO as [MD MP]. rewrite Q in *. rewrite Hk. destruct it as [d k]. cbn [fst snd] in *.
    cbn [flat] in FL. rewrite PO in FL |- *. rewrite Z.div_mul in FL by lia. rewrite rem_cons in FL by lia. cbn [app] in FL. injection FL as FL. pose proof (nb_lim (de_len d)) as NL. fold (nb d) in NL.
    destruct (de_len d <=? k * K + K) eqn:L.
    - apply Z.leb_le in L. exists r, 0. split; [reflexivity|]. assert (k = nb d - 1) by nia. rewrite rem_nil in FL by lia. cbn [app] in FL.
      assert (MR : forall x, In x r -> desc_ok p x) by (intros x X; apply MD; right; exact X).
      split; [|split; [exact MR|]].
      + destruct r as [|x r]; [exact FL|]. cbn [flat flat_map] in *. rewrite Z.div_0_l by lia. rewrite <- all_eq. exact FL.
      + destruct r as [|x r]; [reflexivity|]. exists 0. split; [reflexivity|]. pose proof (nb_ok x (MR x (or_introl eq_refl))). lia.
    - apply Z.leb_gt in L. exists (d :: r), (k * K + K). split; [reflexivity|]. split; [|split; [exact MD|]].
      + cbn [flat]. replace (k * K + K) with ((k + 1) * K) by ring. rewrite Z.div_mul by lia. exact FL.
      + exists (k + 1). split; [ring|]. nia. }
  destruct G as [q [pos [-> [GF [GD GM]]]]]. cbn [sm_q sm_pos sm_st]. split; [|split; [|reflexivity]].
  - destruct (se_ready e && si_valid (se_in e)) eqn:N.
    + specialize (DN eq_refl). split; cbn [sm_q sm_pos].
      * intros d H. apply in_app_or in H. destruct H as [H|[<-|[]]]; [apply GD; exact H | exact DN].
      * destruct q as [|x r]; cbn [app]; [|exact GM]. exists 0. split; [lia|]. pose proof (nb_ok _ DN). lia.
    + rewrite app_nil_r. split; assumption.
  - destruct (se_ready e && si_valid (se_in e)) eqn:N.
    + rewrite flat_new; [now rewrite GF|]. intros ->. exact GM.
    + rewrite !app_nil_r. exact GF.
Qed.

(** The pieces in the lists. *)
Lemma ax_in a C AD it : axr a C AD -> In it C -> In (fst it) AD /\ desc_ok p (fst it) /\ 0 <= snd it < nb (fst it).
Proof.
  unfold axr. destruct (sa_read a); [|intros [-> _] []]. intros [d [k [DK [LK [-> [-> _]]]]]] H. apply rem_in in H. destruct H as [-> H]. split; [left; reflexivity|]. split; [exact DK | lia].
Qed.
Lemma cm_in c D CD it : cmr c D CD -> In it D -> In (fst it) CD /\ desc_ok p (fst it) /\ 0 <= snd it < nb (fst it).
Proof.
  unfold cmr. destruct (sc_valid c); [|intros [-> _] []]. intros [d [DK [-> [-> _]]]] H. apply rem_in in H. destruct H as [-> H]. split; [left; reflexivity|]. pose proof (nb_ok d DK). split; [exact DK | lia].
Qed.
Lemma item_read it n : desc_ok p (fst it) -> 0 <= snd it < nb (fst it) -> 0 <= n -> uses (iaddr it) n = true -> read_for p n (iaddr it / B) (fst it).
Proof.
  intros [DA DL] LK N U. destruct it as [d k]. cbn [fst snd] in *. unfold iaddr in *. cbn [fst snd] in *. pose proof (addr_of_ok d k DA) as BA. destruct (word_uses _ _ BA U) as [j [J W]].
  pose proof (x_lim _ BA) as [X1 X2]. pose proof pos_K. pose proof pos_E. exists (k * K + j), ((xof (addr_of d k) + j) mod E). rewrite Hk, Hb. fold (nbeats (de_len d)). fold (nb d).
  split; [nia|]. split; [apply Z.mod_pos_bound; lia|]. rewrite block_addr by assumption. rewrite <- W. rewrite seg_word_at by (assumption || lia). rewrite (a_x (addr_of d k)) at 1. lia.
Qed.

Lemma inv_shows s q m O F C D P R SD AD CD i (e := src_event p s i) : inv s q m O F C D P R SD AD CD -> ram_answers p mem q e -> src_shows p mem q m e.
Proof.
  intros I RA. destruct I as [IF IM IO IA IC IR IP IQ IRY ISR IST ICV IH].
  assert (SL : sm_left m e = AD ++ CD).
  { unfold sm_left, e. cbn [src_event se_status]. unfold str in ISR. rewrite IST. destruct (sa_status (ss_ax s)); [destruct ISR as [d [-> _]]; reflexivity | rewrite ISR; reflexivity]. }
  assert (RD : forall n A, 0 <= n < cl_segs p -> In A (q n ++ (if Z.testbit (sr_cvalid (ss_rd s)) n then [sr_caddr (ss_rd s) n] else [])) -> exists d, In d (sm_left m e) /\ read_for p n A d).
  { intros n A N H. rewrite (IQ n ltac:(lia)) in H. apply in_map_iff in H. destruct H as [it [<- H]]. apply filter_In in H. destruct H as [H U]. exists (fst it). rewrite SL.
    assert (HI : In it (C ++ D)) by (rewrite IP; apply in_or_app; left; exact H). apply in_app_or in HI.
    destruct HI as [HI|HI]; [destruct (ax_in _ _ _ it IA HI) as [G1 [G2 G3]] | destruct (cm_in _ _ _ it IC HI) as [G1 [G2 G3]]]; (split; [apply in_or_app; auto | apply item_read; (assumption || lia)]). }
  unfold src_shows. split; [|split; [|split; [exact ICV|]; split; [|split]]].
  - cbn [e src_event se_tvalid se_beat]. intros TV. destruct IO as [IO _]. rewrite TV in IO. destruct IO as [it [-> BO]]. destruct (flat_head m it _ IM IF) as [r [Q [PO _]]]. exists (fst it), r. split; [exact Q|]. rewrite PO. exact BO.
  - cbn [e src_event se_status se_tag]. intros ST. unfold str in ISR. rewrite ST in ISR. destruct ISR as [d [-> TG]]. exists d, (AD ++ CD). split; [exact IST | exact TG].
  - intros n N H. apply RD; [exact N|]. apply in_or_app. right. unfold bit, e in H. cbn [src_event se_cvalid] in H. rewrite H. left. reflexivity.
  - intros n A N H. apply RD; [exact N|]. apply in_or_app. left. exact H.
  - intros n H. unfold bit, e in *. cbn [src_event se_rready se_in] in *. destruct (src_go s i) eqn:G; [|rewrite Z.bits_0 in H; discriminate].
    unfold axr in IA. pose proof G as G'. unfold src_go in G'. apply andb_true_iff in G'. destruct G' as [SR G']. rewrite SR in IA. destruct IA as [d [k [DK [LK [_ [_ [_ [EM _]]]]]]]].
    apply andb_true_iff in G'. destruct G' as [G1 _]. apply Z.eqb_eq in G1. assert (N0 : 0 <= n) by (destruct (Z_lt_dec n 0); [rewrite Z.testbit_neg_r in H by lia; discriminate | lia]).
    split.
    + rewrite EM in H. rewrite mask_uses in H by (try lia; apply addr_of_ok; apply DK). apply (uses_lim (addr_of d k)); [apply addr_of_ok, DK | exact H].
    + apply (f_equal (fun z => Z.testbit z n)) in G1. rewrite Z.land_spec, Z.lnot_spec, Z.bits_0, H in G1 by lia. cbn [andb] in G1. now apply negb_false_iff in G1.
Qed.

(** One clock. *)
Lemma testbit_low v w n : 0 <= w -> 0 <= v < 2 ^ w -> w <= n -> Z.testbit v n = false.
Proof. intros W V N. rewrite <- (Z.mod_small v (2 ^ w)) by lia. apply Z.mod_pow2_bits_high. lia. Qed.
Lemma lor_range a b w : 0 <= w -> 0 <= a < 2 ^ w -> 0 <= b < 2 ^ w -> 0 <= Z.lor a b < 2 ^ w.
Proof.
  intros W A Bq. replace (Z.lor a b) with (Z.lor a b mod 2 ^ w); [apply Z.mod_pos_bound, Z.pow_pos_nonneg; lia|]. apply Z.bits_inj'. intros n N.
  destruct (Z.lt_ge_cases n w); [now rewrite Z.mod_pow2_bits_low by lia | rewrite Z.mod_pow2_bits_high, Z.lor_spec by lia; now rewrite (testbit_low a w n), (testbit_low b w n) by lia].
Qed.
Lemma ldiff_range a b w : 0 <= w -> 0 <= a < 2 ^ w -> 0 <= Z.land a (Z.lnot b) < 2 ^ w.
Proof.
  intros W A. replace (Z.land a (Z.lnot b)) with (Z.land a (Z.lnot b) mod 2 ^ w); [apply Z.mod_pos_bound, Z.pow_pos_nonneg; lia|]. apply Z.bits_inj'. intros n N.
  destruct (Z.lt_ge_cases n w); [now rewrite Z.mod_pow2_bits_low by lia | rewrite Z.mod_pow2_bits_high, Z.land_spec by lia; now rewrite (testbit_low a w n) by lia].
Qed.

Lemma step_ok s q m O F C D P R SD AD CD i (e := src_event p s i) : inv s q m O F C D P R SD AD CD -> ram_answers p mem q e ->
  (se_ready e && si_valid (se_in e) = true -> desc_ok p (si_desc (se_in e))) -> si_rst i = false ->
  exists O' F' C' D' P' R' SD' AD' CD', inv (src_step p s i) (ram_next q e) (src_next p m e) O' F' C' D' P' R' SD' AD' CD'.
Proof.
  intros I RA DN NR. destruct I as [IF IM IO IA IC IR IP IQ IRY ISR IST ICV IH].
  assert (PS : 0 < cl_segs p) by (rewrite Hs; apply Z.pow_pos_nonneg; lia).
  assert (TK : src_take s i = (se_ready e && si_valid (se_in e))).
  { unfold src_take, e. cbn [src_event se_ready se_in]. destruct (sr_ready (ss_rd s)) eqn:RY; cbn [andb]; [|apply Bool.andb_false_r]. destruct (IRY eq_refl) as [-> _]. reflexivity. }
  set (new := si_desc i). assert (DN' : src_take s i = true -> desc_ok p new) by (rewrite TK; exact DN).
  assert (TF : src_take s i = true -> sr_read (ss_rd s) = false /\ sc_valid (ss_cmd s) = false /\ D = [] /\ CD = [] /\ R = [] /\ src_load s = false /\ src_issue s i = false).
  { unfold src_take. intros T. apply andb_true_iff in T. destruct T as [T1 T2]. apply andb_true_iff in T2. destruct T2 as [T2 _]. destruct (IRY T2) as [Q1 Q2].
    unfold cmr in IC. rewrite Q2 in IC. destruct IC as [-> ->]. unfold rdr in IR. rewrite Q1 in IR. unfold src_load, src_issue. rewrite Q1, Q2. rewrite Bool.andb_false_r. auto 10. }
  destruct (ax_ok s i C D AD CD IA IC NR) as [SD' [C' [AD' [HA' [HS' [HNG [HG [HAD [HLD HST]]]]]]]]].
  (* the beat taken from the RAM *)
  assert (GO : exists it Pa, (src_go s i = true -> beat_ok it (src_beat p s i)) /\ P = (if src_go s i then [it] else []) ++ Pa /\ C ++ D = (if src_go s i then [it] else []) ++ C' ++ (if src_load s then [] else D)
     /\ queues (fun n => if bit (si_rvalid i) n && bit (se_rready e) n then tl (q n) else q n) (ss_rd s) Pa).
  { destruct (src_go s i) eqn:G.
    - destruct (HG eq_refl) as [d [k [DK [LK [NL [EC [SR EM]]]]]]]. destruct (go_beat s i C AD q P R D d k C' IA G EC DK LK EM IP IQ RA) as [Pa [EP [BO QH]]].
      exists (d, k), Pa. split; [intros _; exact BO|]. split; [exact EP|]. split; [rewrite NL, EC; reflexivity|].
      intros n N. cbn beta. specialize (IQ n N). rewrite EP in IQ. cbn [filter] in IQ. unfold iaddr in IQ at 2. cbn [fst snd] in IQ. unfold e. cbn [src_event se_rready]. rewrite G, EM. unfold bit. rewrite mask_uses by (try lia; apply addr_of_ok, DK).
      destruct (uses (addr_of d k) n) eqn:U.
      + destruct (QH n N U) as [-> [r QN]]. cbn [andb]. rewrite QN in *. cbn [tl]. cbn [map app] in IQ. injection IQ as IQ. exact IQ.
      + rewrite Bool.andb_false_r. exact IQ.
    - destruct (HNG eq_refl) as [E0 _]. exists (new, 0), P. split; [discriminate|]. split; [reflexivity|]. split; [exact E0|].
      intros n N. cbn beta. unfold e. cbn [src_event se_rready]. rewrite G. unfold bit. rewrite Z.bits_0, Bool.andb_false_r. apply IQ. exact N. }
  destruct GO as [it [Pa [BO [EP [ECD QA]]]]].
  destruct (out_ok s i O F it IO NR BO) as [O' [F' [HO' [EO HH']]]].
  (* the monitor *)
  assert (FL : flat (sm_q m) (sm_pos m) = (if se_tvalid e && si_tready (se_in e) then O else []) ++ O' ++ F' ++ C' ++ (if src_load s then [] else D)).
  { rewrite IF, ECD. unfold e. cbn [src_event se_tvalid se_in]. transitivity (((if so_valid (ss_out s) && si_tready i then O else []) ++ O' ++ F') ++ C' ++ (if src_load s then [] else D)).
    - rewrite EO. now rewrite <- !app_assoc.
    - now rewrite <- !app_assoc. }
  destruct (mon_step m e O _ IM FL) as [MM [MF MS]]; [| exact DN | exact NR |].
  { intros TV. destruct IO as [IO _]. unfold e in TV. cbn [src_event se_tvalid] in TV. rewrite TV in IO. destruct IO as [x [-> _]]. eauto. }
  rewrite <- TK in MF, MS. change (si_desc (se_in e)) with new in MF, MS.
  set (D' := if src_take s i then all new else if src_load s then [] else D). set (CD' := if src_take s i then [new] else if src_load s then [] else CD).
  (* the reading side *)
  assert (RR : exists R' Pb, rdr (src_rd_step p s i) R' /\ C' ++ D' = Pb ++ R' /\ queues (ram_next q e) (src_rd_step p s i) Pb /\ 0 <= sr_cvalid (src_rd_step p s i) < 2 ^ cl_segs p).
  { assert (QB : queues (ram_next q e) (mkSr false 0 0 0 false (sr_caddr (ss_rd s)) (Z.land (sr_cvalid (ss_rd s)) (Z.lnot (si_cready i)))) Pa).
    { intros n N. specialize (QA n N). cbn beta in QA. cbn [sr_caddr sr_cvalid]. rewrite <- QA. unfold ram_next. change (se_in e) with i. rewrite NR. rewrite <- app_assoc. f_equal.
      unfold e. cbn [src_event se_cvalid se_caddr]. unfold bit. rewrite Z.land_spec, Z.lnot_spec by lia. destruct (Z.testbit (sr_cvalid (ss_rd s)) n), (Z.testbit (si_cready i) n); reflexivity. }
    assert (CPR : C' ++ (if src_load s then [] else D) = Pa ++ R).
    { assert (X : (if src_go s i then [it] else []) ++ C' ++ (if src_load s then [] else D) = (if src_go s i then [it] else []) ++ Pa ++ R) by (rewrite <- ECD, IP, EP; now rewrite <- app_assoc). apply app_inv_head in X. exact X. }
    unfold src_rd_step. rewrite NR. cbn [negb andb]. pose proof (ldiff_range _ (si_cready i) (cl_segs p) ltac:(lia) ICV) as LR.
    destruct (sr_read (ss_rd s)) eqn:SR.
    - assert (NT : src_take s i = false) by (unfold src_take; now rewrite SR). unfold D'. rewrite NT. unfold rdr in IR. rewrite SR in IR. destruct IR as [d [k [DK [LK [ER [EA [EM EC]]]]]]].
      pose proof DK as [DA DL]. pose proof (addr_of_ok d k DA) as BA.
      destruct (src_issue s i) eqn:IS; cbn [andb].
      + exists (rem d (k + 1) (Z.to_nat (nb d - (k + 1)))), (Pa ++ [(d, k)]). split; [|split; [|split]].
        * unfold rdr. cbn [sr_read sr_addr sr_mask sr_cnt]. rewrite EC. destruct (nb d - 1 - k =? 0) eqn:Z0; cbn [negb].
          -- apply Z.eqb_eq in Z0. apply rem_nil. lia.
          -- apply Z.eqb_neq in Z0. exists d, (k + 1). rewrite EA, int_K, addr_next. split; [exact DK|]. split; [lia|]. split; [reflexivity|]. split; [reflexivity|]. split; [reflexivity|].
             rewrite Z.mod_small; [lia|]. pose proof (nb_ccw _ DL) as W. pose proof ccw_pos. fold (nb d) in W. replace (cl_ccw p) with (cl_ccw p - 1 + 1) by lia. rewrite Z.pow_add_r by lia. lia.
        * rewrite CPR, ER. rewrite rem_cons by lia. rewrite <- app_assoc. reflexivity.
        * intros n N. specialize (QB n N). cbn [sr_caddr sr_cvalid] in QB |- *. rewrite filter_app, map_app. rewrite <- QB. cbn [filter]. change (iaddr (d, k)) with (addr_of d k). rewrite Z.lor_spec. rewrite EM, mask_uses by assumption. cbn [andb].
          destruct (uses (addr_of d k) n) eqn:U.
          -- assert (CZ : Z.testbit (Z.land (sr_cvalid (ss_rd s)) (Z.lnot (si_cready i))) n = false).
             { unfold src_issue in IS. apply andb_true_iff in IS. destruct IS as [_ IS]. apply Z.eqb_eq in IS. apply (f_equal (fun z => Z.testbit z n)) in IS. rewrite Z.land_spec, Z.bits_0, EM, mask_uses, U in IS by assumption. now rewrite Bool.andb_true_r in IS. }
             rewrite CZ. cbn [orb map]. rewrite app_nil_r. rewrite EA, seg_addr by exact BA. reflexivity.
          -- rewrite Bool.orb_false_r. cbn [map]. now rewrite app_nil_r.
        * cbn [sr_cvalid]. apply lor_range; [lia | exact LR|]. rewrite EM. apply mask_range. exact BA.
      + exists R, Pa. split; [|split; [exact CPR|]; split; [intros n N; apply (QB n N) | exact LR]].
        unfold rdr. cbn [sr_read sr_addr sr_mask sr_cnt]. cbn [negb]. exists d, k. auto 10.
    - assert (NI : src_issue s i = false) by (unfold src_issue; now rewrite SR). rewrite NI. cbn [andb]. unfold rdr in IR. rewrite SR in IR. rewrite IR, app_nil_r in CPR. unfold D'. destruct (src_take s i) eqn:T.
      + destruct (TF eq_refl) as [_ [_ [ED [_ [_ [NL _]]]]]]. rewrite NL, ED, app_nil_r in CPR. pose proof (DN' eq_refl) as DK. pose proof DK as [DA DL]. pose proof (nb_ok new DK) as NP.
        exists (all new), Pa. split; [|split; [now rewrite CPR|]; split; [intros n N; apply (QB n N) | exact LR]].
        unfold rdr. cbn [sr_read sr_addr sr_mask sr_cnt]. exists new, 0. fold new. rewrite addr_first by exact DA. rewrite cycles_nb by exact DL. split; [exact DK|]. split; [lia|]. split; [apply all_eq|]. split; [reflexivity|]. split; [reflexivity|]. unfold nb. lia.
      + exists [], Pa. split; [reflexivity|]. split; [now rewrite CPR, app_nil_r|]. split; [intros n N; apply (QB n N) | exact LR]. }
  destruct RR as [R' [Pb [HR' [EPR [HQ' HCV']]]]].
  exists O', F', C', D', Pb, R', SD', AD', CD'. constructor; cbn [src_step ss_rd ss_cmd ss_ax ss_out].
  - rewrite MF. unfold D'. destruct (src_take s i) eqn:T.
    + destruct (TF eq_refl) as [_ [_ [ED [_ [_ [NL _]]]]]]. rewrite NL, ED. rewrite app_nil_r. now rewrite <- !app_assoc.
    + now rewrite app_nil_r.
  - exact MM.
  - exact HO'.
  - exact HA'.
  - unfold src_cmd_step. rewrite NR. cbn [negb andb]. unfold D', CD'. destruct (src_take s i) eqn:T.
    + pose proof (DN' eq_refl) as DK. pose proof DK as [DA DL]. unfold cmr. cbn [sc_valid sc_addr sc_off sc_cnt sc_meta]. fold new. exists new. split; [exact DK|]. split; [reflexivity|]. split; [reflexivity|].
      split; [apply addr_first; exact DA|]. split; [apply offset_mod; lia|]. split; [apply cycles_nb; exact DL | reflexivity].
    + unfold cmr in *. cbn [sc_valid sc_addr sc_off sc_cnt sc_meta]. destruct (sc_valid (ss_cmd s)) eqn:CV; cbn [andb].
      * destruct (src_load s); cbn [negb]; [split; reflexivity | exact IC].
      * destruct IC as [-> ->]. destruct (src_load s); split; reflexivity.
  - exact HR'.
  - exact EPR.
  - exact HQ'.
  - unfold src_rd_step, src_cmd_step. rewrite NR. cbn [negb andb sr_ready sr_read]. destruct (sr_read (ss_rd s)) eqn:SR.
    + assert (NT : src_take s i = false) by (unfold src_take; now rewrite SR). rewrite NT. cbn [sc_valid]. destruct (src_issue s i && (sr_cnt (ss_rd s) =? 0)); cbn [andb negb]; [|discriminate].
      destruct (sc_valid (ss_cmd s)); cbn [negb andb]; [discriminate|]. auto.
    + destruct (src_take s i) eqn:T; cbn [negb andb]; [discriminate|]. cbn [sc_valid]. destruct (sc_valid (ss_cmd s)); cbn [negb andb]; [discriminate|]. auto.
  - exact HS'.
  - rewrite MS. assert (SL : sm_left m e = AD ++ CD).
    { unfold sm_left, e. cbn [src_event se_status]. unfold str in ISR. rewrite IST. destruct (sa_status (ss_ax s)); [destruct ISR as [d [-> _]]; reflexivity | rewrite ISR; reflexivity]. }
    rewrite SL, HAD. unfold CD'. destruct (src_take s i) eqn:T.
    + destruct (TF eq_refl) as [_ [_ [_ [ED [_ [NL _]]]]]]. rewrite NL, ED, app_nil_r. now rewrite <- !app_assoc.
    + now rewrite app_nil_r.
  - exact HCV'.
  - intros Q. left. apply HH', Q.
Qed.

Lemma flat_nil : flat [] 0 = []. Proof. reflexivity. Qed.
Lemma empty_inv s q : sr_read (ss_rd s) = false -> sr_ready (ss_rd s) = false -> sr_cvalid (ss_rd s) = 0 -> sc_valid (ss_cmd s) = false -> sa_read (ss_ax s) = false -> sa_status (ss_ax s) = false ->
  so_valid (ss_out s) = false -> so_wr (ss_out s) = 0 -> so_rdp (ss_out s) = 0 -> (forall n, q n = []) -> inv s q sm0 [] [] [] [] [] [] [] [] [].
Proof.
  intros Q1 Q2 Q3 Q4 Q5 Q6 Q7 Q8 Q9 Q10. constructor; unfold mon_ok, outr, axr, cmr, rdr, str, queues; rewrite ?Q1, ?Q2, ?Q3, ?Q4, ?Q5, ?Q6, ?Q7, ?Q8, ?Q9; try reflexivity; try discriminate; auto.
  - split; [intros d [] | reflexivity].
  - split; [reflexivity|]. split; [apply ptr00|]. split; [constructor|]. cbn [length]. lia.
  - intros n _. rewrite Q10, Z.bits_0. reflexivity.
  - rewrite Hs. pose proof (Z.pow_pos_nonneg 2 (2 ^ e1)). pose proof (Z.pow_pos_nonneg 2 e1). lia.
Qed.
Lemma reset_ok s i q m : si_rst i = true -> inv (src_step p s i) (ram_next q (src_event p s i)) (src_next p m (src_event p s i)) [] [] [] [] [] [] [] [] [].
Proof.
  intros RS. assert (M0 : src_next p m (src_event p s i) = sm0) by (unfold src_next; cbn [src_event se_in]; now rewrite RS). rewrite M0.
  apply empty_inv; unfold src_step, src_rd_step, src_cmd_step, src_ax_step, src_out_step, ram_next; cbn [ss_rd ss_cmd ss_ax ss_out]; rewrite ?RS; cbn [sr_read sr_ready sr_cvalid so_valid so_wr so_rdp negb andb]; try reflexivity.
  - destruct (src_take s i); reflexivity.
  - destruct (sa_read (ss_ax s)); [destruct (src_go s i)|]; reflexivity.
  - destruct (sa_read (ss_ax s)); [destruct (src_go s i)|]; reflexivity.
  - intros n. cbn [src_event se_in]. now rewrite RS.
Qed.
Lemma follows_inv l : forall s q m O F C D P R SD AD CD, inv s q m O F C D P R SD AD CD -> src_follows p mem q m (src_trace p s l).
Proof.
  induction l as [|i l IH]; intros s q m O F C D P R SD AD CD I; [exact Logic.I|]. cbn [src_trace src_follows]. intros RA DN. split; [eapply inv_shows; eassumption|].
  destruct (si_rst i) eqn:RS.
  - eapply IH. apply reset_ok. exact RS.
  - destruct (step_ok _ _ _ _ _ _ _ _ _ _ _ _ i I RA DN RS) as [O' [F' [C' [D' [P' [R' [SD' [AD' [CD' I']]]]]]]]]. eapply IH. exact I'.
Qed.
Lemma inv0 : inv src0 (fun _ => []) sm0 [] [] [] [] [] [] [] [] [].
Proof. apply empty_inv; reflexivity. Qed.

(** * Progress *)
Definition segl : list Z := map Z.of_nat (seq 0 (Z.to_nat (cl_segs p))).
Lemma segl_in n : In n segl <-> 0 <= n < cl_segs p.
Proof.
  unfold segl. rewrite in_map_iff. split.
  - intros [k [<- H]]. apply in_seq in H. lia.
  - intros H. exists (Z.to_nat n). split; [lia|]. apply in_seq. lia.
Qed.
Definition pcs (v : Z) : Z := Z.of_nat (length (filter (fun n => Z.testbit v n) segl)).
Lemma filter_le {X} (f g : X -> bool) l : (forall x, In x l -> f x = true -> g x = true) -> (length (filter f l) <= length (filter g l))%nat.
Proof.
  induction l as [|x l IH]; intros H; [cbn; lia|]. cbn [filter]. assert (IH' := IH (fun y I => H y (or_intror I))). pose proof (H x (or_introl eq_refl)) as Hx.
  destruct (f x); [rewrite (Hx eq_refl) | destruct (g x)]; cbn [length]; lia.
Qed.
Lemma filter_all {X} (f : X -> bool) l : (length (filter f l) <= length l)%nat.
Proof. induction l as [|x l IH]; [cbn; lia|]. cbn [filter length]. destruct (f x); cbn [length]; lia. Qed.
Lemma pcs_lim v : 0 <= pcs v <= cl_segs p.
Proof.
  unfold pcs. pose proof (filter_all (fun n => Z.testbit v n) segl) as H. assert (length segl = Z.to_nat (cl_segs p)) as L by (unfold segl; now rewrite map_length, seq_length).
  assert (0 < cl_segs p) by (rewrite Hs; apply Z.pow_pos_nonneg; lia). lia.
Qed.
Lemma pcs_le v c : pcs (Z.land v (Z.lnot c)) <= pcs v.
Proof. unfold pcs. apply inj_le, filter_le. intros n _. rewrite Z.land_spec. destruct (Z.testbit v n); [reflexivity | discriminate]. Qed.
Lemma pcs_none v : (forall n, 0 <= n < cl_segs p -> Z.testbit v n = false) -> pcs v = 0.
Proof.
  intros H. unfold pcs. assert (G : forall l, (forall n, In n l -> Z.testbit v n = false) -> filter (fun n => Z.testbit v n) l = []).
  { induction l as [|x l IH]; intros Q; [reflexivity|]. cbn [filter]. rewrite (Q x (or_introl eq_refl)). apply IH. intros n I. apply Q. now right. }
  rewrite G; [reflexivity|]. intros n I. apply H, segl_in, I.
Qed.
Lemma pcs_zero v n : pcs v = 0 -> 0 <= n < cl_segs p -> Z.testbit v n = false.
Proof.
  intros H N. destruct (Z.testbit v n) eqn:T; [|reflexivity]. exfalso. unfold pcs in H. assert (I : In n (filter (fun n => Z.testbit v n) segl)) by (apply filter_In; split; [apply segl_in, N | exact T]).
  destruct (filter (fun n => Z.testbit v n) segl); [destruct I | cbn [length] in H; lia].
Qed.
Lemma rem_len d k c : length (rem d k c) = c.
Proof. revert k. induction c as [|c IH]; intros k; [reflexivity|]. cbn [rem length]. now rewrite IH. Qed.
Definition rlen (s : src_state) : Z := if sr_read (ss_rd s) then sr_cnt (ss_rd s) + 1 else 0.
Definition blen (s : src_state) : Z := (if sa_read (ss_ax s) then sa_cnt (ss_ax s) + 1 else 0) + (if sc_valid (ss_cmd s) then sc_cnt (ss_cmd s) + 1 else 0).
Definition flen (s : src_state) : Z := (so_wr (ss_out s) - so_rdp (ss_out s)) mod 64.
Definition olen (s : src_state) : Z := Z.b2z (so_valid (ss_out s)).
Definition mu (s : src_state) : Z := (cl_segs p + 1) * rlen s + pcs (sr_cvalid (ss_rd s)) + 3 * blen s + 2 * flen s + olen s + Z.b2z (sc_valid (ss_cmd s)).
Definition src_pop (s : src_state) (i : src_in) : bool := negb (ptr_empty (so_wr (ss_out s)) (so_rdp (ss_out s))) && (negb (so_valid (ss_out s)) || si_tready i).

Lemma lens s q m O F C D P R SD AD CD : inv s q m O F C D P R SD AD CD ->
  Z.of_nat (length R) = rlen s /\ Z.of_nat (length (C ++ D)) = blen s /\ Z.of_nat (length F) = flen s /\ Z.of_nat (length O) = olen s.
Proof.
  intros I. destruct I as [IF IM IO IA IC IR IP IQ IRY ISR IST ICV IH]. split; [|split; [|split]].
  - unfold rdr in IR. unfold rlen. destruct (sr_read (ss_rd s)); [|now rewrite IR]. destruct IR as [d [k [DK [LK [-> [_ [_ ->]]]]]]]. rewrite rem_len. lia.
  - rewrite app_length, Nat2Z.inj_add. unfold blen. f_equal.
    + unfold axr in IA. destruct (sa_read (ss_ax s)); [|destruct IA as [-> _]; reflexivity]. destruct IA as [d [k [DK [LK [-> [_ [_ [_ [_ [-> _]]]]]]]]]]. rewrite rem_len. lia.
    + unfold cmr in IC. destruct (sc_valid (ss_cmd s)); [|destruct IC as [-> _]; reflexivity]. destruct IC as [d [DK [-> [_ [_ [_ [-> _]]]]]]]. unfold all. rewrite rem_len. pose proof (nb_ok d DK). lia.
  - destruct IO as [_ [_ [HF _]]]. unfold flen. rewrite <- (ring_len _ (so_wr (ss_out s)) (so_rdp (ss_out s)) (so_mem (ss_out s))). now rewrite (F2_len _ _ _ HF).
  - destruct IO as [HO _]. unfold olen. destruct (so_valid (ss_out s)); [destruct HO as [it [-> _]]; reflexivity | now rewrite HO].
Qed.

(** Every move makes the rest smaller. *)
Lemma mu_step s q m O F C D P R SD AD CD i : inv s q m O F C D P R SD AD CD -> si_rst i = false -> src_take s i = false ->
  mu (src_step p s i) + Z.b2z (src_issue s i) + Z.b2z (src_go s i) + Z.b2z (src_load s) + Z.b2z (src_pop s i) + Z.b2z (so_valid (ss_out s) && si_tready i && negb (src_pop s i))
    + (if src_issue s i then 0 else pcs (sr_cvalid (ss_rd s)) - pcs (Z.land (sr_cvalid (ss_rd s)) (Z.lnot (si_cready i)))) <= mu s.
Proof.
  intros I NR NT. pose proof (lens _ _ _ _ _ _ _ _ _ _ _ _ I) as [LR [LB [LF LO]]]. destruct I as [IF IM IO IA IC IR IP IQ IRY ISR IST ICV IH].
  assert (PS : 0 < cl_segs p) by (rewrite Hs; apply Z.pow_pos_nonneg; lia).
  (* read *)
  assert (A1 : (cl_segs p + 1) * rlen (src_step p s i) + pcs (sr_cvalid (src_rd_step p s i)) + Z.b2z (src_issue s i) + (if src_issue s i then 0 else pcs (sr_cvalid (ss_rd s)) - pcs (Z.land (sr_cvalid (ss_rd s)) (Z.lnot (si_cready i)))) <= (cl_segs p + 1) * rlen s + pcs (sr_cvalid (ss_rd s))).
  { unfold rlen, src_step. cbn [ss_rd]. unfold src_rd_step. rewrite NR, NT. cbn [negb andb sr_read sr_cnt sr_cvalid]. unfold rdr in IR. pose proof (pcs_lim (sr_cvalid (ss_rd s))).
    destruct (src_issue s i) eqn:IS; cbn [andb negb Z.b2z].
    - unfold src_issue in IS. apply andb_true_iff in IS. destruct IS as [IS _]. rewrite IS in *. destruct IR as [d [k [DK [LK [_ [_ [_ EC]]]]]]]. pose proof (pcs_lim (Z.lor (Z.land (sr_cvalid (ss_rd s)) (Z.lnot (si_cready i))) (sr_mask (ss_rd s)))).
      destruct (sr_cnt (ss_rd s) =? 0) eqn:Z0; cbn [negb].
      + apply Z.eqb_eq in Z0. rewrite Z0. lia.
      + apply Z.eqb_neq in Z0. rewrite (Z.mod_small (sr_cnt (ss_rd s) - 1)); [lia|]. pose proof DK as [_ DL]. pose proof (nb_ccw _ DL) as W. pose proof ccw_pos. fold (nb d) in W. replace (cl_ccw p) with (cl_ccw p - 1 + 1) by lia. rewrite Z.pow_add_r by lia. lia.
    - destruct (sr_read (ss_rd s)); lia. }
  (* beats *)
  assert (A2 : blen (src_step p s i) + Z.b2z (src_go s i) = blen s /\ Z.b2z (sc_valid (src_cmd_step p s i)) + Z.b2z (src_load s) = Z.b2z (sc_valid (ss_cmd s))).
  { unfold blen, src_step. cbn [ss_ax ss_cmd]. unfold src_cmd_step. rewrite NT, NR. cbn [negb andb sc_valid sc_cnt]. unfold src_ax_step. rewrite NR. cbn [negb andb]. unfold axr in IA. destruct (sa_read (ss_ax s)) eqn:SR.
    - assert (NL : src_load s = false) by (unfold src_load; now rewrite SR). rewrite NL. cbn [negb Z.b2z]. rewrite Bool.andb_true_r. destruct IA as [d [k [DK [LK [_ [_ [_ [_ [_ [EC [EL _]]]]]]]]]]].
      destruct (src_go s i); cbn [sa_read sa_cnt Z.b2z]; [|lia]. rewrite EL, EC. destruct (nb d - 1 - k =? 0) eqn:Z0; cbn [negb].
      + apply Z.eqb_eq in Z0. lia.
      + apply Z.eqb_neq in Z0. rewrite (Z.mod_small (nb d - 1 - k - 1)); [lia|]. pose proof DK as [_ DL]. pose proof (nb_ccw _ DL) as W. pose proof ccw_pos. fold (nb d) in W. replace (cl_ccw p) with (cl_ccw p - 1 + 1) by lia. rewrite Z.pow_add_r by lia. lia.
    - assert (NG : src_go s i = false) by (unfold src_go; now rewrite SR). rewrite NG. assert (EL : src_load s = sc_valid (ss_cmd s)) by (unfold src_load; now rewrite SR). rewrite EL. cbn [sa_read sa_cnt Z.b2z]. destruct (sc_valid (ss_cmd s)); cbn [andb negb Z.b2z]; lia. }
  (* FIFO *)
  assert (A3 : flen (src_step p s i) = flen s + Z.b2z (src_go s i) - Z.b2z (src_pop s i)).
  { destruct IO as [HO [HP [HF [HL HH]]]]. unfold flen, src_step. cbn [ss_out]. unfold src_out_step. rewrite NR. cbn [so_wr so_rdp]. fold (src_pop s i).
    pose proof (F2_len _ _ _ HF) as LF'. assert (NF : ptr_full (so_wr (ss_out s)) (so_rdp (ss_out s)) = false) by (apply not_true_is_false; rewrite (ring_full _ _ _ (so_mem (ss_out s)) HP); lia). rewrite NF. cbn [negb andb].
    assert (PE : src_pop s i = true -> ptr_empty (so_wr (ss_out s)) (so_rdp (ss_out s)) = false) by (unfold src_pop; destruct (ptr_empty (so_wr (ss_out s)) (so_rdp (ss_out s))); [discriminate | reflexivity]).
    destruct (ring_step _ (so_wr (ss_out s)) (so_rdp (ss_out s)) (so_mem (ss_out s)) (src_go s i) (src_pop s i) (src_beat p s i) HP (fun _ => NF) PE) as [_ HR].
    apply (f_equal (@length _)) in HR. rewrite !app_length in HR. pose proof (ring_len _ (so_wr (ss_out s)) (so_rdp (ss_out s)) (so_mem (ss_out s))) as G1.
    pose proof (ring_len _ (if src_go s i then ptr_inc (so_wr (ss_out s)) else so_wr (ss_out s)) (if src_pop s i then ptr_inc (so_rdp (ss_out s)) else so_rdp (ss_out s)) (if src_go s i then upd (so_mem (ss_out s)) (so_wr (ss_out s) mod 32) (src_beat p s i) else so_mem (ss_out s))) as G2.
    rewrite <- G1, <- G2. destruct (src_go s i), (src_pop s i); cbn [length Z.b2z] in *; lia. }
  assert (A4 : olen (src_step p s i) + Z.b2z (so_valid (ss_out s) && si_tready i && negb (src_pop s i)) <= olen s + Z.b2z (src_pop s i)).
  { unfold olen, src_step. cbn [ss_out]. unfold src_out_step. rewrite NR. cbn [so_valid]. fold (src_pop s i). cbn [negb andb]. destruct (src_pop s i), (so_valid (ss_out s)), (si_tready i); cbn; lia. }
  unfold mu. cbn [src_step ss_rd ss_cmd]. change (src_step p s i) with (src_step p s i) in A1. cbn [src_step] in A2. destruct A2 as [A2 A5]. fold (src_step p s i) in *. lia.
Qed.

(** In a good clock there is a move, unless all is done. *)
Lemma good_moves s q m O F C D P R SD AD CD i : inv s q m O F C D P R SD AD CD -> src_good p q (src_event p s i) = true -> mu s = 0 \/ src_issue s i = true \/ src_go s i = true \/ src_load s = true \/ src_pop s i = true
  \/ so_valid (ss_out s) && si_tready i && negb (src_pop s i) = true \/ (src_issue s i = false /\ pcs (Z.land (sr_cvalid (ss_rd s)) (Z.lnot (si_cready i))) = 0 /\ 0 < pcs (sr_cvalid (ss_rd s))).
Proof.
  intros I G. pose proof (lens _ _ _ _ _ _ _ _ _ _ _ _ I) as [LR [LB [LF LO]]]. destruct I as [IF IM IO IA IC IR IP IQ IRY ISR IST ICV IH].
  apply andb_true_iff in G. destruct G as [G GT]. rewrite forallb_forall in G. fold segl in G. cbn [src_event se_in] in G, GT.
  assert (CR : forall n, 0 <= n < cl_segs p -> Z.testbit (si_cready i) n = true) by (intros n N; apply segl_in, G, andb_true_iff in N; apply N).
  assert (RV : forall n, 0 <= n < cl_segs p -> q n <> [] -> Z.testbit (si_rvalid i) n = true) by (intros n N Q; apply segl_in, G, andb_true_iff in N; destruct N as [_ N]; destruct (q n); [congruence | exact N]).
  assert (CZ : forall n, 0 <= n < cl_segs p -> Z.testbit (Z.land (sr_cvalid (ss_rd s)) (Z.lnot (si_cready i))) n = false) by (intros n N; rewrite Z.land_spec, Z.lnot_spec, CR by lia; apply Bool.andb_false_r).
  destruct (src_issue s i) eqn:IS; [auto|]. destruct (src_go s i) eqn:GO; [auto|]. destruct (src_load s) eqn:LD; [auto|]. destruct (src_pop s i) eqn:PO; [auto 6|].
  destruct (so_valid (ss_out s)) eqn:OV; [rewrite GT; cbn; auto 8|]. cbn [andb]. pose proof (pcs_lim (sr_cvalid (ss_rd s))) as PL.
  destruct (Z.eq_dec (pcs (sr_cvalid (ss_rd s))) 0) as [PZ|PN]; [|right; right; right; right; right; right; split; [reflexivity|]; split; [now apply pcs_none | lia]]. left.
  assert (F0 : F = []).
  { unfold src_pop in PO. rewrite OV in PO. cbn [negb orb] in PO. rewrite Bool.andb_true_r in PO. apply negb_false_iff in PO. destruct IO as [_ [HP [HF _]]]. rewrite (ring_empty _ _ _ (so_mem (ss_out s)) HP) in PO. rewrite PO in HF. now inversion HF. }
  assert (R0 : sr_read (ss_rd s) = false).
  { destruct (sr_read (ss_rd s)) eqn:SR; [|reflexivity]. exfalso. unfold src_issue in IS. rewrite SR in IS. cbn [andb] in IS. apply Z.eqb_neq in IS. apply IS. apply Z.bits_inj'. intros n N. rewrite Z.bits_0, Z.land_spec.
    destruct (Z.lt_ge_cases n (cl_segs p)); [now rewrite CZ by lia|]. rewrite Z.land_spec, (testbit_low _ (cl_segs p) n); [reflexivity | lia | exact ICV | lia]. }
  unfold rdr in IR. rewrite R0 in IR. subst R. rewrite app_nil_r in IP.
  assert (B0 : C ++ D = []).
  { destruct (sa_read (ss_ax s)) eqn:SA.
    - unfold axr in IA. rewrite SA in IA. destruct IA as [d [k [DK [LK [EC [_ [_ [EM _]]]]]]]]. exfalso. unfold src_go in GO. rewrite SA in GO. cbn [andb] in GO.
      assert (NH : so_half (ss_out s) = false) by (destruct (so_half (ss_out s)) eqn:HF; [|reflexivity]; exfalso; rewrite rem_cons in EC by lia; destruct (IH eq_refl) as [X|X]; [now apply X | rewrite EC in X; discriminate]).
      rewrite NH in GO. cbn [negb] in GO. rewrite Bool.andb_true_r in GO. apply Z.eqb_neq in GO. apply GO. apply Z.bits_inj'. intros n N. rewrite Z.bits_0, Z.land_spec, Z.lnot_spec by lia. rewrite EM. pose proof DK as [DA _]. pose proof (addr_of_ok d k DA) as BA.
      rewrite mask_uses by assumption. destruct (uses (addr_of d k) n) eqn:U; [|reflexivity]. cbn [andb]. rewrite RV; [reflexivity | split; [exact N | apply (uses_lim _ _ BA U)]|].
      specialize (IQ n N). rewrite (pcs_zero _ n PZ) in IQ by (split; [exact N | apply (uses_lim _ _ BA U)]). rewrite app_nil_r in IQ. rewrite <- IP, EC, rem_cons in IQ by lia. cbn [app filter] in IQ. change (iaddr (d, k)) with (addr_of d k) in IQ. rewrite U in IQ. rewrite IQ. discriminate.
    - unfold src_load in LD. rewrite SA in LD. cbn [negb andb] in LD. unfold axr in IA. rewrite SA in IA. unfold cmr in IC. rewrite LD in IC. destruct IA as [-> _], IC as [-> _]. reflexivity. }
  apply app_eq_nil in B0. destruct B0 as [-> ->]. assert (SV : sc_valid (ss_cmd s) = false).
  { unfold cmr in IC. destruct (sc_valid (ss_cmd s)); [|reflexivity]. destruct IC as [d [DK [X _]]]. rewrite all_eq, rem_cons in X by (pose proof (nb_ok d DK); lia). discriminate. }
  unfold mu. rewrite F0 in LF. destruct IO as [IO _]. rewrite OV in IO. unfold olen in *. rewrite SV, OV. cbn [length app Z.b2z] in *. lia.
Qed.
Lemma mu_good s q m O F C D P R SD AD CD i : inv s q m O F C D P R SD AD CD -> si_rst i = false -> src_take s i = false ->
  mu (src_step p s i) <= mu s /\ (src_good p q (src_event p s i) = true -> mu s = 0 \/ mu (src_step p s i) < mu s).
Proof.
  intros I NR NT. pose proof (mu_step _ _ _ _ _ _ _ _ _ _ _ _ i I NR NT) as M. pose proof (pcs_le (sr_cvalid (ss_rd s)) (si_cready i)) as PL.
  assert (BZ : forall b, 0 <= Z.b2z b <= 1) by (intros []; cbn; lia). pose proof (BZ (src_issue s i)). pose proof (BZ (src_go s i)). pose proof (BZ (src_load s)). pose proof (BZ (src_pop s i)). pose proof (BZ (so_valid (ss_out s) && si_tready i && negb (src_pop s i))).
  split; [destruct (src_issue s i); lia|]. intros G. destruct (good_moves _ _ _ _ _ _ _ _ _ _ _ _ i I G) as [X|[X|[X|[X|[X|[X|[X [Y Z0]]]]]]]]; [left; exact X | right ..]; rewrite X in *; cbn [Z.b2z] in *; destruct (src_issue s i); try lia.
Qed.
Lemma inv_mu s q m O F C D P R SD AD CD : inv s q m O F C D P R SD AD CD -> 0 <= mu s <= (cl_segs p + 4) * Z.of_nat (length (flat (sm_q m) (sm_pos m))) + 1.
Proof.
  intros I. pose proof (lens _ _ _ _ _ _ _ _ _ _ _ _ I) as [LR [LB [LF LO]]]. destruct I as [IF IM IO IA IC IR IP IQ IRY ISR IST ICV IH].
  assert (PS : 0 < cl_segs p) by (rewrite Hs; apply Z.pow_pos_nonneg; lia). rewrite IF. rewrite !app_length in *. rewrite IP in LB || idtac. 
  assert (LP : (length C + length D = length P + length R)%nat) by (rewrite <- !app_length; now rewrite IP).
  assert (PC : pcs (sr_cvalid (ss_rd s)) <= cl_segs p * Z.of_nat (length P)).
  { destruct P as [|x P]; [|pose proof (pcs_lim (sr_cvalid (ss_rd s))); cbn [length]; nia]. rewrite pcs_none; [cbn; lia|]. intros n N. specialize (IQ n ltac:(lia)). cbn [filter map] in IQ. apply app_eq_nil in IQ. destruct IQ as [_ IQ]. destruct (Z.testbit (sr_cvalid (ss_rd s)) n); [discriminate | reflexivity]. }
  pose proof (pcs_lim (sr_cvalid (ss_rd s))). assert (BZ : forall b, 0 <= Z.b2z b <= 1) by (intros []; cbn; lia). pose proof (BZ (sc_valid (ss_cmd s))).
  unfold mu. rewrite <- LR, <- LF, <- LO. rewrite Nat2Z.inj_add in LB. rewrite <- LB. rewrite !Nat2Z.inj_add. apply (f_equal Z.of_nat) in LP. rewrite !Nat2Z.inj_add in LP.
  set (r := Z.of_nat (length R)) in *. set (c := Z.of_nat (length C)) in *. set (d := Z.of_nat (length D)) in *. set (pp := Z.of_nat (length P)) in *. assert (0 <= pp) by lia. assert (0 <= r) by lia. assert (0 <= c) by lia. assert (0 <= d) by lia.
  assert (0 <= Z.of_nat (length F)) by lia. assert (0 <= Z.of_nat (length O)) by lia. nia.
Qed.
Lemma flat_len m : mon_ok m -> Z.of_nat (length (flat (sm_q m) (sm_pos m))) = beats_due p m.
Proof.
  intros [MD MP]. unfold beats_due. rewrite Hk. assert (PK := pos_K). destruct (sm_q m) as [|d r] eqn:Q; [rewrite MP; reflexivity|]. destruct MP as [k [-> LK]].
  cbn [flat fold_right]. rewrite Z.div_mul by lia. rewrite app_length, rem_len. fold (nbeats (de_len d)). fold (nb d).
  assert (G : forall l, (forall x, In x l -> desc_ok p x) -> Z.of_nat (length (flat_map all l)) = fold_right (fun d n => (de_len d + K - 1) / K + n) 0 l).
  { induction l as [|x l IH]; intros X; [reflexivity|]. cbn [flat_map fold_right]. rewrite app_length, Nat2Z.inj_add, IH by (intros y Y; apply X; now right). unfold all. rewrite rem_len. pose proof (nb_ok x (X x (or_introl eq_refl))). unfold nb, nbeats in *. lia. }
  rewrite Nat2Z.inj_add, G by (intros x X; apply MD; now right). lia.
Qed.
Lemma after_inv l : forall s q m O F C D P R SD AD CD, inv s q m O F C D P R SD AD CD -> src_assume p mem q (src_trace p s l) ->
  exists O' F' C' D' P' R' SD' AD' CD', inv (src_run p s l) (fst (fold_left (fun '(q, m) e => (ram_next q e, src_next p m e)) (src_trace p s l) (q, m))) (snd (fold_left (fun '(q, m) e => (ram_next q e, src_next p m e)) (src_trace p s l) (q, m))) O' F' C' D' P' R' SD' AD' CD'.
Proof.
  induction l as [|i l IH]; intros s q m O F C D P R SD AD CD I A; [exists O, F, C, D, P, R, SD, AD, CD; exact I|]. cbn [src_trace src_assume] in A. destruct A as [RA [DN A]]. cbn [src_trace fold_left src_run].
  destruct (si_rst i) eqn:RS.
  - eapply IH; [apply reset_ok; exact RS | exact A].
  - destruct (step_ok _ _ _ _ _ _ _ _ _ _ _ _ i I RA DN RS) as [O' [F' [C' [D' [P' [R' [SD' [AD' [CD' I']]]]]]]]]. eapply IH; [exact I' | exact A].
Qed.
Lemma take_event s q m O F C D P R SD AD CD i : inv s q m O F C D P R SD AD CD -> src_take s i = se_ready (src_event p s i) && si_valid i.
Proof. intros I. unfold src_take. cbn [src_event se_ready]. destruct (sr_ready (ss_rd s)) eqn:RY; cbn [andb]; [|apply Bool.andb_false_r]. destruct (i_ready _ _ _ _ _ _ _ _ _ _ _ _ I RY) as [-> _]. reflexivity. Qed.
Lemma good_pos tr : forall q, 0 <= good_clocks p q tr.
Proof. induction tr as [|e tr IH]; intros q; cbn [good_clocks]; [lia|]. specialize (IH (ram_next q e)). destruct (src_good p q e); lia. Qed.
Lemma mu_run l : forall s q m O F C D P R SD AD CD, inv s q m O F C D P R SD AD CD -> src_assume p mem q (src_trace p s l) -> src_quiet (src_trace p s l) -> good_clocks p q (src_trace p s l) >= mu s -> mu (src_run p s l) = 0.
Proof.
  assert (W : forall l s q m O F C D P R SD AD CD, inv s q m O F C D P R SD AD CD -> src_assume p mem q (src_trace p s l) -> src_quiet (src_trace p s l) -> mu (src_run p s l) <= Z.max 0 (mu s - good_clocks p q (src_trace p s l))).
  { clear l. induction l as [|i l IH]; intros s q m O F C D P R SD AD CD I A Q; cbn [src_trace good_clocks src_run fold_left]; [cbn [src_run fold_left]; lia|].
    cbn [src_trace src_assume] in A. destruct A as [RA [DN A]]. inversion Q as [|e0 l0 [RS NA] Q0]; subst. cbn [src_event se_in] in RS, NA.
    pose proof (take_event _ _ _ _ _ _ _ _ _ _ _ _ i I) as TK. change (src_take s i = se_ready (src_event p s i) && si_valid i) in TK. change (se_ready (src_event p s i) && si_valid i = false) in NA. rewrite NA in TK.
    destruct (mu_good _ _ _ _ _ _ _ _ _ _ _ _ i I RS TK) as [M1 M2].
    destruct (step_ok _ _ _ _ _ _ _ _ _ _ _ _ i I RA DN RS) as [O' [F' [C' [D' [P' [R' [SD' [AD' [CD' I']]]]]]]]].
    pose proof (IH _ _ _ _ _ _ _ _ _ _ _ _ I' A Q0) as L. pose proof (inv_mu _ _ _ _ _ _ _ _ _ _ _ _ I') as N. fold (src_run p (src_step p s i) l). cbn zeta. pose proof (good_pos (src_trace p (src_step p s i) l) (ram_next q (src_event p s i))).
    destruct (src_good p q (src_event p s i)); [|lia]. destruct (M2 eq_refl); lia. }
  intros s q m O F C D P R SD AD CD I A Q G. pose proof (W l _ _ _ _ _ _ _ _ _ _ _ _ I A Q). destruct (after_inv l _ _ _ _ _ _ _ _ _ _ _ _ I A) as [O' [F' [C' [D' [P' [R' [SD' [AD' [CD' I']]]]]]]]]. pose proof (inv_mu _ _ _ _ _ _ _ _ _ _ _ _ I'). lia.
Qed.
Lemma mu_done s q m O F C D P R SD AD CD : inv s q m O F C D P R SD AD CD -> mu s = 0 ->
  sm_q m = [] /\ (forall n, 0 <= n -> q n = []) /\ (forall i, sm_left m (src_event p s i) = []) /\ sr_cvalid (ss_rd s) = 0 /\ sr_read (ss_rd s) = false /\ sc_valid (ss_cmd s) = false.
Proof.
  intros I M. pose proof (lens _ _ _ _ _ _ _ _ _ _ _ _ I) as [LR [LB [LF LO]]]. destruct I as [IF IM IO IA IC IR IP IQ IRY ISR IST ICV IH].
  assert (PS : 0 < cl_segs p) by (rewrite Hs; apply Z.pow_pos_nonneg; lia). pose proof (pcs_lim (sr_cvalid (ss_rd s))). assert (BZ : forall b, 0 <= Z.b2z b <= 1) by (intros []; cbn; lia). pose proof (BZ (sc_valid (ss_cmd s))) as B1.
  unfold mu in M. rewrite <- LR, <- LB, <- LF, <- LO in M. assert (X : length R = 0%nat /\ length (C ++ D) = 0%nat /\ length F = 0%nat /\ length O = 0%nat /\ pcs (sr_cvalid (ss_rd s)) = 0 /\ Z.b2z (sc_valid (ss_cmd s)) = 0) by nia.
  destruct X as [X1 [X2 [X3 [X4 [X5 X6]]]]]. apply length_zero_iff_nil in X1, X2, X3, X4. subst R F O. rewrite X2 in *. symmetry in IP. apply app_eq_nil in IP. destruct IP as [-> _]. apply app_eq_nil in X2. destruct X2 as [-> ->].
  assert (SV : sc_valid (ss_cmd s) = false) by (destruct (sc_valid (ss_cmd s)); [discriminate | reflexivity]).
  assert (SR : sr_read (ss_rd s) = false). { unfold rdr in IR. destruct (sr_read (ss_rd s)); [|reflexivity]. destruct IR as [d [k [DK [LK [X _]]]]]. rewrite rem_cons in X by lia. discriminate. }
  assert (SA : sa_read (ss_ax s) = false). { unfold axr in IA. destruct (sa_read (ss_ax s)); [|reflexivity]. destruct IA as [d [k [DK [LK [X _]]]]]. rewrite rem_cons in X by lia. discriminate. }
  split; [|split; [|split; [|split; [|split; [exact SR | exact SV]]]]].
  - destruct IM as [_ MP]. destruct (sm_q m) as [|d r]; [reflexivity|]. destruct MP as [k [PE LK]]. rewrite PE in IF. cbn [flat app] in IF. rewrite Z.div_mul in IF by (pose proof pos_K; lia). rewrite rem_cons in IF by lia. discriminate.
  - intros n N. specialize (IQ n N). cbn [filter map] in IQ. apply app_eq_nil in IQ. apply IQ.
  - intros i. unfold sm_left. cbn [src_event se_status]. rewrite IST. unfold axr in IA. rewrite SA in IA. unfold cmr in IC. rewrite SV in IC. destruct IA as [_ ->], IC as [_ ->]. unfold str in ISR. destruct (sa_status (ss_ax s)); [destruct ISR as [d [-> _]]; reflexivity | now rewrite ISR].
  - apply Z.bits_inj'. intros n N. rewrite Z.bits_0. destruct (Z.lt_ge_cases n (cl_segs p)); [apply (pcs_zero _ _ X5); lia | apply (testbit_low _ (cl_segs p)); try assumption; lia].
Qed.
Lemma progress_geo l1 l2 i (tr1 := src_trace p src0 l1) (tr2 := src_trace p (src_run p src0 l1) l2) (s := src_run p src0 (l1 ++ l2)) (e := src_event p s i) :
  src_assume p mem (fun _ => []) (tr1 ++ tr2) -> src_quiet tr2 ->
  (cl_segs p + 4) * beats_due p (snd (src_after p tr1)) + 1 <= good_clocks p (fst (src_after p tr1)) tr2 ->
  src_done p (snd (src_after p (tr1 ++ tr2))) (fst (src_after p (tr1 ++ tr2))) e /\
  (si_rst i = false -> si_enable i = true -> se_ready e && si_valid i = false -> forall i', se_ready (src_event p (src_step p s i) i') = true).
Proof.
  intros A Q G.
  assert (AS : forall t1 t2 q, src_assume p mem q (t1 ++ t2) -> src_assume p mem q t1 /\ src_assume p mem (fst (fold_left (fun '(q, m) e => (ram_next q e, src_next p m e)) t1 (q, sm0))) t2).
  { assert (AS0 : forall t1 t2 q m, src_assume p mem q (t1 ++ t2) -> src_assume p mem q t1 /\ src_assume p mem (fst (fold_left (fun '(q, m) e => (ram_next q e, src_next p m e)) t1 (q, m))) t2).
    { induction t1 as [|x t1 IHt]; intros t2 q m H; [split; [exact Logic.I | exact H]|]. cbn [app src_assume fold_left] in *. destruct H as [Ha [Hb0 Hc]]. apply (IHt _ _ (src_next p m x)) in Hc. tauto. }
    intros. now apply AS0. }
  destruct (AS _ _ _ A) as [A1 A2]. destruct (after_inv l1 _ _ _ _ _ _ _ _ _ _ _ _ inv0 A1) as [O [F [C [D [P [R [SD [AD [CD I]]]]]]]]].
  change (fold_left (fun '(q, m) e => (ram_next q e, src_next p m e)) (src_trace p src0 l1) (fun _ => [], sm0)) with (src_after p tr1) in I. fold tr1 in A2. change (fold_left (fun '(q, m) e => (ram_next q e, src_next p m e)) tr1 (fun _ => [], sm0)) with (src_after p tr1) in A2.
  pose proof (inv_mu _ _ _ _ _ _ _ _ _ _ _ _ I) as MU. rewrite (flat_len _ (i_mon _ _ _ _ _ _ _ _ _ _ _ _ I)) in MU.
  assert (M0 : mu (src_run p (src_run p src0 l1) l2) = 0) by (eapply mu_run; [exact I | exact A2 | exact Q | unfold tr2 in G; lia]).
  destruct (after_inv l2 _ _ _ _ _ _ _ _ _ _ _ _ I A2) as [O' [F' [C' [D' [P' [R' [SD' [AD' [CD' I']]]]]]]]].
  assert (ES : src_run p (src_run p src0 l1) l2 = s) by (unfold s, src_run; now rewrite fold_left_app). rewrite ES in *.
  assert (EA : fold_left (fun '(q, m) e => (ram_next q e, src_next p m e)) tr2 (src_after p tr1) = src_after p (tr1 ++ tr2)) by (unfold src_after; now rewrite fold_left_app).
  fold tr2 in I'. rewrite <- surjective_pairing in I'. rewrite EA in I'. destruct (mu_done _ _ _ _ _ _ _ _ _ _ _ _ I' M0) as [X1 [X2 [X3 [X4 [X5 X6]]]]].
  split; [split; [exact X1|]; split; [intros n N; apply X2; lia|]; split; [apply X3 | exact X4]|].
  intros NR EN NT i'. pose proof (take_event _ _ _ _ _ _ _ _ _ _ _ _ i I') as TK. fold e in TK. rewrite NT in TK. cbn [src_event se_ready src_step ss_rd]. unfold src_rd_step. rewrite NR, TK, X5, X6, EN. reflexivity.
Qed.
End geo.
