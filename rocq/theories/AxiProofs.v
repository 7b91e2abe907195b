(** AXI: splitting of writes and reads into bursts. *)
From Verif Require Import PyBase TlpProofs SplitProofs PsdpProofs2 AxilModel AxilSpec AxilProofs AxilProofs2 AxiModel AxiSpec.
From Coq Require Import ZifyBool ZifyNat Arith.
Ltac Zify.zify_post_hook ::= idtac.
Local Arguments Z.mul : simpl never.

(** Beats of an INCR burst: address and last. *)
Definition run_beats (a nb : Z) (n : nat) : list (Z * bool) := map (fun i => (a + Z.of_nat i * nb, Z.of_nat i =? Z.of_nat n - 1)) (seq 0 n).
Definition obeats (b : xaw) : list (Z * bool) := run_beats (xa_addr b) (2 ^ xa_size b) (Z.to_nat (xa_len b + 1)).

Lemma run_beats_S : forall a nb n, run_beats a nb (S n) = (a, (n =? 0)%nat) :: run_beats (a + nb) nb n.
Proof.
  intros. unfold run_beats. cbn [seq map]. f_equal; [f_equal; [lia|destruct n; [reflexivity|cbn [Nat.eqb]; lia]]|].
  rewrite <- seq_shift, map_map. apply map_ext. intro i. f_equal; lia.
Qed.

Lemma run_beats_len : forall a nb n, length (run_beats a nb n) = n.
Proof. intros. unfold run_beats. rewrite map_length, seq_length. reflexivity. Qed.

Lemma lanes_cases : forall bw, lanes_ok bw -> bw = 1 \/ bw = 2 \/ bw = 4 \/ bw = 8 \/ bw = 16 \/ bw = 32 \/ bw = 64 \/ bw = 128.
Proof. intros bw (k & Hk & ->). assert (k = 0 \/ k = 1 \/ k = 2 \/ k = 3 \/ k = 4 \/ k = 5 \/ k = 6 \/ k = 7) as H by lia. destruct H as [->|[->|[->|[->|[->|[->|[->| ->]]]]]]]; cbn; tauto. Qed.

Lemma size_lanes : forall cfg z, lanes_ok (xc_bw cfg) -> size_ok cfg z -> exists s, x_size cfg z = Ok (s, 2 ^ s) /\ 0 <= s /\ lanes_ok (2 ^ s) /\ (2 ^ s | xc_bw cfg) /\ s <= Z.log2 (xc_bw cfg).
Proof.
  intros cfg z (k & Hk & E) Hz. destruct z as [s|]; cbn [x_size size_ok] in *.
  - destruct Hz as [H1 H2]. exists s. assert (2 ^ s <=? xc_bw cfg = true) as -> by lia. rewrite E in *. assert (s <= k) by (apply (Z.pow_le_mono_r_iff 2); lia).
    split; [reflexivity|]. split; [assumption|]. split; [exists s; split; [lia|reflexivity]|]. split; [|rewrite Z.log2_pow2 by lia; lia].
    exists (2 ^ (k - s)). rewrite <- Z.pow_add_r by lia. f_equal. lia.
  - exists k. rewrite E, Z.log2_pow2 by lia. split; [reflexivity|]. split; [lia|]. split; [exists k; split; [lia|reflexivity]|]. split; [apply Z.divide_refl|lia].
Qed.

Lemma burst_len_spec : forall cfg C k nb cur, lanes_ok nb -> 0 <= cur -> cur mod nb = 0 -> k < C ->
  let B := x_burst_len cfg C k nb cur in
  1 <= B <= 256 /\ B <= Z.max 1 (xc_mbl cfg) /\ B <= C - k /\ cur / 4096 = (cur + B * nb - 1) / 4096 /\ B * nb <= 4096 - cur mod 4096.
Proof.
  intros cfg C k nb cur Hn Hc Hm Hk. cbn zeta. pose proof (lanes_range nb Hn) as Hr. unfold x_burst_len. set (b := Z.min (C - k) (Z.min (Z.max (xc_mbl cfg) 1) 256)).
  change 0xfff with (2 ^ 12 - 1). rewrite BitLemmas.land_low_mod by lia. change (2 ^ 12) with 4096. change 0x1000 with 4096.
  pose proof (Z.mod_pos_bound cur 4096 ltac:(lia)) as Hc4.
  assert (exists q, 4096 = q * nb) as (q & Eq).
  { destruct (lanes_cases nb Hn) as [->|[->|[->|[->|[->|[->|[->| ->]]]]]]]; [exists 4096|exists 2048|exists 1024|exists 512|exists 256|exists 128|exists 64|exists 32]; reflexivity. }
  assert (exists r, 4096 - cur mod 4096 = r * nb /\ 1 <= r) as (r & Er & Hr1).
  { pose proof (Z.div_mod cur nb ltac:(lia)) as D1. pose proof (Z.div_mod cur 4096 ltac:(lia)) as D2. exists (q - (cur / nb - cur / 4096 * q)). 
    assert (4096 - cur mod 4096 = (q - (cur / nb - cur / 4096 * q)) * nb) as E by (rewrite !Z.mul_sub_distr_r, <- Z.mul_assoc, <- Eq; lia). split; [assumption|]. nia. }
  rewrite Er. assert (1 <= b) as Hb by (unfold b; lia). assert (b <= 256 /\ b <= C - k /\ b <= Z.max 1 (xc_mbl cfg)) as (B1 & B2 & B3) by (unfold b; lia). clearbody b.
  assert (Z.min (b * nb) (r * nb) = Z.min b r * nb) as -> by (rewrite Z.mul_min_distr_nonneg_r by lia; reflexivity).
  assert (r * nb <= 4096) as Hrn by lia. assert (1 <= Z.min b r <= r) as Hmin by lia. set (t := Z.min b r) in *. assert (t <= b) by (unfold t; lia). clearbody t.
  assert (t * nb <= r * nb) as Htn by (apply Z.mul_le_mono_nonneg_r; lia).
  assert (1 * nb <= t * nb) as Ht1 by (apply Z.mul_le_mono_nonneg_r; lia).
  rewrite truediv_exact by lia. replace (t * nb + nb - 1) with (nb - 1 + t * nb) by ring. rewrite Z.div_add by lia. rewrite (Z.div_small (nb - 1)) by lia. rewrite Z.add_0_l.
  split; [lia|]. split; [lia|]. split; [lia|]. split; [|lia].
  apply Z.div_unique with (r := cur mod 4096 + t * nb - 1); [left; lia|]. pose proof (Z.div_mod cur 4096 ltac:(lia)). lia.
Qed.

(** A beat on its way: the word (with the address of its first byte), its beat address
    and last. *)
Record tbeat := mkT { t_w : lword; t_addr : Z; t_last : bool }.
Definition t_ok (bw : Z) (t : tbeat) : Prop := t_addr t / bw = lw_addr (t_w t) / bw /\ 0 <= t_addr t < 2 ^ 53.
Definition t_al (t : tbeat) : Z * bool := (t_addr t, t_last t).
Definition t_beat (t : tbeat) : xbeat := (lw_val (t_w t), lw_strb (t_w t), t_last t).

Lemma strb_bits2 : forall bw start stop i, 0 < bw -> 0 <= start -> start < bw -> 0 <= stop <= bw -> 0 <= i < bw ->
  Z.testbit (let full := 2 ^ bw - 1 in Z.land (Z.land (Z.shiftl full start) full) (Z.shiftr full (bw - stop))) i = (start <=? i) && (i <? stop).
Proof.
  intros bw start stop i Hb H1 H2 H3 Hi. cbn zeta. replace (2 ^ bw - 1) with (Z.ones bw) by (rewrite Z.ones_equiv; lia).
  assert (forall j, 0 <= j -> Z.testbit (Z.ones bw) j = (j <? bw)) as HO by (intros; apply Z.testbit_ones_nonneg; lia).
  assert (Z.testbit (Z.shiftl (Z.ones bw) start) i = (start <=? i)) as HS.
  { rewrite Z.shiftl_spec by lia. destruct (Z.leb_spec start i); [rewrite HO by lia; lia|apply Z.testbit_neg_r; lia]. }
  rewrite !Z.land_spec, HS, HO by lia. rewrite Z.shiftr_spec by lia. rewrite HO by lia. lia.
Qed.

Lemma skipn_add : forall {A} (l : list A) i j, skipn (i + j) l = skipn i (skipn j l).
Proof.
  intros A l i j. revert l. induction j as [|j IH]; intros l; [rewrite Nat.add_0_r; reflexivity|].
  rewrite Nat.add_succ_r. destruct l; [rewrite !skipn_nil; reflexivity|]. cbn [skipn]. apply IH.
Qed.

(** Geometry of beat [k] of a transfer of [L] bytes at [a] with beats of [nb] bytes. *)
Lemma beat_geometry : forall bw nb a L k, 0 < nb -> (nb | bw) -> 0 < bw -> 0 <= a -> 0 <= L -> 0 <= k ->
  let A := a / nb * nb in let s := a mod nb in let co := (A + k * nb) mod bw in
  co + nb <= bw /\ 0 <= co /\ (k = 0 -> a mod bw = co + s) /\ (co + nb) mod bw = (A + (k + 1) * nb) mod bw /\ A mod bw = A - a / bw * bw /\
  (forall x, A + k * nb <= x < A + k * nb + nb -> x mod bw = co + (x - (A + k * nb)) /\ x / bw = (A + k * nb) / bw).
Proof.
  intros bw nb a L k Hn (q & Eq) Hb Ha HL Hk. cbn zeta. set (A := a / nb * nb). set (s := a mod nb). pose proof (Z.mod_pos_bound a nb Hn) as Hs. fold s in Hs.
  pose proof (Z.div_mod a nb ltac:(lia)) as D. fold s in D. assert (a = A + s) as Ea by (unfold A; lia). assert (0 < q) as Hq by nia.
  assert (forall k, 0 <= k -> exists w, A + k * nb = ((A + k * nb) / bw) * bw + w * nb /\ 0 <= w < q /\ (A + k * nb) mod bw = w * nb) as HW.
  { intros j Hj. exists ((a / nb + j) mod q). pose proof (Z.mod_pos_bound (a / nb + j) q Hq). pose proof (Z.div_mod (A + j * nb) bw ltac:(lia)) as D2.
    assert ((A + j * nb) mod bw = (a / nb + j) mod q * nb) as E by (unfold A; rewrite Eq; rewrite <- Z.mul_add_distr_r; apply Z.mul_mod_distr_r; lia).
    split; [rewrite <- E, (Z.mul_comm _ bw); exact D2|]. split; [assumption|exact E]. }
  destruct (HW k Hk) as (w & W1 & W2 & W3). rewrite W3.
  assert (w * nb + nb <= bw) as Hfit by nia. assert (0 <= w * nb) as Hw0 by nia.
  assert (forall x, A + k * nb <= x < A + k * nb + nb -> x mod bw = w * nb + (x - (A + k * nb)) /\ x / bw = (A + k * nb) / bw) as HX.
  { intros x Hx. assert (x = bw * ((A + k * nb) / bw) + (w * nb + (x - (A + k * nb)))) as Ex by lia. split.
    - symmetry. apply Z.mod_unique with (q := (A + k * nb) / bw); [left; lia|exact Ex].
    - symmetry. apply Z.div_unique with (r := w * nb + (x - (A + k * nb))); [left; lia|exact Ex]. }
  split; [exact Hfit|]. split; [exact Hw0|]. split.
  { intros ->. rewrite Z.mul_0_l, Z.add_0_r in HX. destruct (HX a ltac:(lia)) as [X1 _]. rewrite X1. lia. }
  split.
  { replace (A + (k + 1) * nb) with (w * nb + nb + ((A + k * nb) / bw) * bw) by lia. rewrite Z.mod_add by lia. reflexivity. }
  split; [|exact HX].
  destruct (HW 0 ltac:(lia)) as (w0 & V1 & V2 & V3). rewrite Z.mul_0_l, Z.add_0_r in *. rewrite V3.
  assert (w0 * nb + nb <= bw) by nia. assert (0 <= w0 * nb) by nia.
  assert (a / bw = A / bw) as ->; [|lia]. symmetry. apply Z.div_unique with (r := w0 * nb + s); [left; lia|lia].
Qed.

Definition hidden (P : Prop) : Prop := P.

Lemma xcycles_is : forall nb a L, x_cycles nb a L = l_cycles nb a L.
Proof. reflexivity. Qed.

Lemma xwloop_spec : forall n cfg s a data k off cnt bl id tc, lanes_ok (xc_bw cfg) -> 0 <= s -> lanes_ok (2 ^ s) -> (2 ^ s | xc_bw cfg) ->
  let nb := 2 ^ s in let C := x_cycles nb a (zlen data) in let A := a / nb * nb in
  0 <= a -> a + zlen data <= 2 ^ 52 -> Forall is_byte data -> 0 <= k -> k + Z.of_nat n = C ->
  off = (if (n =? 0)%nat then zlen data else if k =? 0 then 0 else k * nb - a mod nb) -> cnt <= bl -> bl - cnt <= Z.of_nat n ->
  exists aws ts ps id' tc', x_wloop n cfg a s nb C 1 data k off (A + k * nb) ((A + k * nb) mod xc_bw cfg) cnt bl id tc = Ok (aws, map t_beat ts, id', tc') /\
    length ts = n /\ words_are (xc_bw cfg) (map t_w ts) ps /\ Forall (t_ok (xc_bw cfg)) ts /\ pieces_ops ps = byte_ops (a + off) (skipn (Z.to_nat off) data) /\
    map t_al ts = run_beats (A + k * nb) nb (Z.to_nat (bl - cnt)) ++ flat_map obeats aws /\ Forall (legal cfg) aws /\ tc' = tc + zlen aws.
Proof.
  induction n; intros cfg s a data k off cnt bl id tc Hbw Hs0 Hb Hdv nb C A Ha Hd HB Hk Hn Hoff Hcb Hcn; subst nb; set (nb := 2 ^ s) in *.
  - cbn [Nat.eqb] in Hoff. subst off. exists [], [], [], id, tc. split; [reflexivity|]. split; [reflexivity|]. split; [constructor|]. split; [constructor|].
    split; [rewrite skipn_all2 by (unfold zlen; lia); reflexivity|]. replace (Z.to_nat (bl - cnt)) with O by lia. split; [reflexivity|]. split; [constructor|]. change (zlen (@nil xaw)) with 0. lia.
  - pose proof (lanes_range nb Hb) as Hr. pose proof (lanes_range _ Hbw) as Hr2. pose proof (zlen_nonneg data) as HL. destruct (cycles_spec nb a (zlen data) Hb Ha HL Hd) as (C0 & C1 & C2 & C3).
    change (l_cycles nb a (zlen data)) with C in *. set (bw := xc_bw cfg) in *. set (so := a mod nb) in *. assert (0 <= so < nb) as Hs by (apply Z.mod_pos_bound; lia).
    destruct (Z.eq_dec (zlen data + so) 0) as [Ez|Ez]; [rewrite C3 in Hn by assumption; lia|].
    destruct C2 as (C2a & C2b & C2c); [lia|]. cbn [Nat.eqb] in Hoff. cbn [x_wloop]. fold bw.
    destruct (beat_geometry bw nb a (zlen data) k ltac:(lia) Hdv ltac:(lia) Ha HL Hk) as (G1 & G2 & G3 & G4 & _ & G5). fold A so in G1, G2, G3, G4, G5.
    set (co := (A + k * nb) mod bw) in *. pose proof (Z.div_mod a nb ltac:(lia)) as Da. fold so in Da.
    assert (a = A + so) as EaA by (unfold A; rewrite (Z.mul_comm (a / nb)); exact Da).
    assert (0 <= A) as HA0 by (apply Z.mul_nonneg_nonneg; [apply Z.div_pos; lia|lia]).
    assert ((A + k * nb) mod nb = 0) as Hal by (unfold A; rewrite <- Z.mul_add_distr_r; apply Z.mod_mul; lia).
    assert (hidden (nb = 2 ^ s /\ A = a / nb * nb /\ C = x_cycles nb a (zlen data) /\ bw = xc_bw cfg /\ so = a mod nb /\ co = (A + k * nb) mod bw)) as HH by (repeat split).
    clear C3 Da. clearbody co so bw. clearbody A C. clearbody nb. rewrite G4.
    assert (k = C - 1 -> (a + zlen data - 1) mod bw + 1 = co + (so + zlen data - (C - 1) * nb)) as Hend.
    { intro K. destruct (G5 (a + zlen data - 1)) as [X _]; [rewrite K; clear - C2b C2c C1 EaA Hs; lia|]. rewrite X, K, EaA. clear; lia. }
    set (start := if k =? 0 then a mod bw else co). set (stop := if k =? C - 1 then (a + zlen data - 1) mod bw + 1 else co + nb).
    assert (exists rs re, start = co + rs /\ stop = co + re /\ 0 <= rs <= re /\ re <= nb /\ rs < nb /\ 0 <= off /\ off = k * nb + rs - so /\ off + (re - rs) <= zlen data /\
            (k = C - 1 -> off + (re - rs) = zlen data) /\ (k <> C - 1 -> off + (re - rs) = (k + 1) * nb - so)) as (rs & re & Es & Ee & O3 & O4 & O5 & O1 & O2 & O6 & O7 & O8).
    { assert (k < C) as HkC by (clear - Hn; lia). clear - Hoff Hs Hk C2a C2b C2c C1 G3 Hend EaA HL HkC Hr.
      assert (k <> C - 1 -> (k + 1) * nb <= (C - 1) * nb) as Hmul by (intro; apply Z.mul_le_mono_nonneg_r; lia).
      assert (1 <= k -> 1 * nb <= k * nb) as Hmul2 by (intro; apply Z.mul_le_mono_nonneg_r; lia).
      exists (if k =? 0 then so else 0), (if k =? C - 1 then so + zlen data - (C - 1) * nb else nb).
      rewrite Hoff. unfold start, stop. destruct (Z.eqb_spec k 0) as [K|K], (Z.eqb_spec k (C - 1)) as [K2|K2].
      - rewrite (Hend K2), (G3 K). assert (C = 1) as -> by lia. rewrite K. lia.
      - rewrite (G3 K). rewrite K in *. specialize (Hmul K2). lia.
      - rewrite (Hend K2). specialize (Hmul2 ltac:(lia)). rewrite <- K2. assert (k * nb < zlen data + so) by (rewrite K2; assumption). lia.
      - specialize (Hmul2 ltac:(lia)). specialize (Hmul K2). lia. }
    clearbody start stop. subst start stop.
    replace (Z.to_nat (co + re - (co + rs))) with (Z.to_nat (re - rs)) by (f_equal; clear; lia).
    assert (a + off = A + k * nb + rs) as Eo by (clear - O2 EaA; lia). destruct (G5 (a + off)) as [Em Ew]; [clear - Eo O3 O5; lia|]. replace (co + (a + off - (A + k * nb))) with (co + rs) in Em by (clear - Eo; lia).
    assert (off + (re - rs) = (if (n =? 0)%nat then zlen data else if k + 1 =? 0 then 0 else (k + 1) * nb - so)) as HN.
    { destruct n; cbn [Nat.eqb]; [apply O7; clear - Hn; lia|]. assert (k + 1 =? 0 = false) as -> by (clear - Hk; lia). apply O8. clear - Hn. lia. }
    assert (0 <= a + off < 2 ^ 53) as Hao by (clear - Ha Hd O1 O6 O3; lia).
    assert (0 <= k * nb) as Hknb by (apply Z.mul_nonneg_nonneg; [exact Hk|clear - Hr; lia]).
    assert (0 <= A + k * nb < 2 ^ 53) as Hak by (clear - Hao Eo O3 HA0 Hknb; lia).
    assert (A + k * nb + nb = A + (k + 1) * nb) as Enext by ring.
    assert (k < C) as HkC by (clear - Hn; lia). assert (k + 1 + Z.of_nat n = C) as Hn' by (clear - Hn; lia).
    clear O2 O7 O8 C1 C2a C2b C2c Hoff Hend G3 G4 G5 Ez C0 Hs EaA Eo Hn.
    assert (0 <= co + rs) as Hcr by (clear - G2 O3; lia).
    rewrite gather_val by (try assumption; clear - O1 O3 O6 Hcr; lia). cbn [bind]. rewrite Z2Nat.id by (clear - O3; lia). set (piece := slice data off (off + (re - rs))).
    assert (zlen piece = re - rs) as Lp by (unfold piece; rewrite zlen_slice by (clear - O1 O3 O6; lia); clear - O1 O3 O6; lia).
    assert (Forall is_byte piece) as Bp by (apply Forall_slice; assumption).
    set (val := 0 + 2 ^ ((co + rs) * 8) * le_val piece).
    set (strb := Z.land (Z.land (Z.shiftl (2 ^ bw - 1) (co + rs)) (2 ^ bw - 1)) (Z.shiftr (2 ^ bw - 1) (bw - (co + re)))).
    assert (word_is bw (mkLw (a + off) val strb) (a + off) piece) as HW.
    { unfold word_is. cbn [lw_addr lw_strb lw_val]. rewrite Em, Lp. split; [reflexivity|]. split; [exact Hao|]. split; [clear - G1 O4; lia|]. split; [assumption|]. split.
      - intros i Hi. replace (co + rs + (re - rs)) with (co + re) by (clear; lia). unfold strb. apply (strb_bits2 bw (co + rs) (co + re) i); clear - Hr2 G1 G2 O3 O4 O5 Hi; lia.
      - intros i Hi. unfold val. rewrite Z.add_0_l, (Z.mul_comm (2 ^ ((co + rs) * 8))), <- Z.shiftl_mul_pow2 by (clear - Hcr; lia). apply word_byte_le; try assumption; clear - Hcr Hi Lp Hr2 G1 O4; lia. }
    assert (Hops : forall ps, pieces_ops ps = byte_ops (a + (off + (re - rs))) (skipn (Z.to_nat (off + (re - rs))) data) ->
              pieces_ops ((a + off, piece) :: ps) = byte_ops (a + off) (skipn (Z.to_nat off) data)).
    { intros ps EP. unfold pieces_ops. cbn [flat_map fst snd]. fold (pieces_ops ps). rewrite EP.
      replace (a + (off + (re - rs))) with (a + off + zlen piece) by (clear - Lp; lia). rewrite <- byte_ops_app. f_equal. unfold piece, slice.
      replace (Z.to_nat (off + (re - rs))) with (Z.to_nat (off + (re - rs) - off) + Z.to_nat off)%nat by (clear - O1 O3; lia). rewrite skipn_add. apply firstn_skipn. }
    destruct (cnt >=? bl) eqn:EC.
    + destruct (burst_len_spec cfg C k nb (A + k * nb) Hb ltac:(lia) Hal ltac:(lia)) as (B1 & B2 & B3 & B4 & _).
      set (B := x_burst_len cfg C k nb (A + k * nb)) in *. cbn [bind]. clearbody B.
      specialize (IHn cfg s a data (k + 1) (off + (re - rs)) (0 + 1) B (x_next_id (xc_awid cfg) id) (tc + 1)). cbn zeta in IHn. destruct HH as (E1 & E2 & E3 & E4 & E5 & E6).
      rewrite <- E4, <- E1, <- E2, <- E3, <- E5 in IHn.
      destruct IHn as (aws & ts & ps & id' & tc' & E & T1 & T2 & T3 & T4 & T5 & T6 & T7); try assumption; try (clear - Hk; lia); try (clear - B1 B3 Hn'; lia).
      rewrite Enext. rewrite E. cbn [bind].
      exists (mkXa (A + k * nb) id (B - 1) s 1 :: aws), (mkT (mkLw (a + off) val strb) (A + k * nb) (0 + 1 >=? B) :: ts), ((a + off, piece) :: ps), id', tc'.
      split; [reflexivity|]. split; [cbn [length]; rewrite T1; reflexivity|]. split; [constructor; assumption|].
      split; [constructor; [split; [cbn [t_addr t_w lw_addr]; symmetry; exact Ew|exact Hak]|assumption]|]. split; [apply Hops; exact T4|].
      split; [|split; [constructor; [|assumption]|rewrite T7, zlen_cons1; clear; lia]].
      * replace (Z.to_nat (bl - cnt)) with O by (clear - EC Hcb; lia). change (run_beats (A + k * nb) nb 0) with (@nil (Z * bool)). cbn [map app flat_map]. unfold obeats at 1. cbn [xa_addr xa_size xa_len]. rewrite <- E1.
        replace (Z.to_nat (B - 1 + 1)) with (S (Z.to_nat (B - (0 + 1)))) by (clear - B1; lia). rewrite run_beats_S. cbn [app]. f_equal; [unfold t_al; cbn [t_addr t_last]; f_equal; clear - B1; lia|].
        rewrite T5, Enext. reflexivity.
      * unfold legal. cbn [xa_burst xa_size xa_addr xa_len]. rewrite <- E1, <- E4. replace (B - 1 + 1) with B by (clear; lia). split; [reflexivity|]. split; [assumption|]. split; [apply Z.divide_pos_le; [clear - Hr2; lia|assumption]|].
        split; [assumption|]. split; [exact B1|]. split; [exact B2|]. exact B4.
    + cbn [bind].
      specialize (IHn cfg s a data (k + 1) (off + (re - rs)) (cnt + 1) bl id tc). cbn zeta in IHn. destruct HH as (E1 & E2 & E3 & E4 & E5 & E6).
      rewrite <- E4, <- E1, <- E2, <- E3, <- E5 in IHn.
      destruct IHn as (aws & ts & ps & id' & tc' & E & T1 & T2 & T3 & T4 & T5 & T6 & T7); try assumption; try (clear - Hk; lia); try (clear - EC Hcn; lia).
      rewrite Enext. rewrite E. cbn [bind].
      exists aws, (mkT (mkLw (a + off) val strb) (A + k * nb) (cnt + 1 >=? bl) :: ts), ((a + off, piece) :: ps), id', tc'.
      split; [reflexivity|]. split; [cbn [length]; rewrite T1; reflexivity|]. split; [constructor; assumption|].
      split; [constructor; [split; [cbn [t_addr t_w lw_addr]; symmetry; exact Ew|exact Hak]|assumption]|]. split; [apply Hops; exact T4|].
      split; [|split; [assumption|assumption]].
      replace (Z.to_nat (bl - cnt)) with (S (Z.to_nat (bl - (cnt + 1)))) by (clear - EC; lia). rewrite run_beats_S. cbn [map app]. f_equal; [unfold t_al; cbn [t_addr t_last]; f_equal; clear - EC; lia|].
      rewrite T5, Enext. reflexivity.
Qed.

(** One write command. *)
Lemma xwrite_spec : forall cfg id a d z, lanes_ok (xc_bw cfg) -> 0 <= a -> a + zlen d <= 2 ^ 52 -> Forall is_byte d -> size_ok cfg z ->
  exists aws ts ps id', x_write cfg id a d 1 z = Ok (aws, map t_beat ts, id', zlen aws) /\ words_are (xc_bw cfg) (map t_w ts) ps /\ Forall (t_ok (xc_bw cfg)) ts /\
    pieces_ops ps = byte_ops a d /\ map t_al ts = flat_map obeats aws /\ Forall (legal cfg) aws.
Proof.
  intros cfg id a d z Hb Ha Hd HB Hz. destruct (size_lanes cfg z Hb Hz) as (s & E & S1 & S2 & S3 & S4). unfold x_write. rewrite E. cbn [bind].
  pose proof (zlen_nonneg d) as HL. destruct (cycles_spec (2 ^ s) a (zlen d) S2 Ha HL Hd) as (C0 & C1 & C2 & C3). pose proof (lanes_range _ S2) as Hr. pose proof (lanes_range _ Hb) as Hr2. pose proof (Z.mod_pos_bound a (2 ^ s) ltac:(lia)) as Hs.
  destruct (xwloop_spec (Z.to_nat (x_cycles (2 ^ s) a (zlen d))) cfg s a d 0 0 0 0 id 0) as (aws & ts & ps & id' & tc' & X1 & X2 & X3 & X4 & X5 & X6 & X7 & X8); try assumption; try lia.
  { rewrite xcycles_is. lia. }
  { destruct (Z.to_nat (x_cycles (2 ^ s) a (zlen d)) =? 0)%nat eqn:EC; [|reflexivity]. apply Nat.eqb_eq in EC. rewrite xcycles_is in EC. assert (l_cycles (2 ^ s) a (zlen d) = 0) as EC' by lia. rewrite EC' in C1. lia. }
  destruct (beat_geometry (xc_bw cfg) (2 ^ s) a (zlen d) 0 ltac:(lia) S3 ltac:(lia) Ha HL ltac:(lia)) as (_ & _ & _ & _ & G & _).
  rewrite !truediv_exact by (clear - Ha Hd HL Hr Hr2; lia). rewrite Z.mul_0_l, Z.add_0_r in X1. rewrite <- G, X1. exists aws, ts, ps, id'. rewrite X8, Z.add_0_l. split; [reflexivity|]. split; [assumption|]. split; [assumption|].
  split; [rewrite X5, Z.add_0_r; reflexivity|]. split; [exact X6|assumption].
Qed.
