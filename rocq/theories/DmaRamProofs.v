From Coq Require Import Permutation.
From Verif Require Import PyBase BitLemmas TlpProofs AxilProofs DmaRamModel DmaRamSpec.

(** * Vectors *)
Lemma vslice_fld w k v : 0 <= w -> 0 <= k -> vslice w k v = fld w k v.
Proof. intros Hw Hk. unfold vslice, fld. rewrite Z.land_ones, Z.shiftr_div_pow2, (Z.mul_comm k w) by nia. reflexivity. Qed.
Lemma vbit_test k v : 0 <= k -> vbit k v = Z.testbit v k.
Proof.
  intros Hk. unfold vbit. rewrite vslice_fld by lia. unfold fld. rewrite Z.mul_1_l. change (2 ^ 1) with 2.
  rewrite (Zmod_odd (v / 2 ^ k)), <- Z.bit0_odd, <- Z.shiftr_div_pow2, Z.shiftr_spec, Z.add_0_l by lia. destruct (Z.testbit v k); reflexivity.
Qed.
Lemma vconcat_range w l : 0 <= w -> Forall (fun x => 0 <= x < 2 ^ w) l -> 0 <= vconcat w l.
Proof.
  intros Hw H. induction H as [|x l Hx Hl IH]; cbn [vconcat]; [lia|]. apply Z.lor_nonneg. split; [lia|]. apply Z.shiftl_nonneg. exact IH.
Qed.
Lemma vconcat_fld w : 0 <= w -> forall l k, Forall (fun x => 0 <= x < 2 ^ w) l -> fld w (Z.of_nat k) (vconcat w l) = nth k l 0.
Proof.
  intros Hw. assert (HP : 0 < 2 ^ w) by (apply Z.pow_pos_nonneg; lia).
  induction l as [|x l IH]; intros k H; cbn [vconcat].
  - unfold fld. rewrite Z.div_0_l by (apply Z.pow_nonzero; nia). rewrite Z.mod_0_l by lia. destruct k; reflexivity.
  - inversion H as [|? ? Hx Hl]; subst. rewrite lor_add_disjoint by assumption. destruct k as [|k]; cbn [nth]; unfold fld.
    + rewrite Z.mul_0_r, Z.pow_0_r, Z.div_1_r, Z_mod_plus_full. apply Z.mod_small, Hx.
    + rewrite <- (IH k Hl). unfold fld. f_equal. rewrite Nat2Z.inj_succ, Z.mul_succ_r, (Z.add_comm (w * _)), Z.pow_add_r by nia.
      rewrite <- Z.div_div by (try apply Z.pow_nonzero; try apply Z.pow_pos_nonneg; nia). f_equal.
      rewrite Z.div_add by lia. rewrite Z.div_small by exact Hx. lia.
Qed.
Lemma vconcat_bit (l : list bool) k : Z.testbit (vconcat 1 (map (fun x : bool => if x then 1 else 0) l)) (Z.of_nat k) = nth k l false.
Proof.
  rewrite <- vbit_test by lia. unfold vbit. rewrite vslice_fld by lia.
  rewrite vconcat_fld by (try lia; apply Forall_map, Forall_forall; intros [] _; lia).
  rewrite (map_nth (fun x : bool => if x then 1 else 0) l false k : nth k (map (fun x : bool => if x then 1 else 0) l) 0 = _). destruct (nth k l false); reflexivity.
Qed.

(** * Memory *)
Section Geom.
  Variable c : dcfg.
  Hypothesis G : geom_ok c.
  Let n := Z.to_nat (d_bw c).

  Lemma base_fits k a : 0 <= base c k a /\ base c k a + d_bw c <= d_size c.
  Proof.
    destruct G as (G1 & G2 & G3 & G4 & G5 & G6). unfold base. apply Z.mod_divide in G5; [|lia]. destruct G5 as (q & E). rewrite E.
    rewrite Z.mul_mod_distr_r by nia. pose proof (Z.mod_pos_bound (a * d_cnt c + k) q ltac:(nia)). nia.
  Qed.

  Lemma write_bytes_ok size be : forall len m pos i val, pos + Z.of_nat len <= size -> 0 <= i ->
    exists m', write_bytes size m pos be i (data_bytes len val) = Ok m' /\
      forall x, m' x = if (0 <=? x - pos) && (x - pos <? Z.of_nat len) && Z.testbit be (i + (x - pos)) then fld 8 (x - pos) val else m x.
  Proof.
    induction len as [|len IH]; intros m pos i val Hs Hi; cbn [data_bytes write_bytes].
    - exists m. split; [reflexivity|]. intros x. replace ((0 <=? x - pos) && (x - pos <? Z.of_nat 0)) with false by lia. reflexivity.
    - replace (pos + 1 <=? size) with true by lia.
      set (m1 := if negb (Z.land be (Z.shiftl 1 i) =? 0) then mem_store m pos [Z.land val 255] else m).
      destruct (IH m1 (pos + 1) (i + 1) (Z.shiftr val 8) ltac:(lia) ltac:(lia)) as (m' & E & H). exists m'. split; [exact E|].
      intros x. rewrite H. replace (i + 1 + (x - (pos + 1))) with (i + (x - pos)) by lia.
      assert (T : negb (Z.land be (Z.shiftl 1 i) =? 0) = Z.testbit be i).
      { destruct (Z.testbit be i) eqn:Tb.
        - replace (Z.land be (Z.shiftl 1 i) =? 0) with false; [reflexivity|]. symmetry. apply Z.eqb_neq. intros E0.
          assert (F : Z.testbit (Z.land be (Z.shiftl 1 i)) i = false) by (rewrite E0; apply Z.bits_0).
          rewrite Z.land_spec, Z.shiftl_spec, Z.sub_diag, Tb in F by lia. discriminate.
        - replace (Z.land be (Z.shiftl 1 i)) with 0; [reflexivity|]. symmetry. apply Z.bits_inj'. intros j Hj.
          rewrite Z.bits_0, Z.land_spec, Z.shiftl_spec by lia. destruct (Z.eq_dec j i) as [->|Hn]; [rewrite Tb; reflexivity|].
          replace (Z.testbit 1 (j - i)) with false; [apply andb_false_r|]. symmetry.
          destruct (Z_lt_ge_dec j i); [apply Z.testbit_neg_r; lia|]. apply (testbit_high 1 1); cbn; lia. }
      destruct (Z.eq_dec x pos) as [->|Hn].
      + replace (pos - pos) with 0 by lia. replace (0 <=? pos - (pos + 1)) with false by lia. cbn [andb]. rewrite Z.add_0_r.
        replace ((0 <=? 0) && (0 <? Z.of_nat (S len))) with true by lia. cbn [andb]. unfold m1. rewrite T. destruct (Z.testbit be i); [|reflexivity].
        unfold mem_store, zlen. cbn [length]. replace ((pos <=? pos) && (pos <? pos + Z.of_nat 1)) with true by lia. rewrite Z.sub_diag. cbn [Z.to_nat nth].
        unfold fld. rewrite Z.mul_0_r, Z.pow_0_r, Z.div_1_r. change 255 with (Z.ones 8). apply Z.land_ones. lia.
      + assert (M : m1 x = m x).
        { unfold m1. destruct (negb _); [|reflexivity]. unfold mem_store, zlen. cbn [length]. replace ((pos <=? x) && (x <? pos + Z.of_nat 1)) with false by lia. reflexivity. }
        rewrite M. replace ((0 <=? x - (pos + 1)) && (x - (pos + 1) <? Z.of_nat len)) with ((0 <=? x - pos) && (x - pos <? Z.of_nat (S len))) by lia.
        destruct ((0 <=? x - pos) && (x - pos <? Z.of_nat (S len))) eqn:C; [|reflexivity]. cbn [andb]. destruct (Z.testbit be (i + (x - pos))); [|reflexivity].
        unfold fld. f_equal. rewrite Z.shiftr_div_pow2 by lia. rewrite Z.div_div by (try apply Z.pow_pos_nonneg; lia).
        f_equal. rewrite <- Z.pow_add_r by lia. f_equal. lia.
  Qed.

  Lemma fld_fld w v k j q : 0 <= w -> 0 <= k -> 0 <= j < q -> fld w j (fld (w * q) k v) = fld w (k * q + j) v.
  Proof.
    intros Hw Hk Hj. assert (A1 : 0 <= w * q) by nia. assert (A2 : 0 <= w * q * k) by nia. assert (A3 : 0 <= k * q) by nia. assert (A4 : 0 <= w * (k * q + j)) by nia. unfold fld.
    rewrite <- !Z.land_ones, <- !Z.shiftr_div_pow2 by (assumption || nia). apply Z.bits_inj'. intros b Hb.
    rewrite !Z.land_spec. destruct (Z.testbit (Z.ones w) b) eqn:O; [|rewrite !andb_false_r; reflexivity].
    assert (b < w). { destruct (Z_lt_ge_dec b w); [assumption|]. rewrite Z.ones_spec_high in O by lia. discriminate. }
    rewrite !andb_true_r. rewrite !Z.shiftr_spec by lia. rewrite Z.land_spec. rewrite Z.shiftr_spec by nia. rewrite Z.ones_spec_low by nia. rewrite andb_true_r. f_equal. nia.
  Qed.

  Lemma write_edge_ok k ready i m : 0 <= k -> exists m', write_edge c k ready (vbit k (i_wvalid i)) (vslice (d_bw c) k (i_wbe i)) (vslice (d_aw c) k (i_waddr i)) (vslice (8 * d_bw c) k (i_wdata i)) m = Ok m' /\
    forall x, m' x = if Z.testbit (i_wvalid i) k && ready then written c i k m x else m x.
  Proof.
    intros Hk. destruct G as (G1 & G2 & G3 & G4 & G5 & G6). unfold write_edge. rewrite vbit_test by lia. rewrite (andb_comm ready).
    destruct (Z.testbit (i_wvalid i) k && ready); [|exists m; split; [reflexivity|reflexivity]].
    rewrite !vslice_fld by lia. unfold seek, word_addr. fold (base c k (fld (d_aw c) k (i_waddr i))).
    pose proof (base_fits k (fld (d_aw c) k (i_waddr i))) as (B1 & B2).
    destruct (write_bytes_ok (d_size c) (fld (d_bw c) k (i_wbe i)) (Z.to_nat (d_bw c)) m (base c k (fld (d_aw c) k (i_waddr i))) 0 (fld (8 * d_bw c) k (i_wdata i)) ltac:(lia) ltac:(lia)) as (m' & E & H).
    exists m'. split; [exact E|]. intros x. rewrite H, Z2Nat.id by lia. unfold written. set (j := x - base c k _).
    destruct ((0 <=? j) && (j <? d_bw c)) eqn:J; [|reflexivity]. cbn [andb]. rewrite fld_fld by lia.
    replace (Z.testbit (fld (d_bw c) k (i_wbe i)) (0 + j)) with (Z.testbit (i_wbe i) (k * d_bw c + j)); [reflexivity|].
    unfold fld. rewrite <- Z.land_ones, Z.land_spec, Z.ones_spec_low, andb_true_r, <- Z.shiftr_div_pow2, Z.shiftr_spec by nia. f_equal. lia.
  Qed.

  Lemma load_word m a : forall len, le_val (map (fun j => m (a + Z.of_nat j)) (seq 0 len)) = word_of m a len.
  Proof.
    intros len. enough (H : forall len s, le_val (map (fun j => m (a + Z.of_nat j)) (seq s len)) = word_of m (a + Z.of_nat s) len).
    { rewrite H. f_equal. lia. }
    induction len0 as [|l IH]; intros s; [reflexivity|]. cbn [seq map le_val word_of]. rewrite IH. do 3 f_equal. lia.
  Qed.
  Lemma read_word_ok m k a : read_word c m (word_addr c k a) = Ok (word_of m (base c k a) n).
  Proof.
    pose proof (base_fits k a) as (B1 & B2). unfold read_word, seek, word_addr. fold (base c k a). replace (base c k a + d_bw c <=? d_size c) with true by lia.
    unfold word_val, mem_load. rewrite word_val_le, load_word. reflexivity.
  Qed.
  Lemma word_of_range m : (forall x, is_byte (m x)) -> forall len a, 0 <= word_of m a len < 2 ^ (8 * Z.of_nat len).
  Proof.
    intros H. induction len as [|len IH]; intros a; [cbn; lia|]. cbn [word_of]. specialize (IH (a + 1)). specialize (H a). unfold is_byte in H.
    rewrite Nat2Z.inj_succ, Z.mul_succ_r, Z.pow_add_r by lia. change (2 ^ 8) with 256. nia.
  Qed.
  Lemma word_of_ext m m' : (forall x, m x = m' x) -> forall len a, word_of m a len = word_of m' a len.
  Proof. intros H. induction len as [|len IH]; intros a; [reflexivity|]. cbn [word_of]. rewrite H, IH. reflexivity. Qed.
  Lemma written_ext m m' i k : (forall x, m x = m' x) -> forall x, written c i k m x = written c i k m' x.
  Proof. intros H x. unfold written. rewrite H. reflexivity. Qed.
  Lemma written_byte m i k : (forall x, is_byte (m x)) -> forall x, is_byte (written c i k m x).
  Proof.
    intros H x. unfold written. destruct (_ && _); [|apply H]. unfold fld, is_byte. apply (Z.mod_pos_bound _ (2 ^ 8)). lia.
  Qed.

  (** * Read ports *)
  Definition somes (l : list (option Z)) : list Z := flat_map (fun x => match x with Some v => [v] | None => [] end) l.
  (** The output register followed by the pipeline, oldest first. *)
  Definition slots (p : rport) : list (option Z) := (if rp_valid p then Some (rp_data p) else None) :: rev (rp_pipe p).
  Definition wide (v : Z) : Prop := 0 <= v < 2 ^ (8 * d_bw c).
  Definition port_ok (p : rport) : Prop :=
    length (rp_pipe p) = d_lat c /\ rp_out p = rp_valid p /\ rp_rint p = negb (rp_valid p) || has_none (rp_pipe p) /\ wide (rp_data p) /\ Forall wide (somes (rp_pipe p)).

  Lemma somes_app a b : somes (a ++ b) = somes a ++ somes b. Proof. apply flat_map_app. Qed.
  Lemma somes_cons x l : somes (x :: l) = somes [x] ++ somes l. Proof. apply (somes_app [x] l). Qed.
  Lemma shift_from_somes : forall l x, somes (shift_from x l) = somes (x :: l).
  Proof.
    induction l as [|y r IH]; intros x; [reflexivity|]. cbn [shift_from]. destruct x as [v|].
    - change (somes (Some v :: shift_from y r)) with (v :: somes (shift_from y r)). rewrite IH. reflexivity.
    - change (y :: shift_from None r) with ([y] ++ shift_from None r). rewrite somes_app, IH. change (somes (None :: r)) with (somes r).
      rewrite <- somes_app. reflexivity.
  Qed.
  Lemma shift_from_length : forall l x, length (shift_from x l) = S (length l).
  Proof. induction l as [|y r IH]; intros x; [reflexivity|]. cbn [shift_from]. destruct x; cbn [length]; rewrite IH; reflexivity. Qed.
  Lemma shift_from_none : forall l, shift_from None l = l ++ [None].
  Proof. induction l as [|y r IH]; [reflexivity|]. cbn [shift_from app]. rewrite IH. reflexivity. Qed.
  Lemma shift_from_hole : forall l x, has_none (x :: l) = true -> exists r, shift_from x l = r ++ [None].
  Proof.
    induction l as [|y r IH]; intros x H; cbn [shift_from].
    - destruct x; [discriminate|]. exists []. reflexivity.
    - destruct x as [v|].
      + destruct (IH y) as (q & E); [exact H|]. rewrite E. exists (Some v :: q). reflexivity.
      + rewrite shift_from_none. exists (y :: r). reflexivity.
  Qed.
  Lemma has_none_rev l : has_none (rev l) = has_none l.
  Proof.
    unfold has_none. apply eq_iff_eq_true. rewrite !existsb_exists. split; intros (x & H & H'); exists x; split; auto; apply in_rev; try assumption. rewrite rev_involutive. exact H.
  Qed.

  Lemma out_stage_ok p rr : port_ok p -> exists p1, out_stage p rr = Ok p1 /\ length (rp_pipe p1) = d_lat c /\ rp_out p1 = rp_valid p1 /\ wide (rp_data p1) /\
    (if rp_valid p && rr then [rp_data p] else []) ++ somes (slots p1) = somes (slots p) /\
    (rr || rp_rint p = true -> has_none (rp_pipe p1) = true) /\
    (rr = true -> slots p1 = match slots p with _ :: x :: r => x :: None :: r | l => l end /\ rev (rp_pipe p1) = None :: tl (rev (rp_pipe p))).
  Proof.
    intros (P1 & P2 & P3 & P4 & P5). destruct G as (G1 & G2 & G3 & G4 & G5 & G6). unfold out_stage.
    destruct (rr || negb (rp_valid p)) eqn:C.
    - destruct (rev (rp_pipe p)) as [|x r] eqn:R.
      { apply (f_equal (@length _)) in R. rewrite rev_length, P1 in R. cbn in R. lia. }
      assert (PE : rp_pipe p = rev r ++ [x]) by (rewrite <- (rev_involutive (rp_pipe p)), R; reflexivity).
      assert (FS : (if rp_valid p && rr then [rp_data p] else []) = (if rp_valid p then [rp_data p] else [])) by (destruct (rp_valid p), rr; cbn in *; congruence).
      destruct x as [v|].
      + eexists. split; [reflexivity|]. cbn [rp_pipe rp_out rp_valid rp_data]. split; [|split; [|split; [|split; [|split]]]].
        * rewrite <- P1, PE, !app_length. reflexivity.
        * reflexivity.
        * rewrite PE, somes_app in P5. apply Forall_app in P5. destruct P5 as (_ & P5). inversion P5; subst. assumption.
        * rewrite FS. unfold slots. cbn [rp_valid rp_data rp_pipe]. rewrite rev_app_distr, rev_involutive, R. destruct (rp_valid p); reflexivity.
        * intros _. rewrite <- has_none_rev, rev_app_distr. reflexivity.
        * intros _. unfold slots. cbn [rp_valid rp_data rp_pipe]. rewrite rev_app_distr, rev_involutive, R. split; reflexivity.
      + eexists. split; [reflexivity|]. cbn [rp_pipe rp_out rp_valid rp_data]. split; [|split; [|split; [|split; [|split]]]].
        * exact P1.
        * reflexivity.
        * exact P4.
        * rewrite FS. unfold slots. cbn [rp_valid rp_data rp_pipe]. rewrite R. destruct (rp_valid p); reflexivity.
        * intros _. rewrite <- has_none_rev, R. reflexivity.
        * intros _. unfold slots. cbn [rp_valid rp_data rp_pipe]. rewrite R. split; reflexivity.
    - apply orb_false_iff in C. destruct C as (-> & C). apply negb_false_iff in C. exists p. split; [reflexivity|]. rewrite C. cbn [andb app].
      split; [exact P1|]. split; [rewrite P2, C; reflexivity|]. split; [exact P4|]. split; [reflexivity|]. split; [|discriminate].
      cbn [orb]. rewrite P3, C. cbn. auto.
  Qed.

  Lemma set_first_last r v : set_first v (rev (r ++ [None])) = rev (r ++ [Some v]).
  Proof. rewrite !rev_app_distr. reflexivity. Qed.

  Lemma read_edge_ok k p rr pause valid a m : port_ok p -> (forall x, is_byte (m x)) ->
    exists p', read_edge c k p rr pause valid a m = Ok p' /\ port_ok p' /\
      let new := if cmd_ready p rr pause && valid then [word_of m (base c k a) n] else [] in
      (if rp_valid p && rr then [rp_data p] else []) ++ somes (slots p') = somes (slots p) ++ new /\
      (rr = true -> exists x, slots p' = tl (slots p) ++ [x]).
  Proof.
    intros P Hm. pose proof (out_stage_ok p rr P) as (p1 & E & L & OV & W & S & HN & SH). unfold read_edge. rewrite E. cbn [bind].
    destruct P as (P1 & P2 & P3 & P4 & P5). pose proof G as (G1 & G2 & G3 & G4 & G5 & G6).
    set (pipe := rev (shift_rev (rev (rp_pipe p1)))).
    assert (LP : length pipe = d_lat c).
    { unfold pipe. rewrite rev_length. unfold shift_rev. destruct (rev (rp_pipe p1)) as [|x r] eqn:R; apply (f_equal (@length _)) in R; rewrite rev_length in R; cbn [length] in *; [lia|]. rewrite shift_from_length. lia. }
    assert (SP : somes (rev pipe) = somes (rev (rp_pipe p1))).
    { unfold pipe. rewrite rev_involutive. unfold shift_rev. destruct (rev (rp_pipe p1)) as [|x r]; [reflexivity|]. apply shift_from_somes. }
    assert (WS : Forall wide (somes (slots p))).
    { unfold slots. cbn [somes flat_map]. fold (somes (rev (rp_pipe p))). apply Forall_app. split; [destruct (rp_valid p); constructor; auto|].
      rewrite Forall_forall in *. intros v Hv. apply P5. apply in_flat_map in Hv. destruct Hv as (o & Ho & Hv). apply in_flat_map. exists o. split; [apply in_rev; exact Ho|exact Hv]. }
    assert (WS1 : Forall wide (somes (rev pipe))).
    { rewrite SP. rewrite <- S in WS. apply Forall_app in WS. destruct WS as (_ & WS). unfold slots in WS. cbn [somes flat_map] in WS. fold (somes (rev (rp_pipe p1))) in WS. apply Forall_app in WS. tauto. }
    assert (back : forall q, Forall wide (somes (rev q)) -> Forall wide (somes q)).
    { intros q H. rewrite Forall_forall in *. intros v Hv. apply H. apply in_flat_map in Hv. destruct Hv as (o & Ho & Hv). apply in_flat_map. exists o. split; [apply in_rev; rewrite rev_involutive; exact Ho|exact Hv]. }
    assert (TLS : rr = true -> slots p1 = match slots p with _ :: x :: r => x :: None :: r | l => l end /\ rev pipe = tl (rev (rp_pipe p)) ++ [None]).
    { intros Hr. destruct (SH Hr) as (S1 & S2). split; [exact S1|]. unfold pipe. rewrite rev_involutive, S2. cbn [shift_rev]. apply shift_from_none. }
    assert (SL : forall pipe', slots (mkRport pipe' (rp_out p1) (negb (rp_out p1) || has_none pipe') (rp_valid p1) (rp_data p1)) = hd None (slots p1) :: rev pipe') by reflexivity.
    assert (SLP : slots p1 = hd None (slots p1) :: rev (rp_pipe p1)) by reflexivity.
    destruct (cmd_ready p rr pause && valid) eqn:C.
    - rewrite read_word_ok. cbn [bind]. eexists. split; [reflexivity|].
      apply andb_true_iff in C. destruct C as (C & _). unfold cmd_ready in C. apply andb_true_iff in C. destruct C as (C & _).
      assert (exists r, rev pipe = r ++ [None]) as (r & R).
      { unfold pipe. rewrite rev_involutive. specialize (HN C). rewrite <- has_none_rev in HN. unfold shift_rev. destruct (rev (rp_pipe p1)) as [|x q]; [discriminate|]. apply shift_from_hole. exact HN. }
      assert (PE : pipe = rev (r ++ [None])) by (rewrite <- R, rev_involutive; reflexivity).
      set (v := word_of m (base c k a) n). assert (WV : wide v). { unfold wide. pose proof (word_of_range m Hm n (base c k a)) as H. replace (Z.of_nat n) with (d_bw c) in H by (unfold n; lia). exact H. }
      rewrite PE, set_first_last. split.
      + split; [|split; [|split; [|split]]]; cbn [rp_pipe rp_out rp_valid rp_rint rp_data].
        * rewrite <- LP, PE, !rev_length, !app_length. reflexivity.
        * exact OV.
        * rewrite OV. reflexivity.
        * exact W.
        * apply back. rewrite rev_involutive, somes_app. rewrite R, somes_app in WS1. cbn [somes flat_map app] in *. rewrite app_nil_r in WS1. apply Forall_app. split; [exact WS1|repeat constructor; apply WV].
      + cbv zeta. split.
        * rewrite SL, rev_involutive, <- S, SLP, <- app_assoc. f_equal. cbn [hd]. rewrite (somes_cons _ (r ++ _)), (somes_cons _ (rev _)), <- app_assoc. f_equal.
          rewrite <- SP, R, !somes_app. cbn [somes flat_map app]. rewrite app_nil_r. reflexivity.
        * intros Hr. destruct (TLS Hr) as (S1 & S2). exists (Some v). rewrite SL, rev_involutive. rewrite R in S2. apply app_inj_tail in S2. destruct S2 as (-> & _).
          rewrite S1. unfold slots. cbn [tl]. destruct (rev (rp_pipe p)) as [|x q] eqn:Q; [apply (f_equal (@length _)) in Q; rewrite rev_length in Q; cbn in Q; lia|]. reflexivity.
    - cbn [bind]. eexists. split; [reflexivity|]. split.
      + split; [|split; [|split; [|split]]]; cbn [rp_pipe rp_out rp_valid rp_rint rp_data]; [exact LP|exact OV|rewrite OV; reflexivity|exact W|apply back; exact WS1].
      + cbv zeta. split.
        * rewrite SL, app_nil_r, <- S, SLP. f_equal. cbn [hd]. rewrite (somes_cons _ (rev pipe)), (somes_cons _ (rev (rp_pipe p1))). f_equal. exact SP.
        * intros Hr. destruct (TLS Hr) as (S1 & S2). exists None. rewrite SL, S2, S1. unfold slots. cbn [tl].
          destruct (rev (rp_pipe p)) as [|x q] eqn:Q; [apply (f_equal (@length _)) in Q; rewrite rev_length in Q; cbn in Q; lia|]. reflexivity.
  Qed.
End Geom.
