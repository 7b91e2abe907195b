(** Proofs for the segmented TLP interface: bit fields and segment contents. *)
From Verif Require Import PyBase TlpModel SplitModel BitLemmas TlpProofs SplitProofs PcieIfModel PcieIfProofs2 PcieIfProofs4 PcieIfStreamModel PcieIfStreamSpec.
From Coq Require Import ZifyBool ZifyNat.
Ltac Zify.zify_post_hook ::= Z.div_mod_to_equations.

Lemma ext_testbit : forall w t i j, 0 <= w -> 0 <= i ->
  Z.testbit (ext w t i) j = (0 <=? j) && (j <? w) && Z.testbit t (i * w + j).
Proof.
  intros w t i j Hw Hi. unfold ext. replace (2 ^ w - 1) with (Z.ones w) by (rewrite Z.ones_equiv; lia).
  rewrite Z.land_spec. destruct (Z.leb_spec 0 j) as [Hj|Hj].
  - rewrite Z.shiftr_spec by lia. rewrite Z.testbit_ones_nonneg by lia. rewrite (Z.add_comm j).
    rewrite andb_comm. reflexivity.
  - rewrite !(Z.testbit_neg_r _ j) by lia. reflexivity.
Qed.

Lemma ext_range : forall w t i, 0 <= w -> 0 <= ext w t i < 2 ^ w.
Proof.
  intros w t i Hw. unfold ext. replace (2 ^ w - 1) with (Z.ones w) by (rewrite Z.ones_equiv; lia).
  rewrite Z.land_ones by lia. apply Z.mod_pos_bound. apply Z.pow_pos_nonneg; lia.
Qed.

Lemma ext_put : forall w t v s i, 0 <= w -> 0 <= s -> 0 <= i -> 0 <= v < 2 ^ w ->
  ext w (Z.lor t (Z.shiftl v (s * w))) i = Z.lor (ext w t i) (if i =? s then v else 0).
Proof.
  intros w t v s i Hw Hs Hi Hv. apply Z.bits_inj'. intros j Hj.
  rewrite Z.lor_spec, !ext_testbit by lia. rewrite Z.lor_spec.
  replace (0 <=? j) with true by (symmetry; apply Z.leb_le; lia). cbn [andb].
  destruct (Z.ltb_spec j w) as [Hjw|Hjw]; cbn [andb orb].
  - f_equal. destruct (Z.eqb_spec i s) as [->|Hne].
    + rewrite Z.shiftl_spec by nia. f_equal. lia.
    + rewrite Z.testbit_0_l. rewrite Z.shiftl_spec by nia.
      destruct (Z.lt_ge_cases i s).
      * apply Z.testbit_neg_r. nia.
      * apply (testbit_high v w); nia.
  - destruct (Z.eqb_spec i s) as [->|Hne]; [|rewrite Z.testbit_0_l; reflexivity].
    symmetry. apply (testbit_high v w); lia.
Qed.

Lemma ext_0 : forall w i, ext w 0 i = 0.
Proof. intros. unfold ext. rewrite Z.shiftr_0_l. apply Z.land_0_l. Qed.

Lemma has_bit_testbit : forall t i, 0 <= i -> has_bit t i = Z.testbit t i.
Proof.
  intros t i Hi. unfold has_bit. destruct (Z.testbit t i) eqn:E.
  - destruct (Z.eqb_spec (Z.land t (Z.shiftl 1 i)) 0) as [H|H]; [|reflexivity].
    exfalso. assert (Z.testbit (Z.land t (Z.shiftl 1 i)) i = true) as B.
    { rewrite Z.land_spec, E, Z.shiftl_spec by lia. rewrite Z.sub_diag. reflexivity. }
    rewrite H, Z.testbit_0_l in B. discriminate.
  - replace (Z.land t (Z.shiftl 1 i)) with 0; [reflexivity|].
    symmetry. apply Z.bits_inj'. intros j Hj. rewrite Z.land_spec, Z.testbit_0_l.
    rewrite Z.shiftl_spec by lia. destruct (Z.eq_dec j i) as [->|Hn]; [rewrite E; reflexivity|].
    rewrite andb_comm. destruct (Z.lt_ge_cases j i); [rewrite Z.testbit_neg_r by lia; reflexivity|].
    rewrite (testbit_high 1 1) by lia. reflexivity.
Qed.

Lemma bit_put : forall t s i, 0 <= s -> 0 <= i -> Z.testbit (Z.lor t (Z.shiftl 1 s)) i = Z.testbit t i || (i =? s).
Proof.
  intros t s i Hs Hi. rewrite Z.lor_spec. f_equal. rewrite Z.shiftl_spec by lia.
  destruct (Z.eqb_spec i s) as [->|Hn]; [rewrite Z.sub_diag; reflexivity|].
  destruct (Z.lt_ge_cases i s); [apply Z.testbit_neg_r; lia|].
  apply (testbit_high 1 1); lia.
Qed.

Lemma ext_ext : forall w n t s k, 0 < w -> 0 <= s -> 0 <= k < n -> ext w (ext (w * n) t s) k = ext w t (s * n + k).
Proof.
  intros w n t s k Hw Hs Hk. apply Z.bits_inj'. intros j Hj.
  rewrite !ext_testbit by nia.
  destruct (Z.ltb_spec j w) as [Hjw|Hjw]; [|rewrite !andb_false_r; reflexivity].
  replace (0 <=? k * w + j) with true by (symmetry; apply Z.leb_le; nia).
  replace (k * w + j <? w * n) with true by (symmetry; apply Z.ltb_lt; nia).
  cbn [andb]. f_equal. f_equal. nia.
Qed.

(** ** Segment contents. *)
Record content := mkC {
  c_valid : bool; c_sop : bool; c_eop : bool; c_vfa : bool;
  c_hdr : Z; c_prfx : Z; c_hpar : Z; c_ppar : Z; c_bar : Z; c_func : Z; c_vfn : Z; c_err : Z; c_seq : Z;
  c_dl : list Z; c_pl : list Z; c_sl : list bool }.

Definition c0 (cfg : icfg) : content :=
  mkC false false false false 0 0 0 0 0 0 0 0 0 (repeat 0 (ic_lanes cfg)) (repeat 0 (ic_lanes cfg)) (repeat false (ic_lanes cfg)).

Definition lane (cfg : icfg) (i j : nat) : Z := Z.of_nat (i * ic_lanes cfg + j).

Definition view (cfg : icfg) (t : trans) (i : nat) : content :=
  let z := Z.of_nat i in
  mkC (Z.testbit (tr_valid t) z) (Z.testbit (tr_sop t) z) (Z.testbit (tr_eop t) z) (Z.testbit (tr_vfa t) z)
    (ext 128 (tr_hdr t) z) (ext 32 (tr_prfx t) z) (ext 16 (tr_hpar t) z) (ext 4 (tr_ppar t) z)
    (ext 3 (tr_bar t) z) (ext 8 (tr_func t) z) (ext 11 (tr_vfn t) z) (ext 4 (tr_error t) z) (ext (ic_seqw cfg) (tr_seq t) z)
    (map (fun j => ext 32 (tr_data t) (lane cfg i j)) (seq 0 (ic_lanes cfg)))
    (map (fun j => ext 4 (tr_dpar t) (lane cfg i j)) (seq 0 (ic_lanes cfg)))
    (map (fun j => Z.testbit (tr_strb t) (lane cfg i j)) (seq 0 (ic_lanes cfg))).

Definition item : Set := (frame * nat * bool)%type.

Definition width (cfg : icfg) (f : frame) (o : nat) : nat := Nat.min (ic_lanes cfg) (length (f_data f) - o).

Definition content_of (cfg : icfg) (it : item) : content :=
  let '(f, o, first) := it in
  let m := width cfg f o in
  let on (v : Z) := if first : bool then v else 0 in
  mkC true first (length (f_data f) <=? o + m)%nat (match f_vf_num f with Some _ => true | None => false end)
    (on (f_hdr f)) (on (f_tlp_prfx f)) (on (f_hdr_par f)) (on (f_tlp_prfx_par f))
    (f_bar_id f) (f_func_num f) (match f_vf_num f with Some v => v | None => 0 end) (f_error f) (f_seq f)
    (map (fun j => if (j <? m)%nat then nth (o + j) (f_data f) 0 else 0) (seq 0 (ic_lanes cfg)))
    (map (fun j => if (j <? m)%nat then nth (o + j) (f_parity f) 0 else 0) (seq 0 (ic_lanes cfg)))
    (map (fun j => (j <? m)%nat) (seq 0 (ic_lanes cfg))).

Lemma view_tr0 : forall cfg i, view cfg tr0 i = c0 cfg.
Proof.
  intros cfg i. unfold view, c0, tr0. cbn [tr_valid tr_sop tr_eop tr_vfa tr_hdr tr_prfx tr_hpar tr_ppar tr_bar tr_func tr_vfn tr_error tr_seq tr_data tr_dpar tr_strb].
  rewrite !Z.testbit_0_l, !ext_0. f_equal.
  - generalize 0%nat. induction (ic_lanes cfg); intro; cbn [seq map repeat]; [reflexivity|]. rewrite ext_0. f_equal. apply IHn.
  - generalize 0%nat. induction (ic_lanes cfg); intro; cbn [seq map repeat]; [reflexivity|]. rewrite ext_0. f_equal. apply IHn.
  - generalize 0%nat. induction (ic_lanes cfg); intro; cbn [seq map repeat]; [reflexivity|]. rewrite Z.testbit_0_l. f_equal. apply IHn.
Qed.

(** ** The lane loop of the source. *)
Lemma src_lanes_spec : forall n cfg s k f o t,
  0 <= s -> (0 <= k) -> (o + n <= length (f_data f))%nat -> length (f_parity f) = length (f_data f) ->
  Forall (fun d => 0 <= d < 2 ^ 32) (f_data f) -> Forall (fun d => 0 <= d < 2 ^ 4) (f_parity f) ->
  exists D P B,
    src_lanes n cfg s k f (Z.of_nat o) t =
      Ok (mkTr D B (tr_sop t) (tr_eop t) (tr_valid t) (tr_error t) (tr_hdr t) (tr_prfx t) (tr_seq t) (tr_vfa t) (tr_func t) (tr_vfn t)
            (tr_bar t) P (tr_hpar t) (tr_ppar t), Z.of_nat (o + n)) /\
    (forall j b inb, 0 <= j -> b = s * Z.of_nat (ic_lanes cfg) + k -> inb = (b <=? j) && (j <? b + Z.of_nat n) ->
       ext 32 D j = Z.lor (ext 32 (tr_data t) j) (if inb then nth (o + Z.to_nat (j - b)) (f_data f) 0 else 0) /\
       ext 4 P j = Z.lor (ext 4 (tr_dpar t) j) (if inb then nth (o + Z.to_nat (j - b)) (f_parity f) 0 else 0) /\
       Z.testbit B j = Z.testbit (tr_strb t) j || inb).
Proof.
  induction n; intros cfg s k f o t Hs Hk Hn Hpl Hd Hp; cbn [src_lanes].
  - exists (tr_data t), (tr_dpar t), (tr_strb t). split.
    + rewrite Nat.add_0_r. destruct t; reflexivity.
    + intros j b inb Hj Hb Hinb. assert (inb = false) as ->. { subst inb. clear Hb. lia. }
      rewrite !Z.lor_0_r, orb_false_r. auto.
  - assert (Z.of_nat o < zlen (f_data f)) by (unfold zlen; lia).
    assert (py_index (f_data f) (Z.of_nat o) = Ok (nth o (f_data f) 0)) as ->.
    { rewrite (py_index_nth (f_data f) (Z.of_nat o) 0) by lia. rewrite Nat2Z.id. reflexivity. }
    assert (py_index (f_parity f) (Z.of_nat o) = Ok (nth o (f_parity f) 0)) as ->.
    { rewrite (py_index_nth (f_parity f) (Z.of_nat o) 0) by (unfold zlen; lia). rewrite Nat2Z.id. reflexivity. }
    cbn [bind]. set (ln := k + s * Z.of_nat (ic_lanes cfg)). assert (0 <= ln) by nia.
    replace (Z.of_nat o + 1) with (Z.of_nat (S o)) by lia.
    set (t1 := mkTr _ _ _ _ _ _ _ _ _ _ _ _ _ _ _ _).
    destruct (IHn cfg s (k + 1) f (S o) t1 Hs ltac:(lia) ltac:(lia) Hpl Hd Hp) as (D & P & B & E & HH).
    exists D, P, B. split.
    { rewrite E. unfold t1. cbn. repeat f_equal; lia. }
    intros j b inb Hj Hb Hinb. specialize (HH j (b + 1) _ Hj ltac:(lia) eq_refl).
    remember (b + 1) as b' eqn:Eb.
    assert (ln = b) as El by (unfold ln; lia).
    destruct HH as (H1 & H2 & H3). unfold t1 in H1, H2, H3. cbn [tr_data tr_dpar tr_strb] in H1, H2, H3.
    replace (32 * ln) with (ln * 32) in H1 by lia. replace (4 * ln) with (ln * 4) in H2 by lia.
    assert (0 <= nth o (f_data f) 0 < 2 ^ 32).
    { rewrite Forall_forall in Hd. apply Hd, nth_In. lia. }
    assert (0 <= nth o (f_parity f) 0 < 2 ^ 4).
    { rewrite Forall_forall in Hp. apply Hp, nth_In. lia. }
    rewrite ext_put in H1 by lia. rewrite ext_put in H2 by lia. rewrite bit_put in H3 by lia.
    assert (inb = (j =? ln) || ((b' <=? j) && (j <? b' + Z.of_nat n))) as Ei.
    { rewrite Hinb, Eb, El. apply eq_true_iff_eq. rewrite orb_true_iff, !andb_true_iff, !Z.leb_le, !Z.ltb_lt, Z.eqb_eq. clear. lia. }
    rewrite H1, H2, H3, Ei, <- orb_assoc. clear H1 H2 H3.
    destruct (Z.eqb_spec j ln) as [Ej|Ej]; cbn [orb].
    + assert ((b' <=? j) && (j <? b' + Z.of_nat n) = false) as -> by lia.
      rewrite !Z.lor_0_r. replace (o + Z.to_nat (j - b))%nat with o by lia. auto.
    + rewrite !Z.lor_0_r. destruct ((b' <=? j) && (j <? b' + Z.of_nat n)) eqn:E2; [|auto].
      replace (S o + Z.to_nat (j - b'))%nat with (o + Z.to_nat (j - b))%nat by lia. auto.
Qed.
