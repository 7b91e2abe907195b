(** Proofs for the segmented TLP interface: the source. *)
From Verif Require Import PyBase TlpModel SplitModel BitLemmas TlpProofs SplitProofs PcieIfModel PcieIfProofs2 PcieIfProofs4 PcieIfStreamModel PcieIfStreamSpec PcieIfStreamProofs.
From Coq Require Import ZifyBool ZifyNat.
Ltac Zify.zify_post_hook ::= Z.div_mod_to_equations.

Lemma map_seq_eq {A} (f g : nat -> A) n : (forall j, (j < n)%nat -> f j = g j) -> map f (seq 0 n) = map g (seq 0 n).
Proof. intros H. apply map_ext_in. intros j Hj. apply in_seq in Hj. apply H. lia. Qed.

Lemma map_seq_inv {A} (f : nat -> A) n d : map f (seq 0 n) = repeat d n -> forall j, (j < n)%nat -> f j = d.
Proof.
  intros H j Hj. assert (nth j (map f (seq 0 n)) (f 0%nat) = nth j (repeat d n) (f 0%nat)) as E by now rewrite H.
  rewrite map_nth, seq_nth in E by assumption. cbn [Nat.add] in E. rewrite E.
  assert (In (nth j (repeat d n) (f 0%nat)) (repeat d n)) as HI by (apply nth_In; rewrite repeat_length; lia).
  now apply repeat_spec in HI.
Qed.

Ltac trp := cbn [tr_valid tr_sop tr_eop tr_vfa tr_hdr tr_prfx tr_hpar tr_ppar tr_bar tr_func tr_vfn tr_error tr_seq tr_data tr_dpar tr_strb].

Definition item_ok (f : frame) (o : nat) (first : bool) : Prop :=
  (first = true /\ o = 0%nat) \/ (first = false /\ (o < length (f_data f))%nat).

Lemma src_seg_spec : forall cfg s f o first t,
  icfg_ok cfg -> frame_wf cfg f -> item_ok f o first -> view cfg t s = c0 cfg ->
  exists t', src_seg cfg (Z.of_nat s) f (Z.of_nat o) first t =
      Ok (t', if (length (f_data f) <=? o + width cfg f o)%nat then None else Some (f, Z.of_nat (o + width cfg f o), false)) /\
    view cfg t' s = content_of cfg (f, o, first) /\
    (forall i, i <> s -> view cfg t' i = view cfg t i).
Proof.
  intros cfg s f o first t (Hs & HL & Hq) W HI HV.
  unfold view, c0 in HV.
  pose proof (f_equal c_valid HV) as V1. pose proof (f_equal c_sop HV) as V2. pose proof (f_equal c_eop HV) as V3. pose proof (f_equal c_vfa HV) as V4.
  pose proof (f_equal c_hdr HV) as V5. pose proof (f_equal c_prfx HV) as V6. pose proof (f_equal c_hpar HV) as V7. pose proof (f_equal c_ppar HV) as V8.
  pose proof (f_equal c_bar HV) as V9. pose proof (f_equal c_func HV) as V10. pose proof (f_equal c_vfn HV) as V11. pose proof (f_equal c_err HV) as V12.
  pose proof (f_equal c_seq HV) as V13. pose proof (f_equal c_dl HV) as V14. pose proof (f_equal c_pl HV) as V15. pose proof (f_equal c_sl HV) as V16.
  clear HV. cbn [c_valid c_sop c_eop c_vfa c_hdr c_prfx c_hpar c_ppar c_bar c_func c_vfn c_err c_seq c_dl c_pl c_sl] in *.
  pose proof (map_seq_inv _ _ _ V14) as W14. pose proof (map_seq_inv _ _ _ V15) as W15. pose proof (map_seq_inv _ _ _ V16) as W16. cbv beta in *. clear V14 V15 V16.
  set (m := width cfg f o).
  set (ta := src_side cfg (Z.of_nat s) f (if first then src_first (Z.of_nat s) f t else t)).
  set (tb := if negb (zlen (f_data f) =? 0) then set_valid_bit (Z.of_nat s) ta else ta).
  assert (exists D P B,
    (if negb (zlen (f_data f) =? 0) then
      src_lanes (Z.to_nat (Z.min (Z.of_nat (ic_lanes cfg)) (zlen (f_data f) - Z.of_nat o))) cfg (Z.of_nat s) 0 f (Z.of_nat o) (set_valid_bit (Z.of_nat s) ta)
    else Ok (ta, Z.of_nat o)) = Ok (mkTr D B (tr_sop tb) (tr_eop tb) (tr_valid tb) (tr_error tb) (tr_hdr tb) (tr_prfx tb) (tr_seq tb) (tr_vfa tb) (tr_func tb) (tr_vfn tb)
            (tr_bar tb) P (tr_hpar tb) (tr_ppar tb), Z.of_nat (o + m)) /\
    (forall j b inb, 0 <= j -> b = Z.of_nat s * Z.of_nat (ic_lanes cfg) + 0 -> inb = (b <=? j) && (j <? b + Z.of_nat m) ->
       ext 32 D j = Z.lor (ext 32 (tr_data t) j) (if inb then nth (o + Z.to_nat (j - b)) (f_data f) 0 else 0) /\
       ext 4 P j = Z.lor (ext 4 (tr_dpar t) j) (if inb then nth (o + Z.to_nat (j - b)) (f_parity f) 0 else 0) /\
       Z.testbit B j = Z.testbit (tr_strb t) j || inb)) as (D & P & B & E & HB).
  { assert (tr_data ta = tr_data t /\ tr_dpar ta = tr_dpar t /\ tr_strb ta = tr_strb t) as (A1 & A2 & A3) by (unfold ta, src_side, src_first; destruct first; auto).
    unfold tb. destruct (Z.eqb_spec (zlen (f_data f)) 0) as [E0|E0]; cbn [negb].
    - assert (m = 0%nat) as -> by (unfold m, width, zlen in *; lia).
      exists (tr_data t), (tr_dpar t), (tr_strb t). split.
      + rewrite Nat.add_0_r, <- A1, <- A2, <- A3. destruct ta; reflexivity.
      + intros j b inb Hj Hb Hinb. assert (inb = false) as -> by (subst inb; clear; lia). rewrite !Z.lor_0_r, orb_false_r. auto.
    - replace (Z.to_nat (Z.min (Z.of_nat (ic_lanes cfg)) (zlen (f_data f) - Z.of_nat o))) with m by (unfold m, width, zlen; lia).
      destruct (src_lanes_spec m cfg (Z.of_nat s) 0 f o (set_valid_bit (Z.of_nat s) ta)) as (D & P & B & E1 & E2).
      + lia.
      + lia.
      + unfold m, width. destruct HI as [(_ & ->)|(_ & HI)]; lia.
      + apply (fw_plen _ _ W).
      + apply (fw_data _ _ W).
      + apply (fw_par _ _ W).
      + exists D, P, B. split; [exact E1|]. unfold set_valid_bit in E2. cbn [tr_data tr_dpar tr_strb] in E2. rewrite A1, A2, A3 in E2. exact E2. }
  unfold src_seg. fold ta. rewrite E. cbn [bind].
  set (tc := mkTr _ _ _ _ _ _ _ _ _ _ _ _ _ _ _ _).
  assert ((zlen (f_data f) <=? Z.of_nat (o + m)) = (length (f_data f) <=? o + m)%nat) as -> by (unfold zlen; lia).
  set (fin := (length (f_data f) <=? o + m)%nat).
  exists (if fin then set_eop_bit (Z.of_nat s) tc else tc). split; [destruct fin; reflexivity|].
  assert (HV : forall i, let z := Z.of_nat i in let h := z =? Z.of_nat s in
     let on (b : bool) (v : Z) := if h && b then v else 0 in
     Z.testbit (tr_valid (if fin then set_eop_bit (Z.of_nat s) tc else tc)) z = Z.testbit (tr_valid t) z || h /\
     Z.testbit (tr_sop tc) z = Z.testbit (tr_sop t) z || (h && first) /\
     Z.testbit (tr_eop (if fin then set_eop_bit (Z.of_nat s) tc else tc)) z = Z.testbit (tr_eop t) z || (h && fin) /\
     Z.testbit (tr_vfa tc) z = Z.testbit (tr_vfa t) z || (h && match f_vf_num f with Some _ => true | None => false end) /\
     ext 128 (tr_hdr tc) z = Z.lor (ext 128 (tr_hdr t) z) (on first (f_hdr f)) /\
     ext 32 (tr_prfx tc) z = Z.lor (ext 32 (tr_prfx t) z) (on first (f_tlp_prfx f)) /\
     ext 16 (tr_hpar tc) z = Z.lor (ext 16 (tr_hpar t) z) (on first (f_hdr_par f)) /\
     ext 4 (tr_ppar tc) z = Z.lor (ext 4 (tr_ppar t) z) (on first (f_tlp_prfx_par f)) /\
     ext 3 (tr_bar tc) z = Z.lor (ext 3 (tr_bar t) z) (on true (f_bar_id f)) /\
     ext 8 (tr_func tc) z = Z.lor (ext 8 (tr_func t) z) (on true (f_func_num f)) /\
     ext 11 (tr_vfn tc) z = Z.lor (ext 11 (tr_vfn t) z) (on true (match f_vf_num f with Some v => v | None => 0 end)) /\
     ext 4 (tr_error tc) z = Z.lor (ext 4 (tr_error t) z) (on true (f_error f)) /\
     ext (ic_seqw cfg) (tr_seq tc) z = Z.lor (ext (ic_seqw cfg) (tr_seq t) z) (on true (f_seq f))).
  { intros i z h on. assert (0 <= z) by (unfold z; lia).
    assert (F1 : tr_valid (if fin then set_eop_bit (Z.of_nat s) tc else tc) = tr_valid tb) by (destruct fin; reflexivity).
    assert (F2 : tr_eop (if fin then set_eop_bit (Z.of_nat s) tc else tc) = if fin then Z.lor (tr_eop t) (Z.shiftl 1 (Z.of_nat s)) else tr_eop t).
    { assert (tr_eop tc = tr_eop t) as A.
      { unfold tc. cbn [tr_eop]. unfold tb, set_valid_bit, ta, src_side, src_first. destruct (negb _), first; reflexivity. }
      destruct fin; [unfold set_eop_bit; cbn [tr_eop]; now rewrite A|exact A]. }
    rewrite F1, F2. clear F1 F2.
    assert (G : forall {A} (g : trans -> A), (forall x, g (set_valid_bit (Z.of_nat s) x) = g x) -> g tb = g ta) by (intros A g Hg; unfold tb; destruct (negb _); auto).
    unfold tc. trp.
    rewrite (G _ tr_sop), (G _ tr_vfa), (G _ tr_hdr), (G _ tr_prfx), (G _ tr_hpar), (G _ tr_ppar), (G _ tr_bar), (G _ tr_func), (G _ tr_vfn), (G _ tr_error), (G _ tr_seq) by reflexivity.
    split.
    { unfold tb, ta, src_side, src_first, set_valid_bit. destruct HI as [(-> & _)|(-> & Ho)].
      - destruct (negb _); trp; rewrite ?bit_put by lia; fold h; destruct (Z.testbit (tr_valid t) z), h; reflexivity.
      - replace (negb (zlen (f_data f) =? 0)) with true by (unfold zlen; lia). trp. rewrite ?bit_put by lia. reflexivity. }
    pose proof W as WW. destruct WW as [w1 w2 w3 w4 w5 w6 w7 w8 w9 _ _ _ _].
    unfold ta, src_side, src_first. unfold on.
    repeat match goal with |- _ /\ _ => split end; destruct first; trp; rewrite ?andb_true_r, ?andb_false_r; cbn [andb];
      try (destruct fin); try (destruct (f_vf_num f)); rewrite ?ext_put, ?bit_put by lia; fold h; rewrite ?Z.lor_0_r, ?orb_false_r, ?andb_true_r, ?andb_false_r, ?orb_false_r; try reflexivity;
      try (destruct h; rewrite ?Z.lor_0_r; reflexivity). }
  assert (HX : forall (g : trans -> Z), (forall x, g (set_eop_bit (Z.of_nat s) x) = g x) -> g (if fin then set_eop_bit (Z.of_nat s) tc else tc) = g tc) by (intros g Hg; destruct fin; auto).
  split.
  - specialize (HV s). cbv zeta in HV. rewrite Z.eqb_refl in HV. cbn [andb] in HV.
    rewrite V1, V2, V3, V4, V5, V6, V7, V8, V9, V10, V11, V12, V13 in HV.
    destruct HV as (K1 & K2 & K3 & K4 & K5 & K6 & K7 & K8 & K9 & K10 & K11 & K12 & K13).
    unfold view, content_of. fold m.
    rewrite (HX tr_sop), (HX tr_vfa), (HX tr_hdr), (HX tr_prfx), (HX tr_hpar), (HX tr_ppar), (HX tr_bar), (HX tr_func), (HX tr_vfn), (HX tr_error), (HX tr_seq), (HX tr_data), (HX tr_dpar), (HX tr_strb) by reflexivity.
    rewrite K1, K2, K3, K4, K5, K6, K7, K8, K9, K10, K11, K12, K13. cbn [orb]. rewrite !Z.lor_0_l.
    fold fin. unfold tc. trp. clear K1 K2 K3 K4 K5 K6 K7 K8 K9 K10 K11 K12 K13 V1 V2 V3 V4 V5 V6 V7 V8 V9 V10 V11 V12 V13.
    assert (HJ : forall j, (j < ic_lanes cfg)%nat ->
        ext 32 D (lane cfg s j) = (if (j <? m)%nat then nth (o + j) (f_data f) 0 else 0) /\
        ext 4 P (lane cfg s j) = (if (j <? m)%nat then nth (o + j) (f_parity f) 0 else 0) /\
        Z.testbit B (lane cfg s j) = (j <? m)%nat).
    { intros j Hj. destruct (HB (lane cfg s j) _ _ ltac:(unfold lane; lia) eq_refl eq_refl) as (B1 & B2 & B3).
      rewrite W14 in B1 by assumption. rewrite W15 in B2 by assumption. rewrite W16 in B3 by assumption.
      assert (EE : ((Z.of_nat s * Z.of_nat (ic_lanes cfg) + 0 <=? lane cfg s j) && (lane cfg s j <? Z.of_nat s * Z.of_nat (ic_lanes cfg) + 0 + Z.of_nat m)) = (j <? m)%nat).
      { unfold lane. rewrite Nat2Z.inj_add, Nat2Z.inj_mul. clear. lia. }
      rewrite EE in B1, B2, B3. rewrite B1, B2, B3.
      replace (Z.to_nat (lane cfg s j - (Z.of_nat s * Z.of_nat (ic_lanes cfg) + 0))) with j by (unfold lane; rewrite Nat2Z.inj_add, Nat2Z.inj_mul; lia).
      rewrite !Z.lor_0_l. auto. }
    f_equal; apply map_seq_eq; intros j Hj; apply (HJ j Hj).
  - intros i Hi. specialize (HV i). cbv zeta in HV. replace (Z.of_nat i =? Z.of_nat s) with false in HV by lia. cbn [andb] in HV.
    rewrite !orb_false_r, !Z.lor_0_r in HV.
    destruct HV as (K1 & K2 & K3 & K4 & K5 & K6 & K7 & K8 & K9 & K10 & K11 & K12 & K13).
    unfold view.
    rewrite (HX tr_sop), (HX tr_vfa), (HX tr_hdr), (HX tr_prfx), (HX tr_hpar), (HX tr_ppar), (HX tr_bar), (HX tr_func), (HX tr_vfn), (HX tr_error), (HX tr_seq), (HX tr_data), (HX tr_dpar), (HX tr_strb) by reflexivity.
    rewrite K1, K2, K3, K4, K5, K6, K7, K8, K9, K10, K11, K12, K13. unfold tc. trp.
    assert (HJ : forall j, (j < ic_lanes cfg)%nat ->
        ext 32 D (lane cfg i j) = ext 32 (tr_data t) (lane cfg i j) /\
        ext 4 P (lane cfg i j) = ext 4 (tr_dpar t) (lane cfg i j) /\
        Z.testbit B (lane cfg i j) = Z.testbit (tr_strb t) (lane cfg i j)).
    { intros j Hj. destruct (HB (lane cfg i j) _ _ ltac:(unfold lane; lia) eq_refl eq_refl) as (B1 & B2 & B3).
      assert (EE : ((Z.of_nat s * Z.of_nat (ic_lanes cfg) + 0 <=? lane cfg i j) && (lane cfg i j <? Z.of_nat s * Z.of_nat (ic_lanes cfg) + 0 + Z.of_nat m)) = false).
      { assert (m <= ic_lanes cfg)%nat by (unfold m, width; lia). unfold lane. apply andb_false_iff. rewrite Z.leb_gt, Z.ltb_ge. nia. }
      rewrite EE in B1, B2, B3. rewrite Z.lor_0_r in B1, B2. rewrite orb_false_r in B3. auto. }
    f_equal; apply map_seq_eq; intros j Hj; apply (HJ j Hj).
Qed.
