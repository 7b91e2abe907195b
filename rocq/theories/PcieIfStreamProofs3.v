(** Proofs for the segmented TLP interface: segment streams, the sink, runs. *)
From Verif Require Import PyBase TlpModel SplitModel BitLemmas TlpProofs SplitProofs PcieIfModel PcieIfProofs2 PcieIfProofs4 PcieIfStreamModel PcieIfStreamSpec PcieIfStreamProofs PcieIfStreamProofs2.
From Coq Require Import ZifyBool ZifyNat.
Ltac Zify.zify_post_hook ::= Z.div_mod_to_equations.

(** ** The segments of a frame. *)
Fixpoint gen (fuel : nat) (cfg : icfg) (f : frame) (o : nat) (first : bool) : list item :=
  match fuel with
  | O => []
  | S n => (f, o, first) :: (if (length (f_data f) <=? o + width cfg f o)%nat then [] else gen n cfg f (o + width cfg f o) false)
  end.
Definition items (cfg : icfg) (f : frame) (o : nat) (first : bool) : list item := gen (S (length (f_data f) - o)) cfg f o first.

Lemma gen_fuel cfg f : icfg_ok cfg -> forall a b o first, (length (f_data f) - o < a)%nat -> (length (f_data f) - o < b)%nat ->
  gen a cfg f o first = gen b cfg f o first.
Proof.
  intros (_ & HL & _). induction a; intros b o first Ha Hb; [lia|]. destruct b; [lia|]. cbn [gen]. f_equal.
  destruct (Nat.leb_spec (length (f_data f)) (o + width cfg f o)) as [|Hlt]; [reflexivity|].
  assert (1 <= width cfg f o)%nat by (unfold width in *; lia). apply IHa; lia.
Qed.

Lemma items_unfold cfg f o first : icfg_ok cfg ->
  items cfg f o first = (f, o, first) :: (if (length (f_data f) <=? o + width cfg f o)%nat then [] else items cfg f (o + width cfg f o) false).
Proof.
  intros Hc. unfold items at 1. cbn [gen]. f_equal.
  destruct (Nat.leb_spec (length (f_data f)) (o + width cfg f o)) as [|Hlt]; [reflexivity|].
  assert (1 <= width cfg f o)%nat by (destruct Hc as (_ & HL & _); unfold width in *; lia).
  apply gen_fuel; [assumption| |]; lia.
Qed.

Definition all_items (cfg : icfg) (fs : list frame) : list item := flat_map (fun f => items cfg f 0 true) fs.

(** ** The source. *)
Definition cur_ok (cfg : icfg) (cur : scur) : Prop :=
  match cur with
  | None => True
  | Some (f, o, first) => exists n, o = Z.of_nat n /\ first = false /\ frame_wf cfg f /\ (n < length (f_data f))%nat
  end.
Definition cur_items (cfg : icfg) (cur : scur) : list item :=
  match cur with None => [] | Some (f, o, first) => items cfg f (Z.to_nat o) first end.

Lemma src_segs_spec : forall n cfg s cur q t,
  icfg_ok cfg -> cur_ok cfg cur -> Forall (frame_wf cfg) q -> (forall i, (s <= i)%nat -> view cfg t i = c0 cfg) ->
  exists t' cur' q' its, src_segs n cfg (Z.of_nat s) cur q t = Ok (t', cur', q') /\
    cur_ok cfg cur' /\ Forall (frame_wf cfg) q' /\
    cur_items cfg cur ++ all_items cfg q = its ++ cur_items cfg cur' ++ all_items cfg q' /\
    (length its <= n)%nat /\
    (n <> 0%nat -> cur_items cfg cur ++ all_items cfg q <> [] -> its <> []) /\
    (forall i, (i < s)%nat -> view cfg t' i = view cfg t i) /\
    (forall i, view cfg t' (s + i) = match nth_error its i with Some it => content_of cfg it | None => c0 cfg end).
Proof.
  induction n; intros cfg s cur q t Hc Hcur Hq Hv; cbn [src_segs].
  - exists t, cur, q, []. repeat split; auto; try congruence.
    intros i. rewrite Hv by lia. destruct i; reflexivity.
  - assert (STEP : forall f o first q, item_ok f o first -> frame_wf cfg f -> Forall (frame_wf cfg) q ->
       exists t' cur' q' its, (let! (t, cur) := src_seg cfg (Z.of_nat s) f (Z.of_nat o) first t in src_segs n cfg (Z.of_nat s + 1) cur q t) = Ok (t', cur', q') /\
        cur_ok cfg cur' /\ Forall (frame_wf cfg) q' /\
        items cfg f o first ++ all_items cfg q = its ++ cur_items cfg cur' ++ all_items cfg q' /\
        (length its <= S n)%nat /\ its <> [] /\
        (forall i, (i < s)%nat -> view cfg t' i = view cfg t i) /\
        (forall i, view cfg t' (s + i) = match nth_error its i with Some it => content_of cfg it | None => c0 cfg end)).
    { clear cur q Hcur Hq. intros f o first q HI HW Hq.
      destruct (src_seg_spec cfg s f o first t Hc HW HI (Hv s ltac:(lia))) as (t1 & E1 & E2 & E3).
      rewrite E1. cbn [bind]. set (cur1 := if (_ <=? _)%nat then _ else _).
      assert (cur_ok cfg cur1) as Hk1.
      { unfold cur1. destruct (Nat.leb_spec (length (f_data f)) (o + width cfg f o)); cbn; [exact I|]. eauto. }
      replace (Z.of_nat s + 1) with (Z.of_nat (S s)) by lia.
      destruct (IHn cfg (S s) cur1 q t1 Hc Hk1 Hq) as (t2 & cur2 & q2 & its & R1 & R2 & R3 & R4 & R5 & _ & R7 & R8).
      { intros i Hi. rewrite E3 by lia. apply Hv. lia. }
      exists t2, cur2, q2, ((f, o, first) :: its). rewrite R1. repeat split; auto.
      - rewrite items_unfold by assumption. cbn [app]. f_equal. rewrite <- R4. f_equal.
        unfold cur1. destruct (_ <=? _)%nat; cbn [cur_items]; [reflexivity|]. rewrite Nat2Z.id. reflexivity.
      - cbn [length]. lia.
      - discriminate.
      - intros i Hi. rewrite R7 by lia. apply E3. lia.
      - intros [|i]; cbn [nth_error].
        + rewrite Nat.add_0_r, R7 by lia. exact E2.
        + replace (s + S i)%nat with (S s + i)%nat by lia. apply R8. }
    destruct cur as [[[f o] first]|].
    + destruct Hcur as (k & -> & -> & HW & Hk).
      destruct (STEP f k false q ltac:(right; auto) HW Hq) as (t' & cur' & q' & its & R1 & R2 & R3 & R4 & R5 & R6 & R7 & R8).
      exists t', cur', q', its. cbn [cur_items]. rewrite Nat2Z.id. repeat split; auto.
    + destruct q as [|f q].
      * exists t, None, [], []. repeat split; auto; try congruence; try lia.
        -- cbn. lia.
        -- intros i. rewrite Hv by lia. destruct i; reflexivity.
      * inversion Hq; subst.
        destruct (STEP f 0%nat true q ltac:(left; auto) ltac:(assumption) ltac:(assumption)) as (t' & cur' & q' & its & R1 & R2 & R3 & R4 & R5 & R6 & R7 & R8).
        exists t', cur', q', its. repeat split; auto.
Qed.

(** ** The sink. *)
Definition part (f : frame) (o : nat) : frame :=
  mkFrame (f_tlp_prfx f) (f_hdr f) (firstn o (f_data f)) (f_tlp_prfx_par f) (f_hdr_par f) (firstn o (f_parity f))
    (f_func_num f) (f_vf_num f) (f_bar_id f) (f_tlp_abort f) (f_error f) (f_seq f).

Lemma firstn_snoc (l : list Z) o d : (o < length l)%nat -> firstn o l ++ [nth o l d] = firstn (S o) l.
Proof.
  revert o; induction l as [|x l IH]; intros [|o] H; cbn [length] in H; try lia; cbn [firstn nth app]; [reflexivity|].
  f_equal. apply IH. lia.
Qed.

Lemma push_part f o : (o < length (f_data f))%nat -> length (f_parity f) = length (f_data f) ->
  push_dw (part f o) (nth o (f_data f) 0) (nth o (f_parity f) 0) = part f (S o).
Proof. intros H1 H2. unfold push_dw, part. cbn [f_tlp_prfx f_hdr f_data f_tlp_prfx_par f_hdr_par f_parity f_func_num f_vf_num f_bar_id f_tlp_abort f_error f_seq]. rewrite !firstn_snoc by lia. reflexivity. Qed.

Lemma part_full f : length (f_parity f) = length (f_data f) -> part f (length (f_data f)) = f.
Proof. intros H. unfold part. rewrite firstn_all, <- H, firstn_all. destruct f; reflexivity. Qed.

Lemma snk_lanes_spec cfg F o data par strb :
  length (f_parity F) = length (f_data F) -> (o <= length (f_data F))%nat ->
  let m := width cfg F o in
  (forall j, (j < ic_lanes cfg)%nat ->
     Z.land (Z.shiftr data (32 * Z.of_nat j)) 0xffffffff = (if (j <? m)%nat then nth (o + j) (f_data F) 0 else 0) /\
     Z.land (Z.shiftr par (4 * Z.of_nat j)) 0xf = (if (j <? m)%nat then nth (o + j) (f_parity F) 0 else 0) /\
     (pr_strb cfg = true -> Z.odd (Z.shiftr strb (Z.of_nat j)) = (j <? m)%nat)) ->
  forall n k, (k + n = ic_lanes cfg)%nat ->
  snk_lanes n cfg (Z.of_nat k) data par strb (part F (o + Nat.min k m)) (Z.of_nat (length (f_data F) - (o + Nat.min k m))) =
  Ok (part F (o + m), Z.of_nat (length (f_data F) - (o + m))).
Proof.
  intros HP Ho m HJ. induction n; intros k Hk; cbn [snk_lanes].
  - replace (Nat.min k m) with m by (unfold m, width in *; lia). reflexivity.
  - destruct (HJ k ltac:(lia)) as (J1 & J2 & J3).
    destruct (Nat.ltb_spec k m) as [Hkm|Hkm].
    + replace (Z.of_nat (length (f_data F) - (o + Nat.min k m)) >? 0) with true by (unfold m, width in *; lia).
      replace (pr_strb cfg && negb (Z.odd (Z.shiftr strb (Z.of_nat k)))) with false.
      2: { destruct (pr_strb cfg); [|reflexivity]. rewrite J3 by reflexivity. reflexivity. }
      replace (Nat.min k m) with k by lia.
      rewrite J1, J2. rewrite push_part by (unfold m, width in *; lia).
      replace (Z.of_nat k + 1) with (Z.of_nat (S k)) by lia.
      replace (S (o + k)) with (o + Nat.min (S k) m)%nat by lia.
      replace (Z.of_nat (length (f_data F) - (o + k)) - 1) with (Z.of_nat (length (f_data F) - (o + Nat.min (S k) m))) by (unfold m, width in *; lia).
      apply IHn. lia.
    + replace (Z.of_nat (length (f_data F) - (o + Nat.min k m)) >? 0) with false by (unfold m, width in *; lia).
      replace (pr_strb cfg && Z.odd (Z.shiftr strb (Z.of_nat k))) with false.
      2: { destruct (pr_strb cfg); [|reflexivity]. rewrite J3 by reflexivity. reflexivity. }
      replace (Z.of_nat k + 1) with (Z.of_nat (S k)) by lia.
      replace (Nat.min k m) with (Nat.min (S k) m) by lia. apply IHn. lia.
Qed.

Lemma hdr_count cfg f : frame_wf cfg f ->
  (if has_bit (f_hdr f) 126 then let c := Z.land (Z.shiftr (f_hdr f) 96) 0x3ff in if c =? 0 then 1024 else c else 0) = zlen (f_data f).
Proof.
  intros W. rewrite (fw_len _ _ W). rewrite has_bit_testbit by lia. rewrite Z.testbit_eqb by lia.
  change 0x3ff with (Z.ones 10). cbv zeta. rewrite Z.land_ones by lia. rewrite Z.shiftr_div_pow2 by lia. reflexivity.
Qed.

Definition knext (cfg : icfg) (k : snk) (it : item) : snk :=
  let '(f, o, first) := it in
  let e := (o + width cfg f o)%nat in
  if (length (f_data f) <=? e)%nat then mkSnk None 0 (k_out k ++ [carried cfg f])
  else mkSnk (Some (part (carried cfg f) e)) (Z.of_nat (length (f_data f) - e)) (k_out k).

Definition kpre (cfg : icfg) (k : snk) (it : item) : Prop :=
  let '(f, o, first) := it in
  frame_wf cfg f /\ item_ok f o first /\
  (if first : bool then k_frame k = None else k_frame k = Some (part (carried cfg f) o) /\ k_count k = Z.of_nat (length (f_data f) - o)).

Lemma odd_shiftr a n : 0 <= n -> Z.odd (Z.shiftr a n) = Z.testbit a n.
Proof. intros H. rewrite <- Z.bit0_odd, Z.shiftr_spec by lia. reflexivity. Qed.

Lemma map_seq_eq_inv {A} (f g : nat -> A) n : map f (seq 0 n) = map g (seq 0 n) -> forall j, (j < n)%nat -> f j = g j.
Proof.
  intros H j Hj. assert (nth j (map f (seq 0 n)) (f 0%nat) = nth j (map g (seq 0 n)) (f 0%nat)) as E by now rewrite H.
  rewrite map_nth, seq_nth in E by assumption. rewrite (nth_indep _ _ (g 0%nat)) in E by (rewrite map_length, seq_length; lia).
  rewrite map_nth, seq_nth in E by assumption. exact E.
Qed.

Lemma snk_seg_skip cfg t s k : view cfg t s = c0 cfg -> snk_seg cfg (sample cfg t) (Z.of_nat s) k = Ok k.
Proof.
  intros H. pose proof (f_equal c_valid H) as V. cbn in V. unfold snk_seg, sample. cbn [tr_valid].
  rewrite has_bit_testbit by lia. rewrite V. reflexivity.
Qed.

Lemma carried_len cfg f : length (f_data (carried cfg f)) = length (f_data f) /\ length (f_parity (carried cfg f)) = length (f_parity f).
Proof. unfold carried. cbn [f_data f_parity]. rewrite !map_length. auto. Qed.

Lemma nth_on (b : bool) l j : nth j (map (fun v : Z => if b then v else 0) l) 0 = if b then nth j l 0 else 0.
Proof.
  revert j; induction l as [|x l IH]; intros [|j]; cbn [map nth]; try (destruct b; reflexivity). apply IH.
Qed.

Lemma snk_seg_spec cfg t s k it : icfg_ok cfg -> kpre cfg k it -> view cfg t s = content_of cfg it ->
  snk_seg cfg (sample cfg t) (Z.of_nat s) k = Ok (knext cfg k it).
Proof.
  intros Hc HK HV. destruct it as [[f o] first]. destruct HK as (W & HI & HK).
  unfold view, content_of in HV.
  pose proof (f_equal c_valid HV) as V1. pose proof (f_equal c_sop HV) as V2. pose proof (f_equal c_eop HV) as V3. pose proof (f_equal c_vfa HV) as V4.
  pose proof (f_equal c_hdr HV) as V5. pose proof (f_equal c_prfx HV) as V6. pose proof (f_equal c_hpar HV) as V7. pose proof (f_equal c_ppar HV) as V8.
  pose proof (f_equal c_bar HV) as V9. pose proof (f_equal c_func HV) as V10. pose proof (f_equal c_vfn HV) as V11. pose proof (f_equal c_err HV) as V12.
  pose proof (f_equal c_seq HV) as V13. pose proof (f_equal c_dl HV) as V14. pose proof (f_equal c_pl HV) as V15. pose proof (f_equal c_sl HV) as V16.
  clear HV. cbn [c_valid c_sop c_eop c_vfa c_hdr c_prfx c_hpar c_ppar c_bar c_func c_vfn c_err c_seq c_dl c_pl c_sl] in *.
  pose proof (map_seq_eq_inv _ _ _ V14) as W14. pose proof (map_seq_eq_inv _ _ _ V15) as W15. pose proof (map_seq_eq_inv _ _ _ V16) as W16. cbv beta in *. clear V14 V15 V16.
  destruct (carried_len cfg f) as (CL1 & CL2). pose proof (fw_plen _ _ W) as PL.
  assert (EW : width cfg (carried cfg f) o = width cfg f o) by (unfold width; now rewrite CL1).
  unfold snk_seg. rewrite has_bit_testbit by lia.
  change (tr_valid (sample cfg t)) with (tr_valid t). rewrite V1. cbn [negb].
  change (tr_sop (sample cfg t)) with (tr_sop t). rewrite (has_bit_testbit (tr_sop t)) by lia. rewrite V2.
  assert (E1 : (if first then match k_frame k with Some _ => Err AssertionError | None => let '(f, c) := snk_start cfg (Z.of_nat s) (sample cfg t) in Ok (Some f, c) end
      else Ok (k_frame k, k_count k)) = Ok (Some (part (carried cfg f) o), Z.of_nat (length (f_data f) - o))).
  { destruct HI as [(-> & ->)|(-> & HI)].
    - rewrite HK. unfold snk_start. change (tr_hdr (sample cfg t)) with (tr_hdr t). rewrite V5.
      pose proof (hdr_count cfg f W) as HC. cbv zeta in HC |- *. rewrite HC. f_equal. f_equal; [|unfold zlen; f_equal; lia]. f_equal.
      unfold part, carried, sample. cbn [f_tlp_prfx f_hdr f_data f_tlp_prfx_par f_hdr_par f_parity f_func_num f_vf_num f_bar_id f_tlp_abort f_error f_seq firstn]. trp.
      rewrite has_bit_testbit by lia.
      f_equal.
      + destruct (pr_prfx cfg); [exact V6|apply ext_0].
      + destruct (pr_ppar cfg); [exact V8|apply ext_0].
      + destruct (pr_hpar cfg); [exact V7|apply ext_0].
      + destruct (pr_func cfg); [exact V10|apply ext_0].
      + destruct (pr_vfa cfg); [|rewrite Z.testbit_0_l; reflexivity]. rewrite V4. destruct (f_vf_num f); [|reflexivity]. cbn [option_map]. f_equal.
        destruct (pr_vfn cfg); [exact V11|apply ext_0].
      + destruct (pr_bar cfg); [exact V9|apply ext_0].
      + destruct (pr_error cfg); [exact V12|apply ext_0].
      + destruct (pr_seq cfg); [exact V13|apply ext_0].
    - destruct HK as (-> & ->). reflexivity. }
  rewrite E1. cbn [bind]. clear E1.
  set (m := width cfg f o) in *.
  assert (Hoe : (o + m <= length (f_data f))%nat) by (unfold m, width; destruct HI as [(_ & ->)|(_ & HI)]; lia).
  assert (E2 : (if Z.of_nat (length (f_data f) - o) >? 0 then
         snk_lanes (ic_lanes cfg) cfg 0 (ext (32 * Z.of_nat (ic_lanes cfg)) (tr_data (sample cfg t)) (Z.of_nat s)) (ext (4 * Z.of_nat (ic_lanes cfg)) (tr_dpar (sample cfg t)) (Z.of_nat s)) (ext (Z.of_nat (ic_lanes cfg)) (tr_strb (sample cfg t)) (Z.of_nat s)) (part (carried cfg f) o) (Z.of_nat (length (f_data f) - o))
       else if pr_strb cfg && negb (ext (Z.of_nat (ic_lanes cfg)) (tr_strb (sample cfg t)) (Z.of_nat s) =? 0) then Err AssertionError
       else Ok (part (carried cfg f) o, Z.of_nat (length (f_data f) - o))) = Ok (part (carried cfg f) (o + m), Z.of_nat (length (f_data f) - (o + m)))).
  { assert (HSB : forall j, (j < ic_lanes cfg)%nat -> pr_strb cfg = true ->
       Z.testbit (ext (Z.of_nat (ic_lanes cfg)) (tr_strb (sample cfg t)) (Z.of_nat s)) (Z.of_nat j) = (j <? m)%nat).
    { intros j Hj Hp. unfold sample. trp. rewrite Hp. rewrite ext_testbit by lia. rewrite <- (W16 j Hj).
      replace (0 <=? Z.of_nat j) with true by lia. replace (Z.of_nat j <? Z.of_nat (ic_lanes cfg)) with true by lia. cbn [andb].
      f_equal. unfold lane. lia. }
    destruct (Z.gtb_spec (Z.of_nat (length (f_data f) - o)) 0) as [Hgt|Hle].
    - pose proof (snk_lanes_spec cfg (carried cfg f) o (ext (32 * Z.of_nat (ic_lanes cfg)) (tr_data (sample cfg t)) (Z.of_nat s)) (ext (4 * Z.of_nat (ic_lanes cfg)) (tr_dpar (sample cfg t)) (Z.of_nat s)) (ext (Z.of_nat (ic_lanes cfg)) (tr_strb (sample cfg t)) (Z.of_nat s)) ltac:(lia) ltac:(lia)) as HS.
      cbv zeta in HS. rewrite EW in HS. fold m in HS.
      assert (HA : forall j, (j < ic_lanes cfg)%nat ->
         Z.land (Z.shiftr (ext (32 * Z.of_nat (ic_lanes cfg)) (tr_data (sample cfg t)) (Z.of_nat s)) (32 * Z.of_nat j)) 0xffffffff = (if (j <? m)%nat then nth (o + j) (f_data (carried cfg f)) 0 else 0) /\
         Z.land (Z.shiftr (ext (4 * Z.of_nat (ic_lanes cfg)) (tr_dpar (sample cfg t)) (Z.of_nat s)) (4 * Z.of_nat j)) 0xf = (if (j <? m)%nat then nth (o + j) (f_parity (carried cfg f)) 0 else 0) /\
         (pr_strb cfg = true -> Z.odd (Z.shiftr (ext (Z.of_nat (ic_lanes cfg)) (tr_strb (sample cfg t)) (Z.of_nat s)) (Z.of_nat j)) = (j <? m)%nat)).
      { intros j Hj. split; [|split].
        - replace (32 * Z.of_nat j) with (Z.of_nat j * 32) by lia.
          change (Z.land (Z.shiftr ?a (Z.of_nat j * 32)) 4294967295) with (ext 32 a (Z.of_nat j)).
          rewrite ext_ext by lia. replace (Z.of_nat s * Z.of_nat (ic_lanes cfg) + Z.of_nat j) with (lane cfg s j) by (unfold lane; lia).
          unfold sample, carried. cbn [f_data]. trp. rewrite nth_on. destruct (pr_data cfg).
          + apply W14. assumption.
          + rewrite ext_0. destruct (j <? m)%nat; reflexivity.
        - replace (4 * Z.of_nat j) with (Z.of_nat j * 4) by lia.
          change (Z.land (Z.shiftr ?a (Z.of_nat j * 4)) 15) with (ext 4 a (Z.of_nat j)).
          rewrite ext_ext by lia. replace (Z.of_nat s * Z.of_nat (ic_lanes cfg) + Z.of_nat j) with (lane cfg s j) by (unfold lane; lia).
          unfold sample, carried. cbn [f_parity]. trp. rewrite nth_on. destruct (pr_dpar cfg).
          + apply W15. assumption.
          + rewrite ext_0. destruct (j <? m)%nat; reflexivity.
        - intros Hp. rewrite odd_shiftr by lia. apply HSB; assumption. }
      specialize (HS HA (ic_lanes cfg) 0%nat eq_refl). cbn [Nat.min] in HS. rewrite Nat.add_0_r, CL1 in HS. exact HS.
    - assert (m = 0%nat) as Hm by (unfold m, width; lia).
      replace (pr_strb cfg && negb (ext (Z.of_nat (ic_lanes cfg)) (tr_strb (sample cfg t)) (Z.of_nat s) =? 0)) with false.
      { rewrite Hm, Nat.add_0_r. reflexivity. }
      destruct (pr_strb cfg) eqn:Ep; [|reflexivity]. cbn [andb].
      assert (ext (Z.of_nat (ic_lanes cfg)) (tr_strb (sample cfg t)) (Z.of_nat s) = 0) as ->; [|reflexivity].
      apply Z.bits_inj'. intros j Hj. rewrite Z.testbit_0_l.
      destruct (Z.lt_ge_cases j (Z.of_nat (ic_lanes cfg))) as [Hlt|Hge].
      + rewrite <- (Z2Nat.id j) by lia. rewrite HSB by (auto; lia). rewrite Hm. reflexivity.
      + apply (testbit_high _ (Z.of_nat (ic_lanes cfg))); [|lia]. apply ext_range. lia. }
  rewrite E2. cbn [bind]. change (tr_eop (sample cfg t)) with (tr_eop t). rewrite has_bit_testbit by lia. rewrite V3.
  unfold knext. fold m. destruct (Nat.leb_spec (length (f_data f)) (o + m)) as [Hf|Hf].
  - replace (length (f_data f) - (o + m))%nat with 0%nat by lia. change (negb (Z.of_nat 0 =? 0)) with false. cbv iota.
    replace (o + m)%nat with (length (f_data (carried cfg f))) by lia. rewrite part_full by lia. reflexivity.
  - reflexivity.
Qed.
