(** Arbiter and pulse merger. *)
From Verif Require Import PyBase BitLemmas BarProofs RtlModel RtlSpec RtlProofs.
From Coq Require Import ZifyBool ZifyNat.
Ltac Zify.zify_post_hook ::= Z.div_mod_to_equations.

Lemma land_onehot e r : 0 <= e -> (Z.land (2 ^ e) r =? 0) = negb (Z.testbit r e).
Proof.
  intros He. destruct (Z.testbit r e) eqn:E; cbn [negb].
  - apply Z.eqb_neq. intros H. apply (f_equal (fun v => Z.testbit v e)) in H. rewrite Z.land_spec, Z.pow2_bits_true, E, Z.bits_0 in H by lia. discriminate.
  - apply Z.eqb_eq. apply Z.bits_inj'. intros j Hj. rewrite Z.land_spec, Z.bits_0. destruct (Z.eq_dec e j) as [->|HN]; [rewrite E; apply andb_false_r|].
    rewrite Z.pow2_bits_false by lia. reflexivity.
Qed.

(** The mask lets through the ports after the last one granted. *)
Definition mask_at (p : arb_param) (mask m : Z) : Prop :=
  0 <= m <= ap_ports p /\ mask = if ap_lsb p then 2 ^ ap_ports p - 2 ^ m else 2 ^ m - 1.

Lemma mask_bit p mask m j : arb_ok p -> mask_at p mask m -> 0 <= j < ap_ports p ->
  Z.testbit mask j = if ap_lsb p then m <=? j else j <? m.
Proof.
  intros HP (Hm & ->) Hj. destruct (ap_lsb p).
  - rewrite himask_bit by lia. lia.
  - replace (2 ^ m - 1) with (Z.ones m) by (rewrite Z.ones_equiv; lia). rewrite Z.testbit_ones by lia. lia.
Qed.

Lemma arb_mask_at p i : arb_ok p -> 0 <= i < ap_ports p -> mask_at p (arb_mask p i) (if ap_lsb p then i + 1 else i).
Proof.
  intros HP Hi. unfold mask_at, arb_mask. set (P := ap_ports p) in *. unfold arb_ok in HP. fold P in HP. destruct (ap_lsb p).
  - split; [lia|]. rewrite Z.shiftl_mul_pow2 by lia. pose proof (p2 (i + 1) ltac:(lia)). assert (2 ^ (i + 1) <= 2 ^ P) by (apply Z.pow_le_mono_r; lia).
    symmetry. apply (Z.mod_unique _ _ (2 ^ (i + 1) - 1)); [left; lia|ring].
  - split; [lia|]. rewrite Z.shiftr_div_pow2 by lia. assert (E : 2 ^ P = 2 ^ (P - i) * 2 ^ i) by (rewrite <- Z.pow_add_r by lia; f_equal; lia).
    pose proof (p2 (P - i) ltac:(lia)). symmetry. apply (Z.div_unique _ _ _ (2 ^ (P - i) - 1)); [left; lia|]. rewrite E. ring.
Qed.

Definition arb_inv (p : arb_param) (s : arb_state) : Prop :=
  (if as_valid s then 0 <= as_enc s < ap_ports p /\ as_grant s = 2 ^ as_enc s else as_enc s = 0 /\ as_grant s = 0) /\
  exists m, mask_at p (as_mask s) m.

Lemma arb_inv0 p : arb_ok p -> arb_inv p arb0.
Proof.
  intros HP. unfold arb_ok in HP. split; [split; reflexivity|]. exists (if ap_lsb p then ap_ports p else 0). unfold mask_at. cbn [as_mask arb0]. destruct (ap_lsb p); (split; [lia|]); [lia|reflexivity].
Qed.

Lemma hold_iff p s i : arb_inv p s -> ai_rst i = false -> arb_hold p s i = ap_block p && as_valid s && negb (released p i (as_enc s)).
Proof.
  intros (HV & _) HR. unfold arb_hold, released. rewrite HR. cbn [orb]. destruct (as_valid s).
  - destruct HV as (HE & ->). rewrite !land_onehot by lia. rewrite negb_involutive.
    destruct (ap_block p), (ap_block_ack p), (Z.testbit (ai_req i) (as_enc s)), (Z.testbit (ai_ack i) (as_enc s)); reflexivity.
  - destruct HV as (_ & ->). rewrite Z.land_0_l. destruct (ap_block p), (ap_block_ack p); reflexivity.
Qed.

(** What one clock does when the grant is not held. *)
Lemma arb_free p s i m : arb_ok p -> arb_in_ok p i -> mask_at p (as_mask s) m -> ai_rst i = false -> arb_hold p s i = false ->
  let s' := arb_step p s i in
  if ai_req i =? 0 then as_valid s' = false /\ as_enc s' = 0 /\ as_grant s' = 0 /\ as_mask s' = as_mask s
  else as_valid s' = true /\ 0 <= as_enc s' < ap_ports p /\ as_grant s' = 2 ^ as_enc s' /\
    if ap_rr p then
      mask_at p (as_mask s') (if ap_lsb p then as_enc s' + 1 else as_enc s') /\
      if Z.land (ai_req i) (as_mask s) =? 0 then winner (ap_lsb p) (ai_req i) (as_enc s')
      else winner (ap_lsb p) (Z.land (ai_req i) (as_mask s)) (as_enc s')
    else as_mask s' = as_mask s /\ winner (ap_lsb p) (ai_req i) (as_enc s').
Proof.
  intros HP (HQ & _) HM HR HH. unfold arb_step. rewrite HR. unfold arb_next. rewrite HH.
  assert (HV : vec (ap_ports p) (Z.land (ai_req i) (as_mask s))).
  { unfold vec in *. apply (bits_range _ (ap_ports p)); [unfold arb_ok in HP; lia|]. intros j Hj. rewrite Z.land_spec, (testbit_high (ai_req i) (ap_ports p)) by (unfold arb_ok in HP; lia). reflexivity. }
  pose proof (encoder_ok (ap_ports p) (ap_lsb p) (ai_req i) HP HQ) as HE1. pose proof (encoder_ok (ap_ports p) (ap_lsb p) _ HP HV) as HE2.
  destruct (priority_encoder (ap_ports p) (ap_lsb p) (ai_req i)) as [[rv ri] rm]. destruct (priority_encoder (ap_ports p) (ap_lsb p) (Z.land (ai_req i) (as_mask s))) as [[mv mi] mm].
  destruct HE1 as (-> & HE1). destruct HE2 as (-> & HE2). destruct (Z.eqb_spec (ai_req i) 0) as [E|E]; cbn [Z.eqb negb].
  - repeat split.
  - destruct (HE1 E) as (W1 & L1 & U1). pose proof W1 as (G1 & _). destruct (ap_rr p).
    + destruct (Z.eqb_spec (Z.land (ai_req i) (as_mask s)) 0) as [E2|E2]; cbn [Z.eqb negb].
      * cbn [as_valid as_enc as_grant as_mask]. split; [reflexivity|]. split; [lia|]. split; [assumption|]. split; [apply arb_mask_at; [assumption|lia]|assumption].
      * destruct (HE2 E2) as (W2 & L2 & U2). pose proof W2 as (G2 & _). cbn [as_valid as_enc as_grant as_mask]. split; [reflexivity|]. split; [lia|]. split; [assumption|]. split; [apply arb_mask_at; [assumption|lia]|assumption].
    + cbn [as_valid as_enc as_grant as_mask]. split; [reflexivity|]. split; [lia|]. split; [assumption|]. split; [reflexivity|assumption].
Qed.

Lemma arb_step_inv p s i : arb_ok p -> arb_in_ok p i -> arb_inv p s -> arb_inv p (arb_step p s i).
Proof.
  intros HP HI HS. destruct (ai_rst i) eqn:ER; [unfold arb_step; rewrite ER; apply arb_inv0; assumption|].
  destruct (arb_hold p s i) eqn:EH.
  - unfold arb_step, arb_next. rewrite ER, EH. destruct s. exact HS.
  - pose proof HS as (_ & m & HM). pose proof (arb_free p s i m HP HI HM ER EH) as HF. cbv zeta in HF. destruct (Z.eqb_spec (ai_req i) 0).
    + destruct HF as (F1 & F2 & F3 & F4). split; [rewrite F1; split; assumption|]. exists m. rewrite F4. assumption.
    + destruct HF as (F1 & F2 & F3 & F4). split; [rewrite F1; split; assumption|]. destruct (ap_rr p); [eexists; apply F4|]. exists m. rewrite (proj1 F4). assumption.
Qed.

Lemma arb_run_inv p : forall l s, arb_ok p -> Forall (arb_in_ok p) l -> arb_inv p s -> arb_inv p (arb_run p s l).
Proof.
  induction l as [|i l IH]; intros s HP HF HS; [exact HS|]. inversion HF; subst. cbn [arb_run fold_left]. apply IH; [assumption|assumption|]. apply arb_step_inv; assumption.
Qed.

Lemma arb_new p s i : arb_ok p -> arb_in_ok p i -> arb_inv p s -> ap_block p && as_valid s && negb (released p i (as_enc s)) = false ->
  as_valid (arb_step p s i) = true -> Z.testbit (ai_req i) (as_enc (arb_step p s i)) = true.
Proof.
  intros HP HI HS HH HV. destruct (ai_rst i) eqn:ER; [unfold arb_step in HV; rewrite ER in HV; discriminate|].
  rewrite <- (hold_iff p s i HS ER) in HH. pose proof HS as (_ & m & HM). pose proof (arb_free p s i m HP HI HM ER HH) as HF. cbv zeta in HF.
  destruct (Z.eqb_spec (ai_req i) 0); [destruct HF; congruence|]. destruct HF as (F1 & F2 & F3 & F4). destruct (ap_rr p).
  - destruct F4 as (_ & F4). destruct (Z.land (ai_req i) (as_mask s) =? 0); destruct F4 as (_ & F4 & _); [assumption|]. rewrite Z.land_spec in F4. apply andb_prop in F4. apply F4.
  - apply F4.
Qed.

(** Blocking. *)
Lemma arb_held p : forall l s, arb_inv p s -> ap_block p = true -> as_valid s = true -> Forall (fun i => released p i (as_enc s) = false) l -> arb_run p s l = s.
Proof.
  induction l as [|i l IH]; intros s HS HB HV HF; [reflexivity|]. inversion HF as [|? ? Hi HF']; subst. cbn [arb_run fold_left].
  assert (ER : ai_rst i = false) by (unfold released in Hi; destruct (ai_rst i); [discriminate|reflexivity]).
  assert (ES : arb_step p s i = s).
  { unfold arb_step, arb_next. assert (EH : arb_hold p s i = true) by (rewrite (hold_iff p s i HS ER), HB, HV, Hi; reflexivity). rewrite ER, EH. destruct s. reflexivity. }
  rewrite ES. apply IH; assumption.
Qed.

(** Round robin: grants to others before [port] is granted. *)
Definition rr_dist (p : arb_param) (m port : Z) : Z :=
  if ap_lsb p then (if m <=? port then port - m else ap_ports p - m + port)
  else (if port <? m then m - 1 - port else m + (ap_ports p - 1 - port)).

Lemma rr_bound p m port : 0 <= m <= ap_ports p -> 0 <= port < ap_ports p -> 0 <= rr_dist p m port <= ap_ports p - 1.
Proof. intros Hm Hp. unfold rr_dist. destruct (ap_lsb p); [destruct (Z.leb_spec m port)|destruct (Z.ltb_spec port m)]; lia. Qed.

Lemma rr_step p s i m port : arb_ok p -> arb_in_ok p i -> mask_at p (as_mask s) m -> ai_rst i = false -> arb_hold p s i = false -> ap_rr p = true ->
  0 <= port < ap_ports p -> Z.testbit (ai_req i) port = true -> as_enc (arb_step p s i) <> port ->
  as_valid (arb_step p s i) = true /\ exists m', mask_at p (as_mask (arb_step p s i)) m' /\ rr_dist p m' port < rr_dist p m port.
Proof.
  intros HP HI HM ER EH HR Hp HT HN. pose proof (arb_free p s i m HP HI HM ER EH) as HF. cbv zeta in HF.
  destruct (Z.eqb_spec (ai_req i) 0) as [E|E]; [rewrite E, Z.bits_0 in HT; discriminate|]. rewrite HR in HF. destruct HF as (F1 & F2 & F3 & F4 & F5).
  split; [assumption|]. eexists. split; [exact F4|]. set (g := as_enc (arb_step p s i)) in *. clearbody g.
  assert (TM : forall j, 0 <= j < ap_ports p -> Z.testbit (Z.land (ai_req i) (as_mask s)) j = Z.testbit (ai_req i) j && (if ap_lsb p then m <=? j else j <? m)).
  { intros j Hj. rewrite Z.land_spec, (mask_bit p _ m j HP HM Hj). reflexivity. }
  pose proof HM as (Hm & _). unfold rr_dist.
  destruct (Z.eqb_spec (Z.land (ai_req i) (as_mask s)) 0) as [E2|E2].
  - destruct F5 as (_ & _ & W). specialize (W port ltac:(lia) HT). specialize (TM port Hp). rewrite E2, Z.bits_0, HT in TM. cbn [andb] in TM.
    destruct (ap_lsb p).
    + destruct (Z.leb_spec (g + 1) port), (Z.leb_spec m port); lia.
    + destruct (Z.ltb_spec port g), (Z.ltb_spec port m); lia.
  - destruct F5 as (_ & W0 & W). rewrite TM in W0 by lia. apply andb_prop in W0. destruct W0 as (_ & W0).
    specialize (W port ltac:(lia)). rewrite TM in W by lia. rewrite HT in W. cbn [andb] in W. destruct (ap_lsb p).
    + destruct (Z.leb_spec m port); [specialize (W eq_refl)|]; destruct (Z.leb_spec (g + 1) port); lia.
    + destruct (Z.ltb_spec port m); [specialize (W eq_refl)|]; destruct (Z.ltb_spec port g); lia.
Qed.

Lemma rr_run p port : arb_ok p -> ap_rr p = true -> 0 <= port < ap_ports p -> forall l s m, arb_inv p s -> mask_at p (as_mask s) m -> Forall (arb_in_ok p) l ->
  Forall (fun i => requests i port) l -> ~ In port (granted p s l) -> zlen (granted p s l) <= rr_dist p m port.
Proof.
  intros HP HR Hp. induction l as [|i l IH]; intros s m HS HM HF HQ HN.
  - pose proof (rr_bound p m port (proj1 HM) Hp). cbn. lia.
  - inversion HF as [|? ? Hi HF']; subst. inversion HQ as [|? ? (ER & HT) HQ']; subst. cbn [granted] in *. rewrite <- (hold_iff p s i HS ER) in *.
    assert (HS' : arb_inv p (arb_step p s i)) by (apply arb_step_inv; assumption).
    destruct (arb_hold p s i) eqn:EH; cbn [negb andb app] in *.
    + apply IH; try assumption. unfold arb_step, arb_next. rewrite ER, EH. exact HM.
    + destruct (as_valid (arb_step p s i)) eqn:EV.
      * cbn [app] in *. assert (HG : as_enc (arb_step p s i) <> port) by (intros E; apply HN; left; assumption).
        destruct (rr_step p s i m port HP Hi HM ER EH HR Hp HT HG) as (_ & m' & HM' & HD).
        assert (zlen (granted p (arb_step p s i) l) <= rr_dist p m' port) by (apply IH; try assumption; intros HX; apply HN; right; assumption).
        unfold zlen in *. cbn [length]. lia.
      * exfalso. pose proof (arb_free p s i m HP Hi HM ER EH) as HX. cbv zeta in HX.
        destruct (Z.eqb_spec (ai_req i) 0) as [E|E]; [rewrite E, Z.bits_0 in HT; discriminate|]. destruct HX as (HX & _). congruence.
Qed.

(** Without blocking every clock with a request grants. *)
Lemma granted_len p port : arb_ok p -> ap_block p = false -> forall l s, arb_inv p s -> Forall (arb_in_ok p) l -> Forall (fun i => requests i port) l -> 0 <= port ->
  length (granted p s l) = length l.
Proof.
  intros HP HB. induction l as [|i l IH]; intros s HS HF HQ Hp; [reflexivity|]. inversion HF as [|? ? Hi HF']; subst. inversion HQ as [|? ? (ER & HT) HQ']; subst. cbn [granted].
  rewrite HB. cbn [negb andb]. assert (EH : arb_hold p s i = false) by (rewrite (hold_iff p s i HS ER), HB; reflexivity).
  pose proof HS as (_ & m & HM). pose proof (arb_free p s i m HP Hi HM ER EH) as HX. cbv zeta in HX.
  destruct (Z.eqb_spec (ai_req i) 0) as [E|E]; [rewrite E, Z.bits_0 in HT; discriminate|]. destruct HX as (-> & _). cbn [app length]. f_equal. apply IH; try assumption.
  apply arb_step_inv; assumption.
Qed.

(** Pulse merger. *)
Lemma ones_nonneg x : forall n, 0 <= ones n x.
Proof. induction n; cbn [ones]; [lia|]. destruct (Z.testbit x (Z.of_nat n)); lia. Qed.
Lemma pm_add_ok cw x : 0 <= cw -> forall n c, 0 <= c -> c + ones n x < 2 ^ cw -> pm_add cw n c x = c + ones n x.
Proof.
  intros Hcw. induction n as [|n IH]; intros c Hc H; cbn [pm_add ones] in *; [lia|]. pose proof (ones_nonneg x n). rewrite bsel_testbit by lia.
  rewrite IH by (destruct (Z.testbit x (Z.of_nat n)); lia). rewrite Z.mod_small by (destruct (Z.testbit x (Z.of_nat n)); lia). lia.
Qed.

Lemma pm_run_ok iw cw : 0 <= cw -> forall l c b, no_reset l -> 0 <= c < 2 ^ cw -> (forall k, backlog iw c (firstn k l) < 2 ^ cw) ->
  let '(s, o) := pm_run iw cw (mkPm c b) l in
  pm_count s = backlog iw c l /\ c + received iw l = emitted o + pm_count s /\ length o = length l.
Proof.
  intros Hcw. induction l as [|[rst x] l IH]; intros c b HN Hc HF.
  - cbn. lia.
  - inversion HN as [|? ? HR HN']; subst. cbn in HR. subst rst. cbn [pm_run pm_step]. cbn [pm_count].
    pose proof (HF 1%nat) as H1. cbn [firstn backlog snd] in H1. pose proof (ones_nonneg x (Z.to_nat iw)) as HO.
    set (c1 := if c >? 0 then (c - 1) mod 2 ^ cw else c).
    assert (E1 : c1 = Z.max 0 (c - 1)) by (unfold c1; destruct (Z.gtb_spec c 0); [rewrite Z.mod_small by lia; lia|lia]).
    rewrite E1, pm_add_ok by lia.
    specialize (IH (Z.max 0 (c - 1) + ones (Z.to_nat iw) x) (c >? 0) HN' ltac:(lia)).
    destruct (pm_run iw cw _ l) as [s o]. cbn [pm_pulse]. destruct IH as (I1 & I2 & I3); [intros k; apply (HF (S k))|].
    cbn [backlog snd received fold_right length]. split; [assumption|]. split; [|lia]. fold (received iw l). unfold emitted in *. cbn [filter].
    destruct (Z.gtb_spec c 0); unfold zlen in *; cbn [length]; lia.
Qed.
