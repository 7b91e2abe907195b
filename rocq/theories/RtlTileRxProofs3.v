From Verif Require Import PyBase RtlModel RtlRamProofs2 RtlTileRxModel RtlTileRxSpec RtlTileRxProofs RtlTileRxProofs2.

Ltac kl s := pose proof (K34 s); repeat match goal with H : context [Z.pow _ _] |- _ => clear H end; lia.
Lemma out_none s : sr_valid s = false -> out_of s = [].
Proof. intros H. unfold out_of, seen. rewrite H. reflexivity. Qed.
Lemma seen_out s i : si_fready i = true -> seen (sr_event s i) = out_of s.
Proof. intros H. unfold sr_event, out_of. rewrite H. reflexivity. Qed.

(** The strobes of the next beat: c lanes of it are in the shifted beat, the end is there if it is not beyond them. *)
Lemma strb_next (e k : nat) : (e < 8)%nat -> (k = 3 \/ k = 4)%nat ->
  psel (255 / 2 ^ Z.of_nat e * 2 ^ 8 + 255) (Z.of_nat k) 8 = 2 ^ Z.of_nat (min 8 (8 - k + (8 - e))) - 1 /\
  negb (Z.land (128 / 2 ^ Z.of_nat e) (if Nat.eqb k 4 then 15 else 7) =? 0) = Nat.leb (8 - e) k /\
  psel (255 * 2 ^ 8 + 255) (Z.of_nat k) 8 = 255.
Proof.
  intros He Hk. destruct Hk as [-> | ->]; do 8 (destruct e as [|e]; [vm_compute; repeat split; reflexivity|]); exfalso; clear - He; lia.
Qed.
Lemma strb_last (e k : nat) : (e < 8)%nat -> (k = 3 \/ k = 4)%nat ->
  255 / 2 ^ Z.of_nat e / 2 ^ Z.of_nat k = 2 ^ Z.of_nat (8 - e - k) - 1 /\ negb (128 / 2 ^ Z.of_nat e / 2 ^ Z.of_nat k =? 0) = Nat.ltb k (8 - e).
Proof.
  intros He Hk. destruct Hk as [-> | ->]; do 8 (destruct e as [|e]; [vm_compute; split; reflexivity|]); exfalso; clear - He; lia.
Qed.

(** The last part of a TLP comes out of the saved beat. *)
Lemma tail_out io s i : Inv s -> si_fready i = true -> sr_iv s = true -> sr_ieop s = true -> out_of (sr_out io s i) = tail_of io s.
Proof.
  intros HI Hr Hv He. destruct (HI Hv) as (Hid & Hbar & (e & He8 & Hst) & Hsl). rewrite He in Hst. destruct Hst as [Hst Hse].
  pose proof (sr_k_K s i HI Hr Hv) as Ek.
  assert (HLn : Ln s = (8 - e)%nat) by (unfold Ln; rewrite Hst; apply Ln_e; exact He8).
  destruct (strb_last e (K s) He8 (K34 s)) as [L1 L2].
  unfold tail_of. rewrite Hv, He. cbn [andb]. rewrite HLn.
  unfold sr_out. rewrite Hr, Hv, He. rewrite Hst, Hse, Ek, L1, L2.
  unfold out_of. cbn [sr_valid sr_data sr_strb sr_hdr sr_bar sr_func sr_sop sr_eop].
  destruct (sr_isop s || Nat.ltb (K s) (8 - e)) eqn:Eg; [|reflexivity].
  rewrite <- Ek. rewrite (item_ok io s i (8 - e - K s) true (sr_bar s) (sr_func s) HI Hr Hv) by lia.
  unfold mk. do 2 f_equal.
  rewrite firstn_app. rewrite skipn_length, len_dwords.
  replace (8 - e - K s - (8 - K s))%nat with 0%nat by (kl s). cbn [firstn]. rewrite app_nil_r.
  rewrite <- (firstn_dwords (sr_id s) (8 - e) 8) by lia. rewrite firstn_skipn_comm. f_equal. f_equal.
  destruct (sr_isop s) eqn:Eso.
  - specialize (Hsl eq_refl He). rewrite HLn in Hsl. lia.
  - cbn [orb] in Eg. apply PeanoNat.Nat.ltb_lt in Eg. lia.
Qed.

(** The other registers of the saved beat are not changed by the output, K is kept as long as the beat stays. *)
Lemma out_keeps io s i : let n := sr_out io s i in
  sr_id n = sr_id s /\ sr_is n = sr_is s /\ sr_isop n = sr_isop s /\ sr_ieop n = sr_ieop s /\ sr_ise n = sr_ise s /\ sr_ifunc n = sr_ifunc s /\ sr_ibar n = sr_ibar s.
Proof. unfold sr_out. destruct (si_fready i), (sr_iv s), (sr_ieop s); repeat split. Qed.

Lemma next_saved io s i : si_valid i = true -> saved (sr_next io s i) i.
Proof. intros H. unfold sr_next. rewrite H. repeat split. Qed.
Lemma next_out io s i : out_of (sr_next io s i) = out_of (sr_out io s i).
Proof. unfold sr_next. destruct (si_valid i); reflexivity. Qed.
Lemma next_h4 io s i : sr_h4 (sr_next io s i) = sr_h4 (sr_out io s i).
Proof. unfold sr_next. destruct (si_valid i); reflexivity. Qed.

Lemma out_open io s i : Inv s -> si_fready i = true -> sr_iv s = true -> sr_ieop s = false -> si_valid i = true -> 0 <= si_empty i < 8 ->
  out_of (sr_out io s i) = mk io s (si_eop i && Nat.leb (length (beat_dws i)) (K s)) [firstn 8 (skipn (K s) (dwords (sr_id s) 8) ++ beat_dws i)].
Proof.
  intros HI Hr Hv He Hiv Hem. destruct (HI Hv) as (Hid & Hbar & (e0 & _ & Hst) & _). rewrite He in Hst. destruct Hst as [Hst _].
  pose proof (sr_k_K s i HI Hr Hv) as Ek. pose proof (h4n_K s i HI Hr Hv) as Eh.
  unfold sr_out. rewrite Hr, Hv, He, Hiv. unfold sr_sfull, sr_lanes, sr_end. rewrite Hst.
  replace (if sr_h4n s i then 15 else 7) with (if Nat.eqb (K s) 4 then 15 else 7) by (rewrite <- Eh; destruct (sr_h4n s i); reflexivity).
  unfold beat_dws. rewrite len_dwords.
  destruct (si_eop i) eqn:Ee; cbn [andb].
  - set (e := Z.to_nat (si_empty i)). assert (Eq : si_empty i = Z.of_nat e) by (unfold e; lia). assert (He8 : (e < 8)%nat) by lia.
    rewrite Eq. destruct (strb_next e (K s) He8 (K34 s)) as (L1 & L2 & _). rewrite L2.
    unfold out_of. cbn [sr_valid sr_data sr_strb sr_hdr sr_bar sr_func sr_sop sr_eop].
    rewrite Ek at 2. rewrite L1.
    rewrite (item_ok io s i (min 8 (8 - K s + (8 - e))) _ (sr_bar s) (sr_func s) HI Hr Hv) by lia.
    unfold mk. do 2 f_equal. rewrite <- (firstn_dwords (si_data i) (8 - e) 8) by lia.
    assert (HLs : length (skipn (K s) (dwords (sr_id s) 8)) = (8 - K s)%nat) by (rewrite skipn_length, len_dwords; reflexivity).
    rewrite !firstn_app, HLs, !firstn_firstn. f_equal; [|f_equal].
    + rewrite !firstn_all2; [reflexivity| |]; rewrite HLs; kl s.
    + kl s.
  - unfold out_of. cbn [sr_valid sr_data sr_strb sr_hdr sr_bar sr_func sr_sop sr_eop].
    destruct (strb_next 0 (K s) ltac:(lia) (K34 s)) as (_ & _ & L3). rewrite Ek at 2. rewrite L3. change 255 with (2 ^ Z.of_nat 8 - 1).
    change (negb (Z.land 0 (if Nat.eqb (K s) 4 then 15 else 7) =? 0)) with false.
    rewrite (item_ok io s i 8 false (sr_bar s) (sr_func s) HI Hr Hv) by lia. reflexivity.
Qed.

Lemma step_ok io s i l : Inv s -> Forall wfb l ->
  (si_valid i = true -> si_fready i = true /\ si_sop i = negb (isopen s) /\ okbeat i) -> si_rst i = false ->
  let s' := sr_step io s i in
  Inv s' /\ isopen s' = (if si_valid i then negb (si_eop i) else isopen s) /\
  out_of s ++ tail_of io s ++ todo io s (if si_valid i then i :: l else l) = seen (sr_event s i) ++ out_of s' ++ tail_of io s' ++ todo io s' l.
Proof.
  intros HI Hl Hv Hrst. cbv zeta. unfold sr_step. rewrite Hrst.
  destruct (si_fready i) eqn:Hr.
  2:{ destruct (si_valid i) eqn:Hiv; [destruct (Hv eq_refl); discriminate|].
      assert (E : sr_next io s i = s) by (unfold sr_next, sr_out; rewrite Hr, Hiv; reflexivity). rewrite E.
      split; [exact HI|]. split; [reflexivity|]. unfold seen, sr_event. cbn [se_ready]. rewrite Hr. reflexivity. }
  rewrite seen_out by exact Hr.
  destruct (si_valid i) eqn:Hiv.
  - destruct (Hv eq_refl) as (_ & Hsop & Hob). pose proof (next_saved io s i Hiv) as HS. pose proof (saved_inv _ _ HS Hob) as HI'.
    split; [exact HI'|]. split. { destruct HS as (_ & _ & _ & S4 & S5 & _). unfold isopen. rewrite S4, S5. reflexivity. }
    f_equal. rewrite next_out.
    destruct (isopen s) eqn:Ho.
    + unfold isopen in Ho. apply andb_prop in Ho. destruct Ho as [Ho1 Ho2]. apply negb_true_iff in Ho2.
      assert (Ht : tail_of io s = []) by (unfold tail_of; rewrite Ho1, Ho2; reflexivity). rewrite Ht. cbn [app].
      assert (Hem : 0 <= si_empty i < 8) by apply Hob.
      rewrite (out_open io s i HI Hr Ho1 Ho2 Hiv Hem).
      assert (HK' : K (sr_next io s i) = K s).
      { pose proof (h4n_K s i HI Hr Ho1) as Eh. rewrite <- Eh. destruct HS as (_ & _ & S3 & _). unfold K. rewrite S3, Hsop. cbn [negb]. rewrite next_h4.
        unfold sr_out. rewrite Hr, Ho1, Ho2. reflexivity. }
      pose proof (saved_Ln _ _ HS Hem) as HL'.
      destruct HS as (S1 & S2 & S3 & S4 & S5 & S6 & S7 & S8).
      unfold todo at 1. unfold isopen. rewrite Ho1, Ho2. cbn [andb negb rest_of].
      set (r := skipn (K s) (dwords (sr_id s) 8)).
      assert (Hr8 : length r = (8 - K s)%nat) by (unfold r; rewrite skipn_length, len_dwords; reflexivity).
      pose proof (beat_len i Hem) as [HB1 HB2].
      unfold tail_of, todo, isopen. rewrite S3, S4, S5, Hsop. cbn [andb negb orb]. rewrite HK', HL', S1.
      destruct (si_eop i) eqn:Ee; cbn [andb negb].
      * rewrite app_assoc. f_equal.
        assert (Eb : beat_dws i = dwords (si_data i) (length (beat_dws i))) by (unfold beat_dws; rewrite len_dwords; reflexivity).
        destruct (Nat.ltb (K s) (length (beat_dws i))) eqn:Eg.
        -- apply PeanoNat.Nat.ltb_lt in Eg.
           replace (Nat.leb (length (beat_dws i)) (K s)) with false by (symmetry; apply PeanoNat.Nat.leb_gt; exact Eg).
           assert (Hx : chunks (r ++ beat_dws i) = [firstn 8 (r ++ beat_dws i); skipn 8 (r ++ beat_dws i)]).
           { rewrite <- (firstn_skipn 8 (r ++ beat_dws i)) at 1.
             assert (HLx : length (r ++ beat_dws i) = (8 - K s + length (beat_dws i))%nat) by (rewrite app_length, Hr8; reflexivity).
             rewrite chunks_app.
             - rewrite chunks_short; [reflexivity|]. rewrite skipn_length, HLx. kl s.
             - rewrite firstn_length, HLx. kl s.
             - intros Hn. apply (f_equal (@length Z)) in Hn. rewrite skipn_length, HLx in Hn. cbn [length] in Hn. kl s. }
           rewrite Hx. unfold mk. cbn [mark app andb]. rewrite S3, Hsop. cbn [negb].
           replace (skipn (K s) (dwords (si_data i) (length (beat_dws i)))) with (skipn 8 (r ++ beat_dws i)); [reflexivity|].
           rewrite skipn_app, Hr8. rewrite (skipn_all2 r) by (rewrite Hr8; lia). cbn [app]. rewrite <- Eb. f_equal. kl s.
        -- apply PeanoNat.Nat.ltb_ge in Eg.
           replace (Nat.leb (length (beat_dws i)) (K s)) with true by (symmetry; apply PeanoNat.Nat.leb_le; exact Eg).
           rewrite app_nil_r. rewrite chunks_short by (rewrite app_length, Hr8; kl s).
           rewrite (@firstn_all2 Z 8 (r ++ beat_dws i)) by (rewrite app_length, Hr8; kl s). reflexivity.
      * f_equal. specialize (HB2 eq_refl).
        assert (Eb : beat_dws i = dwords (si_data i) 8) by (unfold beat_dws; rewrite Ee; reflexivity).
        replace (skipn 8 (r ++ beat_dws i)) with (skipn (K s) (dwords (si_data i) 8)); [apply rest_false|].
        rewrite skipn_app, Hr8. rewrite (skipn_all2 r) by (rewrite Hr8; lia). cbn [app]. rewrite <- Eb. f_equal. kl s.
    + cbn [negb] in Hsop. unfold todo at 1. rewrite Ho. rewrite (new_tlp io (sr_next io s i) i l HS Hob Hsop Hl). f_equal.
      unfold isopen in Ho. destruct (sr_iv s) eqn:Ev.
      * cbn [andb] in Ho. apply negb_false_iff in Ho. symmetry. apply tail_out; assumption.
      * unfold tail_of. rewrite Ev. cbn [andb]. symmetry. apply out_none. unfold sr_out. rewrite Hr, Ev. reflexivity.
  - assert (En : sr_next io s i = sr_out io s i) by (unfold sr_next; rewrite Hiv; reflexivity). rewrite En.
    pose proof (out_keeps io s i) as (P1 & P2 & P3 & P4 & P5 & P6 & P7).
    destruct (sr_iv s) eqn:Ev.
    + destruct (sr_ieop s) eqn:Ee.
      * assert (Hiv' : sr_iv (sr_out io s i) = false) by (unfold sr_out; rewrite Hr, Ev, Ee; reflexivity).
        split. { intros Hc. congruence. } split. { unfold isopen. rewrite Hiv', Ev, Ee. reflexivity. }
        f_equal. rewrite (tail_out io s i HI Hr Ev Ee). f_equal. unfold tail_of, todo, isopen. rewrite Hiv', Ev, Ee. reflexivity.
      * assert (Hiv' : sr_iv (sr_out io s i) = true) by (unfold sr_out; rewrite Hr, Ev, Ee, Hiv; reflexivity).
        assert (HK' : K (sr_out io s i) = K s).
        { pose proof (h4n_K s i HI Hr Ev) as Eh. unfold K at 1. rewrite P3, P1. unfold K in *. destruct (sr_isop s) eqn:Eso; [reflexivity|].
          rewrite <- Eh. unfold sr_out. rewrite Hr, Ev, Ee. reflexivity. }
        assert (Hov : sr_valid (sr_out io s i) = false) by (unfold sr_out; rewrite Hr, Ev, Ee, Hiv; reflexivity).
        split. { intros _. destruct (HI Ev) as (Q1 & Q2 & Q3 & Q4). unfold Ln in *. rewrite P1, P2, P3, P4, P5, P7, HK'. rewrite Ee in *. repeat split; auto; tauto. }
        split. { unfold isopen. rewrite Hiv', P4, Ev, ?Ee. reflexivity. }
        f_equal. rewrite (out_none _ Hov). cbn [app]. unfold tail_of, todo, isopen, mk. rewrite Hiv', HK', P1, P3, P4, P6, P7, Ev, ?Ee. unfold Ln. rewrite P2. reflexivity.
    + assert (Hiv' : sr_iv (sr_out io s i) = false) by (unfold sr_out; rewrite Hr, Ev; reflexivity).
      assert (Hov : sr_valid (sr_out io s i) = false) by (unfold sr_out; rewrite Hr, Ev; reflexivity).
      split. { intros Hc. congruence. } split. { unfold isopen. rewrite Hiv', Ev. reflexivity. }
      f_equal. rewrite (out_none _ Hov). unfold tail_of, todo, isopen. rewrite Hiv', Ev. reflexivity.
Qed.

Lemma stream_wf : forall l o, stream o l -> Forall wfb (beats l).
Proof.
  induction l as [|i t IH]; intros o H; cbn [beats filter]; [constructor|]. cbn [stream] in H. destruct H as (_ & Hv & Ht).
  destruct (si_valid i) eqn:E; [|exact (IH _ Ht)]. constructor; [|exact (IH _ Ht)]. destruct (Hv eq_refl) as (_ & _ & _ & He & _). exact He.
Qed.

Lemma trace_ok io : forall l s, Inv s -> stream (isopen s) l ->
  exists s', out_of s ++ tail_of io s ++ todo io s (beats l) = flat_map seen (sr_trace io s l) ++ out_of s' ++ tail_of io s' /\ Inv s' /\ s' = fold_left (sr_step io) l s.
Proof.
  induction l as [|i t IH]; intros s HI Hst.
  - exists s. split; [|split; [exact HI|reflexivity]]. cbn [beats filter sr_trace flat_map app]. unfold todo. destruct (isopen s); cbn [rest_of expected items]; rewrite ?app_nil_r; reflexivity.
  - cbn [stream] in Hst. destruct Hst as (Hr & Hv & Ht).
    assert (Hv' : si_valid i = true -> si_fready i = true /\ si_sop i = negb (isopen s) /\ okbeat i).
    { intros E. destruct (Hv E) as (A & B & C & D & F & G & H). unfold okbeat. tauto. }
    destruct (step_ok io s i (beats t) HI (stream_wf _ _ Ht) Hv' Hr) as (HI' & Ho & HE).
    rewrite <- Ho in Ht. destruct (IH _ HI' Ht) as (s' & E & HI'' & Es). exists s'. split; [|split; [exact HI''|exact Es]].
    cbn [beats filter sr_trace flat_map]. fold (beats t). rewrite HE. rewrite E, app_assoc. reflexivity.
Qed.

Lemma out_len s : (length (out_of s) <= 1)%nat.
Proof. unfold out_of, seen. destruct (_ && _); cbn [length]; lia. Qed.
Lemma tail_len io s : (length (tail_of io s) <= 1)%nat.
Proof. unfold tail_of, mk. destruct (_ && _); [destruct (_ || _)|]; cbn [length mark]; lia. Qed.

Lemma reset_inv io s i : si_rst i = true -> let n := sr_step io s i in Inv n /\ isopen n = false /\ out_of n = [] /\ tail_of io n = [].
Proof. intros H. unfold sr_step. rewrite H. split; [|repeat split]. intros Hc. cbn [sr_iv] in Hc. discriminate Hc. Qed.

Lemma s10_rx_ok io s i ins : si_rst i = true -> stream false ins ->
  exists rest, expected io [] (beats ins) = flat_map seen (sr_trace io (sr_step io s i) ins) ++ rest /\ (length rest <= 2)%nat.
Proof.
  intros Hr Hst. destruct (reset_inv io s i Hr) as (HI & Ho & E1 & E2). rewrite <- Ho in Hst.
  destruct (trace_ok io ins _ HI Hst) as (s' & E & _). rewrite E1, E2 in E. cbn [app] in E. unfold todo in E. rewrite Ho in E.
  exists (out_of s' ++ tail_of io s'). split; [exact E|]. rewrite app_length. pose proof (out_len s'). pose proof (tail_len io s'). lia.
Qed.

Definition quiet (i : sr_in) : Prop := si_valid i = false /\ si_fready i = true /\ si_rst i = false.
Lemma quiet_tail io s i : Inv s -> quiet i -> tail_of io (sr_step io s i) = [].
Proof.
  intros HI (Hv & Hr & Hrst). unfold sr_step. rewrite Hrst. unfold sr_next. rewrite Hv. unfold tail_of, sr_out. rewrite Hr, Hv.
  destruct (sr_iv s) eqn:Ev; [|reflexivity]. destruct (sr_ieop s) eqn:Ee; cbn [sr_iv sr_ieop andb]; rewrite ?Ee, ?andb_false_r; reflexivity.
Qed.
Lemma quiet_out io s i : Inv s -> quiet i -> tail_of io s = [] -> out_of (sr_step io s i) = [].
Proof.
  intros HI (Hv & Hr & Hrst) Ht. unfold sr_step. rewrite Hrst. unfold sr_next. rewrite Hv.
  destruct (sr_iv s) eqn:Ev.
  - destruct (sr_ieop s) eqn:Ee; [rewrite (tail_out io s i HI Hr Ev Ee); exact Ht|]. apply out_none. unfold sr_out. rewrite Hr, Ev, Ee, Hv. reflexivity.
  - apply out_none. unfold sr_out. rewrite Hr, Ev. reflexivity.
Qed.

Lemma fold_snoc2 (A B : Type) (f : A -> B -> A) l x y s : fold_left f (l ++ [x; y]) s = f (f (fold_left f l s) x) y.
Proof. rewrite fold_left_app. reflexivity. Qed.
Lemma stream_app : forall l m o, stream o (l ++ m) -> stream o l.
Proof. induction l as [|i t IH]; intros m o H; [exact I|]. cbn [app stream] in *. destruct H as (A & B & C). repeat split; try assumption; try apply B; try assumption. exact (IH _ _ C). Qed.

Lemma s10_rx_done io s i ins q1 q2 : si_rst i = true -> stream false (ins ++ [q1; q2]) -> quiet q1 -> quiet q2 ->
  flat_map seen (sr_trace io (sr_step io s i) (ins ++ [q1; q2])) = expected io [] (beats ins).
Proof.
  intros Hr Hst H1 H2. destruct (reset_inv io s i Hr) as (HI & Ho & E1 & E2). rewrite <- Ho in Hst.
  pose proof (stream_app _ _ _ Hst) as Hst0. destruct (trace_ok io ins _ HI Hst0) as (s0 & _ & HI0 & Es0).
  destruct (trace_ok io (ins ++ [q1; q2]) _ HI Hst) as (s' & E & _ & Es). rewrite E1, E2 in E. cbn [app] in E. unfold todo in E. rewrite Ho in E.
  rewrite fold_snoc2, <- Es0 in Es.
  assert (HI1 : Inv (sr_step io s0 q1)).
  { destruct (step_ok io s0 q1 [] HI0 ltac:(constructor)) as (A & _); [|apply H1|exact A]. intros Hc. destruct H1 as (Hq & _). congruence. }
  assert (Ht1 : tail_of io (sr_step io s0 q1) = []) by (apply quiet_tail; assumption).
  rewrite Es in E. rewrite (quiet_tail io _ q2 HI1 H2), (quiet_out io _ q2 HI1 H2 Ht1) in E. rewrite !app_nil_r in E. rewrite <- E.
  unfold beats. rewrite filter_app. cbn [filter]. destruct H1 as (Hq1 & _). destruct H2 as (Hq2 & _). rewrite Hq1, Hq2, app_nil_r. reflexivity.
Qed.
