(** The adapters for UltraScale streams do what they should (C107, C108): the steps, and progress. *)
From Verif Require Import PyBase RtlModel RtlFcProofs RtlRamProofs2 RtlAxmModel RtlAxmSpec RtlAxmProofs RtlUsIfModel RtlUsIfSpec RtlUsIfProofs RtlUsIfProofs2.
From Coq Require Import Lia.

Lemma chunks_none ds be a x : chunks ds be a x x = [].
Proof. unfold chunks. rewrite Z.sub_diag. reflexivity. Qed.
Lemma chunks_one ds be a x y : y = x + 1 -> chunks ds be a x y = [mkCh ds be a x].
Proof. intros ->. unfold chunks. replace (x + 1 - x) with 1 by lia. change (Z.to_nat 1) with 1%nat. cbn [seq map]. change (Z.of_nat 0) with 0. now rewrite Z.add_0_r. Qed.
Lemma chunks_two ds be a x y : y = x + 2 -> chunks ds be a x y = [mkCh ds be a x; mkCh ds be a (x + 1)].
Proof. intros ->. unfold chunks. replace (x + 2 - x) with 2 by lia. change (Z.to_nat 2) with 2%nat. cbn [seq map]. change (Z.of_nat 0) with 0. rewrite Z.add_0_r. reflexivity. Qed.
Lemma inv0 p : Inv p us0 um0.
Proof. exists []. split; [reflexivity|]. split; [reflexivity|]. split; reflexivity. Qed.
Lemma inv_rst p s i : ui_rst i = true -> Inv p (ui_step p s i) um0.
Proof. intros R. unfold ui_step. cbn zeta. rewrite R. exists []. cbn [us_valid us_frame us_iv]. split; [reflexivity|]. split; [reflexivity|]. split; reflexivity. Qed.
Lemma inv_shows p s m i : Inv p s m -> ui_shows p m (ui_event s i).
Proof. intros [t [A _]] V. cbn [ui_event uv_valid] in V. rewrite V in A. destruct A as [c [Q X]]. exists c, t. split; [exact Q|exact X]. Qed.

(** The beat that is taken is saved. *)
Lemma new_int p s i ds be j e g : up_ok p -> ui_keep i = 2 ^ e - 1 -> ui_valid i = true -> ui_ready i = true -> 1 <= e <= WD p -> 1 <= j -> ui_gen_of p s i = g -> us_frame s = negb (j =? 1) ->
  zlen ds = (j - 1) * WD p -> (if ui_last i then HD p <= zlen ds + e else e = WD p) -> (ui_last i = true -> up_rc p = true -> up_lw p = 1 -> 4 <= zlen ds -> e = 2) -> (j = 1 -> be = user_be p (ui_user i)) ->
  (2 <= j -> meta_is p (ds ++ lanes (ui_data i) e) be (ug_meta g)) -> (2 <= j -> up_lw p = 1 -> ug_tframe g = (3 <=? j)) ->
  Int p (ui_next p s i) (ds ++ lanes (ui_data i) e) be (ui_last i) j e.
Proof.
  intros O K V R E J G F Z1 FI OD B M T. pose proof (W_pos p O) as [Wp [We [Ke Kp]]]. unfold ui_next. rewrite R, V, G. cbn zeta.
  assert (LN : zlen (ds ++ lanes (ui_data i) e) = (j - 1) * WD p + e) by (rewrite zlen_app, zlen_lanes, Z1; lia).
  constructor; cbn [us_is us_ise us_isop us_id us_ibe us_meta us_tframe us_ieop].
  - exact J.
  - exact E.
  - exact LN.
  - intros L. rewrite L in FI. exact FI.
  - intros L. rewrite L in FI. rewrite LN. lia.
  - apply strb_ok; assumption.
  - apply seop_ok; try assumption. apply strb_ok; assumption.
  - rewrite F. apply negb_involutive.
  - rewrite We. apply Z.mod_pos_bound. apply Z.pow_pos_nonneg; lia.
  - intros l Hl. rewrite We. rewrite lane_mod by lia. rewrite dw_app2 by lia. rewrite dw_lanes by lia. f_equal. lia.
  - intros J1. rewrite (B J1). apply be_ok, O.
  - exact M.
  - exact T.
  - intros L R1 L1 N. apply OD; try assumption. unfold WD in *. rewrite L1 in *. change (2 ^ 1) with 2 in *. lia.
Qed.
Lemma Int_ext p s s' ds be fin j e : us_is s' = us_is s -> us_ise s' = us_ise s -> us_isop s' = us_isop s -> us_id s' = us_id s -> us_ibe s' = us_ibe s -> (2 <= j -> us_meta s' = us_meta s) -> (2 <= j -> up_lw p = 1 -> us_tframe s' = us_tframe s) ->
  Int p s ds be fin j e -> Int p s' ds be fin j e.
Proof.
  intros A1 A2 A3 A4 A5 A6 A7 [Ij Ie Il Io If Is Ise Iso Id Ila Ib Im It Iod]. constructor; rewrite ?A1, ?A2, ?A3, ?A4, ?A5; try assumption.
  - intros J. rewrite (A6 J). now apply Im.
  - intros J L. rewrite (A7 J L). now apply It.
Qed.

Lemma inv_step p s m i : up_ok p -> Inv p s m -> ui_assume1 p m (ui_event s i) -> ui_assume2 p m (ui_event s i) -> Inv p (ui_step p s i) (um_next p m (ui_event s i)).
Proof.
  intros O I A1 A2. unfold um_next. cbn zeta. cbn [ui_event uv_in uv_valid]. destruct (ui_rst i) eqn:R; [apply inv_rst, R|].
  unfold ui_assume1 in A1. unfold ui_assume2 in A2. unfold u_taken in *. cbn [ui_event uv_in] in *. specialize (A1 R). specialize (A2 R). cbn zeta in A1.
  assert (SN : ui_step p s i = ui_next p s i) by (unfold ui_step; cbn zeta; now rewrite R). rewrite SN. clear SN R. pose proof (W_pos p O) as [Wp [We [Ke Kp]]].
  destruct (ui_ready i) eqn:RD; cbn [andb] in *.
  2:{ rewrite andb_false_r. unfold ui_next. rewrite RD. destruct m as [mds mbe mq]. cbn [um_ds um_be um_q]. exact I. }
  rewrite andb_true_r. destruct I as [t [Q [F I]]].
  assert (QT : (if us_valid s then tl (um_q m) else um_q m) = t). { destruct (us_valid s); [destruct Q as [c [-> _]]; reflexivity|exact Q]. }
  rewrite QT. clear Q QT. destruct (ui_valid i) eqn:V; cbn [andb] in *.
  - (* a beat is taken *)
    destruct (A1 eq_refl) as [K [E FI]]. specialize (A2 eq_refl). clear A1. set (e := kcnt (ui_keep i)) in *. clearbody e.
    destruct (us_iv s) eqn:IV.
    + destruct I as [ds [be [j [e0 [I [T U]]]]]]. destruct (us_ieop s) eqn:IE.
      * (* after the last one *)
        rewrite U in *. destruct (gen_closed p s i ds be j e0 O I IV IE) as [GC [GV GO]]. cbn zeta in GC, GV, GO. set (g := ui_gen_of p s i) in *.
        assert (NI : Int p (ui_next p s i) ([] ++ lanes (ui_data i) e) (user_be p (ui_user i)) (ui_last i) 1 e).
        { apply (new_int p s i [] (user_be p (ui_user i)) 1 e g); try assumption; try reflexivity; try lia; try (intros; lia). }
        unfold zlen at 1. cbn [length app Z.of_nat] in *. change (0 =? 0) with true. cbv iota.
        assert (LN : zlen (lanes (ui_data i) e) = e) by (apply zlen_lanes; lia).
        assert (TQ : t ++ (if ui_last i then chunks (lanes (ui_data i) e) (user_be p (ui_user i)) true (nfull p 0) (nbeats p e) else chunks (lanes (ui_data i) e) (user_be p (ui_user i)) false (nfull p 0) (nfull p e)) =
                     t ++ tailq p (lanes (ui_data i) e) (user_be p (ui_user i)) (ui_last i) 1 e).
        { f_equal. unfold tailq. assert (N0 := nfull_at p 0 O ltac:(lia)). cbn [Z.mul] in N0. replace (nfull p 0) with 0 by (destruct (up_lw p =? 1); lia). destruct (ui_last i) eqn:LA; cbn [andb].
          - change (zlen []) with 0 in FI. unfold more. rewrite LN. destruct (up_lw p =? 1) eqn:L1; [exfalso; pose proof (W2 p L1); lia|]. cbn [Z.eqb Pos.eqb orb].
            assert (NB := nbeats_wide p 0 e O L1 ltac:(lia) E ltac:(lia)). cbn [Z.mul Z.add Z.eqb orb] in NB. rewrite NB. apply chunks_one. reflexivity.
          - subst e. assert (N1 := nfull_at p 1 O ltac:(lia)). rewrite Z.mul_1_l in N1. replace (nfull p (WD p)) with 0 by (destruct (up_lw p =? 1); lia). apply chunks_none. }
        exists (tailq p (lanes (ui_data i) e) (user_be p (ui_user i)) (ui_last i) 1 e).
        assert (SV : us_valid (ui_next p s i) = more p j e0) by (unfold ui_next; rewrite RD, V; cbn zeta; exact GV).
        assert (SF : us_frame (ui_next p s i) = negb (ui_last i)) by (unfold ui_next; rewrite RD, V; reflexivity).
        assert (SI : us_iv (ui_next p s i) = true /\ us_ieop (ui_next p s i) = ui_last i) by (unfold ui_next; rewrite RD, V; split; reflexivity). destruct SI as [SI SE].
        rewrite SV, SF, SI, SE. split.
        { replace (um_q (if ui_last i then _ else _)) with (t ++ tailq p (lanes (ui_data i) e) (user_be p (ui_user i)) (ui_last i) 1 e) by (rewrite <- TQ; destruct (ui_last i); cbn [um_q]; rewrite LN; reflexivity).
          rewrite T. change (tailq p ds be true j e0) with (if more p j e0 then [mkCh ds be true (nbeats p (zlen ds) - 1)] else []). destruct (more p j e0) eqn:MO; [|reflexivity]. cbn [app]. eexists. split; [reflexivity|]. specialize (GO eq_refl). unfold out_s, ui_next. rewrite RD, V. cbn zeta. exact GO. }
        split; [destruct (ui_last i) eqn:LA; cbn [um_ds]; [reflexivity|]; rewrite LN; rewrite (proj2 (Z.eqb_neq _ _)) by lia; reflexivity|].
        exists (lanes (ui_data i) e), (user_be p (ui_user i)), 1, e. split; [exact NI|]. split; [reflexivity|]. destruct (ui_last i); cbn [um_ds um_be]; [reflexivity|split; reflexivity].
      * (* of the TLP that is open *)
        destruct U as [U1 U2]. rewrite U1, U2 in *. assert (I' := I). destruct I' as [Ij Ie Il Io _ _ _ _ _ _ _ _ _ _]. specialize (Io eq_refl). subst e0. assert (Il' : zlen ds = j * WD p) by lia.
        destruct (gen_open p s i ds be j _ e O I IV IE V K E FI A2) as [GV [GO [GM GT]]]. cbn zeta in GV, GO, GM, GT. set (g := ui_gen_of p s i) in *.
        assert (ZN : zlen ds =? 0 = false) by (apply Z.eqb_neq; rewrite Il'; nia). rewrite ZN in *.
        assert (NI : Int p (ui_next p s i) (ds ++ lanes (ui_data i) e) be (ui_last i) (j + 1) e).
        { apply (new_int p s i ds be (j + 1) e g); try assumption; try reflexivity; try lia.
          - rewrite F. cbn [negb]. destruct (Z.eqb_spec (j + 1) 1); [lia|reflexivity].
          - intros; exact GM.
          - intros _ L. rewrite (GT L). destruct (Z.leb_spec 2 j), (Z.leb_spec 3 (j + 1)); bb. }
        set (ds' := ds ++ lanes (ui_data i) e) in *. assert (LN : zlen ds' = j * WD p + e) by (unfold ds'; rewrite zlen_app, zlen_lanes; lia).
        set (x := Z.max 0 (if up_lw p =? 1 then j - 2 else j - 1)) in *.
        assert (NF : nfull p (zlen ds) = x) by (rewrite Il'; apply nfull_at; [exact O|lia]).
        assert (TQ : (if ui_last i then chunks ds' be true (nfull p (zlen ds)) (nbeats p (zlen ds')) else chunks ds' be false (nfull p (zlen ds)) (nfull p (zlen ds'))) =
                     (if ug_valid g then [mkCh ds' be (ui_last i) x] else []) ++ tailq p ds' be (ui_last i) (j + 1) e).
        { rewrite NF, GV, LN. unfold tailq, more. rewrite LN. destruct (up_lw p =? 1) eqn:L1; cbn [andb].
          - pose proof (W2 p L1) as W2'. apply Z.eqb_eq in L1. destruct (ui_last i) eqn:LA.
            + assert (NB := nbeats_64 p j e O L1 ltac:(lia) E ltac:(lia)). destruct NB as [_ NB]; [intros R1 R2; apply A2; try assumption; try reflexivity; lia|]. rewrite NB. cbn [andb]. unfold x. destruct (up_rc p).
              * cbn [negb andb]. destruct (Z.eqb_spec j 1) as [J1|J1]; [subst j; apply chunks_one; reflexivity|]. cbn [app].
                rewrite chunks_two by lia. do 3 f_equal. lia.
              * cbn [negb andb]. destruct (Z.eqb_spec j 1) as [J1|J1]; [subst j; apply chunks_one; reflexivity|]. apply chunks_one. lia.
            + subst e. assert (N1 := nfull_at p (j + 1) O ltac:(lia)). replace (j * WD p + WD p) with ((j + 1) * WD p) by lia. rewrite N1. rewrite L1. rewrite Z.eqb_refl. cbn [andb app]. rewrite andb_false_r, app_nil_r. unfold x.
              destruct (Z.eqb_spec j 1) as [J1|J1]; [subst j; apply chunks_none|]. apply chunks_one. lia.
          - destruct (ui_last i) eqn:LA; cbn [andb app].
            + rewrite nbeats_wide by (try assumption; lia). rewrite (proj2 (Z.eqb_neq j 0)) by lia. rewrite (proj2 (Z.eqb_neq (j + 1) 1)) by lia. cbn [orb]. unfold x. destruct (Z.ltb_spec (HD p) e).
              * rewrite chunks_two by lia. do 3 f_equal. lia.
              * apply chunks_one. lia.
            + subst e. assert (N1 := nfull_at p (j + 1) O ltac:(lia)). replace (j * WD p + WD p) with ((j + 1) * WD p) by lia. rewrite N1. rewrite L1. unfold x. apply chunks_one. lia. }
        exists (tailq p ds' be (ui_last i) (j + 1) e).
        assert (SV : us_valid (ui_next p s i) = ug_valid g) by (unfold ui_next; rewrite RD, V; reflexivity).
        assert (SF : us_frame (ui_next p s i) = negb (ui_last i)) by (unfold ui_next; rewrite RD, V; reflexivity).
        assert (SI : us_iv (ui_next p s i) = true /\ us_ieop (ui_next p s i) = ui_last i) by (unfold ui_next; rewrite RD, V; split; reflexivity). destruct SI as [SI SE].
        rewrite SV, SF, SI, SE. split.
        { unfold tailq in T. cbn [andb] in T. rewrite T. cbn [app].
          replace (um_q (if ui_last i then _ else _)) with ((if ug_valid g then [mkCh ds' be (ui_last i) x] else []) ++ tailq p ds' be (ui_last i) (j + 1) e) by (rewrite <- TQ; destruct (ui_last i); reflexivity).
          clear GV. destruct (ug_valid g) eqn:GV; [|reflexivity]. cbn [app]. eexists. split; [reflexivity|]. specialize (GO eq_refl). unfold out_s, ui_next. rewrite RD, V. cbn zeta. fold g. unfold out_g in GO. rewrite GV in GO. exact GO. }
        split; [destruct (ui_last i) eqn:LA; cbn [um_ds]; [reflexivity|]; rewrite LN; rewrite (proj2 (Z.eqb_neq _ _)) by nia; reflexivity|].
        exists ds', be, (j + 1), e. split; [exact NI|]. split; [reflexivity|]. destruct (ui_last i); cbn [um_ds um_be]; [reflexivity|split; reflexivity].
    + (* nothing saved *)
      destruct I as [U T]. rewrite U in *. set (g := ui_gen_of p s i).
      assert (GV : ug_valid g = false). { unfold g, ui_gen_of, ui_gen_rc64, ui_gen_cq64, ui_gen_wide. rewrite IV. destruct (up_lw p =? 1), (up_rc p); reflexivity. }
      assert (NI : Int p (ui_next p s i) ([] ++ lanes (ui_data i) e) (user_be p (ui_user i)) (ui_last i) 1 e).
      { apply (new_int p s i [] (user_be p (ui_user i)) 1 e g); try assumption; try reflexivity; try lia; try (intros; lia). }
      unfold zlen at 1. cbn [length app Z.of_nat] in *. change (0 =? 0) with true. cbv iota.
      assert (LN : zlen (lanes (ui_data i) e) = e) by (apply zlen_lanes; lia).
      assert (TQ : (if ui_last i then chunks (lanes (ui_data i) e) (user_be p (ui_user i)) true (nfull p 0) (nbeats p e) else chunks (lanes (ui_data i) e) (user_be p (ui_user i)) false (nfull p 0) (nfull p e)) =
                   tailq p (lanes (ui_data i) e) (user_be p (ui_user i)) (ui_last i) 1 e).
      { unfold tailq. assert (N0 := nfull_at p 0 O ltac:(lia)). cbn [Z.mul] in N0. replace (nfull p 0) with 0 by (destruct (up_lw p =? 1); lia). destruct (ui_last i) eqn:LA; cbn [andb].
        - change (zlen []) with 0 in FI. unfold more. rewrite LN. destruct (up_lw p =? 1) eqn:L1; [exfalso; pose proof (W2 p L1); lia|]. cbn [Z.eqb Pos.eqb orb].
          assert (NB := nbeats_wide p 0 e O L1 ltac:(lia) E ltac:(lia)). cbn [Z.mul Z.add Z.eqb orb] in NB. rewrite NB. apply chunks_one. reflexivity.
        - subst e. assert (N1 := nfull_at p 1 O ltac:(lia)). rewrite Z.mul_1_l in N1. replace (nfull p (WD p)) with 0 by (destruct (up_lw p =? 1); lia). apply chunks_none. }
      exists (tailq p (lanes (ui_data i) e) (user_be p (ui_user i)) (ui_last i) 1 e).
      assert (SV : us_valid (ui_next p s i) = false) by (unfold ui_next; rewrite RD, V; cbn zeta; exact GV).
      assert (SF : us_frame (ui_next p s i) = negb (ui_last i)) by (unfold ui_next; rewrite RD, V; reflexivity).
      assert (SI : us_iv (ui_next p s i) = true /\ us_ieop (ui_next p s i) = ui_last i) by (unfold ui_next; rewrite RD, V; split; reflexivity). destruct SI as [SI SE].
      rewrite SV, SF, SI, SE. split; [rewrite <- TQ, T; destruct (ui_last i); cbn [um_q app]; rewrite LN; reflexivity|].
      split; [destruct (ui_last i) eqn:LA; cbn [um_ds]; [reflexivity|]; rewrite LN; rewrite (proj2 (Z.eqb_neq _ _)) by lia; reflexivity|].
      exists (lanes (ui_data i) e), (user_be p (ui_user i)), 1, e. split; [exact NI|]. split; [reflexivity|]. destruct (ui_last i); cbn [um_ds um_be]; [reflexivity|split; reflexivity].
  - (* no beat is taken *)
    clear A1 A2. set (g := ui_gen_of p s i).
    assert (SV : us_valid (ui_next p s i) = ug_valid g) by (unfold ui_next; rewrite RD, V; reflexivity).
    assert (SF : us_frame (ui_next p s i) = us_frame s) by (unfold ui_next; rewrite RD, V; reflexivity).
    assert (SI : us_iv (ui_next p s i) = us_iv s && negb (ug_clear g)) by (unfold ui_next; rewrite RD, V; reflexivity).
    assert (SE : us_ieop (ui_next p s i) = us_ieop s) by (unfold ui_next; rewrite RD, V; reflexivity).
    unfold Inv. rewrite SV, SF, SI, SE. cbn [um_ds um_be um_q]. destruct (us_iv s) eqn:IV; cbn [andb].
    + destruct I as [ds [be [j [e0 [I [T U]]]]]]. destruct (us_ieop s) eqn:IE.
      * destruct (gen_closed p s i ds be j e0 O I IV IE) as [GC [GV GO]]. cbn zeta in GC, GV, GO. fold g in GC, GV, GO. rewrite GC, GV. cbn [negb].
        exists []. split; [|split; [exact F|split; [exact U|reflexivity]]]. rewrite T. unfold tailq. cbn [andb]. destruct (more p j e0) eqn:MO; [|reflexivity]. eexists. split; [reflexivity|].
        specialize (GO eq_refl). unfold out_s, ui_next. rewrite RD, V. cbn zeta. fold g. exact GO.
      * destruct (gen_wait p s i ds be j e0 O I IV IE V) as [GC [GV GM]]. cbn zeta in GC, GV, GM. fold g in GC, GV, GM. rewrite GC, GV. cbn [negb].
        exists t. split; [reflexivity|]. split; [exact F|]. exists ds, be, j, e0. split; [|split; [exact T|exact U]].
        apply (Int_ext p s); try assumption; unfold ui_next; rewrite RD, V; cbn zeta; cbn [us_is us_ise us_isop us_id us_ibe us_meta us_tframe]; try reflexivity; fold g.
        -- intros J. apply GM, J.
        -- intros J L. apply GM; assumption.
    + assert (GV : ug_valid g = false). { unfold g, ui_gen_of, ui_gen_rc64, ui_gen_cq64, ui_gen_wide. rewrite IV. destruct (up_lw p =? 1), (up_rc p); reflexivity. }
      rewrite GV. destruct I as [U T]. exists []. split; [exact T|]. split; [exact F|]. split; [exact U|reflexivity].
Qed.
