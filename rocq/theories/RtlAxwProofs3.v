(** The steps of the AXI write master (C105, C106). *)
From Verif Require Import PyBase RtlModel RtlRamModel RtlRamDemuxModel RtlRamDemuxProofs RtlAxmSpec RtlAxwModel RtlAxwSpec RtlFcProofs RtlAxwProofs RtlAxwProofs2.

Section P.
Variable p : bw_param.
Hypothesis OK : bw_ok p.

(** Data is transferred. *)
Lemma xfer_ok s i c need j : bf_st (bs_f s) = BTransfer -> tinv p (bs_f s) (bs_save s) c need j -> (bf_ready (bs_f s) = true -> c <= 17) ->
  let tk := bw_rx s i in let j1 := if tk then add1 (bi_data i) j else j in let n1 := if tk then need - 1 else need in let f' := bs_f (bw_next p s i) in
  (tk = true -> 0 < need) /\
  if bw_xfer s i then
    beat_is p j1 (bw_push p s i) /\
    if bf_last (bs_f s) then bf_st f' = BIdle /\ n1 = 0 /\ adv p j1 [] = []
    else bf_st f' = BTransfer /\ exists j', adv p j1 [] = [j'] /\ forall c', c' <= c + 1 -> tinv p f' (bs_save (bw_next p s i)) c' n1 j'
  else tk = false /\ bf_st f' = BTransfer /\ forall c', c' <= c -> tinv p f' (bs_save (bw_next p s i)) c' need j.
Proof.
  intros ST [T1 T2 T3 T4 T5 T6 T7 T8 T9 T10 T11] RC. cbn zeta. destruct j as [h ins k]. cbn [jb_h jb_in jb_k] in *. destruct (beats_rel p OK h) as [B1 [B2 _]]. destruct (len_eq h) as [_ N].
  assert (BO : beats_out p h <= 256) by (unfold fits in T1; destruct OK as [_ [_ O]]; lia).
  assert (TN : bw_rx s i = true -> 0 < need /\ bf_first (bs_f s) = false /\ c <= 17 /\ bf_ia (bs_f s) = true).
  { unfold bw_rx. intros E. apply andb_true_iff in E. destruct E as [E _]. destruct (T10 E) as [A F]. specialize (RC E). split; [|auto]. rewrite T6 in A. assert (need <> 0) by (destruct (Z.eqb_spec need 0); [discriminate | auto]).
    destruct (Z.eqb_spec k 0); lia. }
  split; [intros E; apply TN, E|].
  assert (KL : k <= beats_in p h) by lia. assert (LK : Z.of_nat (length ins) = if k =? 0 then 1 else k) by (rewrite T8; destruct (Z.eqb_spec k 0); lia).
  assert (FK : bf_first (bs_f s) = (k =? 0)) by (apply (fr_first _ _ _ _ T2)). assert (LAST : bf_last (bs_f s) = (k =? beats_out p h - 1)) by (apply (fr_last _ _ _ _ T2)).
  destruct (bw_xfer s i) eqn:X.
  - assert (XI : bw_rx s i = false -> need = 0 \/ k = 0).
    { intros E. unfold bw_xfer in X. rewrite ST, E, T6, FK in X. destruct (Z.eqb_spec need 0); [auto|]. destruct (Z.eqb_spec k 0); [auto | discriminate]. }
    assert (J1 : (if bw_rx s i then add1 (bi_data i) (mkJob h ins k) else mkJob h ins k) = mkJob h (if bw_rx s i then ins ++ [bi_data i] else ins) k) by (destruct (bw_rx s i); reflexivity).
    rewrite J1. set (ins1 := if bw_rx s i then ins ++ [bi_data i] else ins).
    assert (BT : beat_is p (mkJob h ins1 k) (bw_push p s i)).
    { unfold bw_push. apply beat_ok; [exact OK | exact T2 | exact T3 | |].
      - destruct T9 as [l [d [LD SV]]]. exists d. split; [|exact SV]. assert (LL : Z.to_nat (k - 1) = length l). { rewrite LD, app_length in LK. cbn [length] in LK. destruct (Z.eqb_spec k 0); lia. }
        assert (G : nth_error ins (Z.to_nat (k - 1)) = Some d) by (rewrite LD, LL, nth_error_app2, Nat.sub_diag by lia; reflexivity).
        unfold ins1. destruct (bw_rx s i); [|exact G]. rewrite nth_error_app1; [exact G|]. apply nth_error_Some. congruence.
      - intros K. unfold ins1. destruct (bw_rx s i) eqn:E; [|destruct (XI eq_refl); destruct (Z.eqb_spec k 0); lia].
        assert (LL : Z.to_nat k = length ins) by (destruct (Z.eqb_spec k 0); lia). rewrite LL, nth_error_app2, Nat.sub_diag by lia. reflexivity. }
    split; [exact BT|]. clear BT J1. cbn [bw_next bs_f bs_save]. unfold bw_fsm_next. rewrite ST. unfold bw_transfer. rewrite X. rewrite (fr_op _ _ _ _ T2). change (0 <? 0) with false. cbn iota.
    unfold adv. cbn [jb_h jb_k jb_in]. rewrite LAST. destruct (Z.eqb_spec k (beats_out p h - 1)) as [KE|KE]; cbn [negb].
    + cbn [bf_st]. split; [reflexivity|]. split; [|reflexivity]. destruct (bw_rx s i) eqn:E; [destruct (TN eq_refl) as [Q1 [Q2 Q3]] | destruct (XI eq_refl)]; destruct (Z.eqb_spec k 0); try discriminate; try congruence; lia.
    + cbn [bf_st]. split; [reflexivity|]. eexists. split; [reflexivity|]. intros c' C'.
      set (ic' := if bf_ia (bs_f s) && negb (bf_first (bs_f s)) then (bf_ic (bs_f s) - 1) mod 2 ^ 13 else bf_ic (bs_f s)).
      set (n1 := if bw_rx s i then need - 1 else need).
      assert (U : bf_ia (bs_f s) && negb (bf_first (bs_f s)) = bw_rx s i).
      { destruct (bw_rx s i) eqn:E; [destruct (TN eq_refl) as [Q1 [Q2 [Q3 Q4]]]; now rewrite Q2, Q4|]. rewrite T6, FK. destruct (XI eq_refl) as [->| ->]; [reflexivity | apply andb_false_r]. }
      assert (IC : ic' = n1). { unfold ic', n1. rewrite U, T5. destruct (bw_rx s i) eqn:E; [|reflexivity]. apply Z.mod_small. destruct (TN eq_refl). change (2 ^ 13) with 8192. lia. }
      assert (IA : (if bf_ia (bs_f s) && negb (bf_first (bs_f s)) then negb (ic' =? 0) else bf_ia (bs_f s)) = negb (n1 =? 0)). { rewrite IC, U. unfold n1. destruct (bw_rx s i); [reflexivity | exact T6]. }
      rewrite IA, IC. assert (OC : (bf_oc (bs_f s) - 1) mod 2 ^ 13 = beats_out p h - 1 - (k + 1)) by (rewrite T4, Z.mod_small; change (2 ^ 13) with 8192; lia). rewrite OC.
      assert (LI : Z.of_nat (length ins1) = Z.of_nat (length ins) + if bw_rx s i then 1 else 0) by (unfold ins1; destruct (bw_rx s i); rewrite ?app_length; cbn [length]; lia).
      constructor; cbn [bf_oc bf_ic bf_ia bf_ready bf_first jb_h jb_k jb_in].
      * exact T1.
      * destruct T2 as [F1 F2 F3 F4 F5 F6 F7]. constructor; cbn [bf_off bf_fbe bf_lbe bf_op bf_lco bf_first bf_last]; auto. -- destruct (Z.eqb_spec (k + 1) 0); [lia | reflexivity].
        -- destruct (Z.eqb_spec (beats_out p h - 1 - (k + 1)) 0), (Z.eqb_spec (k + 1) (beats_out p h - 1)); lia.
      * lia.
      * reflexivity.
      * reflexivity.
      * reflexivity.
      * rewrite LI, T7. unfold n1. destruct (bw_rx s i); lia.
      * rewrite LI, LK. replace (k + 1 =? 0) with false by lia. destruct (bw_rx s i) eqn:E.
        -- destruct (TN eq_refl) as [Q1 [Q2 _]]. rewrite FK in Q2. rewrite Q2 in *. lia.
        -- destruct (XI eq_refl); destruct (Z.eqb_spec k 0); lia.
      * unfold ins1. destruct (bw_rx s i); [exists ins, (bi_data i); split; reflexivity | exact T9].
      * intros Y. apply andb_true_iff in Y. split; [apply Y | reflexivity].
      * split; [discriminate|]. destruct T11 as [T11 T12]. destruct (bw_rx s i) eqn:E; [destruct (TN eq_refl); lia|]. destruct (XI eq_refl) as [X0|X0]; [|rewrite FK, X0 in T11; specialize (T11 eq_refl); lia].
        destruct (Z.eqb_spec k 0) as [K0|K0]; [rewrite FK in T11; specialize (T11 eq_refl); lia|]. lia.
  - assert (E : bw_rx s i = false). { unfold bw_xfer in X. rewrite ST in X. destruct (bw_rx s i); [discriminate | reflexivity]. } split; [exact E|].
    cbn [bw_next bs_f bs_save]. unfold bw_fsm_next. rewrite ST. unfold bw_transfer. rewrite X. cbn [bf_st]. split; [reflexivity|]. intros c' C'.
    constructor; cbn [bf_oc bf_ic bf_ia bf_ready bf_first jb_h jb_k jb_in]; try assumption.
    + destruct T2 as [F1 F2 F3 F4 F5 F6 F7]. constructor; cbn [bf_off bf_fbe bf_lbe bf_op bf_lco bf_first bf_last]; auto.
    + rewrite E. exact T9.
    + intros Y. apply andb_true_iff in Y. destruct Y as [Y Z1]. apply andb_true_iff in Y. destruct Y as [_ Y]. apply negb_true_iff in Z1. auto.
    + destruct T11 as [T11 T12]. split; [intros Y; specialize (T11 Y); lia | lia].
Qed.

(** The parts that do not depend on the data. *)
Lemma fsm_side s i : bi_rst i = false -> (bf_st (bs_f s) = BTransfer -> bf_op (bs_f s) = 0) -> let f := bs_f s in let f' := bs_f (bw_next p s i) in let tw := match bf_st f with BIdle => bw_rx s i && bi_sop i | _ => false end in
  (tw && bh_write (bi_hdr i) = false -> bf_awv f' = bf_awv f && negb (bi_awready i) /\ (bf_awv f' = true -> (bf_ready f = true -> bf_st f = BIdle -> bf_awv f = false) -> bf_awaddr f' = bf_awaddr f /\ bf_awlen f' = bf_awlen f)) /\
  bf_unc f' = tw && negb (bh_write (bi_hdr i)) /\
  (bf_ready f' = true -> bf_st f' <> BWait -> bo_half (bs_o s) = false) /\
  (bf_ready f' = true -> bf_st f' = BIdle -> bf_awv f' = false) /\
  (bf_st f' = BWait -> bf_ready f' = true) /\
  (bf_st f <> BTransfer -> tw && bh_write (bi_hdr i) = false -> bf_st f' = match bf_st f with BWait => if bw_rx s i && bi_eop i then BIdle else BWait | _ => if tw && negb (bi_eop i) then BWait else BIdle end).
Proof.
  intros RS OP. cbn zeta. cbn [bw_next bs_f]. unfold bw_fsm_next.
  assert (RM : bw_room s i = true -> bo_half (bs_o s) = false /\ bf_awv (bs_f s) && negb (bi_awready i) = false).
  { unfold bw_room, bo_ready. destruct (bf_awv (bs_f s)), (bi_awready i), (bo_half (bs_o s)); cbn; intros; try discriminate; auto. }
  destruct (bf_st (bs_f s)) eqn:ST.
  - unfold bw_idle. destruct (bw_rx s i && bi_sop i) eqn:T.
    + destruct (bw_burst p (bh_len (bi_hdr i)) (bh_addr p (bi_hdr i) mod 2 ^ bp_aw p)) as [tr al]. cbn [bf_st bf_awv bf_awaddr bf_awlen bf_unc bf_ready andb].
      split; [intros W; rewrite W; cbn [orb]; split; [reflexivity|]; intros V RD; unfold bw_rx in T; apply andb_true_iff in T; destruct T as [T _]; apply andb_true_iff in T; destruct T as [T _]; rewrite (RD T eq_refl) in V; discriminate|].
      split; [reflexivity|]. destruct (bh_write (bi_hdr i)); cbn [orb].
      * split; [discriminate|]. split; [discriminate|]. split; [discriminate|]. discriminate.
      * destruct (bi_eop i); cbn [negb]. -- split; [intros X _; apply RM, X|]. split; [intros X _; apply RM, X|]. split; [discriminate | auto].
        -- split; [intros _ X; congruence|]. split; [discriminate|]. auto.
    + cbn [bf_st bf_awv bf_awaddr bf_awlen bf_unc bf_ready andb]. split; [auto|]. split; [reflexivity|]. split; [intros X _; apply RM, X|]. split; [intros X _; apply RM, X|]. split; [discriminate | auto].
  - unfold bw_transfer. rewrite OP by reflexivity. change (0 <? 0) with false. cbn iota. cbn [andb].
    assert (HF : forall a b, bo_ready (bs_o s) && a = b -> b = true -> bo_half (bs_o s) = false). { intros a b <- Y. apply andb_true_iff in Y. destruct Y as [Y _]. unfold bo_ready in Y. now apply negb_true_iff. }
    destruct (bw_xfer s i); [destruct (negb (bf_last (bs_f s)))|]; cbn [bf_st bf_awv bf_awaddr bf_awlen bf_unc bf_ready].
    + split; [auto|]. split; [reflexivity|]. split; [intros X _; eapply HF; [reflexivity | exact X]|]. split; [discriminate|]. split; [discriminate | congruence].
    + split; [auto|]. split; [reflexivity|]. split; [intros X _; apply RM, X|]. split; [intros X _; apply RM, X|]. split; [discriminate | congruence].
    + split; [auto|]. split; [reflexivity|]. split; [intros X _; eapply HF; [apply andb_assoc | exact X]|]. split; [discriminate|]. split; [discriminate | congruence].
  - unfold bw_wait. cbn [bf_st bf_awv bf_awaddr bf_awlen bf_unc bf_ready andb]. split; [auto|]. split; [reflexivity|]. destruct (bw_rx s i && bi_eop i).
    + split; [intros X _; apply RM, X|]. split; [intros X _; apply RM, X|]. split; [discriminate | auto].
    + split; [intros _ X; congruence|]. split; [discriminate|]. auto.
Qed.

Lemma binv_step m s i : binv p m s -> bw_assume1 p m (bw_event s i) -> binv p (bm_next p m (bw_event s i)) (bw_step p s i).
Proof.
  intros B A. pose proof (starts_eq p m s i B) as SE. unfold bw_assume1 in A. cbn [bw_event bv_in] in A. fold (bw_event s i) in A.
  unfold bm_next. cbn [bw_event bv_in]. fold (bw_event s i). destruct (bi_rst i) eqn:RS.
  { unfold bw_step. rewrite RS. constructor; cbn; auto; try lia; try discriminate. apply ptr00. }
  specialize (A eq_refl). rewrite b_step_next by exact RS. rewrite SE in *. unfold b_taken. cbn [bw_event bv_ready bv_in bv_awv bv_wv]. fold (bw_rx s i).
  destruct B as [B1 B2 B3 B4 B5 B6 B7 B8 B9 B10 B11].
  assert (OP : bf_st (bs_f s) = BTransfer -> bf_op (bs_f s) = 0). { intros ST. rewrite ST in B11. destruct B11 as [j [_ T]]. apply (fr_op _ _ _ _ (ti_regs _ _ _ _ _ _ T)). }
  destruct (fsm_side s i RS OP) as [S1 [S2 [S3 [S4 [S5 S6]]]]]. cbn zeta in *. rewrite (write_eq (bi_hdr i)) in *.
  set (tw := match bf_st (bs_f s) with BIdle => bw_rx s i && bi_sop i | _ => false end) in *.
  change (if bo_wv (bs_o s) && bi_wready i then match bm_jobs m with j :: r => adv p j r | [] => [] end else bm_jobs m) with (jobs1 p m (bw_event s i)).
  destruct (o_step (bs_o s) (bw_xfer s i) (bw_push p s i) (bi_wready i) B1 B3) as [O1 [O2 [O3 O4]]].
  assert (NO : bs_o (bw_next p s i) = bo_next (bs_o s) (bw_xfer s i) (bw_push p s i) (bi_wready i)) by reflexivity. rewrite <- NO in *.
  assert (C1 : ocnt (bs_o (bw_next p s i)) <= ocnt (bs_o s) + (if bw_xfer s i then 1 else 0)). { rewrite O3. destruct (negb (ptr_empty (bo_wr (bs_o s)) (bo_rd (bs_o s))) && (negb (bo_wv (bs_o s)) || bi_wready i)); lia. } clear O3 NO.
  assert (XC : bw_xfer s i = true -> ocnt (bs_o s) <= 18). { unfold bw_xfer. destruct (bf_st (bs_f s)); try discriminate. intros _. destruct B11 as [j [_ T]]. apply (ti_cnt _ _ _ _ _ _ T). }
  assert (OUT : forall R, feeds p (bm_jobs m) (outs (bs_o s)) R -> exists l1, feeds p (jobs1 p m (bw_event s i)) l1 R /\ outs (bs_o (bw_next p s i)) = l1 ++ (if bw_xfer s i then [bw_push p s i] else [])).
  { intros R F. destruct (jobs1_ok p m s i R F) as [l1 [E1 F1]]. exists l1. split; [exact F1|]. rewrite E1 in O2. rewrite <- app_assoc in O2. apply app_inv_head in O2. auto. }
  constructor.
  - exact O1.
  - exact O4.
  - destruct (bw_xfer s i); [specialize (XC eq_refl)|]; lia.
  - intros R W. specialize (S3 R W). specialize (B2 S3). destruct (bw_xfer s i); lia.
  - cbn [bm_aw]. destruct (tw && is_write (bi_hdr i)) eqn:TW.
    + unfold tw in *. destruct (bf_st (bs_f s)) eqn:ST; try discriminate. apply andb_true_iff in TW. destruct TW as [TW WR]. specialize (A TW WR). apply andb_true_iff in TW. destruct TW as [TR SOP].
      assert (C17 : ocnt (bs_o (bw_next p s i)) <= 17). { assert (R : bf_ready (bs_f s) = true) by (unfold bw_rx in TR; now apply andb_true_iff in TR). specialize (B4 R ltac:(congruence)). unfold bw_xfer in C1. rewrite ST in C1. lia. }
      destruct (take_regs p OK s i ST TR SOP ltac:(now rewrite write_eq) A C17) as [_ [K2 [K3 [K4 _]]]]. now rewrite K2, K3, K4.
    + destruct (S1 eq_refl) as [V X]. rewrite V. rewrite V in X. destruct (bf_awv (bs_f s)) eqn:AV; cbn [andb] in *.
      * destruct (bi_awready i); cbn [negb] in *; [reflexivity|]. destruct (X eq_refl B6) as [-> ->]. exact B5.
      * rewrite B5. reflexivity.
  - exact S4.
  - cbn [bm_unc]. rewrite S2. destruct tw, (is_write (bi_hdr i)); reflexivity.
  - cbn [bm_drop]. rewrite B8. destruct (bf_st (bs_f s)) eqn:ST.
    + destruct (tw && is_write (bi_hdr i)) eqn:TW.
      * unfold tw in *. apply andb_true_iff in TW. destruct TW as [TW WR]. rewrite TW. specialize (A TW WR). apply andb_true_iff in TW. destruct TW as [TR SOP].
        assert (C17 : ocnt (bs_o (bw_next p s i)) <= 17). { assert (R : bf_ready (bs_f s) = true) by (unfold bw_rx in TR; now apply andb_true_iff in TR). specialize (B4 R ltac:(congruence)). unfold bw_xfer in C1. rewrite ST in C1. lia. }
        destruct (take_regs p OK s i ST TR SOP ltac:(now rewrite write_eq) A C17) as [-> _]. reflexivity.
      * rewrite S6 by (auto; discriminate). destruct tw, (bi_eop i); reflexivity.
    + unfold tw. cbn [andb]. destruct B11 as [j [_ T]]. destruct (xfer_ok s i _ _ j ST T (fun R => B4 R ltac:(congruence))) as [_ X]. cbn zeta in X.
      destruct (bw_xfer s i); [destruct X as [_ X]; destruct (bf_last (bs_f s))|]; [destruct X as [-> _] | destruct X as [-> _] | destruct X as [_ [-> _]]]; reflexivity.
    + rewrite S6 by (auto; discriminate). destruct (bw_rx s i && bi_eop i); reflexivity.
  - exact S5.
  - cbn [bm_need]. destruct (Z.ltb_spec 0 (bm_need m)); [destruct (bw_rx s i); lia|]. destruct (tw && is_write (bi_hdr i)); [|lia]. destruct (beats_rel p OK (bi_hdr i)). lia.
  - cbn [bm_jobs bm_need]. destruct (bf_st (bs_f s)) eqn:ST.
    + destruct B11 as [N0 F]. rewrite N0. cbn [Z.ltb Z.compare andb]. destruct (OUT [] F) as [l1 [F1 O]]. unfold bw_xfer in O. rewrite ST in O. rewrite app_nil_r in O. rewrite O.
      destruct (tw && is_write (bi_hdr i)) eqn:TW.
      * unfold tw in *. apply andb_true_iff in TW. destruct TW as [TW WR]. specialize (A TW WR). apply andb_true_iff in TW. destruct TW as [TR SOP].
        assert (C17 : ocnt (bs_o (bw_next p s i)) <= 17). { assert (R : bf_ready (bs_f s) = true) by (unfold bw_rx in TR; now apply andb_true_iff in TR). specialize (B4 R ltac:(congruence)). unfold bw_xfer in C1. rewrite ST in C1. lia. }
        destruct (take_regs p OK s i ST TR SOP ltac:(now rewrite write_eq) A C17) as [-> [_ [_ [_ [_ [_ T]]]]]]. eexists. split; [|exact T]. apply (feeds_app p l1 _ [] [mkJob (bi_hdr i) [bi_data i] 0] F1).
      * assert (G : bf_st (bs_f (bw_next p s i)) <> BTransfer) by (rewrite S6 by (auto; discriminate); destruct (tw && negb (bi_eop i)); discriminate). destruct (bf_st (bs_f (bw_next p s i))); [auto | congruence | auto].
    + destruct B11 as [j [F T]]. destruct (xfer_ok s i _ _ j ST T (fun R => B4 R ltac:(congruence))) as [X1 X]. cbn zeta in X. destruct (OUT [j] F) as [l1 [F1 O]]. rewrite O.
      assert (JN : (if 0 <? bm_need m then if bw_rx s i then bm_need m - 1 else bm_need m else if tw && is_write (bi_hdr i) then beats_in p (bi_hdr i) - 1 else 0) = (if bw_rx s i then bm_need m - 1 else bm_need m)).
      { unfold tw. cbn [andb]. destruct (bw_rx s i) eqn:E; [specialize (X1 eq_refl)|]; destruct (Z.ltb_spec 0 (bm_need m)); lia. }
      assert (JJ : (if (0 <? bm_need m) && bw_rx s i then add_in (bi_data i) (jobs1 p m (bw_event s i)) else if tw && is_write (bi_hdr i) then jobs1 p m (bw_event s i) ++ [mkJob (bi_hdr i) [bi_data i] 0] else jobs1 p m (bw_event s i)) = (if bw_rx s i then add_in (bi_data i) (jobs1 p m (bw_event s i)) else jobs1 p m (bw_event s i))).
      { unfold tw. cbn [andb]. destruct (bw_rx s i) eqn:E; [specialize (X1 eq_refl); replace (0 <? bm_need m) with true by lia; reflexivity | now rewrite andb_false_r]. }
      rewrite JN, JJ. assert (F2 : feeds p (if bw_rx s i then add_in (bi_data i) (jobs1 p m (bw_event s i)) else jobs1 p m (bw_event s i)) l1 [if bw_rx s i then add1 (bi_data i) j else j]) by (destruct (bw_rx s i); [now apply feeds_add | exact F1]).
      destruct (bw_xfer s i) eqn:XF.
      * destruct X as [BT X]. pose proof (feeds_snoc p _ _ _ _ F2 BT) as F3. destruct (bf_last (bs_f s)).
        -- destruct X as [-> [-> AD]]. rewrite AD in F3. auto.
        -- destruct X as [-> [j' [AD X]]]. rewrite AD in F3. exists j'. split; [exact F3|]. apply X. lia.
      * destruct X as [E [-> X]]. rewrite app_nil_r. rewrite E in *. exists j. split; [exact F2|]. apply X. lia.
    + destruct B11 as [N0 F]. rewrite N0. cbn [Z.ltb Z.compare andb]. unfold tw. cbn [andb]. destruct (OUT [] F) as [l1 [F1 O]]. unfold bw_xfer in O. rewrite ST in O. rewrite app_nil_r in O. rewrite O.
      assert (G : bf_st (bs_f (bw_next p s i)) <> BTransfer) by (rewrite S6 by (auto; discriminate); destruct (bw_rx s i && bi_eop i); discriminate). destruct (bf_st (bs_f (bw_next p s i))); [auto | congruence | auto].
Qed.
Lemma follows_from l : forall m s, binv p m s -> bw_follows p m (bw_trace p s l).
Proof. induction l as [|i r IH]; intros m s B; cbn [bw_trace bw_follows]; [exact I|]. split; [now apply binv_shows|]. intros A. apply IH. now apply binv_step. Qed.
Lemma bw_follows_ok l : bw_follows p bm0 (bw_trace p bw0 l).
Proof. apply follows_from, binv0. Qed.
End P.
