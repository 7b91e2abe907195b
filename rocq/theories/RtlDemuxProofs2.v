(** Proofs about the frame demultiplexers (C87): a data width of 64. *)
From Verif Require Import PyBase BitLemmas RtlDemuxModel RtlDemuxSpec RtlDemuxProofs.

Section demux.
Context {D : Type}.
Notation ev := (dm_ev D).
Notation beat := (@beat D).
Variable n : Z.
Hypothesis Hn : 1 <= n.

(* ---------- data width 64 ---------- *)
(** The beat in the input register, once its frame has begun. *)
Definition waiting (s : dm_state D) : list (Z * (bool * D)) := if dm_tv s && dm_frame s then [(dm_sel s, (dm_tl s, dm_td s))] else [].
Record ninv (tr : list ev) (s : dm_state D) : Prop := {
  n_skid : vinv n (dm_out s);
  n_drop : dm_drop s = false;
  n_idle : dm_frame s = false -> if dm_tv s then dm_tl s = false /\ exists b, snd (cut (taken n tr)) = [b] /\ fst b = (dm_tl s, dm_td s) else snd (cut (taken n tr)) = [];
  n_sel : dm_frame s = true -> 0 <= dm_sel s < n;
  n_dec : dm_frame s = true -> if dm_tv s && dm_tl s then snd (cut (taken n tr)) = [] else decision true (snd (cut (taken n tr))) = Some (dm_sel s);
  n_eq : expected true (taken n tr) = sent n tr ++ vcontent (dm_out s) ++ waiting s;
  n_go : dm_tready s = true -> vk_ready (dm_out s) = true;
  n_rst : Forall (fun e => takes e = false) tr -> dm_tv s = false }.

Definition starts (s : dm_state D) (i : dm_in D) : bool := negb (dm_frame s) && dm_tv s && di_valid i && dm_ready true s i.
Definition passes (s : dm_state D) (i : dm_in D) : bool := dm_tv s && dm_ready true s i && (dm_frame s || di_valid i).
Lemma narrow_next s i q : dm_drop s = false -> (dm_frame s = false -> dm_tv s = true -> dm_tl s = false) -> (starts s i = true -> choice n (dm_event true s i) = Some q) -> di_rst i = false ->
  let rdy := dm_ready true s i in let sc := if starts s i then q else dm_sel s in
  dm_step true n s i = mkDm sc false (if dm_tv s && rdy && dm_tl s then false else dm_frame s || starts s i) (vskid_early (dm_out s) (di_mready i))
    (if rdy && di_valid i then true else dm_tv s && negb (passes s i)) (if rdy && di_valid i then di_last i else dm_tl s) (if rdy && di_valid i then di_data i else dm_td s)
    (vskid_step (dm_out s) false (di_mready i) (Z.shiftl (Z.b2z (passes s i)) sc mod 2 ^ n) (dm_tl s, dm_td s)).
Proof.
  intros H1 H2 H3 H4. cbn zeta. destruct (pick_choice n true s i) as [PK _]. unfold dm_step, dm_ctl, starts, passes in *. rewrite H1, H4. cbn [negb orb].
  destruct (dm_frame s), (dm_tv s), (di_valid i), (dm_ready true s i); cbn [negb andb orb] in *; try (destruct (dm_tl s); cbn [negb andb orb]; rewrite ?orb_false_r; reflexivity).
  rewrite (H2 eq_refl eq_refl). rewrite PK, (H3 eq_refl). cbn [negb andb orb]. rewrite orb_false_r. reflexivity.
Qed.

Lemma sends_one (b : beat) : sends true [b] = [].
Proof. reflexivity. Qed.
Lemma sends_two (a b : beat) q : snd b = Some q -> sends true [a; b] = [(q, fst a); (q, fst b)].
Proof. intros H. unfold sends, decision. cbn. now rewrite H. Qed.

Lemma narrow_step tr s i : ninv tr s -> no_drop n (tr ++ [dm_event true s i]) -> reset_first (tr ++ [dm_event true s i]) -> ninv (tr ++ [dm_event true s i]) (dm_step true n s i).
Proof.
  intros [N1 N2 N3 N4 N5 N6 N7 N8] U1 U2. set (e := dm_event true s i) in *.
  assert (TK : takes e = di_valid i && dm_ready true s i) by reflexivity.
  destruct (di_rst i) eqn:ER.
  - assert (F : Forall (fun e' => takes e' = false) (tr ++ [e])) by (apply (U2 tr e []); [reflexivity|exact ER]).
    apply Forall_app in F. destruct F as [F1 F2]. specialize (N8 F1). inversion F2 as [|? ? F3 _]; subst. rewrite TK in F3.
    assert (S : exists k, dm_step true n s i = mkDm 0 false false false false (dm_tl s) (dm_td s) k /\ vinv n k /\ vcontent k = []).
    { unfold dm_step. destruct (dm_ctl true n s i) as [[[sc dc] fc] [[sn dn] fn]]. rewrite ER, (andb_comm (dm_ready true s i)), F3, N8. cbn [andb]. eexists. split; [reflexivity|]. apply vskid_reset. }
    destruct S as (k & -> & V1 & V2).
    assert (T : taken n (tr ++ [e]) = []) by (rewrite taken_snoc; unfold taken_step; cbn [e dm_event de_rst]; now rewrite ER).
    assert (T2 : sent n (tr ++ [e]) = []) by (rewrite sent_snoc; unfold sent_step; cbn [e dm_event de_rst]; now rewrite ER).
    constructor; rewrite ?T, ?T2; cbn [dm_out dm_frame dm_drop dm_sel dm_tready dm_tv dm_tl dm_td]; try discriminate; auto. rewrite V2. reflexivity.
  - set (acc := taken n tr) in *. set (cur := snd (cut acc)) in *. set (b := (di_last i, di_data i, choice n e) : beat).
    assert (T : taken n (tr ++ [e]) = if takes e then acc ++ [b] else acc) by (rewrite taken_snoc; unfold taken_step; cbn [e dm_event de_rst]; now rewrite ER).
    assert (T2 : sent n (tr ++ [e]) = sent n tr ++ vgiven n (dm_out s) (di_mready i)) by (rewrite sent_snoc; unfold sent_step; cbn [e dm_event de_rst]; rewrite ER; unfold e; now rewrite given_eq).
    destruct (pick_choice n true s i) as [_ PR]. fold e in PR.
    assert (UF : takes e = true -> In (cur ++ [b]) (frames (taken n (tr ++ [e]))) /\ (di_last i = true -> In (cur ++ [b]) (fst (cut (taken n (tr ++ [e])))))).
    { intros H1. unfold frames. rewrite T, H1, cut_snoc. fold cur. cbn [fst b]. destruct (di_last i); cbn [fst snd]; (split; [|intros H]); try discriminate; rewrite ?in_app_iff; cbn; tauto. }
    assert (UL : takes e = true -> (2 <= length (cur ++ [b]))%nat -> decision true (cur ++ [b]) <> None).
    { intros H1. destruct (UF H1) as [F _]. apply (U1 (tr ++ [e]) [] (eq_sym (app_nil_r _)) _ F). }
    assert (US : takes e = true -> cur = [] -> di_last i = false).
    { intros H1 H2. destruct (UF H1) as [F1 F2]. destruct (di_last i) eqn:EL; [|reflexivity]. destruct (U1 (tr ++ [e]) [] (eq_sym (app_nil_r _)) _ F1) as [X _]. specialize (X (F2 eq_refl)). rewrite H2 in X. cbn in X. lia. }
    set (q := match choice n e with Some q => q | None => 0 end).
    assert (CH : starts s i = true -> choice n e = Some q /\ 0 <= q < n).
    { unfold starts. intros H. apply andb_true_iff in H. destruct H as [H H4]. apply andb_true_iff in H. destruct H as [H H3]. apply andb_true_iff in H. destruct H as [H1 H2]. apply negb_true_iff in H1.
      specialize (N3 H1). rewrite H2 in N3. destruct N3 as (_ & b0 & E1 & E2).
      assert (X : choice n e <> None). { rewrite E1 in UL. apply UL; [now rewrite TK, H3, H4|cbn; lia]. }
      unfold q. destruct (choice n e); [split; [reflexivity|now apply PR]|congruence]. }
    assert (NX := narrow_next s i q N2). fold e in NX. rewrite NX; [|intros F1 F2; specialize (N3 F1); rewrite F2 in N3; apply N3|apply CH|assumption]. clear NX. cbn zeta.
    set (sc := if starts s i then q else dm_sel s).
    assert (SC : passes s i = true -> 0 <= sc < n).
    { unfold passes, sc. destruct (starts s i) eqn:ES; [intros _; now apply CH|]. unfold starts in ES. destruct (dm_frame s); [intros _; now apply N4|]. destruct (dm_tv s), (di_valid i), (dm_ready true s i); discriminate. }
    destruct (shl_port n Hn (passes s i) sc SC) as (Q1 & Q2 & Q3).
    assert (GO : passes s i = true -> vk_ready (dm_out s) = true).
    { unfold passes, dm_ready. intros H. apply N7. destruct (dm_tv s), (dm_tready s); cbn in *; congruence. }
    destruct (vskid_ok n (dm_out s) (di_mready i) (Z.shiftl (Z.b2z (passes s i)) sc mod 2 ^ n) (dm_tl s, dm_td s) N1 Q1) as (K1 & K2 & K3 & K4).
    { intros H. apply GO. destruct (passes s i); [reflexivity|]. now rewrite Q3 in H. }
    set (k' := vskid_step (dm_out s) false (di_mready i) (Z.shiftl (Z.b2z (passes s i)) sc mod 2 ^ n) (dm_tl s, dm_td s)) in *.
    assert (IT : item (Z.shiftl (Z.b2z (passes s i)) sc mod 2 ^ n) (dm_tl s, dm_td s) = if passes s i then [(sc, (dm_tl s, dm_td s))] else []).
    { destruct (passes s i); [rewrite Q2, item_pow by (reflexivity || now apply SC); reflexivity|now rewrite Q3]. }
    rewrite IT in K2. clear IT Q1 Q2 Q3.
    assert (CUT : snd (cut (taken n (tr ++ [e]))) = if takes e then if di_last i then [] else cur ++ [b] else cur).
    { rewrite T. destruct (takes e); [|reflexivity]. rewrite cut_snoc. cbn [fst b]. destruct (di_last i); reflexivity. }
    assert (EX : expected true (taken n (tr ++ [e])) = if takes e then flat_map (sends true) (fst (cut acc)) ++ sends true (cur ++ [b]) else flat_map (sends true) (fst (cut acc)) ++ sends true cur).
    { rewrite T. destruct (takes e); [apply expected_snoc|apply expected_eq]. }
    assert (E0 : expected true acc = flat_map (sends true) (fst (cut acc)) ++ sends true cur) by apply expected_eq.
    assert (R8 : Forall (fun e' => takes e' = false) (tr ++ [e]) -> takes e = false /\ dm_tv s = false).
    { intros F. apply Forall_app in F. destruct F as [F1 F2]. inversion F2; subst. auto. }
    assert (FIN : forall w w' x y, expected true acc = sent n tr ++ vcontent (dm_out s) ++ w -> x = expected true acc ++ y -> w ++ y = (if passes s i then [(sc, (dm_tl s, dm_td s))] else []) ++ w' -> x = sent n (tr ++ [e]) ++ vcontent k' ++ w').
    { intros w w' x y W1 -> W2. rewrite W1, T2, <- !app_assoc, W2. f_equal. rewrite !app_assoc, K2. reflexivity. }
    constructor; cbn [dm_out dm_frame dm_drop dm_sel dm_tready dm_tv dm_tl dm_td]; rewrite ?CUT.
    + assumption.
    + reflexivity.
    + unfold starts, passes. rewrite TK. destruct (dm_frame s) eqn:EF; cbn [negb andb orb].
      * destruct (dm_tv s) eqn:EV, (dm_ready true s i), (dm_tl s) eqn:EL; cbn [andb negb]; try discriminate. intros _. specialize (N5 eq_refl). cbn [andb] in N5. destruct (di_valid i) eqn:EI; cbn [andb negb]; [|assumption].
        assert (L : di_last i = false) by (apply US; [now rewrite TK|assumption]). rewrite L, N5. split; [reflexivity|]. exists b. split; [reflexivity|]. unfold b. now rewrite L.
      * specialize (N3 eq_refl). destruct (dm_tv s) eqn:EV.
        -- destruct N3 as [L (b0 & B1 & B2)]. rewrite L. rewrite andb_false_r. destruct (di_valid i), (dm_ready true s i); cbn [andb negb]; try discriminate; intros _; (split; [reflexivity|]); exists b0; now rewrite B2, L.
        -- cbn [andb]. destruct (di_valid i) eqn:EI, (dm_ready true s i) eqn:EY; cbn [andb negb]; intros _; try assumption.
           assert (L : di_last i = false) by (apply US; [now rewrite TK|assumption]). rewrite L, N3. split; [reflexivity|]. exists b. split; [reflexivity|]. unfold b. now rewrite L.
    + unfold sc. destruct (starts s i) eqn:ES; [intros _; now apply CH|]. rewrite orb_false_r. destruct (dm_tv s && _ && _); [discriminate|assumption].
    + unfold sc, starts in *. rewrite TK. destruct (dm_frame s) eqn:EF; cbn [negb andb orb] in *.
      * specialize (N5 eq_refl). unfold passes. rewrite EF. destruct (dm_tv s) eqn:EV, (dm_ready true s i), (dm_tl s) eqn:EL; cbn [andb orb negb] in *; try discriminate; intros _; destruct (di_valid i); cbn [andb]; try assumption;
          try (destruct (di_last i); [reflexivity|now apply decision_app]).
      * specialize (N3 eq_refl). destruct (dm_tv s) eqn:EV; [|cbn [andb]; destruct (dm_ready true s i); discriminate]. destruct N3 as [L (b0 & B1 & B2)]. rewrite L. rewrite andb_false_r. cbn [andb] in *.
        destruct (di_valid i), (dm_ready true s i); cbn [andb] in *; try discriminate. intros _. destruct (di_last i); [reflexivity|]. rewrite B1. cbn. now apply CH.
    + rewrite EX. unfold waiting in N6 |- *. cbn [dm_out dm_frame dm_drop dm_sel dm_tready dm_tv dm_tl dm_td].
      destruct (dm_frame s) eqn:EF.
      * specialize (N5 eq_refl). assert (ES : starts s i = false) by (unfold starts; now rewrite EF). rewrite ES. unfold sc in *. rewrite ES in *. clear CH. destruct (takes e) eqn:ET.
        -- symmetry in TK. pose proof TK as TK'. apply andb_true_iff in TK'. destruct TK' as [I1 I2]. unfold passes in *. rewrite I1, I2, EF in *. rewrite !andb_true_r in *. cbn [andb orb] in *.
           destruct (dm_tv s) eqn:EV; cbn [andb] in *.
           ++ destruct (dm_tl s) eqn:EL.
              ** rewrite N5 in *. rewrite sends_nil in E0. apply (FIN [(dm_sel s, (true, dm_td s))] _ _ []); [assumption| |reflexivity]. rewrite E0. cbn [app]. rewrite sends_one. now rewrite !app_nil_r.
              ** apply (FIN [(dm_sel s, (false, dm_td s))] _ _ [(dm_sel s, fst b)]); [assumption| |reflexivity]. rewrite E0, (sends_more _ _ _ _ N5), app_assoc. reflexivity.
           ++ apply (FIN [] _ _ [(dm_sel s, fst b)]); [assumption| |reflexivity]. rewrite E0, (sends_more _ _ _ _ N5), app_assoc. reflexivity.
        -- symmetry in TK. rewrite andb_comm in TK. rewrite TK. rewrite <- E0. apply (FIN _ _ _ [] N6); [now rewrite app_nil_r|]. unfold passes. rewrite EF, app_nil_r. destruct (dm_tv s), (dm_ready true s i), (dm_tl s); cbn [andb orb negb]; reflexivity.
      * specialize (N3 eq_refl). destruct (starts s i) eqn:ES.
        -- assert (P : passes s i = true) by (unfold starts, passes in *; rewrite EF in *; destruct (dm_tv s), (di_valid i), (dm_ready true s i); try discriminate; reflexivity).
           destruct (CH eq_refl) as [CQ _]. unfold starts in ES. rewrite EF in ES. cbn [negb andb] in ES. destruct (dm_tv s) eqn:EV; [|discriminate]. cbn [andb] in ES. rewrite TK, ES, (andb_comm (dm_ready true s i)), ES. destruct N3 as (L & b0 & B1 & B2).
           rewrite B1 in *. rewrite andb_false_r in N6. rewrite L, !andb_false_r. cbn [orb andb app].
           apply (FIN [] _ _ [(q, fst b0); (q, fst b)]); [assumption| |].
           ++ rewrite (sends_two b0 b q CQ), E0, sends_one, app_nil_r. reflexivity.
           ++ rewrite P. unfold sc. cbn [app]. rewrite B2, L. reflexivity.
        -- assert (P : passes s i = false) by (unfold starts, passes in *; rewrite EF in *; destruct (dm_tv s), (di_valid i), (dm_ready true s i); try discriminate; reflexivity). rewrite orb_false_r.
           assert (W : forall x y z : bool, (if x && (if z then false else false) then [(sc, y)] else []) = @nil (Z * bool)) by (intros [] ? []; reflexivity).
           replace (if dm_tv s && dm_ready true s i && dm_tl s then false else false) with false by (destruct (dm_tv s && dm_ready true s i && dm_tl s); reflexivity). rewrite !andb_false_r in *.
           apply (FIN [] _ _ []); [assumption| |rewrite P; reflexivity]. rewrite app_nil_r, TK. destruct (di_valid i && dm_ready true s i) eqn:ET; [|now rewrite E0].
           unfold starts in ES. rewrite EF in ES. cbn [negb andb] in ES. destruct (dm_tv s); [cbn [andb] in ES; congruence|]. rewrite N3 in *. rewrite E0. reflexivity.
    + rewrite K3. auto.
    + intros F. destruct (R8 F) as [F1 F2]. rewrite andb_comm, <- TK, F1, F2. reflexivity.
Qed.
End demux.
