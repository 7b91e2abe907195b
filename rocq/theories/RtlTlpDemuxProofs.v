(** Lemmas on the TLP demultiplexer (C91). *)
From Verif Require Import PyBase RtlModel RtlProofs RtlFcProofs RtlRamModel RtlRamProofs RtlDemuxModel RtlDemuxProofs RtlTlpDemuxModel RtlTlpDemuxSpec RtlRamDemuxSpec RtlRamDemuxProofs RtlRamDemuxProofs3.
From Coq Require Import Lia.

Lemma upto_zseq : forall n, upto n = zseq n.
Proof. reflexivity. Qed.
Lemma upto_S : forall n : nat, upto (Z.of_nat (S n)) = upto (Z.of_nat n) ++ [Z.of_nat n].
Proof. intros n. unfold upto. rewrite !Nat2Z.id, seq_S, map_app. reflexivity. Qed.

(** Block arithmetic. *)
Lemma block_eq : forall w q g q' g', 0 <= g < w -> 0 <= g' < w -> w * q + g = w * q' + g' -> q = q' /\ g = g'.
Proof. intros w q g q' g' H H' E. assert (q = q') by nia. split; [assumption|]. subst. lia. Qed.

Section demux.
Context {D : Type}.
Variable p : td_param.
Hypothesis OKP : td_ok p.
Notation w := (tp_segs p).
Notation n := (tp_ports p).

Lemma clear_bit : forall v ready q g, 0 <= q < n -> 0 <= g < w -> Z.testbit (td_clear p v ready) (w * q + g) = Z.testbit v (w * q + g) && negb (Z.testbit ready q).
Proof.
  intros v ready q g Hq Hg. unfold td_clear. fold (upto n).
  assert (G : forall l v, (forall x, In x l -> 0 <= x) -> NoDup l -> Z.testbit (fold_left (fun v q => if bsel ready q =? 1 then Z.ldiff v (Z.shiftl (Z.ones w) (w * q)) else v) l v) (w * q + g) =
    Z.testbit v (w * q + g) && negb (existsb (Z.eqb q) l && Z.testbit ready q)).
  { induction l as [|x l IH]; intros u P N; [cbn; now rewrite andb_true_r|]. cbn [fold_left existsb]. inversion N as [|? ? N1 N2]; subst. rewrite IH; [|intros; apply P; now right|assumption].
    rewrite bsel_testbit by (apply P; now left). destruct (q =? x) eqn:E.
    - apply Z.eqb_eq in E. subst x. cbn [orb andb].
      assert (X : existsb (Z.eqb q) l = false). { destruct (existsb (Z.eqb q) l) eqn:X; [|reflexivity]. apply existsb_exists in X. destruct X as (y & Y1 & Y2). apply Z.eqb_eq in Y2. now subst. }
      rewrite X. cbn. destruct (Z.testbit ready q); cbn [negb]; [|reflexivity]. change (1 =? 1) with true. cbn iota.
      rewrite Z.ldiff_spec, Z.shiftl_spec by nia. replace (w * q + g - w * q) with g by lia. rewrite Z.ones_spec_low by lia. cbn. now rewrite andb_false_r.
    - cbn [orb]. apply Z.eqb_neq in E. destruct (Z.testbit ready x); cbn iota; [|reflexivity]. change (1 =? 1) with true. cbn iota.
      rewrite Z.ldiff_spec, Z.shiftl_spec by nia.
      assert (X : Z.testbit (Z.ones w) (w * q + g - w * x) = false).
      { assert (0 <= x) by (apply P; now left). assert (C : w * q + g - w * x < 0 \/ w <= w * q + g - w * x) by nia. destruct C; [now apply Z.testbit_neg_r|]. apply Z.ones_spec_high. destruct OKP. lia. }
      rewrite X. cbn. now rewrite andb_true_r. }
  rewrite G.
  - replace (existsb (Z.eqb q) (upto n)) with true; [reflexivity|]. symmetry. apply existsb_exists. exists q. split; [now apply zseq_in|apply Z.eqb_refl].
  - intros x X. apply zseq_in in X. lia.
  - apply zseq_nodup.
Qed.
Lemma clear_sub : forall v ready j, Z.testbit (td_clear p v ready) j = true -> Z.testbit v j = true.
Proof.
  intros v ready j. unfold td_clear. generalize (map Z.of_nat (seq 0 (Z.to_nat n))). intros l. revert v. induction l as [|x l IH]; intros v H; [exact H|]. cbn [fold_left] in H.
  apply IH in H. destruct (bsel ready x =? 1); [|exact H]. rewrite Z.ldiff_spec in H. now apply andb_true_iff in H.
Qed.

(** The start of a packet. *)
Lemma pick_eq : forall (i : td_in D) g, 0 <= g < w -> td_pick p i g =
  match choice p i g with Some q => (q, false) | None => (fst (td_pick p i g), true) end.
Proof.
  intros i g Hg. unfold td_pick, choice. fold (upto n).
  assert (G : forall l, (forall x, In x l -> 0 <= x) -> fold_left (fun '(sel, drop) q => if bsel (tdi_select i) (w * q + g) =? 1 then (q, false) else (sel, drop)) l (0, true) =
    match last (map Some (filter (fun q => Z.testbit (tdi_select i) (w * q + g)) l)) None with Some q => (q, false) | None => (0, true) end).
  { induction l as [|x l IH] using rev_ind; intros P; [reflexivity|]. rewrite fold_left_app, filter_app, map_app, IH by (intros; apply P, in_or_app; now left). cbn [fold_left filter].
    assert (X : 0 <= x) by (apply P, in_or_app; right; now left).
    set (L := last (map Some (filter _ l)) None). replace (last (map Some (filter (fun q => Z.testbit (tdi_select i) (w * q + g)) l) ++ _) None) with (if Z.testbit (tdi_select i) (w * x + g) then Some x else L).
    2: { destruct (Z.testbit (tdi_select i) (w * x + g)); cbn [map]; [now rewrite last_last | now rewrite app_nil_r]. }
    destruct L as [y|]; rewrite bsel_testbit by nia; destruct (Z.testbit (tdi_select i) (w * x + g)); reflexivity. }
  rewrite G by (intros x X; apply zseq_in in X; lia). rewrite bsel_testbit by lia.
  destruct (last (map Some (filter (fun q => Z.testbit (tdi_select i) (w * q + g)) (upto n))) None) eqn:E; cbn [fst]; destruct (Z.testbit (tdi_drop i) g); reflexivity.
Qed.
Lemma choice_range : forall (i : td_in D) g q, choice p i g = Some q -> 0 <= q < n.
Proof.
  intros i g q H. unfold choice in H. destruct (Z.testbit (tdi_drop i) g); [discriminate|].
  set (l := filter (fun q => Z.testbit (tdi_select i) (w * q + g)) (upto n)) in *.
  assert (I : In q l). { destruct l as [|a l'] using rev_ind; [discriminate|]. rewrite map_app in H. cbn in H. rewrite last_last in H. injection H as ->. apply in_or_app. right. now left. }
  apply filter_In in I. destruct I as [I _]. now apply zseq_in in I.
Qed.

Definition dst (sel : Z) (drop frame : bool) : option Z := if frame && negb drop then Some sel else None.
Definition segs_of (i : td_in D) (k : Z) : list (@segment D * option Z) :=
  map (fun g => ((Z.testbit (tdi_sop i) g, Z.testbit (tdi_eop i) g, tdi_data i g), choice p i g)) (filter (fun g => Z.testbit (tdi_valid i) g) (upto k)).
Definition held (v sop eop : Z) (data : Z -> D) (q k : Z) : list (@segment D) :=
  map (fun g => (Z.testbit sop g, Z.testbit eop g, data g)) (filter (fun g => Z.testbit v (w * q + g)) (upto k)).

(** Where the packet under way goes, after a list of segments. *)
Fixpoint under_way (c : option Z) (l : list (@segment D * option Z)) : option Z :=
  match l with [] => c | x :: r => under_way (if is_eop x then None else if is_sop x then snd x else c) r end.
Lemma to_port_app : forall q l c m, to_port q c (l ++ m) = to_port q c l ++ to_port q (under_way c l) m.
Proof. induction l as [|x l IH]; intros c m; [reflexivity|]. cbn [app to_port under_way]. cbn zeta. now rewrite IH, app_assoc. Qed.
Lemma under_way_app : forall l c m, under_way c (l ++ m) = under_way (under_way c l) m.
Proof. induction l as [|x l IH]; intros c m; [reflexivity|]. apply IH. Qed.

Lemma held_ext : forall v v' sop eop data q k, (forall g, 0 <= g < k -> Z.testbit v (w * q + g) = Z.testbit v' (w * q + g)) -> held v sop eop data q k = held v' sop eop data q k.
Proof. intros v v' sop eop data q k H. unfold held. f_equal. apply filter_ext_in. intros g G. apply zseq_in in G. now apply H. Qed.

Lemma seg_eq : forall (i : td_in D) sel drop frame v g, 0 <= g < w -> td_seg p i (sel, drop, frame, v) g =
  if Z.testbit (tdi_valid i) g then
    let '(sel', drop', frame') := if Z.testbit (tdi_sop i) g then (td_pick p i g, true) else (sel, drop, frame) in
    let v' := match dst sel' drop' frame' with Some q => Z.setbit v (w * q + g) | None => v end in
    if Z.testbit (tdi_eop i) g then (sel', false, false, v') else (sel', drop', frame', v')
  else (sel, drop, frame, v).
Proof.
  intros i sel drop frame v g Hg. unfold td_seg. rewrite !bsel_testbit by lia. destruct (Z.testbit (tdi_valid i) g); [|reflexivity]. change (1 =? 1) with true. cbn iota.
  destruct (Z.testbit (tdi_sop i) g); [change (1 =? 1) with true | change (0 =? 1) with false]; cbn iota; unfold dst.
  - destruct (td_pick p i g) as [s d]. destruct d; destruct (Z.testbit (tdi_eop i) g); reflexivity.
  - destruct (frame && negb drop); destruct (Z.testbit (tdi_eop i) g); reflexivity.
Qed.

(** The loop over the segments of a beat. *)
Lemma loop_ok : forall (i : td_in D) (k : nat) sel drop frame v, Z.of_nat k <= w -> (forall q, dst sel drop frame = Some q -> 0 <= q < n) ->
  (forall q g, 0 <= q < n -> 0 <= g < w -> Z.testbit v (w * q + g) = false) -> (forall j, Z.testbit v j = true -> 0 <= j < w * n) ->
  let '(sel', drop', frame', v') := fold_left (td_seg p i) (upto (Z.of_nat k)) (sel, drop, frame, v) in
  dst sel' drop' frame' = under_way (dst sel drop frame) (segs_of i (Z.of_nat k)) /\
  (forall q, dst sel' drop' frame' = Some q -> 0 <= q < n) /\
  (forall q g, 0 <= q < n -> Z.of_nat k <= g < w -> Z.testbit v' (w * q + g) = false) /\
  (forall j, Z.testbit v' j = true -> 0 <= j < w * n) /\
  forall q, 0 <= q < n -> held v' (tdi_sop i) (tdi_eop i) (tdi_data i) q (Z.of_nat k) = to_port q (dst sel drop frame) (segs_of i (Z.of_nat k)).
Proof.
  intros i k sel drop frame v K HD HV HR. induction k as [|k IH].
  - cbn [Z.of_nat upto Z.to_nat seq map fold_left]. split; [reflexivity|split; [exact HD|split; [|split; [exact HR|reflexivity]]]]. intros q g Q G. apply HV; lia.
  - specialize (IH ltac:(lia)). rewrite upto_S, fold_left_app. cbn [fold_left].
    destruct (fold_left (td_seg p i) (upto (Z.of_nat k)) (sel, drop, frame, v)) as [[[sel1 drop1] frame1] v1]. destruct IH as (I1 & I2 & I3 & I4 & I5).
    rewrite seg_eq by lia.
    assert (SE : segs_of i (Z.of_nat (S k)) = segs_of i (Z.of_nat k) ++ if Z.testbit (tdi_valid i) (Z.of_nat k)
      then [((Z.testbit (tdi_sop i) (Z.of_nat k), Z.testbit (tdi_eop i) (Z.of_nat k), tdi_data i (Z.of_nat k)), choice p i (Z.of_nat k))] else []).
    { unfold segs_of. rewrite upto_S, filter_app, map_app. f_equal. cbn [filter]. destruct (Z.testbit (tdi_valid i) (Z.of_nat k)); reflexivity. }
    assert (HE : forall v' q, held v' (tdi_sop i) (tdi_eop i) (tdi_data i) q (Z.of_nat (S k)) = held v' (tdi_sop i) (tdi_eop i) (tdi_data i) q (Z.of_nat k) ++
      if Z.testbit v' (w * q + Z.of_nat k) then [(Z.testbit (tdi_sop i) (Z.of_nat k), Z.testbit (tdi_eop i) (Z.of_nat k), tdi_data i (Z.of_nat k))] else []).
    { intros v' q. unfold held. rewrite upto_S, filter_app, map_app. f_equal. cbn [filter]. destruct (Z.testbit v' (w * q + Z.of_nat k)); reflexivity. }
    rewrite SE. set (g := Z.of_nat k) in *. destruct (Z.testbit (tdi_valid i) g) eqn:V.
    + (* the new destination *)
      set (trip := if Z.testbit (tdi_sop i) g then (td_pick p i g, true) else (sel1, drop1, frame1)). 
      assert (T : exists s d f, trip = (s, d, f) /\ dst s d f = if Z.testbit (tdi_sop i) g then choice p i g else dst sel1 drop1 frame1).
      { unfold trip. destruct (Z.testbit (tdi_sop i) g); [|now exists sel1, drop1, frame1]. rewrite pick_eq by (unfold g; lia).
        destruct (choice p i g) as [q|]; [now exists q, false, true | now exists (fst (td_pick p i g)), true, true]. }
      destruct T as (s & d & f & T1 & T2). rewrite T1. cbn zeta beta iota.
      assert (R : forall q, dst s d f = Some q -> 0 <= q < n). { intros q. rewrite T2. destruct (Z.testbit (tdi_sop i) g); [apply choice_range | apply I2]. }
      set (v2 := match dst s d f with Some q => Z.setbit v1 (w * q + g) | None => v1 end).
      assert (B : forall j, 0 <= j -> Z.testbit v2 j = Z.testbit v1 j || match dst s d f with Some q => j =? w * q + g | None => false end).
      { intros j J. unfold v2. destruct (dst s d f) as [q|] eqn:E; [|now rewrite orb_false_r]. rewrite Z.setbit_eqb by (specialize (R q eq_refl); unfold g; nia). rewrite orb_comm, Z.eqb_sym. reflexivity. }
      assert (B' : forall q g', 0 <= q < n -> 0 <= g' < w -> Z.testbit v2 (w * q + g') = Z.testbit v1 (w * q + g') || match dst s d f with Some q' => (q' =? q) && (g' =? g) | None => false end).
      { intros q g' Q G'. rewrite B by nia. f_equal. destruct (dst s d f) as [q'|] eqn:E; [|reflexivity]. destruct (w * q + g' =? w * q' + g) eqn:X.
        - apply Z.eqb_eq in X. apply block_eq in X; [|assumption|unfold g; lia]. destruct X as [-> ->]. now rewrite !Z.eqb_refl.
        - symmetry. apply andb_false_iff. apply Z.eqb_neq in X. destruct (Z.eq_dec q' q) as [->|]; [right; apply Z.eqb_neq; intro; subst; auto|left; now apply Z.eqb_neq]. }
      match goal with |- context [fold_left _ _ _] => fail 1 | _ => idtac end.
      assert (GO : forall s' d' f', dst s' d' f' = (if Z.testbit (tdi_eop i) g then None else dst s d f) ->
        dst s' d' f' = under_way (dst sel drop frame) (segs_of i g ++ [((Z.testbit (tdi_sop i) g, Z.testbit (tdi_eop i) g, tdi_data i g), choice p i g)]) /\
        (forall q, dst s' d' f' = Some q -> 0 <= q < n) /\
        (forall q g', 0 <= q < n -> Z.of_nat (S k) <= g' < w -> Z.testbit v2 (w * q + g') = false) /\
        (forall j, Z.testbit v2 j = true -> 0 <= j < w * n) /\
        forall q, 0 <= q < n -> held v2 (tdi_sop i) (tdi_eop i) (tdi_data i) q (Z.of_nat (S k)) =
          to_port q (dst sel drop frame) (segs_of i g ++ [((Z.testbit (tdi_sop i) g, Z.testbit (tdi_eop i) g, tdi_data i g), choice p i g)])).
      { intros s' d' f' E'. split; [|split; [|split; [|split]]].
        - rewrite E', under_way_app, <- I1. cbn [under_way is_eop is_sop fst snd]. rewrite T2. reflexivity.
        - intros q H. rewrite E' in H. destruct (Z.testbit (tdi_eop i) g); [discriminate|]. now apply R in H.
        - intros q g' Q G'. rewrite B' by (assumption || lia). rewrite I3 by (assumption || unfold g; lia). cbn [orb]. destruct (dst s d f); [|reflexivity].
          replace (g' =? g) with false by (symmetry; apply Z.eqb_neq; unfold g; lia). apply andb_false_r.
        - intros j H. destruct (Z_lt_le_dec j 0); [rewrite Z.testbit_neg_r in H by assumption; discriminate|]. rewrite B in H by assumption. apply orb_prop in H. destruct H as [H|H]; [apply I4 in H; lia|].
          destruct (dst s d f) as [q|] eqn:E; [|discriminate]. apply Z.eqb_eq in H. specialize (R q eq_refl). subst j. unfold g. nia.
        - intros q Q. rewrite HE, to_port_app, <- I5, <- I1 by assumption. f_equal.
          + apply held_ext. intros g' G'. rewrite B' by (assumption || unfold g in *; lia). replace (g' =? g) with false by (symmetry; apply Z.eqb_neq; lia). destruct (dst s d f); rewrite ?andb_false_r; apply orb_false_r.
          + rewrite B' by (assumption || unfold g; lia). rewrite I3 by (assumption || unfold g; lia). cbn [orb to_port is_sop is_eop fst snd]. cbn zeta. rewrite app_nil_r, <- T2.
            destruct (dst s d f) as [q'|]; [|reflexivity]. rewrite Z.eqb_refl, andb_true_r. destruct (q' =? q); reflexivity. }
      destruct (Z.testbit (tdi_eop i) g); apply GO; reflexivity.
    + rewrite app_nil_r. split; [exact I1|split; [exact I2|split; [|split; [exact I4|]]]].
      * intros q g' Q G'. apply I3; [assumption|unfold g; lia].
      * intros q Q. rewrite HE, I3 by (assumption || unfold g; lia). rewrite app_nil_r. now apply I5.
Qed.
End demux.
