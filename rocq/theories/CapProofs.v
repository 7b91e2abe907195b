(** Proofs about capability lists (C16-C18). *)
From Coq Require Import ZifyBool ZifyNat Sorting.Sorted.
From Verif Require Import PyBase BitLemmas TlpModel CapModel CapSpec.
Ltac Zify.zify_post_hook ::= Z.div_mod_to_equations.

Definition same_place (c d : cap) : Prop := c_off c = c_off d /\ c_length c = c_length d /\ c_id c = c_id d.
Definition placed (c : cap) : Prop := 1 <= c_length c /\ exists o, c_offset c = Some o.
Definition R (c d : cap) : Prop := forall r, occupies c r -> occupies d r ->
    (r = c_off c + c_length c - 1 /\ r = c_off d) \/ (r = c_off d + c_length d - 1 /\ r = c_off c).
Lemma R_sym c d : R c d -> R d c.
Proof. intros H r A B. destruct (H r B A); auto. Qed.
Definition le_off (c d : cap) : Prop := c_off c <= c_off d.

Definition inv (l : list cap) : Prop := Forall placed l /\ StronglySorted le_off l /\ ForallOrdPairs R l.

Lemma FOP_insert n l : ForallOrdPairs R l -> Forall (R n) l -> ForallOrdPairs R (insert_cap n l).
Proof.
  induction l as [|c l IH]; intros HF HN; cbn [insert_cap].
  - constructor; constructor.
  - inversion HF; subst. inversion HN; subst. destruct (c_off c <=? c_off n).
    + constructor; auto. rewrite Forall_forall in *. intros x Hx.
      assert (In x (n :: l)).
      { clear -Hx. induction l as [|d l IH]; cbn in *; [tauto|]. destruct (c_off d <=? c_off n); cbn in *; tauto. }
      cbn in H. destruct H as [<-|H]; [now apply R_sym|auto].
    + constructor; [assumption|]. constructor; auto.
Qed.

Lemma In_insert n l x : In x (insert_cap n l) <-> In x (n :: l).
Proof. induction l as [|d l IH]; cbn [insert_cap]; [tauto|]. destruct (c_off d <=? c_off n); cbn in *; tauto. Qed.
Lemma Forall_insert (P : cap -> Prop) n l : P n -> Forall P l -> Forall P (insert_cap n l).
Proof. rewrite !Forall_forall. intros Hn H x Hx. apply In_insert in Hx. destruct Hx as [<-|Hx]; auto. Qed.

Lemma sorted_insert n l : StronglySorted le_off l -> StronglySorted le_off (insert_cap n l).
Proof.
  induction 1 as [|c l HS IH HF]; cbn [insert_cap]; [repeat constructor|].
  destruct (Z.leb_spec (c_off c) (c_off n)).
  - constructor; auto. apply Forall_insert; auto.
  - constructor; [constructor; auto|]. constructor; [unfold le_off; lia|].
    rewrite Forall_forall in *. intros x Hx. specialize (HF x Hx). unfold le_off in *. lia.
Qed.

Lemma FOP_filter (P : cap -> cap -> Prop) f (l : list cap) : ForallOrdPairs P l -> ForallOrdPairs P (filter f l).
Proof.
  induction 1 as [|c l HF H IH]; cbn [filter]; [constructor|]. destruct (f c); auto. constructor; auto.
  rewrite Forall_forall in *. intros x Hx. apply filter_In in Hx. apply HF. tauto.
Qed.
Lemma SS_filter f l : StronglySorted le_off l -> StronglySorted le_off (filter f l).
Proof.
  induction 1 as [|c l HS IH HF]; cbn [filter]; [constructor|]. destruct (f c); auto. constructor; auto.
  rewrite Forall_forall in *. intros x Hx. apply filter_In in Hx. apply HF. tauto.
Qed.
Lemma Forall_filter' (P : cap -> Prop) f (l : list cap) : Forall P l -> Forall P (filter f l).
Proof. rewrite !Forall_forall. intros H x Hx. apply filter_In in Hx. apply H. tauto. Qed.

Lemma inv_filter f l : inv l -> inv (filter f l).
Proof. intros (A & B & C). split; [now apply Forall_filter'|]. split; [now apply SS_filter|now apply FOP_filter]. Qed.

Lemma remove_sub l id x : In x (remove_id l id) -> In x l.
Proof. induction l as [|c l IH]; cbn; [tauto|]. destruct (c_id c =? id); cbn; tauto. Qed.
Lemma inv_remove id l : inv l -> inv (remove_id l id).
Proof.
  intros (A & B & C). repeat split.
  - rewrite Forall_forall in *. intros x Hx. apply A. eapply remove_sub; eauto.
  - clear A C. induction B as [|c l HS IH HF]; cbn; [constructor|]. destruct (c_id c =? id); auto. constructor; auto.
    rewrite Forall_forall in *. intros x Hx. apply HF. eapply remove_sub; eauto.
  - clear A B. induction C as [|c l HF C IH]; cbn; [constructor|]. destruct (c_id c =? id); auto. constructor; auto.
    rewrite Forall_forall in *. intros x Hx. apply HF. eapply remove_sub; eauto.
Qed.

Lemma link_from_same l : Forall2 same_place (link_from l) l /\ Forall2 (fun a b => c_offset a = c_offset b) (link_from l) l.
Proof. induction l as [|c l (IH & IH2)]; cbn [link_from]; split; constructor; auto. repeat split. Qed.
Lemma link_same l : Forall2 same_place (link_caps l) l /\ Forall2 (fun a b => c_offset a = c_offset b) (link_caps l) l.
Proof.
  destruct l as [|c [|d l]]; [split; constructor| |apply link_from_same].
  split; constructor; try constructor; repeat split.
Qed.

Lemma Forall2_In_l {A B} (P : A -> B -> Prop) l1 l2 x : Forall2 P l1 l2 -> In x l1 -> exists y, In y l2 /\ P x y.
Proof. induction 1; cbn; [tauto|]. intros [<-|Hx]; [eauto|]. destruct (IHForall2 Hx) as (z & ? & ?). eauto. Qed.
Lemma Forall2_and {A B} (P Q : A -> B -> Prop) l1 l2 : Forall2 P l1 l2 -> Forall2 Q l1 l2 -> Forall2 (fun a b => P a b /\ Q a b) l1 l2.
Proof. induction 1; intros HQ; inversion HQ; subst; constructor; auto. Qed.

Lemma inv_same l l' : Forall2 same_place l' l -> Forall2 (fun a b => c_offset a = c_offset b) l' l -> inv l -> inv l'.
Proof.
  intros H1 H2 (A & B & C). pose proof (Forall2_and _ _ _ _ H1 H2) as H. clear H1 H2. repeat split.
  - rewrite Forall_forall in *. intros x Hx. destruct (Forall2_In_l _ _ _ _ H Hx) as (y & Hy & (S1 & S2 & S3) & S4).
    destruct (A y Hy) as (P1 & o & P2). split; [lia|]. exists o. congruence.
  - clear A C. revert B. induction H as [|x y l' l ((S1 & S2 & S3) & S4) H IH]; intros B; [constructor|]. inversion B; subst. constructor; auto.
    rewrite Forall_forall in *. intros z Hz. destruct (Forall2_In_l _ _ _ _ H Hz) as (w & Hw & (T1 & T2 & T3) & T4).
    unfold le_off in *. specialize (H3 w Hw). lia.
  - clear A B. revert C. induction H as [|x y l' l ((S1 & S2 & S3) & S4) H IH]; intros C; [constructor|]. inversion C; subst. constructor; auto.
    rewrite Forall_forall in *. intros z Hz. destruct (Forall2_In_l _ _ _ _ H Hz) as (w & Hw & (T1 & T2 & T3) & T4).
    specialize (H2 w Hw). unfold R, occupies in *. intros r. rewrite S1, S2, T1, T2. apply H2.
Qed.
Lemma inv_link l : inv l -> inv (link_caps l).
Proof. apply inv_same; apply link_same. Qed.

(** The scan lands clear of every capability, up to the off-by-one. *)
Lemma auto_scan_stop off len l : (forall c, In c l -> off + len - 1 <= c_off c) -> auto_scan off len l = off.
Proof.
  induction l as [|c l IH]; intros H; cbn [auto_scan]; [reflexivity|].
  replace (c_off c <? off + len - 1) with false by (specialize (H c (or_introl eq_refl)); lia). cbn [andb].
  apply IH. intros d Hd. apply H. now right.
Qed.

Lemma auto_scan_ge l : forall off len, Forall placed l -> off <= auto_scan off len l.
Proof.
  induction l as [|c l IH]; intros off len HP; cbn [auto_scan]; [lia|]. inversion HP as [|? ? (H1 & _) HP']; subst.
  destruct ((c_off c <? off + len - 1) && (off <=? c_off c + c_length c - 1)) eqn:E; [|apply IH; assumption].
  specialize (IH (c_off c + c_length c) len HP'). lia.
Qed.

Lemma auto_scan_spec l : forall off len, Forall placed l -> StronglySorted le_off l -> forall c, In c l ->
  c_off c + c_length c <= auto_scan off len l \/ auto_scan off len l + len - 1 <= c_off c.
Proof.
  induction l as [|d l IH]; intros off len HP HS c Hc; [destruct Hc|].
  inversion HP as [|? ? (H1 & _) HP']; subst. inversion HS as [|? ? HS' HF]; subst. cbn [auto_scan].
  destruct ((c_off d <? off + len - 1) && (off <=? c_off d + c_length d - 1)) eqn:E.
  - destruct Hc as [<-|Hc]; [|now apply IH]. left. apply auto_scan_ge. assumption.
  - destruct Hc as [<-|Hc]; [|now apply IH].
    destruct (Z.ltb_spec (c_off d) (off + len - 1)).
    + left. pose proof (auto_scan_ge l off len HP'). lia.
    + right. rewrite auto_scan_stop; [assumption|]. intros x Hx. rewrite Forall_forall in HF. specialize (HF x Hx). unfold le_off in HF. lia.
Qed.

Lemma place_auto_inv start n l l' : inv l -> 1 <= c_length n -> place_auto start n l = Ok l' -> inv l'.
Proof.
  intros HI Hn H. unfold place_auto in H. replace (c_length n =? 0) with false in H by lia. injection H as <-.
  apply inv_link. pose proof HI as (A & B & C). set (o := auto_scan start (c_length n) l).
  repeat split.
  - apply Forall_insert; auto. split; [assumption|]. exists o. reflexivity.
  - now apply sorted_insert.
  - apply FOP_insert; auto. apply Forall_forall. intros c Hc r Hr1 Hr2. unfold occupies in *. cbn in *.
    destruct (auto_scan_spec l start (c_length n) A B c Hc) as [H|H]; fold o in H; lia.
Qed.

Lemma reinsert_inv start b : forall l l', inv l -> Forall (fun c => 1 <= c_length c) b -> reinsert start b l = Ok l' -> inv l'.
Proof.
  induction b as [|c b IH]; intros l l' HI HB H; cbn [reinsert] in H; [now injection H as <-|].
  inversion HB; subst. destruct (place_auto start (set_offset None c) l) as [l1|] eqn:E; [|discriminate]. cbn [bind] in H.
  eapply IH; [|eassumption|exact H]. eapply place_auto_inv; [exact HI| |exact E]. assumption.
Qed.

Lemma place_inv start n l l' : inv l -> 0 <= c_length n -> place start n l = Ok l' -> inv l'.
Proof.
  intros HI Hn H. unfold place in H. destruct (Z.eqb_spec (c_length n) 0); [discriminate|].
  destruct (c_offset n) as [o|] eqn:Eo; [|eapply place_auto_inv; eauto; lia].
  destruct (o =? 0); [eapply place_auto_inv; eauto; lia|].
  eapply reinsert_inv; [| |exact H].
  - apply inv_link. destruct (inv_filter (fun c => negb (bump_test n c)) l HI) as (A & B & C). repeat split.
    + apply Forall_insert; auto. split; [lia|]. eauto.
    + now apply sorted_insert.
    + apply FOP_insert; auto. apply Forall_forall. intros c Hc r Hr1 Hr2. apply filter_In in Hc. destruct Hc as (Hc & Hb).
      unfold bump_test, occupies in *. lia.
  - destruct HI as (A & _). rewrite Forall_forall in *. intros c Hc. apply filter_In in Hc. destruct Hc as (Hc & _). now destruct (A c Hc).
Qed.

Lemma find_by_id_In l id c : find_by_id l id = Some c -> In c l /\ c_id c = id.
Proof. induction l as [|d l IH]; cbn; [discriminate|]. destruct (Z.eqb_spec (c_id d) id); intros H; [injection H as <-; auto|]. destruct (IH H). auto. Qed.

Lemma register_inv start l o l' : inv l -> regop_ok o ->
  register start l (ro_id o) (ro_ver o) (ro_length o) (ro_read o) (ro_offset o) = Ok l' -> inv l'.
Proof.
  intros HI (O1 & O2) H. unfold register in H. destruct (find_by_id l (ro_id o)) as [old|] eqn:E.
  - eapply place_inv; [| |exact H]; [now apply inv_remove|]. cbn.
    apply find_by_id_In in E. destruct E as (E & _). destruct HI as (A & _). rewrite Forall_forall in A. destruct (A old E) as (P1 & _).
    destruct (ro_length o) as [n|]; [|lia]. destruct (n =? 0); lia.
  - eapply place_inv; [exact HI| |exact H]. cbn. destruct (ro_length o); lia.
Qed.

Lemma register_all_inv start ops : forall l l', inv l -> Forall regop_ok ops -> register_all start l ops = Ok l' -> inv l'.
Proof.
  induction ops as [|o ops IH]; intros l l' HI HO H; cbn [register_all] in H; [now injection H as <-|].
  inversion HO; subst. destruct (register start l _ _ _ _ _) as [l1|] eqn:E; [|discriminate]. cbn [bind] in H.
  eapply IH; [|eassumption|exact H]. eapply register_inv; eauto.
Qed.

Lemma inv_nil : inv [].
Proof. repeat split; constructor. Qed.

Lemma FOP_nth l i j c d : ForallOrdPairs R l -> i <> j -> nth_error l i = Some c -> nth_error l j = Some d -> R c d.
Proof.
  intros H. revert i j c d. induction H as [|x l HF H IH]; intros i j c d Hij Hi Hj; [destruct i; discriminate|].
  rewrite Forall_forall in HF. destruct i as [|i], j as [|j]; cbn in *.
  - congruence.
  - injection Hi as ->. apply HF. eapply nth_error_In; eauto.
  - injection Hj as ->. apply R_sym, HF. eapply nth_error_In; eauto.
  - apply (IH i j); auto; lia.
Qed.

Lemma registered_overlap start ops l : Forall regop_ok ops -> register_all start [] ops = Ok l -> overlap_at_ends l.
Proof.
  intros HO H. destruct (register_all_inv start ops [] l inv_nil HO H) as (_ & _ & C).
  intros i j c d r Hij Hi Hj. now apply (FOP_nth l i j c d).
Qed.

(** ---- automatic placement only ---- *)
Fixpoint packed (p : Z) (l : list cap) : Prop :=
  match l with [] => True | c :: l => c_offset c = Some p /\ 1 <= c_length c /\ packed (p + c_length c) l end.
Definition caps_len (l : list cap) : Z := fold_right (fun c n => c_length c + n) 0 l.

Lemma packed_scan l : forall p len, 2 <= len -> packed p l -> auto_scan p len l = p + caps_len l.
Proof.
  induction l as [|c l IH]; intros p len Hl H; cbn [auto_scan caps_len fold_right]; [lia|]. destruct H as (H1 & H2 & H3).
  unfold c_off at 1 2. rewrite H1. replace ((p <? p + len - 1) && (p <=? p + c_length c - 1)) with true by lia.
  unfold c_off. rewrite H1. rewrite IH by assumption. unfold caps_len. lia.
Qed.
Lemma caps_len_nonneg l : forall p, packed p l -> 0 <= caps_len l.
Proof. induction l as [|c l IH]; intros p H; cbn [caps_len fold_right]; [lia|]. destruct H as (H1 & H2 & H3). specialize (IH _ H3). unfold caps_len in IH. lia. Qed.
Lemma packed_off l : forall p c, packed p l -> In c l -> p <= c_off c /\ c_off c + c_length c <= p + caps_len l.
Proof.
  induction l as [|d l IH]; intros p c H Hc; [destruct Hc|]. destruct H as (H1 & H2 & H3). cbn [caps_len fold_right].
  pose proof (caps_len_nonneg l _ H3). fold (caps_len l).
  destruct Hc as [<-|Hc]; [unfold c_off; rewrite H1; lia|]. specialize (IH _ c H3 Hc). lia.
Qed.
Lemma packed_len l : forall p c, packed p l -> In c l -> 1 <= c_length c.
Proof.
  induction l as [|d l IH]; intros p c H Hc; [destruct Hc|]. destruct H as (H1 & H2 & H3).
  destruct Hc as [<-|Hc]; [assumption|]. exact (IH _ c H3 Hc).
Qed.
Lemma insert_end n l : (forall c, In c l -> c_off c <= c_off n) -> insert_cap n l = l ++ [n].
Proof.
  induction l as [|c l IH]; intros H; cbn [insert_cap app]; [reflexivity|].
  replace (c_off c <=? c_off n) with true by (specialize (H c (or_introl eq_refl)); lia). f_equal. apply IH. intros d Hd. apply H. now right.
Qed.
Lemma packed_app l n : forall p, packed p l -> c_offset n = Some (p + caps_len l) -> 1 <= c_length n -> packed p (l ++ [n]).
Proof.
  induction l as [|c l IH]; intros p H Hn Hl; cbn [app packed].
  - cbn in Hn. rewrite Z.add_0_r in Hn. auto.
  - destruct H as (H1 & H2 & H3). repeat split; auto. apply IH; auto. rewrite Hn. cbn [caps_len fold_right]. fold (caps_len l). f_equal. lia.
Qed.
Lemma packed_same l' l : Forall2 same_place l' l -> Forall2 (fun a b => c_offset a = c_offset b) l' l -> forall p, packed p l -> packed p l'.
Proof.
  intros H1 H2. pose proof (Forall2_and _ _ _ _ H1 H2) as H. clear H1 H2.
  induction H as [|x y l' l ((S1 & S2 & S3) & S4) H IH]; intros p HP; [constructor|]. destruct HP as (P1 & P2 & P3). cbn [packed].
  rewrite S2. repeat split; auto; congruence.
Qed.
Lemma same_ids l' l : Forall2 same_place l' l -> map c_id l' = map c_id l /\ map c_length l' = map c_length l.
Proof. induction 1 as [|x y l' l (S1 & S2 & S3) H (I1 & I2)]; cbn; [auto|]. split; congruence. Qed.
Lemma find_none l id : ~ In id (map c_id l) -> find_by_id l id = None.
Proof. induction l as [|c l IH]; cbn; [reflexivity|]. intros H. destruct (Z.eqb_spec (c_id c) id); [tauto|]. apply IH. tauto. Qed.

Definition op_len (o : regop) : Z := match ro_length o with Some n => n | None => 0 end.

Lemma register_auto start ops : forall l, packed start l -> Forall auto_op ops ->
  NoDup (map ro_id ops) -> (forall o, In o ops -> ~ In (ro_id o) (map c_id l)) ->
  exists l', register_all start l ops = Ok l' /\ packed start l' /\
    map c_id l' = map c_id l ++ map ro_id ops /\ map c_length l' = map c_length l ++ map op_len ops.
Proof.
  induction ops as [|o ops IH]; intros l HP HO HN Hfresh; cbn [register_all map].
  - exists l. rewrite !app_nil_r. auto.
  - inversion HO as [|? ? (O1 & O2) HO']; subst. inversion HN as [|? ? HN1 HN2]; subst.
    unfold register. rewrite find_none by (apply Hfresh; now left). rewrite O1.
    destruct (ro_length o) as [n|] eqn:En; [|destruct O2].
    unfold place. cbn [c_length c_offset]. replace (n =? 0) with false by lia.
    unfold place_auto. cbn [c_length]. replace (n =? 0) with false by lia. cbn [bind].
    rewrite packed_scan by (auto; lia). set (nc := set_offset _ _).
    assert (Hend : insert_cap nc l = l ++ [nc]).
    { apply insert_end. intros c Hc. destruct (packed_off l start c HP Hc). cbn.
      assert (1 <= c_length c); [|lia]. clear -HP Hc. revert start HP. induction l as [|d l IH]; [destruct Hc|]. intros p (H1 & H2 & H3). destruct Hc as [<-|Hc]; [assumption|]. eapply IH; eauto. }
    rewrite Hend. destruct (link_same (l ++ [nc])) as (L1 & L2).
    destruct (same_ids _ _ L1) as (I1 & I2).
    destruct (IH (link_caps (l ++ [nc]))) as (l' & R1 & R2 & R3 & R4); auto.
    { eapply packed_same; eauto. apply packed_app; auto; cbn; lia. }
    { intros o' Ho'. rewrite I1, map_app, in_app_iff. intros [H|[H|[]]]; [apply (Hfresh o'); auto; now right|].
      cbn in H. apply HN1. rewrite H. now apply in_map. }
    exists l'. split; [assumption|]. split; [assumption|]. rewrite R3, R4, I1, I2, !map_app, <- !app_assoc. cbn. unfold op_len at 2. rewrite En. auto.
Qed.

Lemma packed_no_overlap l : forall p, packed p l -> no_overlap l.
Proof.
  induction l as [|x l IH]; intros p HP i j c d r Hij Hi Hj; [destruct i; discriminate|].
  destruct HP as (H1 & H2 & H3). destruct j as [|j]; [lia|]. cbn in Hj. destruct i as [|i]; cbn in Hi.
  - injection Hi as <-. intros Hc Hd. apply nth_error_In in Hj. destruct (packed_off l _ d H3 Hj). unfold occupies in *.
    unfold c_off at 1 2 in Hc. rewrite H1 in Hc. lia.
  - apply (IH (p + c_length x) H3 i j); auto. lia.
Qed.

Lemma auto_registration ops : Forall auto_op ops -> NoDup (map ro_id ops) ->
  exists l, register_all CAP_START [] ops = Ok l /\ no_overlap l /\ map c_id l = map ro_id ops /\ map c_length l = map op_len ops /\
    packed CAP_START l.
Proof.
  intros H1 H2. destruct (register_auto CAP_START ops [] I H1 H2) as (l & R1 & R2 & R3 & R4); [tauto|].
  exists l. repeat split; auto. now apply packed_no_overlap with (p := CAP_START).
Qed.

(** ---- walking the list (C17) ---- *)
Fixpoint linked (l : list cap) : Prop :=
  match l with
  | [] => True
  | c :: l' => c_next c = Some (match l' with [] => 0 | d :: _ => c_off d * 4 end) /\ linked l'
  end.

Lemma link_from_linked l : linked (link_from l).
Proof.
  induction l as [|c l IH]; cbn [link_from linked]; [exact I|]. split; [|assumption].
  cbn [set_next c_next]. destruct l as [|d l]; reflexivity.
Qed.
Lemma link_caps_linked l : (2 <= length (link_caps l))%nat -> linked (link_caps l).
Proof. destruct l as [|c [|d l]]; intros H; [cbn in H; lia|cbn in H; lia|]. apply link_from_linked. Qed.

Definition linked2 (l : list cap) : Prop := (2 <= length l)%nat -> linked l.
Lemma place_auto_linked start n l l' : place_auto start n l = Ok l' -> linked2 l'.
Proof. unfold place_auto. destruct (c_length n =? 0); [discriminate|]. intros H. injection H as <-. exact (link_caps_linked _). Qed.
Lemma reinsert_linked start b : forall l l', linked2 l -> reinsert start b l = Ok l' -> linked2 l'.
Proof.
  induction b as [|c b IH]; intros l l' HI H; cbn [reinsert] in H; [now injection H as <-|].
  destruct (place_auto start (set_offset None c) l) as [l1|] eqn:E; [|discriminate]. cbn [bind] in H.
  eapply IH; [|exact H]. eapply place_auto_linked; eauto.
Qed.
Lemma place_linked start n l l' : place start n l = Ok l' -> linked2 l'.
Proof.
  unfold place. destruct (c_length n =? 0); [discriminate|]. destruct (c_offset n) as [o|]; [|apply place_auto_linked].
  destruct (o =? 0); [apply place_auto_linked|]. apply reinsert_linked. exact (link_caps_linked _).
Qed.
Lemma register_linked start l id ver len rd off l' : register start l id ver len rd off = Ok l' -> linked2 l'.
Proof. unfold register. destruct (find_by_id l id); apply place_linked. Qed.
Lemma register_all_linked start ops : forall l l', linked2 l -> register_all start l ops = Ok l' -> linked2 l'.
Proof.
  induction ops as [|o ops IH]; intros l l' HI H; cbn [register_all] in H; [now injection H as <-|].
  destruct (register start l _ _ _ _ _) as [l1|] eqn:E; [|discriminate]. cbn [bind] in H. eapply IH; [|exact H]. eapply register_linked; eauto.
Qed.

Lemma find_by_reg_unique l c r : no_overlap l -> In c l -> occupies c r -> find_by_reg l r = Some c.
Proof.
  induction l as [|d l IH]; intros HN Hc Ho; [destruct Hc|]. cbn [find_by_reg].
  destruct ((c_off d <=? r) && (r <? c_off d + c_length d)) eqn:E.
  - destruct Hc as [<-|Hc]; [reflexivity|]. exfalso. apply In_nth_error in Hc. destruct Hc as (n & Hn).
    apply (HN 0%nat (S n) d c r); try assumption; try lia; try reflexivity. unfold occupies; lia.
  - destruct Hc as [<-|Hc]; [unfold occupies in Ho; lia|]. apply IH; auto.
    intros i j x y q Hij Hi Hj. apply (HN (S i) (S j)); auto. lia.
Qed.

Lemma header_fields v n i : 0 <= n < 256 -> (Z.lor (Z.lor (Z.land v 0xffff0000) (Z.shiftl (Z.land n 0xff) 8)) (Z.land i 0xff)) mod 256 = i mod 256 /\
  ((Z.lor (Z.lor (Z.land v 0xffff0000) (Z.shiftl (Z.land n 0xff) 8)) (Z.land i 0xff)) / 256) mod 256 = n.
Proof.
  intros Hn.
  assert (T : forall k, Z.testbit 0xff k = (0 <=? k) && (k <? 8)).
  { intros k. change 0xff with (Z.ones 8).
    destruct (Z.leb_spec 0 k); [rewrite Z.testbit_ones_nonneg by lia; reflexivity|]. rewrite Z.testbit_neg_r by lia. reflexivity. }
  assert (T2 : forall k, 0 <= k < 16 -> Z.testbit 0xffff0000 k = false).
  { intros k Hk. change 0xffff0000 with (Z.shiftl 0xffff 16). rewrite Z.shiftl_spec by lia. apply Z.testbit_neg_r. lia. }
  split; apply Z.bits_inj'; intros k Hk.
  - change 256 with (2^8). destruct (Z.ltb_spec k 8).
    + rewrite !Z.mod_pow2_bits_low by assumption. rewrite !Z.lor_spec, !Z.land_spec, Z.shiftl_spec, Z.land_spec, T2, T by lia.
      rewrite (Z.testbit_neg_r n) by lia. rewrite !T. replace ((0 <=? k) && (k <? 8)) with true by lia. rewrite !andb_false_r. cbn. now rewrite andb_true_r.
    + rewrite !Z.mod_pow2_bits_high by lia. reflexivity.
  - change 256 with (2^8). destruct (Z.ltb_spec k 8).
    + rewrite Z.mod_pow2_bits_low by assumption. rewrite Z.div_pow2_bits by lia.
      rewrite !Z.lor_spec, !Z.land_spec, Z.shiftl_spec, Z.land_spec, T2, !T by lia.
      replace ((0 <=? k + 8) && (k + 8 <? 8)) with false by lia. replace (k + 8 - 8) with k by lia.
      replace ((0 <=? k) && (k <? 8)) with true by lia. rewrite !andb_false_r. cbn. now rewrite andb_true_r, orb_false_r.
    + rewrite Z.mod_pow2_bits_high by lia. symmetry. apply Z.bits_above_log2; [lia|]. destruct (Z.eq_dec n 0) as [->|]; [cbn; lia|].
      apply Z.log2_lt_pow2; [lia|]. assert (2^8 <= 2^k) by (apply Z.pow_le_mono_r; lia). lia.
Qed.

Definition visit (c : cap) : Z * Z := (4 * c_off c, c_id c mod 256).

Lemma read_cap_header caps ext c n : no_overlap caps -> In c caps -> 1 <= c_length c -> 16 <= c_off c < 64 -> c_next c = Some n -> 0 <= n < 256 ->
  exists v, read_config_cap caps ext (c_off c) = Ok v /\ v mod 256 = c_id c mod 256 /\ (v / 256) mod 256 = n.
Proof.
  intros HN Hc Hl Ho Hn Hr. unfold read_config_cap. replace (c_off c =? 13) with false by lia.
  replace ((16 <=? c_off c) && (c_off c <? 256)) with true by lia. unfold list_read_register.
  rewrite (find_by_reg_unique caps c) by (auto; unfold occupies; lia). rewrite Z.sub_diag. unfold cap_read_register. cbn [Z.eqb]. rewrite Hn.
  eexists; split; [reflexivity|]. now apply header_fields.
Qed.

Lemma walk_spec caps ext : no_overlap caps -> forall l fuel, (length l <= fuel)%nat -> linked l -> incl l caps ->
  Forall (fun c => 1 <= c_length c /\ 16 <= c_off c < 64) l ->
  walk fuel (read_config_cap caps ext) (match l with [] => 0 | c :: _ => c_off c * 4 end) = Ok (map visit l).
Proof.
  intros HN. induction l as [|c l IH]; intros fuel Hf HL HI HF; [destruct fuel; reflexivity|].
  destruct fuel as [|fuel]; [cbn in Hf; lia|]. cbn [linked] in HL. destruct HL as (L1 & L2).
  inversion HF as [|? ? (F1 & F2) HF']; subst. cbn [walk]. replace (c_off c * 4 =? 0) with false by lia.
  replace (c_off c * 4 / 4) with (c_off c) by lia.
  set (n := match l with [] => 0 | d :: _ => c_off d * 4 end) in *.
  assert (Hn : 0 <= n < 256).
  { unfold n. destruct l as [|d l']; [lia|]. inversion HF' as [|? ? (G1 & G2) _]; subst. lia. }
  destruct (read_cap_header caps ext c n) as (v & V1 & V2 & V3); auto; [apply HI; now left|].
  rewrite V1. cbn [bind]. rewrite V3.
  assert (HW : walk fuel (read_config_cap caps ext) n = Ok (map visit l)).
  { apply (IH fuel); auto; [cbn in Hf; lia|intros x Hx; apply HI; now right]. }
  rewrite HW.
  cbn [bind map]. unfold visit at 2. rewrite V2. do 3 f_equal. lia.
Qed.

Lemma increasing_visits l : Forall placed l -> StronglySorted le_off l -> no_overlap l -> forall p, (forall c, In c l -> p < 4 * c_off c) -> increasing p (map visit l).
Proof.
  induction l as [|c l IH]; intros HP HS HN p Hp; cbn [map increasing]; [exact I|].
  inversion HP as [|? ? (P1 & _) HP']; subst. inversion HS as [|? ? HS' HF]; subst. unfold visit at 1. split; [apply Hp; now left|].
  apply IH; auto.
  - intros i j x y r Hij Hi Hj. apply (HN (S i) (S j)); auto. lia.
  - intros d Hd. rewrite Forall_forall in HF. specialize (HF d Hd). unfold le_off in HF.
    destruct (Z.eq_dec (c_off c) (c_off d)) as [E|]; [|lia]. exfalso.
    apply In_nth_error in Hd. destruct Hd as (n & Hn).
    apply (HN 0%nat (S n) c d (c_off c)); try lia; try reflexivity; try assumption; unfold occupies; try lia.
    rewrite E. apply nth_error_In in Hn. rewrite Forall_forall in HP'. destruct (HP' d Hn). lia.
Qed.

Lemma host_walk_spec ops l ext : Forall regop_ok ops -> register_all CAP_START [] ops = Ok l -> (2 <= length l)%nat ->
  no_overlap l -> Forall (fun c => 16 <= c_off c < 64) l ->
  host_walk (read_config_cap l ext) = Ok (map visit l) /\ increasing 0 (map visit l).
Proof.
  intros HO HR H2 HN HF. destruct (register_all_inv CAP_START ops [] l inv_nil HO HR) as (A & B & C).
  pose proof (register_all_linked CAP_START ops [] l ltac:(intros X; cbn in X; lia) HR H2) as HL.
  assert (Hlen : (length l <= 64)%nat).
  { (* distinct offsets below 64 *)
    assert (HD : NoDup (map c_off l)).
    { clear -HN A B. induction l as [|c l IH]; cbn; [constructor|]. inversion A as [|? ? (P1 & _) A']; subst. inversion B as [|? ? B' HF]; subst. constructor.
      - intros Hin. apply in_map_iff in Hin. destruct Hin as (d & Ed & Hd). apply In_nth_error in Hd. destruct Hd as (n & Hn).
        apply (HN 0%nat (S n) c d (c_off c)); try lia; try reflexivity; try assumption; unfold occupies; try lia.
        apply nth_error_In in Hn. rewrite Forall_forall in A'. destruct (A' d Hn). lia.
      - apply IH; auto. intros i j x y r Hij Hi Hj. apply (HN (S i) (S j)); auto. lia. }
    assert (HI : incl (map c_off l) (map Z.of_nat (seq 0 64))).
    { intros x Hx. apply in_map_iff in Hx. destruct Hx as (c & <- & Hc). rewrite Forall_forall in HF. specialize (HF c Hc).
      apply in_map_iff. exists (Z.to_nat (c_off c)). split; [lia|]. apply in_seq. lia. }
    pose proof (NoDup_incl_length HD HI) as HX. rewrite !map_length, seq_length in HX. assumption. }
  split.
  - unfold host_walk. change (read_config_cap l ext 13) with (@Ok Z (cap_ptr l)). cbn [bind].
    assert (Hp : cap_ptr l mod 256 = cap_ptr l).
    { destruct l as [|c l]; [reflexivity|]. cbn [cap_ptr]. inversion HF; subst. rewrite Z.mod_small; lia. }
    rewrite Hp. unfold cap_ptr. apply walk_spec; auto; [apply incl_refl|].
    rewrite Forall_forall in *. intros c Hc. destruct (A c Hc). auto.
  - apply increasing_visits; auto. intros c Hc. rewrite Forall_forall in HF. specialize (HF c Hc). lia.
Qed.

Fixpoint offsets_from (p : Z) (lens : list Z) : list Z :=
  match lens with [] => [] | n :: r => p :: offsets_from (p + n) r end.
Lemma packed_offsets l : forall p, packed p l -> map c_off l = offsets_from p (map c_length l).
Proof. induction l as [|c l IH]; intros p H; cbn; [reflexivity|]. destruct H as (H1 & H2 & H3). rewrite (IH _ H3). unfold c_off at 1. now rewrite H1. Qed.

Lemma auto_walk ops ext : Forall auto_op ops -> NoDup (map ro_id ops) -> (2 <= length ops)%nat ->
  16 + fold_right Z.add 0 (map op_len ops) <= 64 ->
  exists l, register_all CAP_START [] ops = Ok l /\
    host_walk (read_config_cap l ext) = Ok (combine (map (Z.mul 4) (offsets_from 16 (map op_len ops))) (map (fun o => ro_id o mod 256) ops)).
Proof.
  intros H1 H2 H3 H4. destruct (auto_registration ops H1 H2) as (l & R1 & R2 & R3 & R4 & R5).
  exists l. split; [assumption|].
  assert (HLen : length l = length ops) by (rewrite <- (map_length c_id l), R3, map_length; reflexivity).
  assert (Hsum : caps_len l = fold_right Z.add 0 (map op_len ops)).
  { rewrite <- R4. unfold caps_len. clear. induction l; cbn; lia. }
  destruct (host_walk_spec ops l ext) as (W1 & W2); auto; try lia.
  - rewrite Forall_forall in *. intros o Ho. destruct (H1 o Ho) as (A & B). split; [destruct (ro_length o); [lia|exact I]|now rewrite A].
  - apply Forall_forall. intros c Hc. destruct (packed_off l _ c R5 Hc). unfold CAP_START in *.
    pose proof (packed_len l _ c R5 Hc). lia.
  - rewrite W1. f_equal. rewrite <- R4. change 16 with CAP_START. rewrite <- (packed_offsets l _ R5).
    replace (map (fun o => ro_id o mod 256) ops) with (map (fun i => i mod 256) (map c_id l)) by (rewrite R3, map_map; reflexivity).
    clear. induction l as [|c l IH]; cbn; [reflexivity|]. f_equal. exact IH.
Qed.

Lemma single_walk_raises o : auto_op o -> forall ext,
  exists l, register_all CAP_START [] [o] = Ok l /\ length l = 1%nat /\ host_walk (read_config_cap l ext) = Err TypeError.
Proof.
  intros (O1 & O2) ext. destruct (ro_length o) as [n|] eqn:En; [|destruct O2].
  unfold register_all, register. cbn [find_by_id]. rewrite O1, En. unfold place. cbn [c_length c_offset]. replace (n =? 0) with false by lia.
  unfold place_auto. cbn [c_length]. replace (n =? 0) with false by lia. cbn [bind auto_scan insert_cap link_caps].
  eexists. split; [reflexivity|]. split; [reflexivity|].
  unfold host_walk. cbn [read_config_cap Z.eqb Pos.eqb cap_ptr bind].
  change (c_off (set_offset (Some CAP_START) (mkCap (ro_id o) (ro_ver o) n (ro_read o) None None)) * 4 mod 256) with 64.
  cbn [walk]. change (64 =? 0) with false. cbn iota. change (64 / 4) with 16.
  unfold read_config_cap. change (16 =? 13) with false. change ((16 <=? 16) && (16 <? 256)) with true. cbn iota.
  unfold list_read_register. cbn [find_by_reg].
  change (c_off (set_offset (Some CAP_START) (mkCap (ro_id o) (ro_ver o) n (ro_read o) None None))) with 16. cbn [c_length set_offset].
  replace ((16 <=? 16) && (16 <? 16 + n)) with true by lia. reflexivity.
Qed.

(** ---- extended capabilities (C18) ---- *)
Lemma ext_hidden caps ext ext' reg : 0 <= reg < 256 -> read_config_cap caps ext reg = read_config_cap caps ext' reg.
Proof.
  intros H. unfold read_config_cap. destruct (reg =? 13); [reflexivity|]. destruct ((16 <=? reg) && (reg <? 256)); [reflexivity|].
  replace ((256 <=? reg) && (reg <? 4096)) with false by lia. reflexivity.
Qed.
Lemma ext_visible caps ext c r : no_overlap ext -> In c ext -> occupies c r -> 256 <= r < 4096 ->
  read_config_cap caps ext r = extcap_read_register c (r - c_off c).
Proof.
  intros HN Hc Ho Hr. unfold read_config_cap. replace (r =? 13) with false by lia. replace ((16 <=? r) && (r <? 256)) with false by lia.
  replace ((256 <=? r) && (r <? 4096)) with true by lia. unfold list_read_register. now rewrite (find_by_reg_unique ext c).
Qed.

(** ---- explicit offsets ---- *)
Definition spot (id o len : Z) (l : list cap) : Prop := exists l1 n l2, l = l1 ++ n :: l2 /\ c_id n = id /\ c_off n = o /\ c_length n = len /\
  Forall (fun d => c_off d + c_length d - 1 <= o \/ o + len <= c_off d) (l1 ++ l2).

Lemma spot_same id o len l l' : Forall2 same_place l' l -> spot id o len l -> spot id o len l'.
Proof.
  intros H (l1 & n & l2 & -> & H1 & H2 & H3 & H4). apply Forall2_app_inv_r in H. destruct H as (k1 & k & F1 & F2 & ->).
  inversion F2 as [|n' ? k2 ? (S1 & S2 & S3) F3]; subst. exists k1, n', k2. split; [reflexivity|]. split; [congruence|]. split; [congruence|]. split; [congruence|].
  pose proof (Forall2_app F1 F3) as F. rewrite Forall_forall in *. intros x Hx. destruct (Forall2_In_l _ _ _ _ F Hx) as (y & Hy & (T1 & T2 & T3)). specialize (H4 y Hy). lia.
Qed.

Lemma spot_insert id o len d l : spot id o len l -> (c_off d + c_length d - 1 <= o \/ o + len <= c_off d) -> spot id o len (insert_cap d l).
Proof.
  intros (l1 & n & l2 & -> & H1 & H2 & H3 & H4) Hd. induction l1 as [|c l1 IH]; cbn [app insert_cap].
  - destruct (c_off n <=? c_off d).
    + exists [], n, (insert_cap d l2). repeat (split; [auto|]). apply Forall_insert; assumption.
    + exists [d], n, l2. repeat (split; [auto|]). constructor; assumption.
  - inversion_clear H4 as [|? ? C1 C2]. destruct (c_off c <=? c_off d).
    + destruct (IH C2) as (k1 & n' & k2 & E & K1 & K2 & K3 & K4). exists (c :: k1), n', k2. split; [cbn; f_equal; exact E|]. repeat (split; [auto|]). constructor; assumption.
    + exists (d :: c :: l1), n, l2. repeat (split; [auto|]). constructor; [assumption|]. constructor; assumption.
Qed.

Lemma spot_auto id o len start d l l' : inv l -> 1 <= c_length d -> spot id o len l -> place_auto start d l = Ok l' -> spot id o len l'.
Proof.
  intros HI Hd HS H. unfold place_auto in H. replace (c_length d =? 0) with false in H by lia. injection H as <-.
  apply (spot_same _ _ _ _ _ (proj1 (link_same _))). apply spot_insert; [assumption|]. destruct HS as (l1 & n & l2 & E & H1 & H2 & H3 & H4).
  destruct HI as (A & B & _). destruct (auto_scan_spec l start (c_length d) A B n) as [H|H]; [rewrite E; apply in_elt| |]; cbn; lia.
Qed.

Lemma spot_reinsert id o len start b : forall l l', inv l -> Forall (fun c => 1 <= c_length c) b -> spot id o len l -> reinsert start b l = Ok l' -> spot id o len l'.
Proof.
  induction b as [|c b IH]; intros l l' HI HB HS H; cbn [reinsert] in H; [now injection H as <-|].
  inversion HB; subst. destruct (place_auto start (set_offset None c) l) as [l1|] eqn:E; [|discriminate]. cbn [bind] in H.
  eapply IH; [|eassumption| |exact H].
  - eapply place_auto_inv; [exact HI| |exact E]. assumption.
  - eapply spot_auto; [exact HI| |exact HS|exact E]. assumption.
Qed.

Lemma spot_place start n l l' o : inv l -> 1 <= c_length n -> c_offset n = Some o -> o <> 0 -> place start n l = Ok l' -> spot (c_id n) o (c_length n) l'.
Proof.
  intros HI Hn Ho Hz H. unfold place in H. replace (c_length n =? 0) with false in H by lia. rewrite Ho in H. replace (o =? 0) with false in H by lia.
  assert (c_off n = o) as Eo by (unfold c_off; rewrite Ho; reflexivity).
  assert (forall l, Forall placed l -> spot (c_id n) o (c_length n) (insert_cap n (filter (fun c => negb (bump_test n c)) l))) as HS.
  { clear - Eo Hn. induction l as [|c l IH]; intros HP; cbn [filter].
    - exists [], n, []. repeat split; auto. constructor.
    - inversion_clear HP as [|? ? (P1 & _) P2]. destruct (bump_test n c) eqn:E; cbn [negb]; [apply IH; assumption|]. cbn [insert_cap].
      assert (c_off c + c_length c - 1 <= o \/ o + c_length n <= c_off c) as Hc by (unfold bump_test in E; lia).
      assert (Forall (fun d => c_off d + c_length d - 1 <= o \/ o + c_length n <= c_off d) (filter (fun c0 => negb (bump_test n c0)) l)) as HF.
      { apply Forall_forall. intros d Hdd. apply filter_In in Hdd. destruct Hdd as (D1 & D2). unfold bump_test in D2. lia. }
      destruct (c_off c <=? c_off n).
      + destruct (IH P2) as (k1 & n' & k2 & K & K1 & K2 & K3 & K4). exists (c :: k1), n', k2. split; [cbn; f_equal; exact K|]. repeat (split; [auto|]). constructor; assumption.
      + exists [], n, (c :: filter (fun c0 => negb (bump_test n c0)) l). repeat (split; [auto|]). constructor; assumption. }
  eapply spot_reinsert; [| | |exact H].
  - apply inv_link. destruct (inv_filter (fun c => negb (bump_test n c)) l HI) as (A & B & C). repeat split.
    + apply Forall_insert; auto. split; [lia|]. eauto.
    + now apply sorted_insert.
    + apply FOP_insert; auto. apply Forall_forall. intros c Hc r Hr1 Hr2. apply filter_In in Hc. destruct Hc as (Hc & Hb).
      unfold bump_test, occupies in *. lia.
  - destruct HI as (A & _). rewrite Forall_forall in *. intros c Hc. apply filter_In in Hc. destruct Hc as (Hc & _). now destruct (A c Hc).
  - apply (spot_same _ _ _ _ _ (proj1 (link_same _))). apply HS. apply HI.
Qed.

Lemma register_explicit start ops o off l l' : Forall regop_ok ops -> regop_ok o -> ro_offset o = Some off -> off <> 0 -> register_all start [] ops = Ok l ->
  register start l (ro_id o) (ro_ver o) (ro_length o) (ro_read o) (ro_offset o) = Ok l' -> placed_at (ro_id o) off l'.
Proof.
  intros HO (O1 & O2) Eo Hz HR H. pose proof (register_all_inv start ops [] l inv_nil HO HR) as HI.
  assert (forall id len, spot id off len l' -> 1 <= len -> placed_at id off l') as HS.
  { intros id len (l1 & n & l2 & -> & H1 & H2 & H3 & H4) HL. exists l1, n, l2. split; [reflexivity|]. split; [assumption|]. split; [assumption|].
    rewrite Forall_forall in *. intros d Hd r Hr1 Hr2. specialize (H4 d Hd). unfold occupies in *. lia. }
  rewrite Eo in H. unfold register in H. destruct (find_by_id l (ro_id o)) as [old|] eqn:E.
  - apply find_by_id_In in E. destruct E as (E & E2). pose proof HI as (A & _). rewrite Forall_forall in A. destruct (A old E) as (P1 & _).
    set (len := match ro_length o with Some n => if n =? 0 then c_length old else n | None => c_length old end) in *.
    assert (1 <= len) as HL by (unfold len; destruct (ro_length o) as [n|]; [destruct (Z.eqb_spec n 0); lia|lia]).
    replace (off =? 0) with false in H by lia. apply (spot_place _ _ _ _ off) in H; try assumption; try reflexivity; [|now apply inv_remove].
    cbn in H. rewrite E2 in H. eapply HS; eassumption.
  - set (len := match ro_length o with Some n => n | None => 0 end) in *.
    destruct (Z.eq_dec len 0) as [Ez|Ez]; [unfold place in H; cbn [c_length] in H; rewrite Ez in H; discriminate|].
    assert (1 <= len) as HL by (unfold len in *; destruct (ro_length o); lia).
    apply (spot_place _ _ _ _ off) in H; try assumption; try reflexivity. cbn in H. eapply HS; eassumption.
Qed.
