(** Proofs for bus enumeration, part 4: window and bus number properties, and
    delivery of requests. *)
From Coq Require Import ZifyBool ZifyNat.
From Verif Require Import PyBase BitLemmas TlpModel TlpSpec TlpProofs BarModel BarSpec BarProofs AllocProofs EnumModel RouteModel EnumSpec EnumProofs1 EnumProofs2 EnumProofs3.
Ltac Zify.zify_post_hook ::= Z.div_mod_to_equations.

(** * Induction over trees *)
Fixpoint dsize (d : dtree) : nat :=
  match d with DEnd _ _ _ _ => 1 | DBr _ _ _ _ _ k => S ((fix go l := match l with [] => 0 | x :: l => dsize x + go l end) k) end%nat.
Fixpoint dsizes (ds : list dtree) : nat := match ds with [] => 0 | d :: ds => dsize d + dsizes ds end%nat.
Lemma dsize_br b d f L r k : dsize (DBr b d f L r k) = S (dsizes k).
Proof. reflexivity. Qed.
Lemma dsize_pos d : (0 < dsize d)%nat. Proof. destruct d; cbn [dsize]; lia. Qed.

Lemma trees_ind (P : list dtree -> Prop) : P [] ->
  (forall b d f L ds, P ds -> P (DEnd b d f L :: ds)) ->
  (forall b d f L r k ds, P k -> P ds -> P (DBr b d f L r k :: ds)) -> forall ds, P ds.
Proof.
  intros H0 H1 H2 ds. remember (dsizes ds) as n eqn:En. assert (Hn : (dsizes ds <= n)%nat) by lia. clear En. revert ds Hn.
  induction n as [|n IH]; intros [|x ds] Hn; auto.
  - cbn [dsizes] in Hn. pose proof (dsize_pos x). lia.
  - cbn [dsizes] in Hn. destruct x as [b d f L|b d f L r k].
    + apply H1, IH. cbn [dsize] in Hn. lia.
    + rewrite dsize_br in Hn. apply H2; apply IH; lia.
Qed.

(** * Chains *)
Lemma chain_split lo hi w1 w2 : chain lo hi (w1 ++ w2) -> exists m, chain lo m w1 /\ chain m hi w2.
Proof.
  revert lo. induction w1 as [|[b n] w1 IH]; intros lo H; cbn [app chain] in *.
  - exists lo. split; [lia|exact H].
  - destruct H as (A & B & C). apply IH in C. destruct C as (m & C1 & C2). exists m. auto.
Qed.
Lemma chain_in lo hi ws w : chain lo hi ws -> In w ws -> lo <= fst w /\ 0 <= snd w /\ fst w + snd w <= hi.
Proof.
  revert lo. induction ws as [|[b n] ws IH]; intros lo H []; cbn [chain] in H.
  - subst. cbn [fst snd]. destruct H as (A & B & C). apply chain_le in C. lia.
  - destruct H as (A & B & C). apply IH in C; [|assumption]. lia.
Qed.
Lemma chain_pairs lo hi ws : chain lo hi ws -> ForallOrdPairs (fun w1 w2 => fst w1 + snd w1 <= fst w2) ws.
Proof.
  revert lo. induction ws as [|[b n] ws IH]; intros lo H; cbn [chain] in H; constructor.
  - apply Forall_forall. intros w Hw. destruct H as (A & B & C). pose proof (chain_in _ _ _ _ C Hw). cbn [fst snd]. lia.
  - destruct H as (A & B & C). eauto.
Qed.
Lemma FOP_impl {A} (R S : A -> A -> Prop) l : (forall a b, In a l -> In b l -> R a b -> S a b) -> ForallOrdPairs R l -> ForallOrdPairs S l.
Proof.
  intros H HF. induction HF as [|a l H1 H2 IH]; constructor.
  - rewrite Forall_forall in *. intros x Hx. apply H; [now left|now right|auto].
  - apply IH. intros; apply H; auto; now right.
Qed.

Lemma flats_cons d ds : flats (d :: ds) = flat d ++ flats ds. Proof. reflexivity. Qed.
Lemma flat_br b d f L r k : flat (DBr b d f L r k) = DBr b d f L r k :: flats k. Proof. reflexivity. Qed.
Lemma flat_end b d f L : flat (DEnd b d f L) = [DEnd b d f L]. Proof. reflexivity. Qed.
Lemma tree_win_cons sp d ds : tree_win sp (d :: ds) = flat_map (own_win sp) (flat d) ++ tree_win sp ds.
Proof. unfold tree_win. rewrite flats_cons, flat_map_app. reflexivity. Qed.

Lemma claims_chain sp ds : forall lo hi, Forall good ds -> chain lo hi (flat_map (claim sp) ds) -> chain lo hi (tree_win sp ds).
Proof.
  induction ds as [|b d f L ds IH|b d f L r k ds IHk IH] using trees_ind; intros lo hi HG HC.
  - exact HC.
  - cbn [flat_map] in HC. apply chain_split in HC. destruct HC as (m & C1 & C2). inversion HG; subst.
    rewrite tree_win_cons, flat_end. cbn [flat_map]. rewrite app_nil_r. unfold claim in C1. cbn [d_bridge] in C1. rewrite app_nil_r in C1.
    eapply chain_app; eauto.
  - cbn [flat_map] in HC. apply chain_split in HC. destruct HC as (m & C1 & C2). inversion HG as [|? ? G1 G2]; subst.
    rewrite tree_win_cons, flat_br. cbn [flat_map]. fold (tree_win sp k).
    unfold claim in C1. cbn [d_bridge] in C1. apply chain_split in C1. destruct C1 as (m1 & C3 & C4). cbn [chain] in C4.
    inversion G1; subst.
    eapply chain_app; [|eapply IH; eauto]. eapply chain_app; [exact C3|].
    eapply chain_weak; [eapply IHk; [assumption|match goal with H : forall sp, chain _ _ _ |- _ => apply H end]|lia|lia].
Qed.

Lemma good_in ds : Forall good ds -> forall d, In d (flats ds) -> good d.
Proof.
  induction ds as [|b d f L ds IH|b d f L r k ds IHk IH] using trees_ind; intros HG x Hx.
  - contradiction.
  - inversion HG; subst. rewrite flats_cons, flat_end in Hx. destruct Hx as [<-|Hx]; auto.
  - inversion HG as [|? ? G1 G2]; subst. rewrite flats_cons, flat_br in Hx. destruct Hx as [<-|Hx]; [assumption|].
    apply in_app_iff in Hx. destruct Hx as [Hx|Hx]; [|auto]. apply IHk; auto. now inversion G1.
Qed.

Lemma ent_win_ok sp e w : bar_ok e -> In w (ent_win sp e) -> fst w mod snd w = 0 /\ 0 < snd w.
Proof.
  intros He Hw. destruct sp, e as [|k b|k b p|k b p]; cbn [ent_win] in Hw; try contradiction; try (destruct p);
    try contradiction; destruct Hw as [<-|[]]; cbn [fst snd]; cbn [bar_ok] in He; (split; [tauto|apply pow2_split; lia]).
Qed.
Lemma good_ents d : good d -> Forall bar_ok (d_ents d).
Proof. intros H; inversion H; subst; assumption. Qed.

Lemma bridges_pairs sp ks lo hi : chain lo hi (flat_map (claim sp) ks) ->
  ForallOrdPairs (fun d1 d2 => forall r1 r2, d_bridge d1 = Some r1 -> d_bridge d2 = Some r2 -> win_limit sp r1 < win_base sp r2) ks.
Proof.
  revert lo. induction ks as [|d ks IH]; intros lo H; cbn [flat_map] in H; constructor.
  - apply chain_split in H. destruct H as (m & C1 & C2). apply Forall_forall. intros d2 Hd2 r1 r2 E1 E2.
    unfold claim in C1. rewrite E1 in C1. apply chain_split in C1. destruct C1 as (m1 & _ & C1). cbn [chain] in C1.
    assert (HI : In (win_base sp r2, win_limit sp r2 + 1 - win_base sp r2) (flat_map (claim sp) ks)).
    { apply in_flat_map. exists d2. split; [assumption|]. unfold claim. rewrite E2. apply in_app_iff. right. now left. }
    pose proof (chain_in _ _ _ _ C2 HI) as H. cbn [fst snd] in H. lia.
  - apply chain_split in H. destruct H as (m & C1 & C2). eauto.
Qed.

Lemma good_windows sp ds lo hi : Forall good ds -> chain lo hi (flat_map (claim sp) ds) ->
  windows_ok sp ds /\ Forall (fun w => lo <= fst w /\ fst w + snd w <= hi) (tree_win sp ds).
Proof.
  intros HG HC. pose proof (claims_chain sp ds lo hi HG HC) as HT. split; [split; [|split; [|split]]|].
  - intros w Hw. unfold tree_win in Hw. apply in_flat_map in Hw. destruct Hw as (d & Hd & Hw).
    unfold own_win in Hw. apply in_flat_map in Hw. destruct Hw as (e & He & Hw).
    pose proof (good_ents d (good_in ds HG d Hd)) as HF. rewrite Forall_forall in HF. eapply ent_win_ok; eauto.
  - eapply FOP_impl; [|eapply chain_pairs; exact HT]. intros a b _ _ H. left. exact H.
  - intros d r Hd Er. apply good_in with (d := d) in HG; [|assumption]. destruct d as [|b d f L r' k]; cbn [d_bridge d_kids] in *; [discriminate|].
    injection Er as ->. inversion HG; subst. apply Forall_forall. intros w Hw.
    assert (HK : chain (win_base sp r) (win_limit sp r + 1) (tree_win sp k)) by (apply claims_chain; auto).
    pose proof (chain_in _ _ _ _ HK Hw). unfold inside. lia.
  - intros ks [->|(d & Hd & ->)]; [eapply bridges_pairs; eauto|].
    apply good_in with (d := d) in HG; [|assumption]. destruct d as [|b d f L r k]; cbn [d_kids]; [constructor|].
    inversion HG; subst. eapply bridges_pairs. auto.
  - apply Forall_forall. intros w Hw. pose proof (chain_in _ _ _ _ HT Hw). lia.
Qed.

(** * Delivery *)
Definition in_win (a : Z) (w : Z * Z) : Prop := fst w <= a < fst w + snd w.
Definition hits (L : list barent) (a : Z) (io : bool) : bool := existsb (fun e => bar_hit e a io) L.
Lemma real_match_nil L a io : forall i, (real_match i L a io = [] <-> hits L a io = false).
Proof.
  induction L as [|e L IH]; intros i; cbn [real_match hits existsb]; [tauto|]. fold (hits L a io).
  destruct (bar_hit e a io); cbn [orb]; [split; discriminate|]. apply IH.
Qed.
Lemma match_hits L a io : Forall bar_ok L -> 0 <= a < 2^64 ->
  exists m, match_bar (regs_of L) a io = Ok m /\ (m = [] <-> hits L a io = false).
Proof.
  intros HL Ha. exists (real_match 0 L a io). split; [|apply real_match_nil]. unfold match_bar, regs_of. cbn [b_bar b_mask].
  apply match_bar_loop_exact; assumption.
Qed.

(** The request is decided by one address space only. *)
Definition sep (sp : space) (a : Z) (io : bool) (d : dtree) : Prop :=
  (hits (d_ents d) a io = true <-> Exists (in_win a) (own_win sp d)) /\
  (forall r, d_bridge d = Some r -> (if io then in_io_range r a else in_mem_range r a) = (win_base sp r <=? a) && (a <=? win_limit sp r)).

Definition go_items (ks : list titem) (a : Z) (io : bool) : result fate :=
  (fix go (ks : list titem) : result fate :=
     match ks with [] => Ok Lost | k :: ks => let! x := route_item k a io in match x with NotMine => go ks | _ => Ok x end end) ks.
Lemma go_items_eq ks a io : go_items ks a io = route_items ks a io.
Proof. induction ks as [|k ks IH]; [reflexivity|]. cbn [go_items route_items]. fold (go_items ks a io). rewrite IH. reflexivity. Qed.

Lemma chain_out lo hi ws a : chain lo hi ws -> (a < lo \/ hi <= a) -> ~ Exists (in_win a) ws.
Proof.
  intros HC Ha HE. apply Exists_exists in HE. destruct HE as (w & Hw & Hin). pose proof (chain_in _ _ _ _ HC Hw). unfold in_win in Hin. lia.
Qed.

Lemma route_step it d a io sp : rep it d -> good d -> sep sp a io d -> 0 <= a < 2^64 ->
  (Exists (in_win a) (own_win sp d) /\ route_item it a io = Ok (let '(b, x, f) := d_id d in Taken b x f)) \/
  (~ Exists (in_win a) (own_win sp d) /\
   match d with
   | DEnd _ _ _ _ => route_item it a io = Ok NotMine
   | DBr _ _ _ _ r kids => exists items, Forall2 rep items kids /\
       route_item it a io = if (win_base sp r <=? a) && (a <=? win_limit sp r) then route_items items a io else Ok NotMine
   end).
Proof.
  intros HR HG (S1 & S2) Ha. pose proof (good_ents _ HG) as HE.
  destruct (match_hits _ a io HE Ha) as (m & Em & Hm).
  destruct (hits (d_ents d) a io) eqn:EH.
  - left. split; [apply S1; reflexivity|].
    assert (Hne : m <> []) by (intros ->; destruct Hm as [Hm _]; specialize (Hm eq_refl); discriminate).
    destruct m as [|x m]; [congruence|].
    inversion HR; subst; cbn [route_item d_ents d_id] in *; rewrite Em; reflexivity.
  - right. split; [intros H; apply S1 in H; discriminate|].
    assert (m = []) as -> by (apply Hm; reflexivity).
    inversion HR; subst; cbn [route_item d_ents d_id] in *; rewrite Em; cbn [bind].
    + reflexivity.
    + exists items. split; [assumption|]. rewrite (S2 r eq_refl).
      destruct (_ && _); [|reflexivity]. change ((fix go (ks : list titem) : result fate :=
     match ks with [] => Ok Lost | k :: ks => let! x := route_item k a io in match x with NotMine => go ks | _ => Ok x end end) items) with (go_items items a io).
      apply go_items_eq.
Qed.

Lemma exists_win_flat sp a ds t : In t (flats ds) -> Exists (in_win a) (own_win sp t) -> Exists (in_win a) (tree_win sp ds).
Proof.
  intros Ht HE. apply Exists_exists in HE. destruct HE as (w & Hw & Hin). apply Exists_exists. exists w. split; [|assumption].
  unfold tree_win. apply in_flat_map. eauto.
Qed.

Lemma route_hit sp a io ds : 0 <= a < 2^64 -> forall items lo hi, Forall2 rep items ds -> Forall good ds ->
  chain lo hi (flat_map (claim sp) ds) -> (forall d, In d (flats ds) -> sep sp a io d) ->
  forall t, In t (flats ds) -> Exists (in_win a) (own_win sp t) ->
  route_items items a io = Ok (let '(b, x, f) := d_id t in Taken b x f).
Proof.
  intros Ha. induction ds as [|b d f L ds IH|b d f L r k ds IHk IH] using trees_ind; intros items lo hi HR HG HC HS t Ht HE.
  - contradiction.
  - inversion HR as [|it ? items' ? R1 R2]; subst. inversion HG as [|? ? G1 G2]; subst. cbn [flat_map] in HC.
    apply chain_split in HC. destruct HC as (m & C1 & C2). unfold claim in C1. cbn [d_bridge] in C1. rewrite app_nil_r in C1.
    cbn [route_items].
    assert (S1 : sep sp a io (DEnd b d f L)) by (apply HS; rewrite flats_cons, flat_end; now left).
    rewrite flats_cons, flat_end in Ht. 
    destruct (route_step it _ a io sp R1 G1 S1 Ha) as [(E1 & E2)|(E1 & E2)].
    + rewrite E2. cbn [bind d_id]. destruct Ht as [<-|Ht]; [reflexivity|]. exfalso.
      pose proof (claims_chain sp ds m hi G2 C2) as HT.
      apply Exists_exists in E1. destruct E1 as (w & Hw & Hin). pose proof (chain_in _ _ _ _ C1 Hw).
      eapply chain_out; [exact HT| |eapply exists_win_flat; eauto]. left. unfold in_win in Hin. lia.
    + rewrite E2. cbn [bind]. destruct Ht as [<-|Ht]; [contradiction|]. eapply IH; eauto.
      intros x Hx. apply HS. rewrite flats_cons. apply in_app_iff. now right.
  - inversion HR as [|it ? items' ? R1 R2]; subst. inversion HG as [|? ? G1 G2]; subst. cbn [flat_map] in HC.
    apply chain_split in HC. destruct HC as (m & C1 & C2). unfold claim in C1. cbn [d_bridge] in C1.
    apply chain_split in C1. destruct C1 as (m1 & C3 & C4). cbn [chain] in C4.
    pose proof G1 as G1'. inversion G1'; subst.
    match goal with H : forall sp, chain _ _ (flat_map (claim sp) k) |- _ => pose proof (H sp) as Ck end.
    match goal with H : Forall good k |- _ => rename H into Gk end.
    pose proof (claims_chain sp k _ _ Gk Ck) as HTk. pose proof (claims_chain sp ds m hi G2 C2) as HT.
    cbn [route_items].
    set (D := DBr (br_pri r) d f L r k) in *.
    assert (S1 : sep sp a io D) by (apply HS; rewrite flats_cons; unfold D; rewrite flat_br; now left).
    rewrite flats_cons in Ht. unfold D in Ht at 1. rewrite flat_br in Ht. cbn [app] in Ht. fold D in Ht.
    destruct (route_step it _ a io sp R1 G1 S1 Ha) as [(E1 & E2)|(E1 & items2 & R3 & E2)].
    + rewrite E2. cbn [bind]. unfold D at 1. cbn [d_id]. destruct Ht as [<-|Ht]; [reflexivity|]. exfalso.
      apply Exists_exists in E1. destruct E1 as (w & Hw & Hin). pose proof (chain_in _ _ _ _ C3 Hw). unfold in_win in Hin.
      apply in_app_iff in Ht. destruct Ht as [Ht|Ht].
      * eapply chain_out; [exact HTk| |eapply exists_win_flat; eauto]. left. lia.
      * eapply chain_out; [exact HT| |eapply exists_win_flat; eauto]. left. lia.
    + rewrite E2. destruct Ht as [<-|Ht]; [contradiction|]. apply in_app_iff in Ht. destruct Ht as [Ht|Ht].
      * assert (HIn : Exists (in_win a) (tree_win sp k)) by (eapply exists_win_flat; eauto).
        assert (HR2 : win_base sp r <= a < win_limit sp r + 1).
        { apply Exists_exists in HIn. destruct HIn as (w & Hw & Hin). pose proof (chain_in _ _ _ _ HTk Hw). unfold in_win in Hin. lia. }
        replace ((win_base sp r <=? a) && (a <=? win_limit sp r)) with true by lia.
        rewrite (IHk items2 (win_base sp r) (win_limit sp r + 1) R3 Gk Ck) with (t := t); auto.
        -- cbn [bind]. destruct (d_id t) as [[? ?] ?]. reflexivity.
        -- intros x Hx. apply HS. rewrite flats_cons. unfold D. rewrite flat_br. right. apply in_app_iff. now left.
      * assert (HIn : Exists (in_win a) (tree_win sp ds)) by (eapply exists_win_flat; eauto).
        assert (HR2 : m <= a).
        { apply Exists_exists in HIn. destruct HIn as (w & Hw & Hin). pose proof (chain_in _ _ _ _ HT Hw). unfold in_win in Hin. lia. }
        replace ((win_base sp r <=? a) && (a <=? win_limit sp r)) with false by lia.
        cbn [bind]. eapply IH; eauto. intros x Hx. apply HS. rewrite flats_cons. apply in_app_iff. now right.
Qed.

Lemma route_miss sp a io ds : 0 <= a < 2^64 -> forall items, Forall2 rep items ds -> Forall good ds ->
  (forall d, In d (flats ds) -> sep sp a io d) -> ~ Exists (in_win a) (tree_win sp ds) -> route_items items a io = Ok Lost.
Proof.
  intros Ha. induction ds as [|b d f L ds IH|b d f L r k ds IHk IH] using trees_ind; intros items HR HG HS HE.
  - inversion HR; subst. reflexivity.
  - inversion HR as [|it ? items' ? R1 R2]; subst. inversion HG as [|? ? G1 G2]; subst. cbn [route_items].
    assert (S1 : sep sp a io (DEnd b d f L)) by (apply HS; rewrite flats_cons, flat_end; now left).
    destruct (route_step it _ a io sp R1 G1 S1 Ha) as [(E1 & E2)|(E1 & E2)].
    + exfalso. apply HE. rewrite tree_win_cons, flat_end. cbn [flat_map]. apply Exists_app. left. rewrite app_nil_r. exact E1.
    + rewrite E2. cbn [bind]. apply IH; auto.
      * intros x Hx. apply HS. rewrite flats_cons. apply in_app_iff. now right.
      * intros HH. apply HE. rewrite tree_win_cons. apply Exists_app. now right.
  - inversion HR as [|it ? items' ? R1 R2]; subst. inversion HG as [|? ? G1 G2]; subst. cbn [route_items].
    pose proof G1 as G1'. inversion G1'; subst. match goal with H : Forall good k |- _ => rename H into Gk end.
    set (D := DBr (br_pri r) d f L r k) in *.
    assert (S1 : sep sp a io D) by (apply HS; rewrite flats_cons; unfold D; rewrite flat_br; now left).
    destruct (route_step it _ a io sp R1 G1 S1 Ha) as [(E1 & E2)|(E1 & items2 & R3 & E2)].
    + exfalso. apply HE. rewrite tree_win_cons. apply Exists_app. left. unfold D. rewrite flat_br. cbn [flat_map]. apply Exists_app. left. exact E1.
    + rewrite E2. rewrite (IHk items2); auto.
      * destruct (_ && _); cbn [bind]; [reflexivity|]. apply IH; auto.
        -- intros x Hx. apply HS. rewrite flats_cons. apply in_app_iff. now right.
        -- intros HH. apply HE. rewrite tree_win_cons. apply Exists_app. now right.
      * intros x Hx. apply HS. rewrite flats_cons. unfold D. rewrite flat_br. right. apply in_app_iff. now left.
      * intros HH. apply HE. rewrite tree_win_cons. apply Exists_app. left. unfold D. rewrite flat_br. cbn [flat_map]. apply Exists_app. right. exact HH.
Qed.

Lemma flat_claims sp ds : forall lo hi, Forall good ds -> chain lo hi (flat_map (claim sp) ds) ->
  forall d, In d (flats ds) -> chain lo hi (claim sp d).
Proof.
  induction ds as [|b d f L ds IH|b d f L r k ds IHk IH] using trees_ind; intros lo hi HG HC x Hx.
  - contradiction.
  - inversion HG; subst. cbn [flat_map] in HC. apply chain_split in HC. destruct HC as (m & C1 & C2).
    rewrite flats_cons, flat_end in Hx. pose proof (chain_le _ _ _ C1). pose proof (chain_le _ _ _ C2). destruct Hx as [<-|Hx].
    + eapply chain_weak; eauto; lia.
    + eapply chain_weak; [eapply IH; eauto|lia|lia].
  - inversion HG as [|? ? G1 G2]; subst. cbn [flat_map] in HC. apply chain_split in HC. destruct HC as (m & C1 & C2).
    rewrite flats_cons, flat_br in Hx. pose proof (chain_le _ _ _ C1). pose proof (chain_le _ _ _ C2). destruct Hx as [<-|Hx].
    + eapply chain_weak; eauto; lia.
    + apply in_app_iff in Hx. destruct Hx as [Hx|Hx].
      * inversion G1; subst. unfold claim in C1. cbn [d_bridge] in C1. apply chain_split in C1. destruct C1 as (m1 & C3 & C4). cbn [chain] in C4.
        pose proof (chain_le _ _ _ C3).
        eapply chain_weak; [eapply IHk; eauto|lia|lia].
      * eapply chain_weak; [eapply IH; eauto|lia|lia].
Qed.

Lemma hits_exists L a io : hits L a io = true <-> Exists (fun e => bar_hit e a io = true) L.
Proof.
  unfold hits. rewrite existsb_exists, Exists_exists. reflexivity.
Qed.
Lemma own_exists sp a d : Exists (in_win a) (own_win sp d) <-> Exists (fun e => Exists (in_win a) (ent_win sp e)) (d_ents d).
Proof.
  unfold own_win. generalize (d_ents d). intros L. induction L as [|e L IH]; cbn [flat_map].
  - split; intros H; inversion H.
  - rewrite Exists_app, Exists_cons, IH. reflexivity.
Qed.
Lemma in_window_iff b k a : in_window b k a = true <-> in_win a (b, 2^k).
Proof. unfold in_window, in_win. cbn [fst snd]. lia. Qed.
Lemma Exists_iff {A} (P Q : A -> Prop) l : (forall x, In x l -> (P x <-> Q x)) -> (Exists P l <-> Exists Q l).
Proof. intros H. rewrite !Exists_exists. split; intros (x & Hx & Hp); exists x; (split; [assumption|]); apply H; assumption. Qed.
Lemma ex1 {A} (P : A -> Prop) x : Exists P [x] <-> P x.
Proof. split; [intros H; inversion H as [? ? Hp|? ? Hp]; subst; [assumption|inversion Hp]|intros; now constructor]. Qed.
Lemma ex0 {A} (P : A -> Prop) : Exists P [] <-> False.
Proof. split; [intros H; inversion H|tauto]. Qed.

Lemma sep_io a d : 0 <= a < 2^32 -> sep SIo a true d.
Proof.
  intros Ha. split.
  - rewrite hits_exists, own_exists. apply Exists_iff. intros e _. unfold bar_hit.
    destruct e as [|k b|k b p|k b p]; cbn [ent_win andb negb]; rewrite ?ex0, ?ex1; try (split; [discriminate|tauto]).
    rewrite Z.mod_small by assumption. apply in_window_iff.
  - intros r Er. reflexivity.
Qed.

Lemma own_in_claim sp d w : In w (own_win sp d) -> In w (claim sp d).
Proof. intros. unfold claim. apply in_app_iff. now left. Qed.

Lemma sep_mem a d lo hi : 0 <= a < 2^32 -> chain lo hi (claim SPf d) -> a < lo -> sep SMem a false d.
Proof.
  intros Ha HC Hlo. split.
  - rewrite hits_exists, own_exists. apply Exists_iff. intros e He. unfold bar_hit.
    destruct e as [|k b|k b p|k b p]; cbn [ent_win andb negb]; rewrite ?ex0, ?ex1; try (split; [discriminate|tauto]).
    + rewrite Z.mod_small by assumption. apply in_window_iff.
    + destruct p; rewrite ?ex0, ?ex1; [|apply in_window_iff].
      split; [|tauto]. intros H. apply in_window_iff in H.
      assert (HI : In (b, 2^k) (own_win SPf d)) by (unfold own_win; apply in_flat_map; exists (BMem64 k b true); split; [assumption|now left]).
      pose proof (chain_in _ _ _ _ HC (own_in_claim _ _ _ HI)) as H2. unfold in_win in H. cbn [fst snd] in *. lia.
  - intros r Er. cbn [win_base win_limit]. unfold in_mem_range.
    assert (HI : In (br_pf_base r, br_pf_limit r + 1 - br_pf_base r) (claim SPf d)).
    { unfold claim. rewrite Er. apply in_app_iff. right. now left. }
    pose proof (chain_in _ _ _ _ HC HI) as H2. cbn [fst snd] in H2.
    replace ((br_pf_base r <=? a) && (a <=? br_pf_limit r)) with false by lia. apply orb_false_r.
Qed.


Lemma sep_pf a d lo hi : chain lo hi (claim SMem d) -> hi <= a ->
  (forall k b p, In (BMem32 k b p) (d_ents d) -> ~ (b <= a mod 2^32 < b + 2^k)) -> sep SPf a false d.
Proof.
  intros HC Hhi HA. split.
  - rewrite hits_exists, own_exists. apply Exists_iff. intros e He. unfold bar_hit.
    destruct e as [|k b|k b p|k b p]; cbn [ent_win andb negb]; rewrite ?ex0, ?ex1; try (split; [discriminate|tauto]).
    + split; [|tauto]. intros H. apply in_window_iff in H. apply (HA k b p He). exact H.
    + destruct p; rewrite ?ex0, ?ex1; [apply in_window_iff|].
      split; [|tauto]. intros H. apply in_window_iff in H.
      assert (HI : In (b, 2^k) (own_win SMem d)) by (unfold own_win; apply in_flat_map; exists (BMem64 k b false); split; [assumption|now left]).
      pose proof (chain_in _ _ _ _ HC (own_in_claim _ _ _ HI)) as H2. unfold in_win in H. cbn [fst snd] in *. lia.
  - intros r Er. cbn [win_base win_limit]. unfold in_mem_range.
    assert (HI : In (br_mem_base r, br_mem_limit r + 1 - br_mem_base r) (claim SMem d)).
    { unfold claim. rewrite Er. apply in_app_iff. right. now left. }
    pose proof (chain_in _ _ _ _ HC HI) as H2. cbn [fst snd] in H2.
    replace ((br_mem_base r <=? a) && (a <=? br_mem_limit r)) with false by lia. reflexivity.
Qed.

(** * Top level *)
Definition enum_result (seg : list pfunc) (base s : limits) (items : list titem) (sub : Z) (ds : list dtree) : Prop :=
  Forall2 rep items ds /\ found seg 0 ds /\ Forall good ds /\ Forall (fun k => d_bus k = 0) ds /\
  (forall sp, chain (cur sp base) (cur sp s) (flat_map (claim sp) ds)) /\ chain 1 (sub + 1) (flat_map bclaim ds) /\ 0 <= sub <= 255.
Lemma enumerate_ok fuel seg base host n items s host' : Forall phys_ok seg -> positive base ->
  enumerate fuel seg base host = Ok (n, items, s, host') -> bounded s ->
  (exists ds, enum_result seg base s items (n_sub n) ds) /\
  (forall sp, win_base sp host' = cur sp base /\ win_limit sp host' = cur sp s).
Proof.
  intros Hp Hb H Hs. unfold enumerate in H. apply bind_ok in H. destruct H as ([[[n0 it0] s0] sub0] & H1 & H).
  injection H as -> -> -> <-.
  destruct (enum_seg_ok fuel seg 0 base n items s sub0 Hp ltac:(lia) Hb H1 Hs) as (ds & R1 & R2 & R3 & R4 & R5 & R6 & R7 & R8 & R9 & R10 & R11).
  split; [|intros []; split; reflexivity].
  exists ds. rewrite R9. unfold enum_result. split; [exact R1|]. split; [exact R2|]. split; [exact R3|]. split; [exact R4|].
  split; [|split; [exact R6|lia]]. intros sp. destruct (R11 sp) as (Q1 & Q2). rewrite <- Q2. eapply chain_weak; [apply R5|exact Q1|lia].
Qed.

Lemma route_root_in (host : bridge_regs) (a : Z) (items : list titem) (io : bool) : (if io then in_io_range host a else in_mem_range host a) = true ->
  forall x, route_items items a io = x -> route_root host items a io = x.
Proof. intros H x Hx. unfold route_root. rewrite H. exact Hx. Qed.

Lemma enum_windows fuel seg base host n items s host' : Forall phys_ok seg -> positive base ->
  enumerate fuel seg base host = Ok (n, items, s, host') -> bounded s ->
  exists ds, Forall2 rep items ds /\ found seg 0 ds /\
    (forall d, In d (flats ds) -> Forall bar_ok (d_ents d)) /\
    (forall sp, windows_ok sp ds /\ Forall (fun w => cur sp base <= fst w /\ fst w + snd w <= cur sp s) (tree_win sp ds)).
Proof.
  intros Hp Hb H Hs. destruct (enumerate_ok _ _ _ _ _ _ _ _ Hp Hb H Hs) as ((ds & R1 & R2 & R3 & R4 & R5 & R6 & R7) & _).
  exists ds. split; [exact R1|]. split; [exact R2|]. split; [|intros sp; apply good_windows; auto].
  intros d Hd. apply good_ents. eapply good_in; eauto.
Qed.
Lemma enum_delivery fuel seg base host n items s host' : Forall phys_ok seg -> positive base ->
  enumerate fuel seg base host = Ok (n, items, s, host') -> bounded s -> l_mem s <= l_pf base ->
  exists ds, Forall2 rep items ds /\ found seg 0 ds /\
    (forall sp a, match sp with SPf => no_alias a ds | _ => True end ->
     cur sp base <= a < cur sp s ->
     let io := match sp with SIo => true | _ => false end in
     (forall t b z, In t (flats ds) -> In (b, z) (own_win sp t) -> b <= a < b + z ->
        route_root host' items a io = Ok (let '(bus, dev, fn) := d_id t in Taken bus dev fn)) /\
     ((forall b z, In (b, z) (tree_win sp ds) -> ~ (b <= a < b + z)) -> route_root host' items a io = Ok Lost)).
Proof.
  intros Hp Hb H Hs Hmp. destruct (enumerate_ok _ _ _ _ _ _ _ _ Hp Hb H Hs) as ((ds & R1 & R2 & R3 & R4 & R5 & R6 & R7) & EW).
  exists ds. split; [exact R1|]. split; [exact R2|]. intros sp a HA Ha. cbv zeta.
  set (io := match sp with SIo => true | _ => false end).
  assert (Ha64 : 0 <= a < 2^64).
  { clear - Hs Ha Hb. unfold bounded, positive in *. destruct sp; cbn [cur] in Ha; lia. }
  assert (HS : forall d, In d (flats ds) -> sep sp a io d).
  { intros d Hd. subst io. destruct sp.
    - apply sep_io. clear - Hs Ha Hb. unfold bounded, positive in *. cbn [cur] in Ha. lia.
    - eapply sep_mem.
      + clear - Hs Ha Hb. unfold bounded, positive in *. cbn [cur] in Ha. lia.
      + eapply flat_claims; [exact R3|apply R5|exact Hd].
      + cbn [cur] in *. lia.
    - eapply sep_pf.
      + eapply flat_claims; [exact R3|apply R5|exact Hd].
      + cbn [cur] in *. lia.
      + intros k b p HI. eapply HA; eauto. }
  assert (HH : (if io then in_io_range host' a else in_mem_range host' a) = true).
  { pose proof (EW SIo) as (E1 & E2). pose proof (EW SMem) as (E3 & E4). pose proof (EW SPf) as (E5 & E6). cbn [win_base win_limit cur] in *.
    subst io. destruct sp; unfold in_io_range, in_mem_range; rewrite ?E1, ?E2, ?E3, ?E4, ?E5, ?E6; cbn [cur] in Ha; lia. }
  split.
  - intros t b z Ht Hw Hin. eapply route_root_in; [exact HH|]. eapply route_hit; eauto. apply Exists_exists. exists (b, z). split; assumption.
  - intros HN. eapply route_root_in; [exact HH|]. eapply route_miss; eauto. intros HE. apply Exists_exists in HE.
    destruct HE as ([b z] & Hw & Hin). exact (HN b z Hw Hin).
Qed.
