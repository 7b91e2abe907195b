(** Proofs for bus enumeration, part 3: the invariant of the recursive scan. *)
From Coq Require Import ZifyBool ZifyNat FinFun.
From Verif Require Import PyBase BitLemmas TlpModel TlpSpec TlpProofs BarModel BarSpec BarProofs AllocProofs EnumModel RouteModel EnumSpec EnumProofs1 EnumProofs2.
Ltac Zify.zify_post_hook ::= Z.div_mod_to_equations.

(** * Inversion of [bind] *)
Lemma bind_ok {A B} (r : result A) (k : A -> result B) y : bind r k = Ok y -> exists x, r = Ok x /\ k x = Ok y.
Proof. destruct r; cbn [bind]; [eauto|discriminate]. Qed.

(** * Cursors only move up *)
Definition le_lim (s s' : limits) : Prop := forall sp, cur sp s <= cur sp s'.
Lemma le_lim_refl s : le_lim s s. Proof. intros sp. lia. Qed.
Lemma le_lim_trans a b c : le_lim a b -> le_lim b c -> le_lim a c.
Proof. intros H1 H2 sp. specialize (H1 sp). specialize (H2 sp). lia. Qed.

Lemma land_le_r x m : 0 <= m -> 0 <= Z.land x m <= m.
Proof.
  intros Hm. split; [apply Z.land_nonneg; lia|].
  pose proof (Z.sub_nocarry_ldiff m (Z.land x m)) as E.
  assert (Z.ldiff (Z.land x m) m = 0) as H0.
  { apply Z.bits_inj'. intros i Hi. rewrite Z.ldiff_spec, Z.land_spec, Z.bits_0. destruct (Z.testbit x i), (Z.testbit m i); reflexivity. }
  specialize (E H0). assert (0 <= Z.ldiff m (Z.land x m)) by (apply Z.ldiff_nonneg; lia). lia.
Qed.
Lemma align_ge x m : 0 <= m -> x <= align x m.
Proof.
  intros Hm. unfold align. pose proof (land_le_r x m Hm). destruct (negb _); lia.
Qed.
Lemma lor_land_nonneg a b c : 0 <= b -> 0 <= c -> 0 <= Z.lor (Z.land a b) c.
Proof. intros. apply Z.lor_nonneg. split; [apply Z.land_nonneg; lia|lia]. Qed.

Lemma bar_loop_mono fuel : forall (bridge : bool) bar cnt br s br' ti s',
  bar_loop fuel bridge bar cnt br s = Ok (br', ti, s') -> le_lim s s'.
Proof.
  induction fuel as [|fuel IH]; intros bridge bar cnt br s br' ti s' H; cbn [bar_loop] in H.
  - destruct (bar <? cnt); [discriminate|]. injection H as <- <- <-. apply le_lim_refl.
  - destruct (bar <? cnt); [|injection H as <- <- <-; apply le_lim_refl].
    apply bind_ok in H. destruct H as (b1 & _ & H).
    destruct (_ =? 0); [eapply IH; exact H|].
    destruct (negb (_ =? 0)).
    { apply bind_ok in H. destruct H as (b2 & _ & H). apply bind_ok in H. destruct H as ([[b3 t3] s3] & H3 & H). injection H as <- <- <-.
      apply IH in H3. eapply le_lim_trans; [|exact H3]. intros sp.
      match goal with |- context[align ?x ?m] => pose proof (align_ge x m ltac:(apply lor_land_nonneg; lia));
        assert (0 <= m) by (apply lor_land_nonneg; lia) end.
      destruct sp; cbn [cur l_io l_mem l_pf]; lia. }
    destruct (negb (_ =? 0)).
    { destruct (_ >=? _); [discriminate|]. apply bind_ok in H. destruct H as (b2 & _ & H).
      destruct (negb (Z.land (Z.lor _ _) 8 =? 0)).
      all: apply bind_ok in H; destruct H as (b3 & _ & H); apply bind_ok in H; destruct H as (b4 & _ & H);
        apply bind_ok in H; destruct H as ([[b5 t5] s5] & H5 & H); injection H as <- <- <-;
        apply IH in H5; eapply le_lim_trans; [|exact H5]; intros sp;
        match goal with |- context[align ?x ?m] => pose proof (align_ge x m ltac:(apply lor_land_nonneg; lia));
        assert (0 <= m) by (apply lor_land_nonneg; lia) end;
        destruct sp; cbn [cur l_io l_mem l_pf]; lia. }
    apply bind_ok in H. destruct H as (b2 & _ & H). apply bind_ok in H. destruct H as ([[b3 t3] s3] & H3 & H). injection H as <- <- <-.
    apply IH in H3. eapply le_lim_trans; [|exact H3]. intros sp.
    match goal with |- context[align ?x ?m] => pose proof (align_ge x m ltac:(apply lor_land_nonneg; lia));
      assert (0 <= m) by (apply lor_land_nonneg; lia) end.
    destruct sp; cbn [cur l_io l_mem l_pf]; lia.
Qed.

Lemma align_limits_mono s : le_lim s (align_limits s).
Proof. intros []; cbn [cur align_limits l_io l_mem l_pf]; apply align_ge; lia. Qed.

Lemma enum_funcs_mono rec fs :
  (forall seg bus s n k s' sub, rec seg bus s = Ok (n, k, s', sub) -> le_lim s s') ->
  forall bus sec sub s items s' sub', enum_funcs rec fs bus sec sub s = Ok (items, s', sub') -> le_lim s s'.
Proof.
  intros Hrec. induction fs as [|[d f hdr b r below] fs IH]; intros bus sec sub s items s' sub' H; cbn [enum_funcs] in H.
  - injection H as <- <- <-. apply le_lim_refl.
  - apply bind_ok in H. destruct H as ([[br ti] s1] & H1 & H). apply bar_loop_mono in H1.
    destruct (Z.land hdr 127 =? 1).
    + apply bind_ok in H. destruct H as (dd & _ & H). apply bind_ok in H. destruct H as (br2 & _ & H).
      apply bind_ok in H. destruct H as ([[[n k] s2] sub2] & H2 & H). apply Hrec in H2.
      apply bind_ok in H. destruct H as (br3 & _ & H). apply bind_ok in H. destruct H as ([[it s3] sub3] & H3 & H).
      injection H as <- <- <-. apply IH in H3. eauto using le_lim_trans.
    + apply bind_ok in H. destruct H as ([[it s3] sub3] & H3 & H).
      injection H as <- <- <-. apply IH in H3. eauto using le_lim_trans.
Qed.
Lemma enum_seg_mono fuel : forall seg bus s n k s' sub, enum_seg fuel seg bus s = Ok (n, k, s', sub) -> le_lim s s'.
Proof.
  induction fuel as [|fuel IH]; intros seg bus s n k s' sub H; cbn [enum_seg] in H; [discriminate|].
  apply bind_ok in H. destruct H as ([[it s1] sub1] & H1 & H). injection H as <- <- <- <-.
  apply (enum_funcs_mono _ _ IH) in H1. eapply le_lim_trans; [apply align_limits_mono|]. eapply le_lim_trans; [exact H1|]. apply align_limits_mono.
Qed.

(** * The scan of a segment *)
Definition key (p : pfunc) : Z * Z := (p_dev p, p_fn p).
Lemma find_func_some seg d f p : find_func seg d f = Some p -> In p seg /\ p_dev p = d /\ p_fn p = f.
Proof. unfold find_func. intros H. apply find_some in H. destruct H as (H1 & H2). split; [exact H1|]. lia. Qed.
Lemma in_scan_dev seg d fc p : 0 <= fc -> In p (scan_dev seg d fc) <-> exists f, 0 <= f < fc /\ find_func seg d f = Some p.
Proof.
  intros Hfc. unfold scan_dev. rewrite in_flat_map. split.
  - intros (x & Hx & Hp). apply in_seq in Hx. exists (Z.of_nat x). split; [lia|]. destruct (find_func seg d (Z.of_nat x)) as [q|]; [|contradiction].
    destruct Hp as [->|[]]. reflexivity.
  - intros (f & Hf & Hp). exists (Z.to_nat f). split; [apply in_seq; lia|]. rewrite Z2Nat.id by lia. rewrite Hp. now left.
Qed.
Lemma multi_bit h : negb (Z.land h 0x80 =? 0) = Z.testbit h 7.
Proof.
  change 0x80 with (2^7). destruct (Z.testbit h 7) eqn:E.
  - assert (Z.land h (2^7) <> 0); [|lia]. intros H0. assert (Z.testbit (Z.land h (2^7)) 7 = true) as H.
    { rewrite Z.land_spec, E, Z.pow2_bits_true by lia. reflexivity. }
    rewrite H0, Z.bits_0 in H. discriminate.
  - assert (Z.land h (2^7) = 0) as ->; [|reflexivity]. apply Z.bits_inj'. intros i Hi. rewrite Z.land_spec, Z.bits_0.
    destruct (Z.eq_dec i 7) as [->|]; [rewrite E; reflexivity|]. rewrite Z.pow2_bits_false by lia. apply andb_false_r.
Qed.
Lemma in_scan seg bus p : In p (scan seg bus) <-> exists d f, visible seg bus d f /\ find_func seg d f = Some p.
Proof.
  unfold scan. rewrite in_flat_map. split.
  - intros (x & Hx & Hp). apply in_seq in Hx. cbv zeta in Hp. destruct ((bus =? 0) && (Z.of_nat x =? 0)) eqn:E; [contradiction|].
    destruct (find_func seg (Z.of_nat x) 0) as [p0|] eqn:E0; [|contradiction].
    rewrite multi_bit in Hp. apply in_scan_dev in Hp; [|destruct (Z.testbit _ _); lia]. destruct Hp as (f & Hf & Hp).
    exists (Z.of_nat x), f. split; [|exact Hp]. split; [lia|]. split; [lia|]. exists p0. split; [exact E0|].
    destruct (Z.testbit (p_hdr p0) 7) eqn:E7; lia.
  - intros (d & f & (Hd & Hn & p0 & E0 & Hf) & Hp). exists (Z.to_nat d). split; [apply in_seq; lia|]. cbv zeta. rewrite Z2Nat.id by lia.
    replace ((bus =? 0) && (d =? 0)) with false by lia. rewrite E0, multi_bit. 
    destruct (Z.testbit (p_hdr p0) 7) eqn:E7; apply in_scan_dev; try lia; exists f; (split; [|exact Hp]).
    + lia.
    + destruct Hf as [|[_ Hf]]; [lia|discriminate].
Qed.

Lemma NoDup_app {A} (l1 l2 : list A) : NoDup l1 -> NoDup l2 -> (forall x, In x l1 -> In x l2 -> False) -> NoDup (l1 ++ l2).
Proof.
  induction l1 as [|a l1 IH]; intros H1 H2 H; cbn [app]; [exact H2|].
  inversion H1; subst. constructor.
  - rewrite in_app_iff. intros [|]; [contradiction|]. eapply H; [now left|eassumption].
  - apply IH; auto. intros x Hx Hy. eapply H; [right; exact Hx|exact Hy].
Qed.
Lemma NoDup_flat_map {A B} (g : A -> list B) l : NoDup l -> (forall x, In x l -> NoDup (g x)) ->
  (forall x y b, In x l -> In y l -> In b (g x) -> In b (g y) -> x = y) -> NoDup (flat_map g l).
Proof.
  induction l as [|a l IH]; intros H1 H2 H3; cbn [flat_map]; [constructor|].
  inversion H1; subst. apply NoDup_app.
  - apply H2. now left.
  - apply IH; auto; [intros; apply H2; now right|]. intros x y b Hx Hy. apply H3; now right.
  - intros b Hb Hb2. apply in_flat_map in Hb2. destruct Hb2 as (y & Hy & Hb2).
    assert (a = y) by (apply (H3 a y b); auto; [now left|now right]). subst. contradiction.
Qed.
Lemma map_flat_map {A B C} (h : B -> C) (g : A -> list B) l : map h (flat_map g l) = flat_map (fun x => map h (g x)) l.
Proof. induction l; cbn [flat_map map]; [reflexivity|]. rewrite map_app. congruence. Qed.

Lemma scan_dev_nodup seg d fc : NoDup (map key (scan_dev seg d fc)).
Proof.
  unfold scan_dev. rewrite map_flat_map. apply NoDup_flat_map; [apply seq_NoDup| |].
  - intros x _. destruct (find_func _ _ _); cbn [map]; repeat constructor; auto.
  - intros x y b _ _ Hx Hy.
    destruct (find_func seg d (Z.of_nat x)) as [p|] eqn:E1; [|contradiction]. apply find_func_some in E1.
    destruct (find_func seg d (Z.of_nat y)) as [q|] eqn:E2; [|contradiction]. apply find_func_some in E2.
    destruct Hx as [<-|[]], Hy as [Hy|[]]. unfold key in Hy. injection Hy as H1 H2. lia.
Qed.
Lemma scan_dev_key seg d fc b : In b (map key (scan_dev seg d fc)) -> fst b = d.
Proof.
  intros H. apply in_map_iff in H. destruct H as (p & <- & H). unfold scan_dev in H. apply in_flat_map in H. destruct H as (x & _ & H).
  destruct (find_func seg d (Z.of_nat x)) as [q|] eqn:E; [|contradiction]. apply find_func_some in E. destruct H as [->|[]]. unfold key; cbn. tauto.
Qed.
Lemma scan_nodup seg bus : NoDup (map key (scan seg bus)).
Proof.
  unfold scan. rewrite map_flat_map. apply NoDup_flat_map; [apply seq_NoDup| |].
  - intros x _. cbv zeta. destruct (_ && _); [constructor|]. destruct (find_func _ _ _); [|constructor]. apply scan_dev_nodup.
  - intros x y b _ _ Hx Hy. cbv zeta in *.
    destruct ((bus =? 0) && (Z.of_nat x =? 0)); [contradiction|]. destruct ((bus =? 0) && (Z.of_nat y =? 0)); [contradiction|].
    destruct (find_func seg (Z.of_nat x) 0); [|contradiction]. destruct (find_func seg (Z.of_nat y) 0); [|contradiction].
    apply scan_dev_key in Hx. apply scan_dev_key in Hy. lia.
Qed.

(** * The invariant *)
Definition claim (sp : space) (d : dtree) : list (Z * Z) :=
  own_win sp d ++ match d_bridge d with Some r => [(win_base sp r, win_limit sp r + 1 - win_base sp r)] | None => [] end.
Definition bclaim (d : dtree) : list (Z * Z) :=
  match d_bridge d with Some r => [(br_sec r, br_sub r + 1 - br_sec r)] | None => [] end.

Inductive good : dtree -> Prop :=
| good_end bus d f L : Forall bar_ok L -> slots L = 6 -> good (DEnd bus d f L)
| good_br bus d f L r kids : Forall bar_ok L -> slots L = 2 -> br_pri r = bus -> bus < br_sec r <= br_sub r -> br_sub r <= 255 ->
    (forall sp, chain (win_base sp r) (win_limit sp r + 1) (flat_map (claim sp) kids)) ->
    chain (br_sec r + 1) (br_sub r + 1) (flat_map bclaim kids) ->
    Forall (fun k => d_bus k = br_sec r) kids -> Forall good kids ->
    (0 <= br_io_base r /\ br_io_limit r < 2^32 - 1 /\ 0 <= br_mem_base r /\ br_mem_limit r < 2^32 - 1 /\ 0 <= br_pf_base r /\ br_pf_limit r < 2^64 - 1) ->
    good (DBr bus d f L r kids).

Definition nbase (sp : space) (n : node) : Z := match sp with SIo => n_io_base n | SMem => n_mem_base n | SPf => n_pf_base n end.
Definition nlimit (sp : space) (n : node) : Z := match sp with SIo => n_io_limit n | SMem => n_mem_limit n | SPf => n_pf_limit n end.

Lemma positive_up s s' : positive s -> le_lim s s' -> positive s'.
Proof. intros (A & B & C) H. pose proof (H SIo). pose proof (H SMem). pose proof (H SPf). cbn [cur] in *. unfold positive. lia. Qed.
Lemma bounded_down s s' : bounded s' -> le_lim s s' -> bounded s.
Proof. intros (A & B & C) H. pose proof (H SIo). pose proof (H SMem). pose proof (H SPf). cbn [cur] in *. unfold bounded. lia. Qed.

Definition fun_result (bus : Z) (p : pfunc) (d : dtree) : Prop := found_fun p d /\ d_id d = (bus, p_dev p, p_fn p).

Definition seg_spec (rec : list pfunc -> Z -> limits -> result (node * list titem * limits * Z)) : Prop :=
  forall seg bus s n items s' sub, Forall phys_ok seg -> 0 <= bus <= 255 -> positive s ->
  rec seg bus s = Ok (n, items, s', sub) -> bounded s' ->
  exists ds, Forall2 rep items ds /\ found seg bus ds /\ Forall good ds /\ Forall (fun k => d_bus k = bus) ds /\
    (forall sp, chain (nbase sp n) (nlimit sp n + 1) (flat_map (claim sp) ds)) /\
    chain (bus + 1) (sub + 1) (flat_map bclaim ds) /\ bus <= sub <= 255 /\ n_sec n = bus /\ n_sub n = sub /\ node_range n /\
    (forall sp, cur sp s <= nbase sp n /\ nlimit sp n + 1 = cur sp s').

Lemma hdr_bridge hdr : (Z.land hdr 0x7f =? 0x01) = is_bridge_hdr hdr.
Proof. unfold is_bridge_hdr. change 0x7f with (Z.ones 7). rewrite Z.land_ones by lia. reflexivity. Qed.

Lemma slots_len L : (length L <= Z.to_nat (slots L))%nat.
Proof. induction L as [|e L IH]; [reflexivity|]. rewrite slots_cons. pose proof (slots_nonneg L). destruct e; cbn [length bar_slots]; lia. Qed.

Lemma with_bus_ok r p s u : br_ok r -> is_byte p -> is_byte s -> is_byte u -> br_ok (with_bus r p s u).
Proof. unfold br_ok, with_bus; cbn [br_pri br_sec br_sub br_sec_lat br_io_base br_io_limit br_sec_status br_mem_base br_mem_limit br_pf_base br_pf_limit]. tauto. Qed.

Lemma bus_bytes_ok a b c x : bus_bytes a b c = Ok x -> x = [a; b; c] /\ is_byte a /\ is_byte b /\ is_byte c.
Proof.
  unfold bus_bytes, is_byteb. destruct (_ && _ && _) eqn:E; [|discriminate]. intros H. injection H as <-. unfold is_byte. 
  repeat split; lia.
Qed.

Lemma shapes_slots L L' : map bar_shape L' = map bar_shape L -> slots L' = slots L.
Proof.
  revert L'. induction L as [|e L IH]; intros [|e' L'] H; cbn [map] in H; try discriminate; [reflexivity|].
  injection H as H1 H2. rewrite !slots_cons, (IH L' H2). f_equal. destruct e, e'; cbn in *; congruence.
Qed.

Lemma enum_funcs_ok rec : seg_spec rec -> (forall seg bus s n k s' sub, rec seg bus s = Ok (n, k, s', sub) -> le_lim s s') ->
  forall fs bus sub s items s' sub', Forall phys_ok fs -> 0 <= bus <= sub -> sub <= 255 -> positive s ->
  enum_funcs rec fs bus (sub + 1) sub s = Ok (items, s', sub') -> bounded s' ->
  exists ds, Forall2 rep items ds /\ Forall2 (fun_result bus) fs ds /\ Forall good ds /\
    (forall sp, chain (cur sp s) (cur sp s') (flat_map (claim sp) ds)) /\
    chain (sub + 1) (sub' + 1) (flat_map bclaim ds) /\ sub <= sub' <= 255.
Proof.
  intros Hrec Hmono. induction fs as [|p fs IH]; intros bus sub s items s' sub' Hp Hbus Hsub Hs H Hs'.
  - cbn [enum_funcs] in H. injection H as <- <- <-. exists []. split; [constructor|]. split; [constructor|]. split; [constructor|].
    split; [intros []; cbn; lia|]. cbn. lia.
  - inversion Hp as [|? ? Hp1 Hp2]; subst. inversion Hp1 as [d f hdr L r below HL HLs Hr Hbelow]; subst. cbn [enum_funcs] in H.
    rewrite hdr_bridge in H.
    set (bridge := is_bridge_hdr hdr) in *.
    apply bind_ok in H. destruct H as ([[br ti] s1] & H1 & H).
    pose proof (bar_loop_mono _ _ _ _ _ _ _ _ _ H1) as M1.
    assert (M2 : le_lim s1 s').
    { destruct bridge.
      - apply bind_ok in H. destruct H as (dd & _ & H). apply bind_ok in H. destruct H as (br2 & _ & H).
        apply bind_ok in H. destruct H as ([[[n k] s2] sub2] & H2 & H). apply Hmono in H2.
        apply bind_ok in H. destruct H as (br3 & _ & H). apply bind_ok in H. destruct H as ([[it s3] sub3] & H3 & H).
        injection H as <- <- <-. apply (enum_funcs_mono _ _ Hmono) in H3. eauto using le_lim_trans.
      - apply bind_ok in H. destruct H as ([[it s3] sub3] & H3 & H).
        injection H as <- <- <-. apply (enum_funcs_mono _ _ Hmono) in H3. exact H3. }
    pose proof (bounded_down _ _ Hs' M2) as Hs1. pose proof (positive_up _ _ Hs M1) as Ps1.
    destruct (bar_loop_ok L 6 [] bridge r s br ti s1) as (L' & -> & ES & HL' & Eti & HC); auto.
    { pose proof (slots_len L) as HH. rewrite HLs in HH. destruct bridge; lia. }
    { clear - Hs. unfold positive in Hs. unfold nonneg. lia. }
    { cbn [app]. rewrite HLs. exact H1. }
    { clear - Hs1. unfold bounded in Hs1. lia. }
    { clear - Hs1. unfold bounded in Hs1. lia. }
    cbn [app] in H. change (slots []) with 0 in Eti. subst ti.
    pose proof (shapes_slots _ _ ES) as ESL. rewrite HLs in ESL.
    destruct bridge eqn:EB; fold bridge in EB.
    + apply bind_ok in H. destruct H as (dd & Hdd & H). apply bus_bytes_ok in Hdd. destruct Hdd as (-> & Bb & Bs & B255).
      rewrite write_bus in H by (try assumption; unfold br_ok in Hr; tauto).
      cbn [bind] in H.
      apply bind_ok in H. destruct H as ([[[n kids] s2] sub2] & H2 & H).
      apply bind_ok in H. destruct H as (br3 & Hbr3 & H). apply bind_ok in H. destruct H as ([[it s3] sub3] & H3 & H).
      injection H as <- <- <-.
      pose proof (Hmono _ _ _ _ _ _ _ H2) as M3. pose proof (enum_funcs_mono _ _ Hmono _ _ _ _ _ _ _ H3) as M4.
      pose proof (bounded_down _ _ Hs' M4) as Hs2. pose proof (positive_up _ _ Ps1 M3) as Ps2.
      destruct (Hrec below (sub + 1) s1 n kids s2 sub2 Hbelow ltac:(unfold is_byte in Bs; lia) Ps1 H2 Hs2)
        as (ks & R1 & R2 & R3 & R4 & R5 & R6 & R7 & R8 & R9 & R10 & R11).
      rewrite program_ok in Hbr3; [|apply with_bus_ok; assumption|assumption|assumption|unfold is_byte in *; lia|exact R10].
      injection Hbr3 as <-. cbn [fst snd].
      destruct (IH bus sub2 s2 it s3 sub3) as (ds & I1 & I2 & I3 & I4 & I5 & I6); auto; [lia|lia|].
      set (r' := mkBr bus (sub + 1) sub2 _ _ _ _ _ _ _ _).
      exists (DBr bus d f L' r' ks :: ds).
      split. { constructor; [|exact I1]. constructor; [|exact R1]. unfold node_of, r'. cbn [br_pri br_sec br_sub br_sec_lat br_io_base br_io_limit br_sec_status br_mem_base br_mem_limit br_pf_base br_pf_limit]. tauto. }
      split. { constructor; [|exact I2]. split; [|reflexivity]. apply found_br; auto. }
      assert (EW : forall sp, win_base sp r' = nbase sp n /\ win_limit sp r' = nlimit sp n) by (intros []; split; reflexivity).
      split. { constructor; [|exact I3]. assert (bus < br_sec r' <= br_sub r' /\ br_sub r' <= 255) as (QA & QB) by (unfold r'; cbn [br_sec br_sub]; lia).
        assert (QQ : forall sp, chain (win_base sp r') (win_limit sp r' + 1) (flat_map (claim sp) ks)); [|constructor; auto].
        - intros sp. destruct (EW sp) as [-> ->]. apply R5.
        - pose proof (R11 SIo) as Q1. pose proof (R11 SMem) as Q2. pose proof (R11 SPf) as Q3. cbn [nbase nlimit cur] in Q1, Q2, Q3.
          clear - Q1 Q2 Q3 Hs2 Ps1. unfold bounded, positive in *. unfold r'. cbn [br_io_base br_io_limit br_mem_base br_mem_limit br_pf_base br_pf_limit]. lia. }
      split. { intros sp. cbn [flat_map]. eapply chain_app; [|apply I4]. unfold claim, own_win. cbn [d_ents d_bridge].
        destruct (EW sp) as [-> ->]. destruct (R11 sp) as (Q1 & Q2). eapply chain_app; [apply HC|].
        cbn [chain]. pose proof (chain_le _ _ _ (R5 sp)). lia. }
      split. { cbn [flat_map]. unfold bclaim at 1. cbn [d_bridge app chain r' br_sec br_sub]. split; [lia|]. split; [lia|].
        replace (sub + 1 + (sub2 + 1 - (sub + 1))) with (sub2 + 1) by lia. exact I5. }
      lia.
    + apply bind_ok in H. destruct H as ([[it s3] sub3] & H3 & H).
      injection H as <- <- <-. cbn [fst snd].
      destruct (IH bus sub s1 it s3 sub3) as (ds & I1 & I2 & I3 & I4 & I5 & I6); auto.
      exists (DEnd bus d f L' :: ds).
      split. { constructor; [|exact I1]. constructor. }
      split. { constructor; [|exact I2]. split; [|reflexivity]. apply found_end; auto. }
      split. { constructor; [|exact I3]. constructor; auto. }
      split. { intros sp. cbn [flat_map]. eapply chain_app; [|apply I4]. unfold claim, own_win. cbn [d_ents d_bridge]. rewrite app_nil_r. apply HC. }
      split. { cbn [flat_map]. unfold bclaim at 1. cbn [d_bridge app]. exact I5. }
      lia.
Qed.

Lemma Forall2_in_l {A B} (R : A -> B -> Prop) l1 l2 x : Forall2 R l1 l2 -> In x l1 -> exists y, In y l2 /\ R x y.
Proof. induction 1; intros []; subst; [eexists; split; [now left|eassumption]|]. destruct IHForall2 as (z & ? & ?); auto. exists z. split; [now right|assumption]. Qed.
Lemma Forall2_in_r {A B} (R : A -> B -> Prop) l1 l2 y : Forall2 R l1 l2 -> In y l2 -> exists x, In x l1 /\ R x y.
Proof. induction 1; intros []; subst; [eexists; split; [now left|eassumption]|]. destruct IHForall2 as (z & ? & ?); auto. exists z. split; [now right|assumption]. Qed.

Lemma found_of_scan seg bus ds : Forall2 (fun_result bus) (scan seg bus) ds -> found seg bus ds.
Proof.
  intros H. constructor.
  - intros d f p Hv Hp. assert (HI : In p (scan seg bus)) by (apply in_scan; eauto).
    destruct (Forall2_in_l _ _ _ _ H HI) as (x & Hx & Hf & Hid). exists x. apply find_func_some in Hp. destruct Hp as (_ & <- & <-). auto.
  - assert (map d_id ds = map (fun k => (bus, fst k, snd k)) (map key (scan seg bus))) as ->.
    { clear - H. induction H as [|p d ps ds [_ Hid] _ IH]; [reflexivity|]. cbn [map]. rewrite Hid, IH. reflexivity. }
    apply Injective_map_NoDup; [|apply scan_nodup]. intros [a b] [c e] E. cbn in E. congruence.
  - intros x Hx. destruct (Forall2_in_r _ _ _ _ H Hx) as (p & Hp & Hf & Hid). apply in_scan in Hp. destruct Hp as (d & f & Hv & Hp).
    exists d, f, p. split; [exact Hv|]. split; [exact Hp|]. split; [|exact Hf]. apply find_func_some in Hp. destruct Hp as (_ & <- & <-). exact Hid.
Qed.
Lemma align_limits_mod s : l_io (align_limits s) mod 2^12 = 0 /\ l_mem (align_limits s) mod 2^20 = 0 /\ l_pf (align_limits s) mod 2^20 = 0.
Proof.
  unfold align_limits. cbn [l_io l_mem l_pf]. change 0xfff with (2^12 - 1). change 0xfffff with (2^20 - 1).
  split; [|split]; apply align_pow2; lia.
Qed.

Lemma enum_seg_ok fuel : seg_spec (enum_seg fuel).
Proof.
  induction fuel as [|fuel IH]; intros seg bus s n items s' sub Hp Hb Hs H Hs'; cbn [enum_seg] in H; [discriminate|].
  apply bind_ok in H. destruct H as ([[it s1] sub1] & H1 & H).
  match type of H with Ok (?a, _, _, _) = _ => remember a as nn eqn:En end. injection H as <- <- <- <-.
  pose proof (align_limits_mono s) as M1. pose proof (enum_funcs_mono _ _ (enum_seg_mono fuel) _ _ _ _ _ _ _ H1) as M2.
  pose proof (align_limits_mono s1) as M3.
  pose proof (bounded_down _ _ Hs' M3) as B1. pose proof (bounded_down _ _ B1 M2) as B0. pose proof (positive_up _ _ Hs M1) as P0.
  destruct (enum_funcs_ok _ IH (enum_seg_mono fuel) (scan seg bus) bus bus (align_limits s) it s1 sub1) as (ds & I1 & I2 & I3 & I4 & I5 & I6); auto; [|lia|lia|].
  { apply Forall_forall. intros p Hin. apply in_scan in Hin. destruct Hin as (d & f & _ & Hf). apply find_func_some in Hf.
    rewrite Forall_forall in Hp. apply Hp. tauto. }
  exists ds. split; [exact I1|]. split; [apply found_of_scan; exact I2|]. split; [exact I3|].
  split. { apply Forall_forall. intros x Hx. destruct (Forall2_in_r _ _ _ _ I2 Hx) as (p & _ & _ & Hid). clear - Hid. destruct x; cbn in *; congruence. }
  assert (HC : forall sp, nbase sp nn = cur sp (align_limits s) /\ nlimit sp nn + 1 = cur sp (align_limits s1)).
  { rewrite En. intros []; cbn [nbase nlimit cur n_io_base n_io_limit n_mem_base n_mem_limit n_pf_base n_pf_limit]; lia. }
  split. { intros sp. destruct (HC sp) as [-> ->]. eapply chain_weak; [apply I4|lia|apply M3]. }
  split; [exact I5|]. split; [lia|]. split; [rewrite En; reflexivity|]. split; [rewrite En; reflexivity|].
  split.
  { rewrite En. unfold node_range. cbn [n_io_base n_io_limit n_mem_base n_mem_limit n_pf_base n_pf_limit].
    pose proof (align_limits_mod s) as (A1 & A2 & A3). pose proof (align_limits_mod s1) as (A4 & A5 & A6).
    pose proof (positive_up _ _ P0 M2) as P1. pose proof (positive_up _ _ P1 M3) as P2.
    replace (l_io (align_limits s1) - 1 + 1) with (l_io (align_limits s1)) by lia.
    replace (l_mem (align_limits s1) - 1 + 1) with (l_mem (align_limits s1)) by lia.
    replace (l_pf (align_limits s1) - 1 + 1) with (l_pf (align_limits s1)) by lia.
    set (x0 := align_limits s) in *. set (x1 := align_limits s1) in *. clearbody x0 x1.
    unfold bounded, positive in *. clear - A1 A2 A3 A4 A5 A6 P0 P2 B0 Hs'.
    destruct P0 as (? & ? & ?), P2 as (? & ? & ?), B0 as (? & ? & ?), Hs' as (? & ? & ?).
    repeat split; try assumption; try (clear A1 A2 A3 A4 A5 A6; lia). }
  intros sp. destruct (HC sp) as [-> ->]. split; [apply M1|reflexivity].
Qed.
