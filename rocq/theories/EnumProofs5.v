(** Proofs for bus enumeration, part 5: bus numbers, for arbitrary trees. *)
From Coq Require Import ZifyBool ZifyNat FinFun.
From Verif Require Import PyBase BitLemmas TlpModel TlpSpec TlpProofs BarModel BarSpec BarProofs AllocProofs EnumModel RouteModel EnumSpec EnumProofs1 EnumProofs2 EnumProofs3 EnumProofs4.
Ltac Zify.zify_post_hook ::= Z.div_mod_to_equations.

Inductive bgood : dtree -> Prop :=
| bgood_end bus d f L : bgood (DEnd bus d f L)
| bgood_br bus d f L r kids : br_pri r = bus -> bus < br_sec r <= br_sub r -> br_sub r <= 255 ->
    chain (br_sec r + 1) (br_sub r + 1) (flat_map bclaim kids) ->
    Forall (fun k => d_bus k = br_sec r) kids -> Forall bgood kids ->
    bgood (DBr bus d f L r kids).
Lemma bgood_in ds : Forall bgood ds -> forall d, In d (flats ds) -> bgood d.
Proof.
  induction ds as [|b d f L ds IH|b d f L r k ds IHk IH] using trees_ind; intros HG x Hx.
  - contradiction.
  - inversion HG; subst. rewrite flats_cons, flat_end in Hx. destruct Hx as [<-|Hx]; auto.
  - inversion HG as [|? ? G1 G2]; subst. rewrite flats_cons, flat_br in Hx. destruct Hx as [<-|Hx]; [assumption|].
    apply in_app_iff in Hx. destruct Hx as [Hx|Hx]; [|auto]. apply IHk; auto. now inversion G1.
Qed.

(** * Bus numbers *)
Lemma secs_cons d ds : secs (d :: ds) = flat_map (fun x => match d_bridge x with Some r => [br_sec r] | None => [] end) (flat d) ++ secs ds.
Proof. unfold secs. rewrite flats_cons, flat_map_app. reflexivity. Qed.
Lemma secs_chain ds : forall lo hi, Forall bgood ds -> chain lo hi (flat_map bclaim ds) -> chain lo hi (map (fun b => (b, 1)) (secs ds)).
Proof.
  induction ds as [|b d f L ds IH|b d f L r k ds IHk IH] using trees_ind; intros lo hi HG HC.
  - exact HC.
  - inversion HG; subst. rewrite secs_cons, flat_end. cbn [flat_map d_bridge app]. apply IH; auto.
  - cbn [flat_map] in HC. apply chain_split in HC. destruct HC as (m & C1 & C2). inversion HG as [|? ? G1 G2]; subst.
    rewrite secs_cons, flat_br. cbn [flat_map d_bridge app map]. fold (secs k).
    unfold bclaim in C1. cbn [d_bridge chain] in C1. inversion G1; subst.
    cbn [chain]. split; [lia|]. split; [lia|]. rewrite map_app. eapply chain_app.
    + apply IHk; [assumption|eassumption].
    + eapply chain_weak; [apply IH; eauto|lia|lia].
Qed.
Lemma chain_unit_nodup l lo hi : chain lo hi (map (fun b => (b, 1)) l) -> NoDup l /\ Forall (fun b => lo <= b < hi) l.
Proof.
  revert lo. induction l as [|b l IH]; intros lo H; cbn [map chain] in H; [split; constructor|].
  destruct H as (A & _ & C). pose proof (chain_le _ _ _ C) as HL. apply IH in C. destruct C as (C1 & C2). split; constructor; auto.
  - intros Hin. rewrite Forall_forall in C2. specialize (C2 b Hin). lia.
  - lia.
  - eapply Forall_impl; [|exact C2]. cbn. lia.
Qed.
Lemma buses_pairs ks lo hi : chain lo hi (flat_map bclaim ks) ->
  ForallOrdPairs (fun d1 d2 => forall r1 r2, d_bridge d1 = Some r1 -> d_bridge d2 = Some r2 -> br_sub r1 < br_sec r2) ks.
Proof.
  revert lo. induction ks as [|d ks IH]; intros lo H; cbn [flat_map] in H; constructor.
  - apply chain_split in H. destruct H as (m & C1 & C2). apply Forall_forall. intros d2 Hd2 r1 r2 E1 E2.
    unfold bclaim in C1. rewrite E1 in C1. cbn [chain] in C1.
    assert (HI : In (br_sec r2, br_sub r2 + 1 - br_sec r2) (flat_map bclaim ks)).
    { apply in_flat_map. exists d2. split; [assumption|]. unfold bclaim. rewrite E2. now left. }
    pose proof (chain_in _ _ _ _ C2 HI) as H. cbn [fst snd] in H. lia.
  - apply chain_split in H. destruct H as (m & C1 & C2). eauto.
Qed.
Lemma good_buses bus sub ds : Forall bgood ds -> Forall (fun k => d_bus k = bus) ds -> chain (bus + 1) (sub + 1) (flat_map bclaim ds) ->
  buses_ok bus sub ds.
Proof.
  intros HG HB HC. destruct (chain_unit_nodup _ _ _ (secs_chain _ _ _ HG HC)) as (N1 & N2).
  split; [exact N1|]. split; [eapply Forall_impl; [|exact N2]; cbn; lia|]. split; [now apply Forall_forall|]. split.
  - intros d r Hd Er. apply bgood_in with (d := d) in HG; [|assumption]. destruct d as [|b d f L r' k]; cbn [d_bridge d_kids d_bus] in *; [discriminate|].
    injection Er as ->. inversion HG; subst.
    match goal with H : Forall bgood k |- _ => rename H into Gk end.
    match goal with H : chain _ _ (flat_map bclaim k) |- _ => destruct (chain_unit_nodup _ _ _ (secs_chain _ _ _ Gk H)) as (K1 & K2) end.
    split; [reflexivity|]. split; [lia|]. split; [lia|]. split; [now apply Forall_forall|]. eapply Forall_impl; [|exact K2]; cbn; lia.
  - intros ks [->|(d & Hd & ->)]; [eapply buses_pairs; eauto|].
    apply bgood_in with (d := d) in HG; [|assumption]. destruct d as [|b d f L r k]; cbn [d_kids]; [constructor|].
    inversion HG; subst. eapply buses_pairs; eauto.
Qed.

(** * Function IDs are unique in the whole tree *)
Lemma in_flats ds d : In d (flats ds) -> exists x, In x ds /\ (d = x \/ In d (flats (d_kids x))).
Proof.
  unfold flats. intros H. apply in_flat_map in H. destruct H as (x & Hx & H). exists x. split; [assumption|].
  destruct x; cbn [flat d_kids] in *; destruct H as [<-|H]; auto.
Qed.
Lemma kids_smaller ds x : In x ds -> (dsizes (d_kids x) < dsizes ds)%nat.
Proof.
  induction ds as [|y ds IH]; intros []; cbn [dsizes].
  - subst. destruct x; [cbn [d_kids dsizes dsize]; lia|]. rewrite dsize_br. cbn [d_kids]. lia.
  - pose proof (dsize_pos y). apply IH in H. lia.
Qed.
Lemma covers_levels n : forall ds seg bus, (dsizes ds <= n)%nat -> covers seg bus ds -> forall d, In d (flats ds) -> NoDup (map d_id (d_kids d)).
Proof.
  induction n as [|n IH]; intros ds seg bus Hn HF d Hd.
  - apply in_flats in Hd. destruct Hd as (x & Hx & _). apply kids_smaller in Hx. lia.
  - apply in_flats in Hd. destruct Hd as (x & Hx & Hd). inversion HF as [? ? ? F1 F2 F3]; subst.
    destruct (F3 x Hx) as (dv & f & p & _ & _ & _ & Hp). inversion Hp; subst.
    + destruct Hd as [->|[]]. constructor.
    + cbn [d_kids] in Hd. destruct Hd as [->|Hd]; [cbn [d_kids]; match goal with H : covers _ _ kids |- _ => now inversion H end|].
      eapply (IH kids); eauto. apply kids_smaller in Hx. cbn [d_kids] in Hx. lia.
Qed.
Lemma ids_unique ds : forall bus lo hi, bus < lo -> Forall bgood ds -> Forall (fun k => d_bus k = bus) ds ->
  chain lo hi (flat_map bclaim ds) -> NoDup (map d_id ds) -> (forall d, In d (flats ds) -> NoDup (map d_id (d_kids d))) ->
  NoDup (map d_id (flats ds)) /\ forall x, In x (flats ds) -> In (d_id x) (map d_id ds) /\ d_bus x = bus \/ lo <= d_bus x < hi.
Proof.
  induction ds as [|b d f L ds IH|b d f L r k ds IHk IH] using trees_ind; intros bus lo hi Hb HG HB HC HN HL.
  - split; [constructor|]. intros x [].
  - inversion HG as [|? ? G1 G2]; subst. inversion HB as [|? ? B1 B2]; subst. inversion HN as [|? ? N1 N2]; subst.
    destruct (IH (d_bus (DEnd b d f L)) lo hi Hb G2 B2 HC N2) as (I1 & I2).
    { intros x Hx. apply HL. rewrite flats_cons. apply in_app_iff. now right. }
    rewrite flats_cons, flat_end. cbn [app map]. split.
    + constructor; [|assumption]. intros HI. apply in_map_iff in HI. destruct HI as (x & Ex & Hx). destruct (I2 x Hx) as [(Q & _)|Q].
      * apply N1. exact (eq_rect _ (fun i => In i (map d_id ds)) Q _ Ex).
      * cbn [d_bus] in *. assert (d_bus x = b) by (clear - Ex; destruct x; cbn in *; congruence). lia.
    + intros x [<-|Hx]; [left; split; [now left|reflexivity]|]. destruct (I2 x Hx) as [(Q & Q2)|Q]; [left; split; [now right|assumption]|right; assumption].
  - inversion HG as [|? ? G1 G2]; subst. inversion HB as [|? ? B1 B2]; subst. inversion HN as [|? ? N1 N2]; subst.
    cbn [flat_map] in HC. apply chain_split in HC. destruct HC as (m & C1 & C2). unfold bclaim in C1. cbn [d_bridge chain] in C1.
    pose proof (chain_le _ _ _ C2) as HLe.
    pose proof G1 as G1'. inversion G1'; subst. cbn [d_bus] in *.
    destruct (IH (br_pri r) m hi ltac:(lia) G2 B2 C2 N2) as (I1 & I2).
    { intros x Hx. apply HL. rewrite flats_cons. apply in_app_iff. now right. }
    destruct (IHk (br_sec r) (br_sec r + 1) (br_sub r + 1) ltac:(lia)) as (K1 & K2); auto.
    { apply (HL (DBr (br_pri r) d f L r k)). rewrite flats_cons, flat_br. now left. }
    { intros x Hx. apply HL. rewrite flats_cons, flat_br. right. apply in_app_iff. now left. }
    assert (KB : forall x, In x (flats k) -> br_sec r <= d_bus x < br_sub r + 1) by (intros x Hx; destruct (K2 x Hx) as [(_ & Q)|Q]; lia).
    rewrite flats_cons, flat_br. cbn [app map]. split.
    + constructor.
      * intros HI. apply in_map_iff in HI. destruct HI as (x & Ex & Hx).
        assert (d_bus x = br_pri r) by (clear - Ex; destruct x; cbn in *; congruence).
        apply in_app_iff in Hx. destruct Hx as [Hx|Hx]; [apply KB in Hx; lia|]. destruct (I2 x Hx) as [(Q & _)|Q]; [|lia].
        apply N1. exact (eq_rect _ (fun i => In i (map d_id ds)) Q _ Ex).
      * rewrite map_app. apply NoDup_app; auto. intros i Hi1 Hi2. apply in_map_iff in Hi1. destruct Hi1 as (x & Ex & Hx).
        apply in_map_iff in Hi2. destruct Hi2 as (y & Ey & Hy).
        assert (d_bus x = d_bus y) by (clear - Ex Ey; destruct x, y; cbn in *; congruence).
        apply KB in Hx. destruct (I2 y Hy) as [(_ & Q)|Q]; lia.
    + intros x [<-|Hx]; [left; split; [now left|reflexivity]|]. apply in_app_iff in Hx. destruct Hx as [Hx|Hx].
      * right. apply KB in Hx. lia.
      * destruct (I2 x Hx) as [(Q & Q2)|Q]; [left; split; [now right|assumption]|right; lia].
Qed.


(** * The BAR loop and the window registers leave the bus numbers alone *)
Lemma cw_bar_snd (bridge : bool) b r bar w x : 0 <= bar < (if bridge then 2 else 6) ->
  config_write_dword bridge (b, r) (0x010 + bar * 4) w = Ok x -> snd x = r.
Proof.
  intros Hb H. destruct (Z.leb_spec 0 w) as [H0|H0]; [destruct (Z.ltb_spec w (2^32)) as [H1|H1]|].
  - rewrite cw_bar in H by lia. apply bind_ok in H. destruct H as (b' & _ & H). injection H as <-. reflexivity.
  - rewrite cw_bar_big in H by lia. discriminate.
  - rewrite cw_bar_big in H by lia. discriminate.
Qed.
Lemma bar_loop_snd fuel : forall (bridge : bool) bar br s br' ti s', 0 <= bar ->
  bar_loop fuel bridge bar (if bridge then 2 else 6) br s = Ok (br', ti, s') -> snd br' = snd br.
Proof.
  induction fuel as [|fuel IH]; intros bridge bar [b r] s br' ti s' Hbar H; cbn [bar_loop] in H.
  - destruct (Z.ltb bar _); [discriminate|]. injection H as <- <- <-. reflexivity.
  - destruct (Z.ltb_spec bar (if bridge then 2 else 6)) as [Hlt|Hlt]; [|injection H as <- <- <-; reflexivity].
    apply bind_ok in H. destruct H as ([b1 r1] & E1 & H). apply cw_bar_snd in E1; [|lia]. cbn [snd] in E1. subst r1. cbn [fst snd] in *.
    destruct (_ =? 0); [apply IH in H; [exact H|lia]|].
    destruct (negb (_ =? 0)).
    { apply bind_ok in H. destruct H as ([b2 r2] & E2 & H). apply cw_bar_snd in E2; [|lia]. cbn [snd] in E2. subst r2.
      apply bind_ok in H. destruct H as ([[b3 t3] s3] & H3 & H). injection H as <- <- <-. apply IH in H3; [exact H3|lia]. }
    destruct (negb (_ =? 0)).
    { destruct (Z.geb_spec bar ((if bridge then 2 else 6) - 1)) as [|Hlt2]; [discriminate|].
      apply bind_ok in H. destruct H as ([b2 r2] & E2 & H). apply cw_bar_snd in E2; [|lia]. cbn [snd] in E2. subst r2. cbn [fst snd] in *.
      destruct (negb (Z.land (Z.lor _ _) 8 =? 0)).
      all: apply bind_ok in H; destruct H as ([b3 r3] & E3 & H); apply cw_bar_snd in E3; [|lia]; cbn [snd] in E3; subst r3;
        apply bind_ok in H; destruct H as ([b4 r4] & E4 & H); apply cw_bar_snd in E4; [|lia]; cbn [snd] in E4; subst r4;
        apply bind_ok in H; destruct H as ([[b5 t5] s5] & H5 & H); injection H as <- <- <-; apply IH in H5; [exact H5|lia]. }
    apply bind_ok in H. destruct H as ([b2 r2] & E2 & H). apply cw_bar_snd in E2; [|lia]. cbn [snd] in E2. subst r2.
    apply bind_ok in H. destruct H as ([[b3 t3] s3] & H3 & H). injection H as <- <- <-. apply IH in H3; [exact H3|lia].
Qed.

Definition same_bus (r r' : bridge_regs) : Prop := br_pri r' = br_pri r /\ br_sec r' = br_sec r /\ br_sub r' = br_sub r.
Lemma same_bus_trans a b c : same_bus a b -> same_bus b c -> same_bus a c.
Proof. unfold same_bus. intuition congruence. Qed.
Lemma bridge_write_bus r reg data mask r' : reg <> 6 -> bridge_write r reg data mask = Ok r' -> same_bus r r'.
Proof.
  intros Hreg H. unfold bridge_write in H. replace (reg =? 6) with false in H by lia.
  repeat match type of H with
  | (if ?b then _ else _) = _ => destruct b
  | bind _ _ = Ok _ => let E := fresh "E" in apply bind_ok in H; destruct H as (? & _ & H)
  end; injection H as <-; unfold same_bus; cbn [br_pri br_sec br_sub]; auto.
Qed.
Lemma pack_hh_list a b x : pack_hh a b = Ok x -> exists a0 a1 a2 a3, x = [a0; a1; a2; a3].
Proof. unfold pack_hh. destruct (_ && _ && _ && _); [|discriminate]. intros H. injection H as <-. cbn [le_bytes app]. eauto 6. Qed.
Lemma pack_u32_list a x : pack_u32 a = Ok x -> exists a0 a1 a2 a3, x = [a0; a1; a2; a3].
Proof. unfold pack_u32. destruct (_ && _); [|discriminate]. intros H. injection H as <-. cbn [le_bytes]. eauto 6. Qed.
Ltac bus_step H n := apply bind_ok in H; let r1 := fresh "r" in let E := fresh "E" in
  destruct H as (r1 & E & H); apply bridge_write_bus in E; [|lia]; injection H as <-.
Lemma program_bus b r bus sec sub n b' r' : is_byte (br_pri r) -> is_byte (br_sec r) -> is_byte (br_sub r) ->
  program_bridge (b, r) bus sec sub n = Ok (b', r') ->
  br_pri r' = bus /\ br_sec r' = sec /\ br_sub r' = sub /\ is_byte sub.
Proof.
  intros H1 H2 H3 H. unfold program_bridge in H.
  apply bind_ok in H. destruct H as (dd & Hdd & H). apply bus_bytes_ok in Hdd. destruct Hdd as (-> & Bb & Bs & Bu).
  rewrite write_bus in H by assumption. cbn [bind] in H.
  assert (S0 : br_pri (with_bus r bus sec sub) = bus /\ br_sec (with_bus r bus sec sub) = sec /\ br_sub (with_bus r bus sec sub) = sub) by (repeat split; reflexivity).
  set (r0 := with_bus r bus sec sub) in *. clearbody r0.
  assert (S : same_bus r0 r'); [|unfold same_bus in S; intuition congruence]. clear - H.
  apply bind_ok in H. destruct H as ([b1 r1] & E1 & H). rewrite cw7 in E1. apply bind_ok in E1. destruct E1 as (q1 & E1 & Q). injection Q as <- <-. apply bridge_write_bus in E1; [|lia].
  apply bind_ok in H. destruct H as (d2 & P2 & H). apply pack_hh_list in P2. destruct P2 as (? & ? & ? & ? & ->).
  apply bind_ok in H. destruct H as ([b2 r2] & E2 & H). rewrite cw12 in E2. apply bind_ok in E2. destruct E2 as (q2 & E2 & Q). injection Q as <- <-. apply bridge_write_bus in E2; [|lia].
  apply bind_ok in H. destruct H as (d3 & P3 & H). apply pack_hh_list in P3. destruct P3 as (? & ? & ? & ? & ->).
  apply bind_ok in H. destruct H as ([b3 r3] & E3 & H). rewrite cw8 in E3. apply bind_ok in E3. destruct E3 as (q3 & E3 & Q). injection Q as <- <-. apply bridge_write_bus in E3; [|lia].
  apply bind_ok in H. destruct H as (d4 & P4 & H). apply pack_hh_list in P4. destruct P4 as (? & ? & ? & ? & ->).
  apply bind_ok in H. destruct H as ([b4 r4] & E4 & H). rewrite cw9 in E4. apply bind_ok in E4. destruct E4 as (q4 & E4 & Q). injection Q as <- <-. apply bridge_write_bus in E4; [|lia].
  apply bind_ok in H. destruct H as (d5 & P5 & H). apply pack_u32_list in P5. destruct P5 as (? & ? & ? & ? & ->).
  apply bind_ok in H. destruct H as ([b5 r5] & E5 & H). rewrite cw10 in E5. apply bind_ok in E5. destruct E5 as (q5 & E5 & Q). injection Q as <- <-. apply bridge_write_bus in E5; [|lia].
  apply bind_ok in H. destruct H as (d6 & P6 & H). apply pack_u32_list in P6. destruct P6 as (? & ? & ? & ? & ->).
  rewrite cw11 in H. apply bind_ok in H. destruct H as (q6 & E6 & Q). injection Q as <- <-. apply bridge_write_bus in E6; [|lia].
  eauto 8 using same_bus_trans.
Qed.

Definition cov_result (bus : Z) (p : pfunc) (d : dtree) : Prop := covers_fun p d /\ d_id d = (bus, p_dev p, p_fn p).
Definition seg_bus (rec : list pfunc -> Z -> limits -> result (node * list titem * limits * Z)) : Prop :=
  forall seg bus s n items s' sub, Forall bus_regs_ok seg -> 0 <= bus <= 255 ->
  rec seg bus s = Ok (n, items, s', sub) -> let ds := map skel items in
  covers seg bus ds /\ Forall bgood ds /\ Forall (fun k => d_bus k = bus) ds /\
    chain (bus + 1) (sub + 1) (flat_map bclaim ds) /\ bus <= sub <= 255 /\ n_sub n = sub.

Lemma enum_funcs_bus rec : seg_bus rec ->
  forall fs bus sub s items s' sub', Forall bus_regs_ok fs -> 0 <= bus <= sub -> sub <= 255 ->
  enum_funcs rec fs bus (sub + 1) sub s = Ok (items, s', sub') ->
  Forall2 (cov_result bus) fs (map skel items) /\ Forall bgood (map skel items) /\
    chain (sub + 1) (sub' + 1) (flat_map bclaim (map skel items)) /\ sub <= sub' <= 255.
Proof.
  intros Hrec. induction fs as [|p fs IH]; intros bus sub s items s' sub' Hp Hbus Hsub H.
  - cbn [enum_funcs] in H. injection H as <- <- <-. cbn [map flat_map chain]. repeat split; try constructor; lia.
  - inversion Hp as [|? ? Hp1 Hp2]; subst. inversion Hp1 as [d f hdr b r below B1 B2 B3 Hbelow]; subst. cbn [enum_funcs] in H.
    rewrite hdr_bridge in H.
    apply bind_ok in H. destruct H as ([[[b1 r1] ti] s1] & H1 & H).
    destruct (is_bridge_hdr hdr) eqn:EB.
    + apply (bar_loop_snd 6 true 0) in H1; [|lia]. cbn [snd] in H1. subst r1.
      apply bind_ok in H. destruct H as (dd & Hdd & H). apply bus_bytes_ok in Hdd. destruct Hdd as (-> & Bb & Bs & B255).
      rewrite write_bus in H by assumption. cbn [bind] in H.
      apply bind_ok in H. destruct H as ([[[n kids] s2] sub2] & H2 & H).
      apply bind_ok in H. destruct H as ([b3 r3] & Hbr3 & H). apply bind_ok in H. destruct H as ([[it s3] sub3] & H3 & H).
      injection H as <- <- <-.
      destruct (Hrec below (sub + 1) s1 n kids s2 sub2 Hbelow ltac:(unfold is_byte in Bs; lia) H2) as (R1 & R2 & R3 & R4 & R5 & R6).
      apply program_bus in Hbr3; [|assumption..]. destruct Hbr3 as (E1 & E2 & E3 & Bsub).
      destruct (IH bus sub2 s2 it s3 sub3) as (I1 & I2 & I3 & I4); auto; [lia|lia|].
      cbn [map skel fst snd].
      split. { constructor; [|exact I1]. split; [|reflexivity]. apply covers_br; [exact EB|]. rewrite E2. exact R1. }
      split. { constructor; [|exact I2]. constructor; rewrite ?E2, ?E3; auto; lia. }
      split; [|lia]. cbn [flat_map]. unfold bclaim at 1. cbn [d_bridge app chain]. rewrite E2, E3. split; [lia|]. split; [lia|].
      replace (sub + 1 + (sub2 + 1 - (sub + 1))) with (sub2 + 1) by lia. exact I3.
    + apply bind_ok in H. destruct H as ([[it s3] sub3] & H3 & H). injection H as <- <- <-.
      destruct (IH bus sub s1 it s3 sub3) as (I1 & I2 & I3 & I4); auto.
      cbn [map skel fst snd].
      split. { constructor; [|exact I1]. split; [|reflexivity]. apply covers_end; exact EB. }
      split. { constructor; [|exact I2]. constructor. }
      split; [|lia]. cbn [flat_map]. unfold bclaim at 1. cbn [d_bridge app]. exact I3.
Qed.
Lemma covers_of_scan seg bus ds : Forall2 (cov_result bus) (scan seg bus) ds -> covers seg bus ds.
Proof.
  intros H. constructor.
  - intros d f p Hv Hp. assert (HI : In p (scan seg bus)) by (apply in_scan; eauto).
    destruct (Forall2_in_l _ _ _ _ H HI) as (x & Hx & Hf & Hid). exists x. apply find_func_some in Hp. destruct Hp as (_ & <- & <-). auto.
  - assert (map d_id ds = map (fun k => (bus, fst k, snd k)) (map key (scan seg bus))) as ->.
    { clear - H. induction H as [|p d ps ds [_ Hid] _ IH]; [reflexivity|]. cbn [map]. rewrite Hid, IH. reflexivity. }
    apply Injective_map_NoDup; [|apply scan_nodup]. intros [a b] [c e] E. cbn in E. congruence.
  - intros x Hx. destruct (Forall2_in_r _ _ _ _ H Hx) as (p & Hp & Hf & Hid). apply in_scan in Hp. destruct Hp as (d & f & Hv & Hp).
    exists d, f, p. split; [exact Hv|]. split; [exact Hp|]. split; [|exact Hf]. apply find_func_some in Hp. destruct Hp as (_ & <- & <-). exact Hid.
Qed.
Lemma enum_seg_bus fuel : seg_bus (enum_seg fuel).
Proof.
  induction fuel as [|fuel IH]; intros seg bus s n items s' sub Hp Hb H; cbn [enum_seg] in H; [discriminate|].
  apply bind_ok in H. destruct H as ([[it s1] sub1] & H1 & H).
  match type of H with Ok (?a, _, _, _) = _ => remember a as nn eqn:En end. injection H as <- <- <- <-. cbv zeta.
  destruct (enum_funcs_bus _ IH (scan seg bus) bus bus (align_limits s) it s1 sub1) as (I1 & I2 & I3 & I4); auto; [|lia|lia|].
  { apply Forall_forall. intros p Hin. apply in_scan in Hin. destruct Hin as (d & f & _ & Hf). apply find_func_some in Hf.
    rewrite Forall_forall in Hp. apply Hp. tauto. }
  split; [apply covers_of_scan; exact I1|]. split; [exact I2|].
  split. { apply Forall_forall. intros x Hx. destruct (Forall2_in_r _ _ _ _ I1 Hx) as (p & _ & _ & Hid). clear - Hid. destruct x; cbn in *; congruence. }
  split; [exact I3|]. split; [lia|]. rewrite En. reflexivity.
Qed.
Lemma enum_buses fuel seg base host n items s host' : Forall bus_regs_ok seg ->
  enumerate fuel seg base host = Ok (n, items, s, host') ->
  let ds := map skel items in
  covers seg 0 ds /\ buses_ok 0 (n_sub n) ds /\ 0 <= n_sub n <= 255 /\ NoDup (map d_id (flats ds)).
Proof.
  intros Hp H. unfold enumerate in H. apply bind_ok in H. destruct H as ([[[n0 it0] s0] sub0] & H1 & H).
  injection H as -> -> -> <-. cbv zeta.
  destruct (enum_seg_bus fuel seg 0 base n items s sub0 Hp ltac:(lia) H1) as (R1 & R2 & R3 & R4 & R5 & R6). rewrite R6.
  split; [exact R1|]. split; [apply good_buses; auto|]. split; [exact R5|].
  eapply (ids_unique (map skel items) 0 1); eauto; [lia|inversion R1; assumption|]. apply (covers_levels (dsizes (map skel items)) (map skel items) seg 0); auto.
Qed.
