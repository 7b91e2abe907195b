(** Proofs about the MSI registry of the root complex (C80). *)
From Verif Require Import PyBase TlpModel PcieIfModel PcieIfProofs2 SplitModel CfgModel MsiModel MsiProofs IoModel MsiHostModel MsiHostSpec.

(* ---------- the tree ---------- *)
Lemma titem_ind' (P : titem -> Prop) : (forall i c ch, Forall P ch -> P (TItem i c ch)) -> forall t, P t.
Proof.
  intros H. fix F 1. intros [i c ch]. apply H. induction ch as [|x ch IH]; constructor; [apply F|apply IH].
Qed.

Fixpoint item_at (t : titem) (p : list nat) {struct p} : option titem :=
  match p with
  | [] => Some t
  | k :: p => match t with TItem _ _ ch => match nth_error ch k with Some c => item_at c p | None => None end end
  end.

Definition find_go (id : pcie_id) := fix go (l : list titem) (k : nat) : option (list nat * titem) :=
      match l with
      | [] => None
      | c :: r => match find_dev c id with Some (p, x) => Some (k :: p, x) | None => go r (S k) end
      end.
Lemma find_dev_eq i c ch id : find_dev (TItem i c ch) id = if id_eqb id i then Some ([], TItem i c ch) else find_go id ch O.
Proof. reflexivity. Qed.

Lemma find_dev_at id : forall t p it, find_dev t id = Some (p, it) -> item_at t p = Some it /\ ti_id it = id /\ In it (items t).
Proof.
  intros t. induction t as [i c ch IH] using titem_ind'. intros p it. rewrite find_dev_eq.
  destruct (id_eqb id i) eqn:E.
  - intros [= <- <-]. apply id_eqb_eq in E. cbn. auto.
  - assert (G : forall l k pre, ch = pre ++ l -> length pre = k -> find_go id l k = Some (p, it) -> item_at (TItem i c ch) p = Some it /\ ti_id it = id /\ In it (flat_map items ch)).
    { induction l as [|x l IHl]; intros k pre E1 E2 H; [discriminate|]. cbn [find_go] in H. fold (find_go id) in H.
      destruct (find_dev x id) as [[q y]|] eqn:F.
      - injection H as <- <-. assert (N : nth_error ch k = Some x) by (rewrite E1, nth_error_app2, E2, Nat.sub_diag by lia; reflexivity).
        cbn [item_at]. rewrite N. rewrite Forall_forall in IH. destruct (IH x (nth_error_In _ _ N) q y F) as (A & B & C).
        split; [assumption|]. split; [assumption|]. apply in_flat_map. exists x. split; [apply (nth_error_In _ _ N)|assumption].
      - apply (IHl (S k) (pre ++ [x])); [now rewrite <- app_assoc|rewrite app_length; cbn; lia|assumption]. }
    intros H. destruct (G ch O [] eq_refl eq_refl H) as (A & B & C). split; [assumption|]. split; [assumption|]. right. assumption.
Qed.

Lemma find_dev_none id : forall t, find_dev t id = None -> forall it, In it (items t) -> ti_id it <> id.
Proof.
  intros t. induction t as [i c ch IH] using titem_ind'. rewrite find_dev_eq.
  destruct (id_eqb id i) eqn:E; [discriminate|].
  assert (HN : id <> i) by (intros ->; rewrite id_eqb_refl in E; discriminate).
  assert (G : forall l k, Forall (fun t => find_dev t id = None -> forall it, In it (items t) -> ti_id it <> id) l -> find_go id l k = None -> forall it, In it (flat_map items l) -> ti_id it <> id).
  { induction l as [|x l IHl]; intros k F H it HI; [destruct HI|]. cbn [find_go] in H. fold (find_go id) in H.
    apply Forall_cons_iff in F. destruct F as [F1 F2]. destruct (find_dev x id) as [[? ?]|] eqn:D; [discriminate|].
    cbn [flat_map] in HI. apply in_app_iff in HI. destruct HI as [HI|HI]; [apply F1; auto|apply (IHl (S k)); assumption]. }
  intros H it [<-|HI]; [cbn; congruence|]. apply (G ch O IH H it HI).
Qed.

Lemma has_msi_find tree d : NoDup (map ti_id (items tree)) ->
  match find_dev tree d with
  | None => has_msi tree d = false
  | Some (p, it) => has_msi tree d = match get_capability_offset (ti_caps it) MSI_CAP_ID with None => false | Some _ => true end
  end.
Proof.
  intros ND.
  assert (C : forall caps, existsb (fun c => fst c =? 5) caps = match get_capability_offset caps MSI_CAP_ID with None => false | Some _ => true end).
  { induction caps as [|[x o] caps IH]; [reflexivity|]. cbn [existsb get_capability_offset fst snd]. unfold MSI_CAP_ID in *. destruct (x =? 5); [reflexivity|apply IH]. }
  destruct (find_dev tree d) as [[p it]|] eqn:E.
  - destruct (find_dev_at _ _ _ _ E) as (_ & A & B). rewrite <- C. unfold has_msi. subst d. clear E p.
    induction (items tree) as [|x l IH]; [destruct B|]. cbn [map] in ND. apply NoDup_cons_iff in ND. destruct ND as [N1 N2]. cbn [existsb].
    destruct B as [->|B].
    + rewrite id_eqb_refl. cbn [andb]. destruct (existsb _ (ti_caps it)); [reflexivity|]. cbn [orb].
      assert (G : forall l, ~ In (ti_id it) (map ti_id l) -> existsb (fun x => id_eqb (ti_id x) (ti_id it) && existsb (fun c => fst c =? 5) (ti_caps x)) l = false).
      { clear. induction l as [|y l IH]; [reflexivity|]. cbn. intros H. destruct (id_eqb (ti_id y) (ti_id it)) eqn:E; [apply id_eqb_eq in E; tauto|]. cbn. apply IH. tauto. }
      now apply G.
    + destruct (id_eqb (ti_id x) (ti_id it)) eqn:E.
      * apply id_eqb_eq in E. exfalso. apply N1. rewrite E. now apply in_map.
      * cbn [andb orb]. now apply IH.
  - pose proof (find_dev_none _ _ E) as F. unfold has_msi.
    induction (items tree) as [|x l IH]; [reflexivity|]. cbn [existsb].
    destruct (id_eqb (ti_id x) d) eqn:EE; [apply id_eqb_eq in EE; exfalso; apply (F x (or_introl eq_refl)); assumption|]. cbn [andb orb].
    apply IH; [cbn in ND; now apply NoDup_cons_iff in ND|]. intros y Hy. apply F. now right.
Qed.

Lemma path_eqb_eq p : forall q, path_eqb p q = true <-> p = q.
Proof.
  induction p as [|a p IH]; intros [|b q]; cbn; split; try congruence; intros H.
  - apply andb_true_iff in H. destruct H as [H1 H2]. apply Nat.eqb_eq in H1. apply IH in H2. congruence.
  - injection H as -> ->. rewrite Nat.eqb_refl. now apply IH.
Qed.
Lemma path_inj tree d d' p it it' : find_dev tree d = Some (p, it) -> find_dev tree d' = Some (p, it') -> d = d'.
Proof. intros H1 H2. destruct (find_dev_at _ _ _ _ H1) as (A & B & _), (find_dev_at _ _ _ _ H2) as (A' & B' & _). congruence. Qed.

(* ---------- maps ---------- *)
Lemma add_numbers_spec n : forall limit sg cb, exists sg' cb', add_numbers n limit sg cb = (limit + Z.of_nat n, sg', cb') /\
  (forall k, sg' k = if (limit <=? k) && (k <? limit + Z.of_nat n) then Some [Auto k] else sg k) /\
  (forall k, cb' k = if (limit <=? k) && (k <? limit + Z.of_nat n) then Some [] else cb k).
Proof.
  induction n as [|n IH]; intros limit sg cb; cbn [add_numbers].
  - exists sg, cb. split; [replace (limit + Z.of_nat 0) with limit by lia; reflexivity|]. split; intros k; replace ((limit <=? k) && (k <? limit + Z.of_nat 0)) with false by lia; reflexivity.
  - destruct (IH (limit + 1) (upd_z sg limit [Auto limit]) (upd_z cb limit [])) as (sg' & cb' & -> & A & B). exists sg', cb'.
    split; [replace (limit + Z.of_nat (S n)) with (limit + 1 + Z.of_nat n) by lia; reflexivity|]. unfold upd_z in A, B.
    assert (G : forall k (T : Type) (x y : T) (P : Z -> T), (k = limit -> x = P k) -> (if (limit + 1 <=? k) && (k <? limit + 1 + Z.of_nat n) then P k else if k =? limit then x else y)
        = if (limit <=? k) && (k <? limit + Z.of_nat (S n)) then P k else y).
    { intros k T x y P HP. destruct (Z.eqb_spec k limit) as [->|].
      - replace ((limit + 1 <=? limit) && (limit <? limit + 1 + Z.of_nat n)) with false by lia. replace ((limit <=? limit) && (limit <? limit + Z.of_nat (S n))) with true by lia. auto.
      - replace ((limit + 1 <=? k) && (k <? limit + 1 + Z.of_nat n)) with ((limit <=? k) && (k <? limit + Z.of_nat (S n))) by lia. reflexivity. }
    split; intros k; [rewrite A|rewrite B].
    + apply (G k _ (Some [Auto limit]) (sg k) (fun k => Some [Auto k])). now intros ->.
    + apply (G k _ (Some []) (cb k) (fun k => Some [])). reflexivity.
Qed.

Lemma conf_In r d : conf r d = true <-> In d (r_conf r).
Proof. unfold conf. rewrite existsb_exists. split; [intros (x & A & B); apply id_eqb_eq in B; congruence|intros H; exists d; split; [assumption|apply id_eqb_refl]]. Qed.

Lemma regs_of_app d n l d' n' v : regs_of d n (l ++ [(d', n', v)]) = regs_of d n l ++ (if id_eqb d' d && (n' =? n) then [v] else []).
Proof. unfold regs_of. rewrite filter_app, map_app. cbn [filter for_vec]. now destruct (id_eqb d' d && (n' =? n)). Qed.

(** The position of a device among the configured ones. *)
Fixpoint idx (d : pcie_id) (l : list pcie_id) : Z := match l with [] => 0 | x :: r => if id_eqb x d then 0 else 1 + idx d r end.
Lemma idx_nth l : NoDup l -> forall k d, nth_error l k = Some d -> idx d l = Z.of_nat k.
Proof.
  intros ND. induction l as [|x l IH]; intros [|k] d H; try discriminate; cbn [idx].
  - injection H as ->. now rewrite id_eqb_refl.
  - cbn in H. apply NoDup_cons_iff in ND. destruct ND as [N1 N2].
    destruct (id_eqb x d) eqn:E; [apply id_eqb_eq in E; subst; exfalso; apply N1; apply (nth_error_In _ _ H)|]. rewrite (IH N2 k d H). lia.
Qed.
Lemma idx_app d l l' : In d l -> idx d (l ++ l') = idx d l.
Proof.
  induction l as [|x l IH]; intros H; [destruct H|]. cbn [app idx]. destruct (id_eqb x d) eqn:E; [reflexivity|].
  destruct H as [->|H]; [now rewrite id_eqb_refl in E|]. now rewrite IH.
Qed.
Definition own (l : list pcie_id) (d : pcie_id) (n : Z) : sigid := Auto (32 * idx d l + n).

(* ---------- invariant ---------- *)
Section run.
Variables (tree : titem) (devs : pcie_id -> mdev) (base : Z).
Hypothesis ND : NoDup (map ti_id (items tree)).
Hypothesis HB : 0 <= base < 2^64.
Hypothesis HB4 : base mod 4 = 0.
Hypothesis HD : forall d, dev_ok base (devs d).
Let cap := vectors devs.

Record inv (h : host) (r : reg) : Prop := {
  i_addr : h_addr h = Some base \/ (h_addr h = None /\ r_conf r = []);
  i_tree : h_tree h = Some tree;
  i_limit : h_limit h = 32 * zlen (r_conf r);
  i_nodup : NoDup (r_conf r);
  i_conf : forall k d, nth_error (r_conf r) k = Some d -> exists p it, find_dev tree d = Some (p, it) /\
    h_item_addr h p = Some base /\ h_item_data h p = Some (32 * Z.of_nat k) /\
    (exists s', configure_msi (md_regs (devs d)) (md_low (devs d)) base (32 * Z.of_nat k) = Ok s' /\ h_devs h d = mkMdev s' (md_low (devs d)) (md_mps (devs d))) /\
    (forall n, 0 <= n < 32 -> h_sigs h (32 * Z.of_nat k + n) = Some (Auto (32 * Z.of_nat k + n) :: map User (regs_of d n (r_sig r))) /\
       h_cbs h (32 * Z.of_nat k + n) = Some (regs_of d n (r_cb r)));
  i_unconf : forall d, ~ In d (r_conf r) -> h_devs h d = devs d /\ (forall p it, find_dev tree d = Some (p, it) -> h_item_data h p = None) /\
    forall n, regs_of d n (r_sig r) = [] /\ regs_of d n (r_cb r) = [];
  i_logd : Forall (fun e => match e with SOwn d _ => In d (r_conf r) | _ => True end) (r_log r);
  i_log : h_log h = map (conc (own (r_conf r))) (r_log r) }.

Lemma inv0 : inv (host0 tree devs) reg0.
Proof.
  split; cbn; auto; try constructor.
  - intros [|k] d H; discriminate.
Qed.

Lemma dev_data_conf h r : inv h r -> forall k d, nth_error (r_conf r) k = Some d -> dev_data h d = Some (32 * Z.of_nat k).
Proof. intros I k d H. destruct (i_conf _ _ I k d H) as (p & it & E & _ & E2 & _). unfold dev_data. now rewrite (i_tree _ _ I), E. Qed.
Lemma dev_data_unconf h r : inv h r -> forall d, ~ In d (r_conf r) -> dev_data h d = None.
Proof.
  intros I d H. destruct (i_unconf _ _ I d H) as (_ & A & _). unfold dev_data. rewrite (i_tree _ _ I).
  destruct (find_dev tree d) as [[p it]|] eqn:E; [|reflexivity]. now rewrite (A p it).
Qed.

Lemma step_configure h r d : inv h r -> zlen (r_conf (rstep tree cap r (Configure d))) <= 2048 ->
  exists h' b, host_configure_msi base h d = Ok (h', b) /\ b = has_msi tree d /\ inv h' (rstep tree cap r (Configure d)).
Proof.
  intros I HL. unfold host_configure_msi.
  assert (EA : match h_addr h with None => base | Some a => a end = base) by (destruct (i_addr _ _ I) as [->|[-> _]]; reflexivity).
  rewrite EA. cbn [h_tree h_item_addr h_item_data h_devs h_limit h_sigs h_cbs h_addr h_log]. rewrite (i_tree _ _ I).
  set (h1 := mkHost (Some base) (h_limit h) (h_sigs h) (h_cbs h) (Some tree) (h_item_addr h) (h_item_data h) (h_devs h) (h_log h)).
  assert (I1 : inv h1 r). { destruct I. split; cbn; auto. }
  pose proof (has_msi_find tree d ND) as HM. cbn [rstep] in *.
  destruct (find_dev tree d) as [[p it]|] eqn:E.
  2:{ exists h1, false. rewrite HM. auto. }
  destruct (get_capability_offset (ti_caps it) MSI_CAP_ID) as [o|] eqn:EO.
  2:{ exists h1, false. rewrite HM. auto. }
  rewrite HM in *. cbn [andb] in *. destruct (conf r d) eqn:EC.
  - apply conf_In in EC. destruct (In_nth_error _ _ EC) as (k & Hk). destruct (i_conf _ _ I k d Hk) as (p' & it' & E' & X1 & X2 & _).
    assert (p' = p) by congruence. subst p'. rewrite X1, X2. exists h1, true. auto.
  - assert (NI : ~ In d (r_conf r)) by (intros X; apply conf_In in X; congruence). cbn [negb] in *. cbn [r_conf] in HL.
    unfold zlen in HL. rewrite app_length in HL. cbn [length] in HL.
    destruct (i_unconf _ _ I d NI) as (U1 & U2 & U3). rewrite (U2 p it E).
    rewrite U1, (i_limit _ _ I).
    destruct (HD d) as (D1 & D2 & D3 & D4 & D5 & D6 & D7).
    destruct (msi_configured (md_regs (devs d)) (md_low (devs d)) base (32 * zlen (r_conf r)) D4 HB HB4) as (s' & C & _); [unfold zlen; lia|lia|assumption|assumption|].
    destruct (add_numbers_spec 32 (32 * zlen (r_conf r)) (h_sigs h) (h_cbs h)) as (sg' & cb' & EN & S1 & S2). rewrite EN, C. cbn [bind].
    exists (mkHost (Some base) (32 * zlen (r_conf r) + Z.of_nat 32) sg' cb' (Some tree) (upd_p (h_item_addr h) p base) (upd_p (h_item_data h) p (32 * zlen (r_conf r)))
             (upd_d (h_devs h) d (mkMdev s' (md_low (devs d)) (md_mps (devs d)))) (h_log h)), true.
    split; [destruct (h_item_addr h p); reflexivity|]. split; [reflexivity|].
    split; cbn [h_tree h_item_addr h_item_data h_devs h_limit h_sigs h_cbs h_addr h_log r_conf r_sig r_cb r_log].
    + auto.
    + reflexivity.
    + unfold zlen. rewrite app_length. cbn [length]. lia.
    + pose proof (i_nodup _ _ I) as N.
      rewrite <- (rev_involutive (r_conf r ++ [d])). apply NoDup_rev. rewrite rev_app_distr. cbn. constructor; [rewrite <- in_rev; assumption|now apply NoDup_rev].
    + intros k d' Hk. destruct (Nat.lt_ge_cases k (length (r_conf r))) as [Hlt|Hge].
      * rewrite nth_error_app1 in Hk by assumption. destruct (i_conf _ _ I k d' Hk) as (p' & it' & E' & X1 & X2 & X3 & X4).
        assert (DN : d' <> d) by (intros ->; apply NI; apply (nth_error_In _ _ Hk)).
        exists p', it'. split; [assumption|]. unfold upd_p, upd_d.
        destruct (path_eqb p' p) eqn:EP; [apply path_eqb_eq in EP; subst p'; exfalso; apply DN; apply (path_inj tree d' d p it' it); assumption|].
        destruct (id_eqb d' d) eqn:EI; [apply id_eqb_eq in EI; contradiction|].
        split; [assumption|]. split; [assumption|]. split; [assumption|]. intros n Hn. rewrite S1, S2. unfold zlen.
        replace ((32 * Z.of_nat (length (r_conf r)) <=? 32 * Z.of_nat k + n) && (32 * Z.of_nat k + n <? 32 * Z.of_nat (length (r_conf r)) + Z.of_nat 32)) with false by lia.
        apply X4. assumption.
      * assert (k = length (r_conf r)) as ->.
        { assert (nth_error (r_conf r ++ [d]) k <> None) as X by congruence. apply nth_error_Some in X. rewrite app_length in X. cbn in X. lia. }
        rewrite nth_error_app2, Nat.sub_diag in Hk by lia. injection Hk as <-.
        exists p, it. split; [assumption|]. unfold upd_p, upd_d. rewrite (proj2 (path_eqb_eq p p) eq_refl), id_eqb_refl.
        split; [reflexivity|]. split; [reflexivity|]. split; [exists s'; split; [exact C|reflexivity]|].
        intros n Hn. rewrite S1, S2. unfold zlen.
        replace ((32 * Z.of_nat (length (r_conf r)) <=? 32 * Z.of_nat (length (r_conf r)) + n) && (32 * Z.of_nat (length (r_conf r)) + n <? 32 * Z.of_nat (length (r_conf r)) + Z.of_nat 32)) with true by lia.
        destruct (U3 n) as [-> ->]. auto.
    + intros d' N'. rewrite in_app_iff in N'. cbn [In] in N'. destruct (i_unconf _ _ I d') as (V1 & V2 & V3); [tauto|].
      assert (DN : d' <> d) by (intros ->; tauto). split; [|split; [|assumption]].
      * unfold upd_d. destruct (id_eqb d' d) eqn:EI; [apply id_eqb_eq in EI; contradiction|assumption].
      * intros p' it' F'. unfold upd_p. destruct (path_eqb p' p) eqn:EP; [|eapply V2; eassumption].
        apply path_eqb_eq in EP. subst p'. exfalso. apply DN. apply (path_inj tree d' d p it' it); assumption.
    + eapply Forall_impl; [|apply (i_logd _ _ I)]. intros [d' ? | |]; auto. intros. apply in_app_iff; auto.
    + rewrite (i_log _ _ I). apply map_ext_in. intros e He. pose proof (proj1 (Forall_forall _ _) (i_logd _ _ I) e He) as H.
      destruct e; [|reflexivity..]. cbn [conc]. unfold own. now rewrite idx_app.
Qed.

Lemma nth_num h r k k' d d' n n' : inv h r -> nth_error (r_conf r) k = Some d -> nth_error (r_conf r) k' = Some d' -> 0 <= n < 32 -> 0 <= n' < 32 ->
  (32 * Z.of_nat k' + n' =? 32 * Z.of_nat k + n) = id_eqb d d' && (n =? n').
Proof.
  intros I H H' Hn Hn'. destruct (id_eqb d d') eqn:E.
  - apply id_eqb_eq in E. subst d'. assert (k = k') as ->. { apply (proj1 (NoDup_nth_error _) (i_nodup _ _ I)); [apply nth_error_Some; congruence|congruence]. } cbn [andb]. lia.
  - cbn [andb]. assert (k <> k') by (intros ->; rewrite H in H'; injection H' as ->; rewrite id_eqb_refl in E; discriminate). lia.
Qed.

Lemma step_regsig h r d s n : inv h r -> 0 <= n < 32 -> inv (msi_register_signal h d s n) (rstep tree cap r (RegSignal d s n)).
Proof.
  intros I Hn. unfold msi_register_signal. cbn [rstep]. destruct (conf r d) eqn:EC.
  - apply conf_In in EC. destruct (In_nth_error _ _ EC) as (k & Hk). rewrite (dev_data_conf h r I k d Hk).
    destruct (i_conf _ _ I k d Hk) as (p & it & E & X1 & X2 & X3 & X4). destruct (X4 n Hn) as [Y1 Y2]. rewrite Y1.
    pose proof I as I'. destruct I. split; cbn [h_tree h_item_addr h_item_data h_devs h_limit h_sigs h_cbs h_addr h_log r_conf r_sig r_cb r_log]; auto.
    + intros k' d' Hk'. destruct (i_conf0 k' d' Hk') as (p' & it' & E' & Z1 & Z2 & Z3 & Z4). exists p', it'. repeat (split; [assumption|]).
      intros n' Hn'. destruct (Z4 n' Hn') as [W1 W2]. split; [|assumption]. unfold upd_z.
      rewrite (nth_num h r k k' d d' n n') by assumption.
      rewrite regs_of_app. destruct (id_eqb d d' && (n =? n')) eqn:EE.
      * apply andb_true_iff in EE. destruct EE as [E1 E2]. apply id_eqb_eq in E1. apply Z.eqb_eq in E2. subst d' n'.
        assert (k = k') as -> by (apply (proj1 (NoDup_nth_error _) i_nodup0); [apply nth_error_Some; congruence|congruence]).
        rewrite map_app. reflexivity.
      * rewrite app_nil_r. assumption.
    + intros d' Nd'. destruct (i_unconf0 d' Nd') as (V1 & V2 & V3). split; [assumption|]. split; [assumption|]. intros n'. destruct (V3 n') as [V4 V5]. split; [|assumption].
      rewrite regs_of_app, V4. destruct (id_eqb d d') eqn:EE; [apply id_eqb_eq in EE; congruence|reflexivity].
  - rewrite (dev_data_unconf h r I); [assumption|]. intros X. apply conf_In in X. congruence.
Qed.

Lemma step_regcb h r d s n : inv h r -> 0 <= n < 32 -> inv (msi_register_callback h d s n) (rstep tree cap r (RegCallback d s n)).
Proof.
  intros I Hn. unfold msi_register_callback. cbn [rstep]. destruct (conf r d) eqn:EC.
  - apply conf_In in EC. destruct (In_nth_error _ _ EC) as (k & Hk). rewrite (dev_data_conf h r I k d Hk).
    destruct (i_conf _ _ I k d Hk) as (p & it & E & X1 & X2 & X3 & X4). destruct (X4 n Hn) as [Y1 Y2]. rewrite Y2.
    pose proof I as I'. destruct I. split; cbn [h_tree h_item_addr h_item_data h_devs h_limit h_sigs h_cbs h_addr h_log r_conf r_sig r_cb r_log]; auto.
    + intros k' d' Hk'. destruct (i_conf0 k' d' Hk') as (p' & it' & E' & Z1 & Z2 & Z3 & Z4). exists p', it'. repeat (split; [assumption|]).
      intros n' Hn'. destruct (Z4 n' Hn') as [W1 W2]. split; [assumption|]. unfold upd_z.
      rewrite (nth_num h r k k' d d' n n') by assumption.
      rewrite regs_of_app. destruct (id_eqb d d' && (n =? n')) eqn:EE.
      * apply andb_true_iff in EE. destruct EE as [E1 E2]. apply id_eqb_eq in E1. apply Z.eqb_eq in E2. subst d' n'. reflexivity.
      * rewrite app_nil_r. assumption.
    + intros d' Nd'. destruct (i_unconf0 d' Nd') as (V1 & V2 & V3). split; [assumption|]. split; [assumption|]. intros n'. destruct (V3 n') as [V4 V5]. split; [assumption|].
      rewrite regs_of_app, V5. destruct (id_eqb d d') eqn:EE; [apply id_eqb_eq in EE; congruence|reflexivity].
  - rewrite (dev_data_unconf h r I); [assumption|]. intros X. apply conf_In in X. congruence.
Qed.

Lemma inv_log h r e : inv h r -> e = [] -> inv (mkHost (h_addr h) (h_limit h) (h_sigs h) (h_cbs h) (h_tree h) (h_item_addr h) (h_item_data h) (h_devs h) (h_log h ++ e)) r.
Proof. intros I ->. rewrite app_nil_r. destruct I. split; cbn; auto. Qed.

Lemma step_issue h r d n : inv h r -> zlen (r_conf r) <= 2048 -> exists h', host_issue h d n = Ok h' /\ inv h' (rstep tree cap r (Issue d n)).
Proof.
  intros I HL. unfold host_issue. cbn [rstep]. destruct (conf r d) eqn:EC; cbn [andb].
  2:{ assert (N : ~ In d (r_conf r)) by (intros X; apply conf_In in X; congruence).
      destruct (i_unconf _ _ I d N) as (-> & _). destruct (HD d) as (D1 & _).
      rewrite msi_rejects by (left; assumption). cbn [bind rc_handle_msis messages_events]. eexists. split; [reflexivity|]. now apply inv_log. }
  apply conf_In in EC. destruct (In_nth_error _ _ EC) as (k & Hk).
  assert (KL : Z.of_nat k < zlen (r_conf r)). { assert (k < length (r_conf r))%nat by (apply nth_error_Some; congruence). unfold zlen; lia. }
  destruct (i_conf _ _ I k d Hk) as (p & it & E & X1 & X2 & (s' & C & ->) & X4). cbn [md_regs md_mps].
  destruct (HD d) as (D1 & D2 & D3 & D4 & D5 & D6 & D7).
  assert (H5 : 2 ^ md_regs (devs d) A_msi_multiple_message_capable <= 32) by (change 32 with (2^5); apply Z.pow_le_mono_r; lia).
  destruct ((0 <=? n) && (n <? cap d)) eqn:EN; unfold cap, vectors in EN.
  - assert (Hn : 0 <= n < 2 ^ md_regs (devs d) A_msi_multiple_message_capable) by lia.
    destruct (X4 n ltac:(lia)) as [Y1 Y2].
    destruct (msi_end_to_end (md_regs (devs d)) (md_low (devs d)) base (32 * Z.of_nat k) d (md_mps (devs d)) n 0 0
       (fun n => match h_sigs h n with Some _ => true | None => false end) []) as (s2 & t & A & B & R); try assumption; try lia.
    { now rewrite Y1. }
    rewrite C in A. injection A as <-. rewrite B. cbn [bind rc_handle_msis].
    assert (EA : h_addr h = Some base). { destruct (i_addr _ _ I) as [->|[_ X]]; [reflexivity|]. rewrite X in EC. destruct EC. }
    rewrite EA, R. cbn [bind app messages_events]. unfold message_events. rewrite Y1, Y2. cbn [bind]. rewrite app_nil_r.
    eexists. split; [reflexivity|]. destruct I. split; cbn [h_tree h_item_addr h_item_data h_devs h_limit h_sigs h_cbs h_addr h_log r_conf r_sig r_cb r_log]; auto.
    + apply Forall_app. split; [assumption|]. constructor; [assumption|]. apply Forall_app. split; apply Forall_forall; intros e He; apply in_map_iff in He; destruct He as (? & <- & _); exact Logic.I.
    + rewrite i_log0, map_app. f_equal. cbn [map conc]. unfold own at 1. rewrite (idx_nth _ i_nodup0 k d Hk), map_app, !map_map. reflexivity.
  - destruct (msi_configured (md_regs (devs d)) (md_low (devs d)) base (32 * Z.of_nat k) D4 HB HB4) as (s2 & C2 & B1 & B2 & B3 & B4 & B5 & B6); [unfold zlen in *; lia|lia|assumption|assumption|].
    rewrite C in C2. injection C2 as <-.
    rewrite msi_rejects. 2:{ rewrite B5. lia. }
    cbn [bind rc_handle_msis messages_events]. eexists. split; [reflexivity|]. now apply inv_log.
Qed.

Lemma conf_grows r o : zlen (r_conf r) <= zlen (r_conf (rstep tree cap r o)).
Proof.
  destruct o; cbn [rstep].
  - destruct (_ && _); [|lia]. cbn [r_conf]. unfold zlen. rewrite app_length. lia.
  - destruct (conf r d); cbn; lia.
  - destruct (conf r d); cbn; lia.
  - destruct (_ && _ && _); cbn; lia.
Qed.
Lemma conf_grows_run l : forall r, zlen (r_conf r) <= zlen (r_conf (fold_left (rstep tree cap) l r)).
Proof. induction l as [|o l IH]; intros r; cbn [fold_left]; [lia|]. pose proof (conf_grows r o). specialize (IH (rstep tree cap r o)). lia. Qed.

Lemma run_inv l : forall h r, inv h r -> Forall op_ok l -> zlen (r_conf (fold_left (rstep tree cap) l r)) <= 2048 ->
  exists h', hrun base h l = Ok h' /\ inv h' (fold_left (rstep tree cap) l r).
Proof.
  induction l as [|o l IH]; intros h r I F HL; cbn [hrun fold_left] in *; [exists h; auto|].
  apply Forall_cons_iff in F. destruct F as [F1 F2].
  assert (S : exists h', hstep base h o = Ok h' /\ inv h' (rstep tree cap r o)).
  { pose proof (conf_grows_run l (rstep tree cap r o)). pose proof (conf_grows r o).
    destruct o as [d|d s n|d s n|d n]; cbn [hstep].
    - destruct (step_configure h r d I) as (h' & b & -> & _ & I'); [lia|]. cbn [bind fst]. eauto.
    - eexists. split; [reflexivity|]. now apply step_regsig.
    - eexists. split; [reflexivity|]. now apply step_regcb.
    - apply step_issue; [assumption|lia]. }
  destruct S as (h' & -> & I'). cbn [bind]. now apply IH.
Qed.

Lemma registry l : Forall op_ok l -> zlen (r_conf (rrun tree cap l)) <= 2048 ->
  exists h (own : pcie_id -> Z -> sigid), hrun base (host0 tree devs) l = Ok h /\
    h_log h = map (conc own) (r_log (rrun tree cap l)) /\
    (forall d n, conf (rrun tree cap l) d = true -> 0 <= n < 32 -> msi_get_signal h d n = Ok (Some (own d n)) /\ forall s, own d n <> User s) /\
    (forall d d' n n', conf (rrun tree cap l) d = true -> conf (rrun tree cap l) d' = true -> 0 <= n < 32 -> 0 <= n' < 32 -> own d n = own d' n' -> d = d' /\ n = n') /\
    (forall d n, conf (rrun tree cap l) d = false -> msi_get_signal h d n = Ok None).
Proof.
  intros F HL. destruct (run_inv l _ _ inv0 F HL) as (h & R & I). fold (rrun tree cap l) in *. exists h, (own (r_conf (rrun tree cap l))).
  split; [assumption|]. split; [apply (i_log _ _ I)|]. split; [|split].
  - intros d n Hc Hn. apply conf_In in Hc. destruct (In_nth_error _ _ Hc) as (k & Hk). unfold msi_get_signal. rewrite (dev_data_conf h _ I k d Hk).
    destruct (i_conf _ _ I k d Hk) as (p & it & E & X1 & X2 & X3 & X4). destruct (X4 n Hn) as [-> _]. unfold own. rewrite (idx_nth _ (i_nodup _ _ I) k d Hk).
    split; [reflexivity|congruence].
  - intros d d' n n' Hc Hc' Hn Hn' E. apply conf_In in Hc. destruct (In_nth_error _ _ Hc) as (k & Hk). apply conf_In in Hc'. destruct (In_nth_error _ _ Hc') as (k' & Hk').
    unfold own in E. rewrite (idx_nth _ (i_nodup _ _ I) k d Hk), (idx_nth _ (i_nodup _ _ I) k' d' Hk') in E.
    assert (E2 : 32 * Z.of_nat k + n = 32 * Z.of_nat k' + n') by congruence. assert (k = k') as -> by lia. split; [congruence|lia].
  - intros d n Hc. unfold msi_get_signal. rewrite (dev_data_unconf h _ I); [reflexivity|]. intros X. apply conf_In in X. congruence.
Qed.
End run.
Lemma configure_value tree devs base : NoDup (map ti_id (items tree)) -> 0 <= base < 2^64 -> base mod 4 = 0 -> (forall d, dev_ok base (devs d)) ->
  forall l d, Forall op_ok l -> zlen (r_conf (rrun tree (vectors devs) (l ++ [Configure d]))) <= 2048 ->
  exists h h', hrun base (host0 tree devs) l = Ok h /\ host_configure_msi base h d = Ok (h', has_msi tree d).
Proof.
  intros ND HB HB4 HD l d F HL. unfold rrun in HL. rewrite fold_left_app in HL. cbn [fold_left] in HL.
  pose proof (conf_grows tree devs base HD (fold_left (rstep tree (vectors devs)) l reg0) (Configure d)) as G.
  destruct (run_inv tree devs base ND HB HB4 HD l _ _ (inv0 tree devs base) F) as (h & R & I); [lia|].
  destruct (step_configure tree devs base ND HB HB4 HD _ _ d I HL) as (h' & b & A & -> & _). eauto.
Qed.
