(** What follows from the specification of the MSI-X module: no message without request, no request lost, messages kept (C95). *)
From Verif Require Import PyBase RtlModel RtlMsixModel RtlMsixSpec.

Fixpoint after (force : bool) (n : mon) (tr : list mx_ev) (acts : list act) : mon :=
  match tr, acts with
  | e :: tr', a :: acts' => after force (next force n e a) tr' acts'
  | _, _ => n
  end.
Lemma follows_app force : forall a b n acts, follows force n (a ++ b) acts -> exists x y, acts = x ++ y /\ length x = length a /\ follows force n a x /\ follows force (after force n a x) b y.
Proof.
  induction a as [|e a IH]; intros b n acts H; cbn [app] in H.
  - exists [], acts. repeat split; auto.
  - destruct acts as [|x acts]; [destruct H|]. destruct H as (H1 & H2 & H3). destruct (IH _ _ _ H3) as (u & w & -> & Hl & Ha & Hb).
    exists (x :: u), w. split; [reflexivity|]. split; [cbn; lia|]. split; [exact (conj H1 (conj H2 Ha))|exact Hb].
Qed.
Lemma follows_snoc force : forall a x n e y, length x = length a -> after force n (a ++ [e]) (x ++ [y]) = next force (after force n a x) e y.
Proof.
  induction a as [|b a IH]; intros [|z x] n e y H; try discriminate; [reflexivity|]. cbn. apply IH. injection H as H. exact H.
Qed.
Lemma snoc_inv {A} (x : list A) n : length x = S n -> exists u w, x = u ++ [w] /\ length u = n.
Proof.
  intros H. destruct x as [|z x0] using rev_ind; [discriminate|]. exists x0, z. rewrite app_length in H. cbn in H. split; [reflexivity|lia].
Qed.

Definition low_tr (tr : list mx_ev) : Prop := forall e, In e tr -> forall v, accepted e = Some v -> 0 <= v < 32.

Definition job_ok (tr : list mx_ev) (j : job) : Prop :=
  In (Some (j_vec j)) (map accepted tr) /\ (exists e1, In e1 tr /\ j_addr j = entry_addr (mv_tbl e1) (j_vec j))
  /\ ((j_age j = 1)%nat \/ exists e2, In e2 tr /\ j_data j = entry_data (mv_tbl e2) (j_vec j) /\ j_masked j = entry_masked (mv_tbl e2) (j_vec j))
  /\ (j_age j = 3%nat -> j_masked j = false).
Record sound (force : bool) (tr : list mx_ev) (n : mon) : Prop := {
  so_pend : forall v, Z.testbit (n_pend n) v = true -> In (Some v) (map accepted tr);
  so_job : forall j, n_job n = Some j -> job_ok tr j;
  so_out : forall m, n_out n = Some m -> exists v, In (Some v) (map accepted tr) /\ message force tr v m }.

Lemma in_snoc {A} (x : A) l y : In x l -> In x (l ++ [y]).
Proof. intros. apply in_or_app. auto. Qed.
Lemma in_snoc_map {A B} (f : A -> B) x l y : In x (map f l) -> In x (map f (l ++ [y])).
Proof. intros. rewrite map_app. apply in_or_app. auto. Qed.
Lemma in_last {A} (l : list A) y : In y (l ++ [y]).
Proof. apply in_or_app. right. left. reflexivity. Qed.
Lemma message_more force tr e v m : message force tr v m -> message force (tr ++ [e]) v m.
Proof. intros (e1 & e2 & e3 & H1 & H2 & H3 & H). exists e1, e2, e3. repeat split; try apply in_snoc; auto; apply H. Qed.
Lemma job_ok_more tr e j : job_ok tr j -> job_ok (tr ++ [e]) j.
Proof.
  intros (H1 & (e1 & H2 & H3) & H4 & H5). split; [apply in_snoc_map; exact H1|]. split; [exists e1; split; [apply in_snoc; exact H2|exact H3]|]. split; [|exact H5].
  destruct H4 as [H4|(e2 & H4 & H6 & H7)]; [left; exact H4|right; exists e2; split; [apply in_snoc; exact H4|auto]].
Qed.

Lemma setbit_test x v u : 0 <= v -> Z.testbit (Z.setbit x v) u = true -> u = v \/ Z.testbit x u = true.
Proof. intros Hv H. apply Z.setbit_iff in H; [|exact Hv]. destruct H; auto. Qed.
Lemma clearbit_test x v u : Z.testbit (Z.clearbit x v) u = true -> Z.testbit x u = true.
Proof. intros H. apply Z.clearbit_iff in H. tauto. Qed.
Lemma accepted_in tr v : low_tr tr -> In (Some v) (map accepted tr) -> 0 <= v < 32.
Proof. intros H Hi. apply in_map_iff in Hi. destruct Hi as (e & E & He). exact (H e He v E). Qed.

Lemma sound_step force tr n e a : low_tr (tr ++ [e]) -> sound force tr n -> shows n e -> legal n e a -> sound force (tr ++ [e]) (next force n e a).
Proof.
  intros Hlow [S1 S2 S3] Hs Hl.
  assert (Hjob : forall j, n_job n = Some j -> 0 <= j_vec j < 32).
  { intros j Hj. apply (accepted_in tr); [|apply (S2 j Hj)]. intros x Hx. apply Hlow. apply in_snoc. exact Hx. }
  constructor.
  - intros v Hv. destruct a as [|u|u|u]; cbn [next n_pend] in Hv.
    + apply in_snoc_map, S1, Hv.
    + apply in_snoc_map, S1, Hv.
    + destruct Hl as (j & Hj & Hju & _). apply setbit_test in Hv; [|rewrite <- Hju; specialize (Hjob j Hj); lia]. destruct Hv as [->|Hv]; [rewrite <- Hju; apply in_snoc_map, (S2 j Hj)|apply in_snoc_map, S1, Hv].
    + apply clearbit_test in Hv. apply in_snoc_map, S1, Hv.
  - intros j Hj. cbn [next n_job] in Hj. destruct (mi_rst (mv_in e)); [discriminate|]. destruct a as [|u|u|u].
    + destruct (n_job n) as [[v ag ad da ma]|] eqn:En; [|discriminate]. specialize (S2 _ eq_refl). cbn [legal] in Hl. rewrite En in Hl. destruct Hl as [_ Hl]. cbn [j_age j_masked] in Hl.
      destruct ag as [|[|ag]].
      * exfalso. destruct Hl as [Hl|[[Hl _]|[Hl _]]]; discriminate.
      * injection Hj as <-. pose proof (job_ok_more tr e _ S2) as (J1 & J2 & J3 & J4). cbn [j_vec j_age j_addr j_data j_masked] in *. split; [exact J1|]. split; [exact J2|].
        split; [|discriminate]. right. exists e. split; [apply in_last|]. auto.
      * injection Hj as <-. pose proof (job_ok_more tr e _ S2) as (J1 & J2 & J3 & J4). cbn [j_vec j_age j_addr j_data j_masked] in *.
        split; [exact J1|]. split; [exact J2|]. split. { right. destruct J3 as [J3|J3]; [discriminate|exact J3]. }
        intros _. cbn [j_masked]. destruct Hl as [Hl|[[_ [_ Hl]]|[Hl _]]]; [discriminate|exact Hl|apply J4; exact Hl].
    + injection Hj as <-. unfold job_ok. cbn [j_vec j_age j_addr j_data j_masked]. split.
      { destruct Hl as [_ [Hl|(_ & _ & Hl)]]; [rewrite <- Hl; apply in_map, in_last|apply in_snoc_map, S1, Hl]. }
      split; [exists e; split; [apply in_last|reflexivity]|]. split; [left; reflexivity|discriminate].
    + destruct (n_job n); discriminate.
    + destruct (n_job n); discriminate.
  - intros m Hm. cbn [next n_out] in Hm. destruct (mi_rst (mv_in e)); [discriminate|].
    assert (Hold : n_out n = Some m -> exists v, In (Some v) (map accepted (tr ++ [e])) /\ message force (tr ++ [e]) v m).
    { intros E. destruct (S3 m E) as (v & V1 & V2). exists v. split; [apply in_snoc_map, V1|apply message_more, V2]. }
    destruct a as [|u|u|u]; try (destruct (n_job n), (mi_ready (mv_in e)); try discriminate; apply Hold; exact Hm).
    destruct Hl as (j & Hj & Hju & Hage & _). rewrite Hj in Hm. injection Hm as <-. destruct (S2 j Hj) as (J1 & (e1 & J2 & J2') & J3 & J4).
    destruct J3 as [J3|(e2 & J3 & J3' & J3'')]; [rewrite Hage in J3; discriminate|]. exists (j_vec j). split; [apply in_snoc_map, J1|].
    exists e1, e2, e. split; [apply in_snoc; exact J2|]. split; [apply in_snoc; exact J3|]. split; [apply in_last|]. rewrite J2', J3'. split; [reflexivity|]. rewrite <- J3''. apply J4, Hage.
Qed.
Lemma sound0 force : sound force [] mon0.
Proof. constructor; cbn; try discriminate. intros v. rewrite Z.bits_0. discriminate. Qed.
Lemma sound_all force tr : low_tr tr -> forall acts, follows force mon0 tr acts -> sound force tr (after force mon0 tr acts).
Proof.
  induction tr as [|e tr IH] using rev_ind; intros Hl acts H; [destruct acts; [apply sound0|destruct H]|].
  destruct (follows_app force tr [e] mon0 acts H) as (x & y & -> & Hx & Ha & Hb). destruct y as [|y [|]]; cbn in Hb; [destruct Hb| |destruct Hb as (_ & _ & [])].
  rewrite follows_snoc by exact Hx. destruct Hb as (B1 & B2 & _). apply sound_step; auto. apply IH; auto. intros u Hu. apply Hl. apply in_snoc. exact Hu.
Qed.

(** Counting. *)
Fixpoint pop (k : nat) (x : Z) : nat := match k with O => O | S k' => (pop k' x + if Z.testbit x (Z.of_nat k') then 1 else 0)%nat end.
Lemma pop_same k : forall x y, (forall i, 0 <= i < Z.of_nat k -> Z.testbit x i = Z.testbit y i) -> pop k x = pop k y.
Proof. induction k as [|k IH]; intros x y H; [reflexivity|]. cbn [pop]. rewrite (IH x y), (H (Z.of_nat k)) by (intros; try apply H; lia). reflexivity. Qed.
Lemma pop_set k : forall x v, 0 <= v < Z.of_nat k -> Z.testbit x v = false -> pop k (Z.setbit x v) = S (pop k x).
Proof.
  induction k as [|k IH]; intros x v Hv H; [lia|]. cbn [pop]. destruct (Z.eq_dec v (Z.of_nat k)) as [->|Hne].
  - rewrite Z.setbit_eq by lia. rewrite H. rewrite (pop_same k (Z.setbit x (Z.of_nat k)) x); [lia|]. intros i Hi. apply Z.setbit_neq; lia.
  - rewrite Z.setbit_neq by lia. rewrite IH by (auto; lia). lia.
Qed.
Lemma pop_clear k : forall x v, 0 <= v < Z.of_nat k -> Z.testbit x v = true -> pop k x = S (pop k (Z.clearbit x v)).
Proof.
  induction k as [|k IH]; intros x v Hv H; [lia|]. cbn [pop]. destruct (Z.eq_dec v (Z.of_nat k)) as [->|Hne].
  - rewrite Z.clearbit_eq by lia. rewrite H. rewrite (pop_same k (Z.clearbit x (Z.of_nat k)) x); [lia|]. intros i Hi. apply Z.clearbit_neq; lia.
  - rewrite Z.clearbit_neq by lia. rewrite (IH x v) by (auto; lia). lia.
Qed.
Lemma set_id x v : Z.testbit x v = true -> Z.setbit x v = x.
Proof.
  intros H. apply Z.bits_inj'. intros i Hi. destruct (Z_lt_le_dec v 0); [rewrite Z.testbit_neg_r in H by lia; discriminate|].
  rewrite Z.setbit_eqb by lia. destruct (Z.eqb_spec v i); [subst; rewrite H; reflexivity|reflexivity].
Qed.
Lemma clear_id x v : 0 <= v -> Z.testbit x v = false -> Z.clearbit x v = x.
Proof.
  intros Hv H. apply Z.bits_inj'. intros i Hi. rewrite Z.clearbit_eqb. destruct (Z.eqb_spec v i); [subst; rewrite H; reflexivity|apply andb_true_r].
Qed.
Definition is_acc (e : mx_ev) : bool := mi_valid (mv_in e) && mv_ready e.
Definition is_taken (e : mx_ev) : bool := mv_txvalid e && mi_ready (mv_in e).
Definition cnt (f : mx_ev -> bool) (tr : list mx_ev) : nat := length (filter f tr).
Lemma cnt_snoc f tr e : cnt f (tr ++ [e]) = (cnt f tr + if f e then 1 else 0)%nat.
Proof. unfold cnt. rewrite filter_app, app_length. cbn. destruct (f e); reflexivity. Qed.
Definition slack (n : mon) : nat :=
  (pop 32 (n_pend n) + (match n_job n with Some j => if Z.testbit (n_pend n) (j_vec j) then 0 else 1 | None => 0 end) + (match n_out n with Some _ => 1 | None => 0 end))%nat.
Lemma count_step force tr n e a : low_tr (tr ++ [e]) -> sound force tr n -> shows n e -> legal n e a ->
  (cnt is_taken tr + slack n <= cnt is_acc tr)%nat -> (cnt is_taken (tr ++ [e]) + slack (next force n e a) <= cnt is_acc (tr ++ [e]))%nat.
Proof.
  intros Hlow Hso (_ & _ & Ho & Hrd) Hl IH. rewrite !cnt_snoc.
  assert (Hjob : forall j, n_job n = Some j -> 0 <= j_vec j < 32).
  { intros j Hj. apply (accepted_in tr); [|apply (so_job _ _ _ Hso j Hj)]. intros x Hx. apply Hlow. apply in_snoc. exact Hx. }
  assert (Hacc : forall v, accepted e = Some v -> is_acc e = true) by (intros v; unfold accepted, is_acc; destruct (_ && _); [reflexivity|discriminate]).
  assert (Htk : ((if is_taken e then 1 else 0) + (match (if mi_ready (mv_in e) then None else n_out n) with Some _ => 1 | None => 0 end) <= match n_out n with Some _ => 1 | None => 0 end)%nat).
  { rewrite <- Ho. unfold is_taken, offered. destruct (mv_txvalid e), (mi_ready (mv_in e)); cbn; lia. }
  assert (Hdrop : forall a, (slack (next force n e a) <= pop 32 (n_pend (next force n e a)) +
     (match (match a, n_job n with Start v, _ => Some (mkJob v 1 (entry_addr (mv_tbl e) v) 0 false) | Wait, Some (mkJob v 1 ad _ _) => Some (mkJob v 2 ad (entry_data (mv_tbl e) v) (entry_masked (mv_tbl e) v))
       | Wait, Some (mkJob v _ ad da ma) => Some (mkJob v 3 ad da ma) | _, _ => None end) with Some j => if Z.testbit (n_pend (next force n e a)) (j_vec j) then 0 else 1 | None => 0 end) +
     (match (match a, n_job n with Send _, Some j => Some (msg_hdr force (mi_rid (mv_in e)) (j_addr j), j_data j) | _, _ => if mi_ready (mv_in e) then None else n_out n end) with Some _ => 1 | None => 0 end))%nat).
  { intros b. unfold slack, next. cbn [n_pend n_job n_out]. destruct (mi_rst (mv_in e)); [lia|apply Nat.le_refl]. }
  specialize (Hdrop a). unfold slack in IH. destruct a as [|u|u|u]; cbn [next n_pend] in Hdrop.
  - destruct (n_job n) as [[v ag ad da ma]|] eqn:En; cbn [j_vec] in IH.
    + destruct ag as [|[|ag]]; cbn [j_vec] in Hdrop; lia.
    + lia.
  - cbn [j_vec] in Hdrop. destruct Hl as [Hn [Hl|(_ & _ & Hl)]]; rewrite Hn in *.
    + rewrite (Hacc _ Hl). destruct (Z.testbit (n_pend n) u); lia.
    + rewrite Hl in Hdrop. lia.
  - destruct Hl as (j & Hj & <- & _). rewrite Hj in *. specialize (Hjob j eq_refl). destruct (Z.testbit (n_pend n) (j_vec j)) eqn:Et.
    + rewrite set_id in * by exact Et. lia.
    + rewrite pop_set in Hdrop by (auto; lia). lia.
  - destruct Hl as (j & Hj & <- & _ & Hfree). rewrite Hj in *. specialize (Hjob j eq_refl).
    assert (Htk2 : ((if is_taken e then 1 else 0) <= match n_out n with Some _ => 1 | None => 0 end)%nat).
    { rewrite <- Ho. unfold is_taken, offered. destruct (mv_txvalid e), (mi_ready (mv_in e)); cbn; lia. }
    destruct (Z.testbit (n_pend n) (j_vec j)) eqn:Et.
    + rewrite (pop_clear 32 _ (j_vec j)) in IH by (auto; lia). assert (Hf : (match n_out n with Some _ => 1 | None => 0 end <= if is_taken e then 1 else 0)%nat).
      { rewrite <- Ho in *. unfold is_taken, offered in *. destruct (mv_txvalid e); [|lia]. destruct Hfree as [Hfree| ->]; [discriminate|]. cbn. lia. } lia.
    + rewrite clear_id in * by (auto; lia). assert (Hf : (match n_out n with Some _ => 1 | None => 0 end <= if is_taken e then 1 else 0)%nat).
      { rewrite <- Ho in *. unfold is_taken, offered in *. destruct (mv_txvalid e); [|lia]. destruct Hfree as [Hfree| ->]; [discriminate|]. cbn. lia. } lia.
Qed.
Lemma count_all force tr : low_tr tr -> forall acts, follows force mon0 tr acts -> (cnt is_taken tr + slack (after force mon0 tr acts) <= cnt is_acc tr)%nat.
Proof.
  induction tr as [|e tr IH] using rev_ind; intros Hl acts H; [destruct acts; [vm_compute; lia|destruct H]|].
  destruct (follows_app force tr [e] mon0 acts H) as (x & y & -> & Hx & Ha & Hb). destruct y as [|y [|]]; cbn in Hb; [destruct Hb| |destruct Hb as (_ & _ & [])].
  rewrite follows_snoc by exact Hx. destruct Hb as (B1 & B2 & _).
  assert (Hl' : low_tr tr) by (intros u Hu; apply Hl; apply in_snoc; exact Hu).
  apply count_step; auto. apply sound_all; auto.
Qed.

Lemma follows_spurious force tr acts : low_tr tr -> follows force mon0 tr acts -> no_spurious force tr.
Proof.
  intros Hl H. split.
  - intros a e b m -> Hm. destruct (follows_app force a (e :: b) mon0 acts H) as (x & y & -> & Hx & Ha & Hb). destruct y as [|y ys]; [destruct Hb|]. destruct Hb as ((_ & _ & Ho & _) & _).
    assert (Hla : low_tr a) by (intros u Hu; apply Hl; apply in_or_app; auto).
    apply (so_out _ _ _ (sound_all force a Hla x Ha)). rewrite <- Ho. exact Hm.
  - pose proof (count_all force tr Hl acts H). unfold cnt, is_taken, is_acc in *. lia.
Qed.

(** No loss. [u] are the events since the request, the request included. *)
Definition safe (force : bool) (u : list mx_ev) (v : Z) (n : mon) : Prop :=
  Z.testbit (n_pend n) v = true \/ (exists j, n_job n = Some j /\ j_vec j = v)
  \/ exists m, message force u v m /\ (n_out n = Some m \/ exists x, In x (tl u) /\ offered x = Some m).
(** What is needed of the job while the vector is served: everything of it was read since the request. *)
Definition job_since (u : list mx_ev) (v : Z) (n : mon) : Prop := forall j, n_job n = Some j -> j_vec j = v ->
  (exists e1, In e1 u /\ j_addr j = entry_addr (mv_tbl e1) v)
  /\ ((j_age j = 1)%nat \/ exists e2, In e2 u /\ j_data j = entry_data (mv_tbl e2) v /\ j_masked j = entry_masked (mv_tbl e2) v)
  /\ (j_age j = 3%nat -> j_masked j = false).
Lemma tl_snoc {A} (u : list A) e x : In x (tl u) -> In x (tl (u ++ [e])).
Proof. destruct u; [intros []|]. cbn. apply in_snoc. Qed.
Lemma job_since_step force u v n e a : job_since u v n -> legal n e a -> job_since (u ++ [e]) v (next force n e a).
Proof.
  intros J Hl j Hj Hv. cbn [next n_job] in Hj. destruct (mi_rst (mv_in e)); [discriminate|]. destruct a as [|w|w|w]; try (destruct (n_job n); discriminate).
  - destruct (n_job n) as [[z ag ad da ma]|] eqn:En; [|discriminate]. assert (Hz : z = v) by (destruct ag as [|[|ag]]; injection Hj as <-; exact Hv).
    destruct (J _ En Hz) as ((e1 & J1 & J1') & J2 & J3). cbn [legal] in Hl. rewrite En in Hl. cbn [j_age j_addr j_data j_masked] in *. destruct Hl as [_ Hl].
    assert (Hadd : j_addr j = ad) by (destruct ag as [|[|ag]]; injection Hj as <-; reflexivity).
    split. { exists e1. split; [apply in_snoc; exact J1|rewrite Hadd; exact J1']. }
    destruct ag as [|[|ag]].
    + exfalso. destruct Hl as [Hl|[[Hl _]|[Hl _]]]; discriminate.
    + injection Hj as <-. cbn [j_age j_data j_masked]. split; [right; exists e; split; [apply in_last|rewrite Hz; auto]|discriminate].
    + injection Hj as <-. cbn [j_age j_data j_masked]. split.
      * right. destruct J2 as [J2|(e2 & J2 & J2')]; [discriminate|]. exists e2. split; [apply in_snoc; exact J2|exact J2'].
      * intros _. destruct Hl as [Hl|[[_ [_ Hl]]|[Hl _]]]; [discriminate|exact Hl|apply J3; exact Hl].
  - injection Hj as <-. cbn [j_vec] in Hv. subst w. cbn [j_age j_addr j_data j_masked]. split; [exists e; split; [apply in_last|reflexivity]|]. split; [left; reflexivity|discriminate].
Qed.
Lemma safe_step force u v n e a : u <> [] -> 0 <= v -> job_since u v n -> safe force u v n -> shows n e -> legal n e a -> mi_rst (mv_in e) = false ->
  (forall j, n_job n = Some j -> 0 <= j_vec j) -> safe force (u ++ [e]) v (next force n e a).
Proof.
  intros Hu Hv J Hs (_ & _ & Ho & _) Hl Hr Hjv. unfold safe. cbn [next n_pend n_job n_out]. rewrite Hr.
  destruct Hs as [Hs|[(j & Hj & Hjj)|(m & Hm & Hs)]].
  - destruct a as [|w|w|w]; auto.
    + left. destruct Hl as (j & Hj & <- & _). apply Z.setbit_iff; [apply Hjv; exact Hj|]. auto.
    + destruct Hl as (j & Hj & <- & Hage & Hfree). destruct (Z.eq_dec (j_vec j) v) as [E|E].
      * right. right. rewrite Hj. eexists. split; [|left; reflexivity]. destruct (J j Hj E) as ((e1 & J1 & J1') & J2 & J3). destruct J2 as [J2|(e2 & J2 & J2' & J2'')]; [rewrite Hage in J2; discriminate|].
        exists e1, e2, e. split; [apply in_snoc; exact J1|]. split; [apply in_snoc; exact J2|]. split; [apply in_last|]. rewrite J1', J2'. split; [reflexivity|]. rewrite <- J2''. apply J3, Hage.
      * left. apply Z.clearbit_iff. auto.
  - destruct a as [|w|w|w].
    + right. left. destruct (n_job n) as [[z ag ad da ma]|]; [|discriminate]. injection Hj as <-. cbn [j_vec] in Hjj. destruct ag as [|[|ag]]; eexists; (split; [reflexivity|exact Hjj]).
    + destruct Hl as [Hl _]. rewrite Hl in Hj. discriminate.
    + left. destruct Hl as (j' & Hj' & <- & _). rewrite Hj in Hj'. injection Hj' as <-. apply Z.setbit_iff; [rewrite Hjj; exact Hv|]. left. exact Hjj.
    + destruct Hl as (j' & Hj' & <- & Hage & Hfree). rewrite Hj in Hj'. injection Hj' as <-. right. right. rewrite Hj. eexists. split; [|left; reflexivity].
      destruct (J j Hj Hjj) as ((e1 & J1 & J1') & J2 & J3). destruct J2 as [J2|(e2 & J2 & J2' & J2'')]; [rewrite Hage in J2; discriminate|].
      exists e1, e2, e. split; [apply in_snoc; exact J1|]. split; [apply in_snoc; exact J2|]. split; [apply in_last|]. rewrite J1', J2'. split; [reflexivity|]. rewrite <- J2''. apply J3, Hage.
  - right. right. exists m. split; [apply message_more; exact Hm|]. destruct Hs as [Hs|(x & Hx & Hxm)].
    + right. exists e. split; [destruct u; [congruence|cbn; apply in_last]|]. rewrite Ho. exact Hs.
    + right. exists x. split; [apply tl_snoc; exact Hx|exact Hxm].
Qed.
Lemma follows_kept force tr acts n : follows force n tr acts -> tlp_kept tr.
Proof.
  intros H a e1 e2 b m -> Hr Hnr Hm. destruct (follows_app force a (e1 :: e2 :: b) n acts H) as (x & y & -> & Hx & Ha & Hb).
  destruct y as [|y1 [|y2 ys]]; cbn [follows] in Hb; try tauto. destruct Hb as ((_ & _ & Ho & _) & Hl & (_ & _ & Ho2 & _) & _). rewrite Ho2. cbn [next n_out]. rewrite Hr, Hnr, <- Ho, Hm.
  destruct y1 as [|w|w|w]; try reflexivity. destruct Hl as (j & _ & _ & _ & [E|E]); [rewrite <- Ho, Hm in E; discriminate|congruence].
Qed.
Lemma safe_all force a v : 0 <= v -> forall c ac n' u, u <> [] -> sound force (a ++ u) n' -> job_since u v n' -> safe force u v n' -> low_tr (a ++ u ++ c) -> follows force n' c ac ->
  (forall x, In x c -> mi_rst (mv_in x) = false) -> safe force (u ++ c) v (after force n' c ac).
Proof.
  intros Hv. induction c as [|f c IHc]; intros ac n' u Hu Hs' J S Hlo Hf Hrr. { rewrite app_nil_r. destruct ac; exact S. }
  destruct ac as [|q ac]; [destruct Hf|]. destruct Hf as (F1 & F2 & F3). cbn [after]. change (f :: c) with ([f] ++ c). rewrite app_assoc. apply IHc; auto.
  - destruct u; discriminate.
  - rewrite app_assoc. apply sound_step; auto. intros w Hw. apply Hlo. rewrite !in_app_iff in *. cbn in *. tauto.
  - apply job_since_step; auto.
  - apply safe_step; auto; try lia.
    + apply Hrr. left. reflexivity.
    + intros j Hj. pose proof (so_job _ _ _ Hs' j Hj) as (Q & _). apply accepted_in in Q; [lia|]. intros w Hw. apply Hlo. rewrite !in_app_iff in *. tauto.
  - intros w Hw. apply Hlo. rewrite !in_app_iff in *. cbn in *. tauto.
  - intros w Hw. apply Hrr. right. exact Hw.
Qed.
Lemma follows_loss force tr acts : low_tr tr -> follows force mon0 tr acts -> no_loss force tr.
Proof.
  intros Hl H a e b z v -> Hacc Hr0 Hr. destruct (follows_app force a (e :: b ++ [z]) mon0 acts H) as (x & y & -> & Hx & Ha & Hb).
  destruct y as [|y ys]; [destruct Hb|]. destruct Hb as (Hsh & Hleg & Hb).
  assert (Hv : 0 <= v < 32) by (apply (Hl e); [apply in_or_app; right; left; reflexivity|exact Hacc]).
  set (n := after force mon0 a x) in *.
  assert (Hso : sound force a n) by (apply sound_all; [intros u Hu; apply Hl; apply in_or_app; auto|exact Ha]).
  assert (Hst : y = Start v).
  { assert (Hnj : n_job n = None) by (apply Hsh; unfold accepted in Hacc; destruct (mi_valid (mv_in e)), (mv_ready e); try discriminate; reflexivity).
    destruct y as [|w|w|w]; cbn in Hleg.
    - destruct Hleg as [E _]. congruence.
    - destruct Hleg as [_ [E|(E & _)]]; [congruence|]. unfold accepted in Hacc. rewrite E in Hacc. discriminate.
    - destruct Hleg as (j & E & _). congruence.
    - destruct Hleg as (j & E & _). congruence. }
  subst y.
  destruct (follows_app force b [z] _ ys Hb) as (ab & az & -> & Hlb & Hfb & Hfz).
  destruct az as [|az azs]; [destruct Hfz|]. destruct Hfz as (Hz & _ & _).
  assert (Hfin : safe force ([e] ++ b) v (after force (next force n e (Start v)) b ab)).
  { apply (safe_all force a v); auto; try discriminate; try lia.
    - apply sound_step; auto. intros w Hw. apply Hl. rewrite !in_app_iff in *. cbn in *. tauto.
    - apply (job_since_step force [] v n e (Start v)); [|exact Hleg]. intros j Hj. destruct Hleg as [E _]. congruence.
    - right. left. unfold next. cbn [n_job]. rewrite Hr0. eexists. split; reflexivity.
    - intros w Hw. apply Hl. rewrite !in_app_iff in *. cbn in *. rewrite in_app_iff. tauto. }
  destruct Hz as (Hp & _ & Ho & Hrd). assert (v / 64 = 0) as -> by (apply Z.div_small; lia). rewrite (Z.mod_small v 64) by lia. rewrite Hp.
  destruct Hfin as [Hfin|[(j & Hj & _)|(m & Hm & Hfin)]].
  - left. exact Hfin.
  - right. left. destruct (mv_ready z); [|reflexivity]. rewrite (Hrd eq_refl) in Hj. discriminate.
  - right. right. cbn [app tl] in Hfin. destruct Hfin as [Hfin|(w & Hw & Hwm)].
    + exists z, m. split; [apply in_last|]. split; [rewrite Ho; exact Hfin|]. change (e :: b ++ [z]) with (([e] ++ b) ++ [z]). apply message_more. exact Hm.
    + exists w, m. split; [apply in_snoc; exact Hw|]. split; [exact Hwm|]. change (e :: b ++ [z]) with (([e] ++ b) ++ [z]). apply message_more. exact Hm.
Qed.
