From Verif Require Import PyBase PortModel PortSpec.

Lemma put_length {A} (x : A) : forall l i, length (put i x l) = length l.
Proof. induction l as [|y l IH]; intros [|i]; cbn [put length]; auto. Qed.
Lemma put_nth {A} (x : A) : forall l i j, (i < length l)%nat -> nth_error (put i x l) j = if (j =? i)%nat then Some x else nth_error l j.
Proof.
  induction l as [|y l IH]; intros [|i] [|j] H; cbn [put nth_error length Nat.eqb] in *; try reflexivity; try (exfalso; inversion H; fail). apply IH. lia.
Qed.
Lemma taken_spec p j : taken p j = false <-> can_link p j.
Proof.
  unfold taken, can_link. destruct (p_bus p).
  - split.
    + intros H Hi. assert (existsb (Nat.eqb j) (p_other p) = true) by (apply existsb_exists; exists j; split; [exact Hi|apply Nat.eqb_refl]). congruence.
    + intros H. destruct (existsb _ _) eqn:E; [|reflexivity]. apply existsb_exists in E. destruct E as (x & Hx & Ex). apply Nat.eqb_eq in Ex. subst. contradiction.
  - destruct (p_other p); split; congruence.
Qed.

(** The port after a new link. *)
Definition linked (p : port) (j : nat) (q : port) : port :=
  mkPort (p_bus p) (p_maxs p) (p_maxw p) (p_delay p) (p_other p ++ [j]) (Z.min (p_maxs p) (p_maxs q)) (Z.min (p_maxw p) (p_maxw q)) (p_delay p + p_delay q).

Lemma connect_new ps i j p q : i <> j -> nth_error ps i = Some p -> nth_error ps j = Some q -> can_link p j -> can_link q i ->
  connect ps i j = (put i (linked p j q) (put j (linked q i p) ps), None).
Proof.
  intros Hne Ep Eq Hp Hq. assert (Lj : (j < length ps)%nat) by (apply nth_error_Some; congruence).
  unfold connect. rewrite Ep, Eq. apply taken_spec in Hp, Hq. rewrite Hp. unfold connect_int at 1. rewrite Hq. cbv zeta.
  rewrite put_nth by exact Lj. rewrite (proj2 (Nat.eqb_neq i j) Hne), Ep. unfold connect_int. rewrite Hp. reflexivity.
Qed.
Lemma connect_refused ps i j p q : nth_error ps i = Some p -> nth_error ps j = Some q -> ~ can_link p j \/ ~ can_link q i -> connect ps i j = (ps, Some (PyException 30)).
Proof.
  intros Ep Eq H. unfold connect. rewrite Ep, Eq. destruct (taken p j) eqn:Tp; [reflexivity|]. unfold connect_int at 1. destruct (taken q i) eqn:Tq; [reflexivity|].
  exfalso. apply taken_spec in Tp, Tq. tauto.
Qed.
Lemma connect_cases ps i j : i <> j -> connect ps i j = (ps, Some NameError) \/ connect ps i j = (ps, Some (PyException 30)) \/
  exists p q, nth_error ps i = Some p /\ nth_error ps j = Some q /\ can_link p j /\ can_link q i /\ connect ps i j = (put i (linked p j q) (put j (linked q i p) ps), None).
Proof.
  intros Hne. destruct (nth_error ps i) as [p|] eqn:Ep; [|left; unfold connect; rewrite Ep; reflexivity].
  destruct (nth_error ps j) as [q|] eqn:Eq; [|left; unfold connect; rewrite Ep, Eq; reflexivity].
  destruct (taken p j) eqn:Tp; [right; left; apply (connect_refused _ _ _ _ _ Ep Eq); left; intros C; apply taken_spec in C; congruence|].
  destruct (taken q i) eqn:Tq; [right; left; apply (connect_refused _ _ _ _ _ Ep Eq); right; intros C; apply taken_spec in C; congruence|].
  right. right. exists p, q. apply taken_spec in Tp, Tq. repeat (split; [assumption || reflexivity|]). apply connect_new; assumption.
Qed.

Lemma can_link_new p j : can_link p j -> ~ In j (p_other p).
Proof. unfold can_link. destruct (p_bus p); [auto|]. intros ->. intros []. Qed.
Lemma linked_len p j q : can_link p j -> (p_bus p = false -> (length (p_other (linked p j q)) <= 1)%nat).
Proof. unfold can_link. intros H E. rewrite E in H. cbn [linked p_other]. rewrite H. cbn. lia. Qed.
Lemma NoDup_snoc {A} (l : list A) x : NoDup l -> ~ In x l -> NoDup (l ++ [x]).
Proof.
  intros HN Hx. induction HN as [|y l Hy HN IH]; cbn [app]; [repeat constructor; intros []|]. constructor; [|apply IH; intros H; apply Hx; right; exact H].
  intros H. apply in_app_or in H. destruct H as [H|[->|[]]]; [contradiction|]. apply Hx. left. reflexivity.
Qed.

Lemma links_step ps i j : i <> j -> links_ok ps -> links_ok (fst (connect ps i j)).
Proof.
  intros Hne H. destruct (connect_cases ps i j Hne) as [E|[E|(p & q & Ep & Eq & Cp & Cq & E)]]; rewrite E; cbn [fst]; [exact H|exact H|].
  assert (Li : (i < length ps)%nat) by (apply nth_error_Some; congruence). assert (Lj : (j < length ps)%nat) by (apply nth_error_Some; congruence).
  assert (N : forall k, nth_error (put i (linked p j q) (put j (linked q i p) ps)) k = if (k =? i)%nat then Some (linked p j q) else if (k =? j)%nat then Some (linked q i p) else nth_error ps k).
  { intros k. rewrite put_nth by (rewrite put_length; exact Li). destruct (k =? i)%nat; [reflexivity|]. apply put_nth. exact Lj. }
  (* every old link survives, with the peer's limits unchanged *)
  assert (KEEP : forall k r, nth_error ps k = Some r -> exists r', nth_error (put i (linked p j q) (put j (linked q i p) ps)) k = Some r' /\ (forall x, In x (p_other r) -> In x (p_other r')) /\ p_maxs r' = p_maxs r /\ p_maxw r' = p_maxw r /\ p_delay r' = p_delay r).
  { intros k r Hr. rewrite N. destruct (Nat.eqb_spec k i) as [->|]; [|destruct (Nat.eqb_spec k j) as [->|]].
    - rewrite Ep in Hr. injection Hr as <-. exists (linked p j q). split; [reflexivity|]. split; [intros x Hx; cbn; apply in_or_app; left; exact Hx|auto].
    - rewrite Eq in Hr. injection Hr as <-. exists (linked q i p). split; [reflexivity|]. split; [intros x Hx; cbn; apply in_or_app; left; exact Hx|auto].
    - exists r. auto. }
  (* a port with a new link *)
  assert (NEW : forall a b pa pb, nth_error ps a = Some pa -> nth_error ps b = Some pb -> a <> b -> can_link pa b ->
            nth_error (put i (linked p j q) (put j (linked q i p) ps)) b = Some (linked pb a pa) ->
            (p_bus (linked pa b pb) = false -> (length (p_other (linked pa b pb)) <= 1)%nat) /\ NoDup (p_other (linked pa b pb)) /\
            forall k, In k (p_other (linked pa b pb)) -> k <> a /\ exists r, nth_error (put i (linked p j q) (put j (linked q i p) ps)) k = Some r /\ In a (p_other r) /\
              (p_bus (linked pa b pb) = false -> p_curs (linked pa b pb) = Z.min (p_maxs (linked pa b pb)) (p_maxs r) /\ p_curw (linked pa b pb) = Z.min (p_maxw (linked pa b pb)) (p_maxw r) /\ p_ldelay (linked pa b pb) = p_delay (linked pa b pb) + p_delay r)).
  { intros a b pa pb Ea Eb Hab Ca Hb. destruct (H a pa Ea) as (H1 & H2 & H3). split; [intros Hf; apply linked_len; [exact Ca|exact Hf]|]. split; [cbn [linked p_other]; apply NoDup_snoc; [exact H2|apply can_link_new; exact Ca]|].
    intros k Hk. cbn [linked p_other] in Hk. apply in_app_or in Hk. destruct Hk as [Hk|[<-|[]]].
    - destruct (H3 k Hk) as (K1 & r & K2 & K3 & K4). split; [exact K1|]. destruct (KEEP k r K2) as (r' & R1 & R2 & R3 & R4 & R5). exists r'. split; [exact R1|]. split; [apply R2; exact K3|].
      cbn [linked p_bus]. intros Hb'. exfalso. unfold can_link in Ca. rewrite Hb' in Ca. rewrite Ca in Hk. destruct Hk.
    - split; [congruence|]. exists (linked pb a pa). split; [exact Hb|]. split; [cbn; apply in_or_app; right; left; reflexivity|]. intros _. cbn. auto. }
  intros k r Hr. rewrite N in Hr. destruct (Nat.eqb_spec k i) as [->|Hki]; [|destruct (Nat.eqb_spec k j) as [->|Hkj]].
  - injection Hr as <-. apply NEW; auto. rewrite N. rewrite (proj2 (Nat.eqb_neq j i)) by congruence. rewrite Nat.eqb_refl. reflexivity.
  - injection Hr as <-. apply NEW; auto. rewrite N. rewrite Nat.eqb_refl. reflexivity.
  - destruct (H k r Hr) as (H1 & H2 & H3). split; [exact H1|]. split; [exact H2|]. intros m Hm. destruct (H3 m Hm) as (K1 & r1 & K2 & K3 & K4). split; [exact K1|].
    destruct (KEEP m r1 K2) as (r' & R1 & R2 & R3 & R4 & R5). exists r'. split; [exact R1|]. split; [apply R2; exact K3|]. rewrite R3, R4, R5. exact K4.
Qed.
Lemma links_run l : forall ps, Forall (fun c => fst c <> snd c) l -> links_ok ps -> links_ok (connects ps l).
Proof.
  induction l as [|(i, j) l IH]; intros ps F H; [exact H|]. apply Forall_cons_iff in F. destruct F as (F1 & F2). cbn [connects fst snd] in *. apply IH; [exact F2|]. apply links_step; assumption.
Qed.
Lemma links_fresh ps : Forall (fun p => p_other p = []) ps -> links_ok ps.
Proof.
  intros F i p Hp. apply nth_error_In in Hp. rewrite Forall_forall in F. rewrite (F p Hp). split; [cbn; lia|]. split; [constructor|]. intros j [].
Qed.
Lemma connect_atomic ps i j : i <> j -> (exists e, connect ps i j = (ps, Some e)) \/ snd (connect ps i j) = None.
Proof. intros Hne. destruct (connect_cases ps i j Hne) as [E|[E|(p & q & _ & _ & _ & _ & E)]]; [left; eauto|left; eauto|right; rewrite E; reflexivity]. Qed.
Lemma connect_links ps i j p q : i <> j -> nth_error ps i = Some p -> nth_error ps j = Some q -> can_link p j -> can_link q i ->
  exists ps', connect ps i j = (ps', None) /\ length ps' = length ps /\ (exists p', nth_error ps' i = Some p' /\ p_other p' = p_other p ++ [j]) /\ (exists q', nth_error ps' j = Some q' /\ p_other q' = p_other q ++ [i]) /\
    forall k, k <> i -> k <> j -> nth_error ps' k = nth_error ps k.
Proof.
  intros Hne Ep Eq Cp Cq. eexists. split; [apply connect_new; eassumption|]. assert (Li : (i < length ps)%nat) by (apply nth_error_Some; congruence). assert (Lj : (j < length ps)%nat) by (apply nth_error_Some; congruence).
  split; [rewrite !put_length; reflexivity|]. split; [|split].
  - rewrite put_nth by (rewrite put_length; exact Li). rewrite Nat.eqb_refl. eauto.
  - rewrite put_nth by (rewrite put_length; exact Li). rewrite (proj2 (Nat.eqb_neq j i)) by congruence. rewrite put_nth by exact Lj. rewrite Nat.eqb_refl. eauto.
  - intros k K1 K2. rewrite put_nth by (rewrite put_length; exact Li). rewrite (proj2 (Nat.eqb_neq k i) K1). rewrite put_nth by exact Lj. rewrite (proj2 (Nat.eqb_neq k j) K2). reflexivity.
Qed.

(** The default link (Gen 3 x16) and everything slower takes at least one time unit per TLP. *)
Lemma wire_time_pos speed width wire : 1 <= speed <= 3 -> 1 <= width <= 16 -> 24 <= wire -> exists t, wire_time speed width wire = Some t /\ 1 <= t.
Proof.
  intros Hs Hw Hb. unfold wire_time, gen_rate. assert (C : speed = 1 \/ speed = 2 \/ speed = 3) by lia.
  destruct C as [-> | [-> | ->]]; cbn [Z.eqb Pos.eqb]; eexists; (split; [reflexivity|]); apply Z.div_le_lower_bound; lia.
Qed.
