From Verif Require Import PyBase PortModel PortSpec.

Section Link.
  Context {A : Type} (d : A -> Z) (ld : Z).
  Hypothesis Hd : forall a, 1 <= d a.
  Hypothesis Hl : 0 <= ld.

  Definition arrs (l : list (Z * ev A)) : list (Z * A) := flat_map (fun e => match snd e with Arr a => [(fst e, a)] | _ => [] end) l.
  Definition ctls (l : list (Z * ev A)) : list (Z * ev A) := filter (fun e => match snd e with Arr _ => false | _ => true end) l.
  Fixpoint free_at (f : Z) (l : list (Z * A)) : Z := match l with [] => f | (t, a) :: r => free_at (Z.max t f + d a) r end.

  Lemma serial_app l1 : forall f l2, serial d ld f (l1 ++ l2) = serial d ld f l1 ++ serial d ld (free_at f l1) l2.
  Proof. induction l1 as [|(t, a) l IH]; intros f l2; [reflexivity|]. cbn [app serial free_at]. rewrite IH. reflexivity. Qed.
  Lemma free_app l1 : forall f l2, free_at f (l1 ++ l2) = free_at (free_at f l1) l2.
  Proof. induction l1 as [|(t, a) l IH]; intros f l2; [reflexivity|]. cbn [app free_at]. apply IH. Qed.

  (** Strictly increasing times. *)
  Fixpoint incr (lo : Z) (l : list (Z * A)) : Prop := match l with [] => True | (t, a) :: r => lo < t /\ incr t r end.
  Lemma incr_in l : forall lo x, incr lo l -> In x l -> lo < fst x.
  Proof. induction l as [|(t, a) l IH]; intros lo x H Hx; [destruct Hx|]. destruct H as (H1 & H2). destruct Hx as [<-|Hx]; [exact H1|]. specialize (IH t x H2 Hx). lia. Qed.
  Lemma incr_app l : forall lo t a, incr lo l -> lo < t -> (forall x, In x l -> fst x < t) -> incr lo (l ++ [(t, a)]).
  Proof.
    induction l as [|(u, b) l IH]; intros lo t a H Hlo Hx; cbn [app incr]; [auto|]. destruct H as (H1 & H2). split; [exact H1|]. apply IH; [exact H2|apply (Hx (u, b)); left; reflexivity|].
    intros x Hi. apply Hx. right. exact Hi.
  Qed.
  Lemma incr_weak l lo lo' : lo' <= lo -> incr lo l -> incr lo' l.
  Proof. destruct l as [|(t, a) l]; [auto|]. intros H (H1 & H2). split; [lia|exact H2]. Qed.

  Lemma arrs_app a b : arrs (a ++ b) = arrs a ++ arrs b. Proof. apply flat_map_app. Qed.
  Lemma ctls_app a b : ctls (a ++ b) = ctls a ++ ctls b. Proof. apply filter_app. Qed.
  Lemma ctls_in l x : In x l -> (match snd x with Arr _ => False | _ => True end) -> In x (ctls l).
  Proof. intros H H1. apply filter_In. split; [exact H|]. destruct (snd x); auto. Qed.

  (** [dn]: TLPs that have left the port; [tq]: the queue with the times of the sends. *)
  Definition inv (s : tx A) (snt : list (Z * A)) : Prop :=
    exists dn cur tq, snt = dn ++ cur ++ tq /\ tx_queue s = map snd tq /\
      tx_out s ++ arrs (tx_pend s) = serial d ld 0 dn /\ 0 <= free_at 0 dn <= tx_now s /\
      incr (tx_now s - 1) (arrs (tx_pend s)) /\ (forall x, In x (arrs (tx_pend s)) -> fst x <= free_at 0 dn + ld) /\
      Forall (fun e => fst e <= tx_now s) (cur ++ tq) /\
      ((tx_sched s = false /\ ctls (tx_pend s) = [] /\ cur = [] /\ tq = []) \/
       (tx_sched s = true /\ ctls (tx_pend s) = [(tx_now s, Start)] /\ cur = [] /\ (match tq with [] => True | (t, _) :: _ => t = tx_now s \/ free_at 0 dn = tx_now s end) /\ (tq = [] -> free_at 0 dn = tx_now s)) \/
       (tx_sched s = true /\ exists t a, cur = [(t, a)] /\ ctls (tx_pend s) = [(Z.max t (free_at 0 dn) + d a, Fin a)] /\ tx_now s <= Z.max t (free_at 0 dn) + d a)).

  Lemma inv0 : inv tx0 [].
  Proof.
    exists [], [], []. cbn. split; [reflexivity|]. split; [reflexivity|]. split; [reflexivity|]. split; [lia|]. split; [exact I|]. split; [intros x []|]. split; [constructor|]. left. auto.
  Qed.

  Lemma inv_send s snt a : inv s snt -> inv (do_send s a) (snt ++ [(tx_now s, a)]).
  Proof.
    intros (dn & cur & tq & E & Q & O & F & I1 & I2 & T & C). exists dn, cur, (tq ++ [(tx_now s, a)]).
    assert (T' : Forall (fun e => fst e <= tx_now s) (cur ++ tq ++ [(tx_now s, a)])).
    { rewrite app_assoc. apply Forall_app. split; [exact T|]. repeat constructor. cbn. lia. }
    unfold do_send. destruct C as [(S & C & -> & ->)|[(S & C & -> & C2 & C3)|(S & t & b & -> & C & C2)]]; rewrite S; cbn [tx_queue tx_sched tx_now tx_pend tx_out app] in *.
    - split; [rewrite E, app_nil_r; reflexivity|]. split; [rewrite Q; reflexivity|]. rewrite arrs_app. cbn [arrs flat_map snd fst app]. rewrite app_nil_r.
      split; [exact O|]. split; [exact F|]. split; [exact I1|]. split; [exact I2|]. split; [exact T'|]. right. left. rewrite ctls_app, C. cbn [ctls filter snd app].
      split; [reflexivity|]. split; [reflexivity|]. split; [reflexivity|]. split; [left; reflexivity|discriminate].
    - split; [rewrite E, <- app_assoc; reflexivity|]. split; [rewrite Q, map_app; reflexivity|].
      split; [exact O|]. split; [exact F|]. split; [exact I1|]. split; [exact I2|]. split; [exact T'|]. right. left. split; [reflexivity|]. split; [exact C|]. split; [reflexivity|].
      split; [destruct tq as [|(t, b) tq]; cbn [app]; [left; reflexivity|exact C2]|]. intros Hn. destruct tq as [|(? & ?) ?]; discriminate.
    - split; [rewrite E, <- app_assoc; reflexivity|]. split; [rewrite Q, map_app; reflexivity|].
      split; [exact O|]. split; [exact F|]. split; [exact I1|]. split; [exact I2|]. split; [exact T'|]. right. right. split; [reflexivity|]. exists t, b. auto.
  Qed.

  Lemma earliest_in t (l : list (Z * ev A)) x : earliest t l = true -> In x l -> t <= fst x.
  Proof. unfold earliest. rewrite forallb_forall. intros H Hx. specialize (H x Hx). lia. Qed.

  Lemma inv_wait s snt t : inv s snt -> (tx_now s <=? t) && earliest t (tx_pend s) = true -> inv (mkTx (tx_queue s) (tx_sched s) t (tx_pend s) (tx_out s)) snt.
  Proof.
    intros (dn & cur & tq & E & Q & O & F & I1 & I2 & T & C) H. apply andb_true_iff in H. destruct H as (H1 & H2). apply Z.leb_le in H1.
    exists dn, cur, tq. cbn [tx_queue tx_sched tx_now tx_pend tx_out]. split; [exact E|]. split; [exact Q|]. split; [exact O|]. split; [lia|].
    assert (AR : incr (t - 1) (arrs (tx_pend s))).
    { destruct (arrs (tx_pend s)) as [|(u, b) r] eqn:EA; [exact I|]. destruct I1 as (_ & I1). split; [|exact I1].
      assert (HI : In (u, b) (arrs (tx_pend s))) by (rewrite EA; left; reflexivity). unfold arrs in HI. apply in_flat_map in HI. destruct HI as ((v, e) & Hi & Hv).
      pose proof (earliest_in t _ _ H2 Hi) as Hle. cbn [fst snd] in *. destruct e; cbn [In] in Hv; try contradiction. destruct Hv as [Hv|[]]. injection Hv as -> _. lia. }
    split; [exact AR|]. split; [exact I2|]. split; [eapply Forall_impl; [|exact T]; cbn; intros; lia|].
    assert (CT : forall x, In x (ctls (tx_pend s)) -> t <= fst x) by (intros x Hx; apply (earliest_in t (tx_pend s)); [exact H2|]; apply filter_In in Hx; tauto).
    destruct C as [C|[(S & C & -> & C2 & C3)|(S & u & b & -> & C & C2)]]; [left; exact C| |].
    - right. left. assert (Et : t = tx_now s) by (rewrite C in CT; specialize (CT _ (or_introl eq_refl)); cbn [fst] in CT; lia). rewrite Et. auto.
    - right. right. split; [exact S|]. exists u, b. split; [reflexivity|]. split; [exact C|]. rewrite C in CT. specialize (CT _ (or_introl eq_refl)). exact CT.
  Qed.

  Lemma pend_split (l : list (Z * ev A)) i x : nth_error l i = Some x -> exists l1 l2, l = l1 ++ x :: l2 /\ firstn i l ++ skipn (S i) l = l1 ++ l2.
  Proof.
    intros H. apply nth_error_split in H. destruct H as (l1 & l2 & -> & <-). exists l1, l2. split; [reflexivity|].
    rewrite firstn_app, firstn_all, Nat.sub_diag. cbn [firstn]. rewrite app_nil_r. f_equal. change (S (length l1)) with (1 + length l1)%nat. rewrite Nat.add_comm. 
    replace (length l1 + 1)%nat with (length (l1 ++ [x])) by (rewrite app_length; reflexivity). change (l1 ++ x :: l2) with (l1 ++ [x] ++ l2). rewrite app_assoc, skipn_app, skipn_all, Nat.sub_diag. reflexivity.
  Qed.

  Lemma inv_event s snt i t e : inv s snt -> nth_error (tx_pend s) i = Some (t, e) -> earliest t (tx_pend s) = true ->
    inv (do_event d ld s t e (firstn i (tx_pend s) ++ skipn (S i) (tx_pend s))) snt.
  Proof.
    intros (dn & cur & tq & E & Q & O & F & I1 & I2 & T & C) Hn He. destruct (pend_split _ _ _ Hn) as (l1 & l2 & EP & ->).
    assert (Hin : In (t, e) (tx_pend s)) by (rewrite EP; apply in_or_app; right; left; reflexivity).
    assert (AT : forall x, In x (arrs (tx_pend s)) -> t <= fst x).
    { intros x Hx. unfold arrs in Hx. apply in_flat_map in Hx. destruct Hx as ((v, e') & Hi & Hv). pose proof (earliest_in t _ _ He Hi) as Hle. cbn [fst snd] in *.
      destruct e'; cbn [In] in Hv; try contradiction. destruct Hv as [<-|[]]. exact Hle. }
    assert (CT : forall x, In x (ctls (tx_pend s)) -> t <= fst x) by (intros x Hx; apply (earliest_in t (tx_pend s)); [exact He|]; apply filter_In in Hx; tauto).
    assert (NOW : tx_now s <= t).
    { destruct e as [|a|a].
      - pose proof (ctls_in _ _ Hin Logic.I) as Hc. destruct C as [(_ & C & _)|[(_ & C & _)|(_ & u & b & _ & C & _)]]; rewrite C in Hc; cbn [In] in Hc; [contradiction|destruct Hc as [Hc|[]]; injection Hc as <-; lia|destruct Hc as [Hc|[]]; discriminate].
      - pose proof (ctls_in _ _ Hin Logic.I) as Hc. destruct C as [(_ & C & _)|[(_ & C & _)|(_ & u & b & _ & C & C2)]]; rewrite C in Hc; cbn [In] in Hc; [contradiction|destruct Hc as [Hc|[]]; discriminate|destruct Hc as [Hc|[]]; injection Hc as <- _; exact C2].
      - assert (Ha : In (t, a) (arrs (tx_pend s))) by (rewrite EP, arrs_app; apply in_or_app; right; left; reflexivity). pose proof (incr_in _ _ _ I1 Ha) as H. cbn [fst] in H. lia. }
    assert (IA : forall l, arrs (tx_pend s) = arrs l -> incr (t - 1) (arrs l)).
    { intros l El. rewrite <- El. destruct (arrs (tx_pend s)) as [|(u, b) r]; [exact I|]. destruct I1 as (_ & I1). split; [|exact I1]. specialize (AT (u, b) (or_introl eq_refl)). cbn [fst] in AT. lia. }
    destruct e as [|a|a].
    - (* Start *)
      assert (Hc : In (t, Start) (ctls (tx_pend s))) by (apply ctls_in; [exact Hin|exact Logic.I]).
      destruct C as [(_ & C & _)|[(S & C & -> & C2 & C3)|(_ & u & b & _ & C & _)]]; rewrite C in Hc; cbn [In] in Hc; [contradiction| |intuition congruence].
      destruct Hc as [Hc|[]]. injection Hc as Ht. subst t.
      assert (CE : ctls (l1 ++ l2) = []). { rewrite EP, !ctls_app in C. cbn [ctls filter snd] in C. rewrite ctls_app. fold (ctls l2) in C. destruct (ctls l1) as [|x q]; [injection C; auto|]. destruct q; discriminate. }
      assert (AE : arrs (tx_pend s) = arrs (l1 ++ l2)) by (rewrite EP, !arrs_app; reflexivity).
      unfold do_event. rewrite Q. destruct tq as [|(u, a) tq]; cbn [map snd].
      + exists dn, [], []. cbn [tx_queue tx_sched tx_now tx_pend tx_out app]. split; [exact E|]. split; [reflexivity|]. rewrite <- AE. split; [exact O|]. split; [lia|].
        split; [exact I1|]. split; [exact I2|]. split; [constructor|]. left. auto.
      + exists dn, [(u, a)], tq. cbn [tx_queue tx_sched tx_now tx_pend tx_out]. rewrite arrs_app, ctls_app, <- AE, CE. cbn [arrs ctls flat_map filter snd fst app]. rewrite app_nil_r.
        split; [exact E|]. split; [reflexivity|]. split; [exact O|]. split; [lia|]. split; [exact I1|]. split; [exact I2|]. split; [exact T|]. right. right. split; [exact S|]. exists u, a.
        apply Forall_cons_iff in T. destruct T as (T1 & _). cbn [fst] in T1. assert (M : Z.max u (free_at 0 dn) = tx_now s) by lia. rewrite M. split; [reflexivity|]. split; [reflexivity|]. specialize (Hd a). lia.
    - (* Fin *)
      assert (Hc : In (t, Fin a) (ctls (tx_pend s))) by (apply ctls_in; [exact Hin|exact Logic.I]).
      destruct C as [(_ & C & _)|[(S & C & -> & C2 & C3)|(S & u & b & -> & C & C2)]]; rewrite C in Hc; cbn [In] in Hc; [contradiction|intuition congruence|].
      destruct Hc as [Hc|[]]. injection Hc as Ht ->.
      assert (CE : ctls (l1 ++ l2) = []). { rewrite EP, !ctls_app in C. cbn [ctls filter snd] in C. rewrite ctls_app. fold (ctls l2) in C. destruct (ctls l1) as [|x q]; [injection C; auto|]. destruct q; discriminate. }
      assert (AE : arrs (tx_pend s) = arrs (l1 ++ l2)) by (rewrite EP, !arrs_app; reflexivity).
      exists (dn ++ [(u, a)]), [], tq. cbn [do_event tx_queue tx_sched tx_now tx_pend tx_out]. rewrite arrs_app, ctls_app, <- AE, CE, serial_app, free_app. cbn [arrs ctls flat_map filter snd fst app serial free_at].
      fold (free_at 0 dn). rewrite Ht. specialize (Hd a) as Hda.
      split; [rewrite E, <- app_assoc; reflexivity|]. split; [exact Q|]. split; [rewrite app_assoc, O; reflexivity|]. split; [lia|].
      split; [apply incr_app; [apply IA; reflexivity|lia|intros x Hx; specialize (I2 x Hx); lia]|].
      split; [intros x Hx; apply in_app_or in Hx; destruct Hx as [Hx|[<-|[]]]; [specialize (I2 x Hx); lia|cbn; lia]|].
      apply Forall_cons_iff in T. destruct T as (_ & T). split; [eapply Forall_impl; [|exact T]; cbn; intros; lia|]. right. left. split; [exact S|]. split; [reflexivity|]. split; [reflexivity|]. 
      split; [destruct tq as [|(v, w) tq]; [exact I|right; reflexivity]|reflexivity].
    - (* Arr *)
      assert (Ha : In (t, a) (arrs (tx_pend s))) by (rewrite EP, arrs_app; apply in_or_app; right; left; reflexivity).
      assert (AE : arrs (tx_pend s) = (t, a) :: arrs (l1 ++ l2)).
      { rewrite EP, arrs_app in *. cbn [arrs flat_map snd fst app] in *. fold (arrs l2) in *. rewrite arrs_app. destruct (arrs l1) as [|(u, b) q]; [reflexivity|].
        exfalso. destruct I1 as (_ & I1). cbn [app] in *. assert (u < t) by (apply (incr_in _ _ (t, a) I1); apply in_or_app; right; left; reflexivity). specialize (AT (u, b) (or_introl eq_refl)). cbn [fst] in AT. lia. }
      assert (CE : ctls (l1 ++ l2) = ctls (tx_pend s)) by (rewrite EP, !ctls_app; reflexivity).
      exists dn, cur, tq. cbn [do_event tx_queue tx_sched tx_now tx_pend tx_out]. rewrite CE. rewrite AE in O, I1, I2. split; [exact E|]. split; [exact Q|]. split; [rewrite <- app_assoc; exact O|]. split; [lia|].
      split; [destruct I1 as (_ & I1); eapply incr_weak; [|exact I1]; lia|]. split; [intros x Hx; apply I2; right; exact Hx|]. split; [eapply Forall_impl; [|exact T]; cbn; intros; lia|].
      destruct C as [C|[(S & C & -> & C2 & C3)|(S & u & b & -> & C & C2)]]; [left; exact C| |].
      + right. left. assert (Et : t = tx_now s) by (rewrite C in CT; specialize (CT _ (or_introl eq_refl)); cbn [fst] in CT; lia). rewrite Et. auto.
      + right. right. split; [exact S|]. exists u, b. split; [reflexivity|]. split; [exact C|]. rewrite C in CT. exact (CT _ (or_introl eq_refl)).
  Qed.

  Lemma inv_run : forall l s s' snt, inv s snt -> tx_run d ld s l = Some s' -> inv s' (snt ++ sent d ld s l).
  Proof.
    induction l as [|o l IH]; intros s s' snt H E; cbn [tx_run sent] in *.
    - injection E as <-. rewrite app_nil_r. exact H.
    - destruct (tx_step d ld s o) as [s1|] eqn:E1; [|discriminate]. destruct o as [a|i|t]; cbn [tx_step] in E1.
      + injection E1 as <-. change ((tx_now s, a) :: ?x) with ([(tx_now s, a)] ++ x). rewrite app_assoc. apply IH; [apply inv_send; exact H|exact E].
      + destruct (nth_error (tx_pend s) i) as [(t, e)|] eqn:En; [|discriminate]. destruct (earliest t (tx_pend s)) eqn:Ee; [|discriminate]. injection E1 as <-. apply IH; [|exact E]. apply inv_event; assumption.
      + destruct ((tx_now s <=? t) && earliest t (tx_pend s)) eqn:Ee; [|discriminate]. injection E1 as <-. apply IH; [|exact E]. apply inv_wait; assumption.
  Qed.

  Lemma link_serial l s : tx_run d ld tx0 l = Some s -> exists rest, serial d ld 0 (sent d ld tx0 l) = tx_out s ++ rest /\ (tx_pend s = [] -> rest = []).
  Proof.
    intros E. pose proof (inv_run l tx0 s [] inv0 E) as (dn & cur & tq & ES & Q & O & F & I1 & I2 & T & C). cbn [app] in ES. rewrite ES, serial_app, <- O, <- app_assoc.
    eexists. split; [reflexivity|]. intros HP. rewrite HP in *. cbn [arrs ctls flat_map filter app] in *. destruct C as [(_ & _ & -> & ->)|[(_ & C & _)|(_ & u & b & _ & C & _)]]; [reflexivity|discriminate|discriminate].
  Qed.

  (** Something can always run, and only finitely often without a send. *)
  Lemma some_earliest : forall (l : list (Z * ev A)), l <> [] -> exists i t e, nth_error l i = Some (t, e) /\ earliest t l = true.
  Proof.
    induction l as [|(t, e) l IH]; [congruence|]. intros _. destruct l as [|y l]; [exists 0%nat, t, e; split; [reflexivity|unfold earliest; cbn; rewrite Z.leb_refl; reflexivity]|].
    destruct (IH ltac:(discriminate)) as (i & u & e' & Hn & He). destruct (Z_le_gt_dec t u).
    - exists 0%nat, t, e. split; [reflexivity|]. apply forallb_forall. intros x [<-|Hx]; [apply Z.leb_refl|]. pose proof (earliest_in _ _ _ He Hx). lia.
    - exists (S i), u, e'. split; [exact Hn|]. apply forallb_forall. intros x [<-|Hx]; [cbn [fst]; lia|]. pose proof (earliest_in _ _ _ He Hx). lia.
  Qed.
  Lemma work_event s i t e : nth_error (tx_pend s) i = Some (t, e) -> (work (do_event d ld s t e (firstn i (tx_pend s) ++ skipn (S i) (tx_pend s))) < work s)%nat.
  Proof.
    intros Hn. destruct (pend_split _ _ _ Hn) as (l1 & l2 & EP & ->). unfold work. rewrite EP.
    assert (LC : forall x l, list_sum (x :: l) = (x + list_sum l)%nat) by reflexivity. assert (LN : list_sum [] = 0%nat) by reflexivity.
    destruct e as [|a|a]; cbn [do_event].
    - destruct (tx_queue s) as [|a q]; cbn [tx_queue tx_pend length]; rewrite !map_app, !list_sum_app; cbn [map snd]; rewrite ?LC, ?LN; lia.
    - cbn [tx_queue tx_pend]. rewrite !map_app, !list_sum_app. cbn [map snd]. rewrite ?LC, ?LN. lia.
    - cbn [tx_queue tx_pend]. rewrite !map_app, !list_sum_app. cbn [map snd]. rewrite ?LC, ?LN. lia.
  Qed.
  Lemma run_app l1 : forall l2 s s1, tx_run d ld s l1 = Some s1 -> tx_run d ld s (l1 ++ l2) = tx_run d ld s1 l2.
  Proof. induction l1 as [|o l1 IH]; intros l2 s s1 E; cbn [tx_run app] in *; [injection E as ->; reflexivity|]. destruct (tx_step d ld s o); [|discriminate]. apply IH. exact E. Qed.
  Lemma sent_app l1 : forall l2 s s1, tx_run d ld s l1 = Some s1 -> sent d ld s (l1 ++ l2) = sent d ld s l1 ++ sent d ld s1 l2.
  Proof.
    induction l1 as [|o l1 IH]; intros l2 s s1 E; cbn [tx_run app sent] in *; [injection E as ->; reflexivity|]. destruct (tx_step d ld s o); [|discriminate].
    destruct o; cbn [app]; rewrite (IH l2 _ _ E); reflexivity.
  Qed.
  Lemma drain : forall n s, (work s <= n)%nat -> exists l s', tx_run d ld s l = Some s' /\ tx_pend s' = [] /\ sent d ld s l = [] /\ Forall (fun o => exists i, o = Run i) l.
  Proof.
    induction n as [|n IH]; intros s Hw.
    - exists [], s. split; [reflexivity|]. split; [|split; [reflexivity|constructor]]. unfold work in Hw. destruct (tx_pend s) as [|(t, [| |]) l]; [reflexivity| | |]; cbn [map snd list_sum fold_right] in Hw; lia.
    - destruct (tx_pend s) as [|x r] eqn:EP; [exists [], s; auto using Forall_nil|].
      destruct (some_earliest (tx_pend s)) as (i & t & e & Hn & He); [rewrite EP; discriminate|].
      pose proof (work_event s i t e Hn) as W. destruct (IH _ (proj1 (Nat.lt_succ_r _ _) (Nat.lt_le_trans _ _ _ W Hw))) as (l & s' & R1 & R2 & R3 & R4).
      exists (Run i :: l), s'. cbn [tx_run sent tx_step]. rewrite Hn, He. split; [exact R1|]. split; [exact R2|]. split; [exact R3|]. constructor; [exists i; reflexivity|exact R4].
  Qed.
  (** Without further sends every schedule of at least [work s] events delivers everything. *)
  Lemma drain_all : forall l s s', tx_run d ld s l = Some s' -> Forall (fun o => exists i, o = Run i) l -> (length l <= work s)%nat.
  Proof.
    induction l as [|o l IH]; intros s s' E F; [cbn; lia|]. apply Forall_cons_iff in F. destruct F as ((i & ->) & F). cbn [tx_run tx_step length] in *.
    destruct (nth_error (tx_pend s) i) as [(t, e)|] eqn:Hn; [|discriminate]. destruct (earliest t (tx_pend s)); [|discriminate]. specialize (IH _ _ E F). pose proof (work_event s i t e Hn). lia.
  Qed.
  Lemma link_completes l s : tx_run d ld tx0 l = Some s ->
    exists l' s', Forall (fun o => exists i, o = Run i) l' /\ tx_run d ld tx0 (l ++ l') = Some s' /\ tx_pend s' = [] /\ tx_out s' = serial d ld 0 (sent d ld tx0 l).
  Proof.
    intros E. destruct (drain (work s) s (le_n _)) as (l' & s' & R1 & R2 & R3 & R4). exists l', s'. split; [exact R4|].
    assert (E2 : tx_run d ld tx0 (l ++ l') = Some s') by (rewrite (run_app _ _ _ _ E); exact R1). split; [exact E2|]. split; [exact R2|].
    destruct (link_serial _ _ E2) as (rest & A1 & A2). rewrite (sent_app _ _ _ _ E), R3, app_nil_r in A1. rewrite A1, (A2 R2), app_nil_r. reflexivity.
  Qed.
End Link.
