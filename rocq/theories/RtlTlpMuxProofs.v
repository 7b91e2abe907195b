(** Lemmas on the TLP multiplexer (C92): the loop over the segments of one clock. *)
From Verif Require Import PyBase RtlModel RtlProofs RtlFcProofs RtlMuxModel RtlTlpMuxModel.
From Coq Require Import Lia.

Lemma loop_in : forall n q, In q (loop n) <-> 0 <= q < n.
Proof.
  intros n q. unfold loop. rewrite in_map_iff. split.
  - intros (k & <- & K). apply in_seq in K. lia.
  - intros H. exists (Z.to_nat q). split; [lia|]. apply in_seq. lia.
Qed.
Lemma loop_len : forall n, length (loop n) = Z.to_nat n.
Proof. intros. unfold loop. now rewrite map_length, seq_length. Qed.
Lemma loop_S : forall k : nat, loop (Z.of_nat (S k)) = loop (Z.of_nat k) ++ [Z.of_nat k].
Proof. intros k. unfold loop. rewrite !Nat2Z.id, seq_S, map_app. reflexivity. Qed.
Lemma at_map : forall A (f : Z -> A) n q d, 0 <= q < n -> at_ (map f (loop n)) q d = f q.
Proof.
  intros A f n q d H. unfold at_, loop. rewrite map_map. rewrite nth_indep with (d' := f (Z.of_nat 0)) by (rewrite map_length, seq_length; lia).
  rewrite (map_nth (fun x => f (Z.of_nat x))), seq_nth by lia. f_equal. lia.
Qed.
Lemma set_at_len : forall A (l : list A) i x, length (set_at l i x) = length l.
Proof. induction l as [|y l IH]; intros [|i] x; cbn; auto. Qed.
Lemma nth_set_at : forall A (l : list A) i j x d, (i < length l)%nat -> nth j (set_at l i x) d = if Nat.eqb j i then x else nth j l d.
Proof.
  induction l as [|y l IH]; intros i j x d H; [cbn in H; lia|]. destruct i as [|i], j as [|j]; cbn; try reflexivity. cbn in H. rewrite IH by lia. reflexivity.
Qed.
Lemma at_set : forall A (l : list A) q r x d, 0 <= q < Z.of_nat (length l) -> 0 <= r -> at_ (set_at l (Z.to_nat q) x) r d = if r =? q then x else at_ l r d.
Proof.
  intros A l q r x d H R. unfold at_. rewrite nth_set_at by lia. replace (Nat.eqb (Z.to_nat r) (Z.to_nat q)) with (r =? q); [reflexivity|].
  destruct (Z.eqb_spec r q) as [->|N]; symmetry; [apply Nat.eqb_refl|apply Nat.eqb_neq; lia].
Qed.
Lemma at_app : forall A (a b : list A) q d, 0 <= q < Z.of_nat (length a) -> at_ (a ++ b) q d = at_ a q d.
Proof. intros A a b q d H. unfold at_. apply app_nth1. lia. Qed.

(** The order of the arbitration visits every port. *)
Section order.
Variable p : tm_param.
Hypothesis N1 : 1 <= tm_n p.
Notation n := (tm_n p).

Lemma next_range : forall c, 0 <= c < n -> 0 <= next_port p c < n.
Proof. intros c H. unfold next_port. destruct (tm_lsb p); [destruct (c <? n - 1) eqn:E | destruct (0 <? c) eqn:E]; try (apply Z.ltb_lt in E); lia. Qed.
Lemma first_range : forall c, 0 <= c < n -> 0 <= first_port p c < n.
Proof. intros c H. unfold first_port. destruct (tm_rr p); [now apply next_range|]. destruct (tm_lsb p); lia. Qed.
Fixpoint visit (k : nat) (c : Z) : Z := match k with O => c | S k => next_port p (visit k c) end.
Lemma visit_range : forall k c, 0 <= c < n -> 0 <= visit k c < n.
Proof. induction k as [|k IH]; intros c H; [exact H|]. apply next_range, IH, H. Qed.
Lemma visit_eq : forall k c, 0 <= c < n -> visit k c = (if tm_lsb p then c + Z.of_nat k else c - Z.of_nat k) mod n.
Proof.
  induction k as [|k IH]; intros c H; [cbn [visit]; change (Z.of_nat 0) with 0; rewrite Z.add_0_r, Z.sub_0_r; destruct (tm_lsb p); symmetry; apply Z.mod_small; lia|].
  cbn [visit]. pose proof (visit_range k c H) as R. rewrite IH in * by assumption. unfold next_port. rewrite Nat2Z.inj_succ. destruct (tm_lsb p).
  - set (x := c + Z.of_nat k) in *. replace (c + Z.succ (Z.of_nat k)) with (x + 1) by (unfold x; lia). destruct (x mod n <? n - 1) eqn:E.
    + apply Z.ltb_lt in E. rewrite <- (Z.mod_small (x mod n + 1) n) by lia. apply Zplus_mod_idemp_l.
    + apply Z.ltb_ge in E. assert (x mod n = n - 1) by lia. rewrite <- Zplus_mod_idemp_l, H0. replace (n - 1 + 1) with n by lia. symmetry. apply Z.mod_same. lia.
  - set (x := c - Z.of_nat k) in *. replace (c - Z.succ (Z.of_nat k)) with (x - 1) by (unfold x; lia). destruct (0 <? x mod n) eqn:E.
    + apply Z.ltb_lt in E. rewrite <- (Z.mod_small (x mod n - 1) n) by lia. apply Zminus_mod_idemp_l.
    + apply Z.ltb_ge in E. assert (x mod n = 0) by lia. rewrite <- Zminus_mod_idemp_l, H0. replace (0 - 1) with (n - 1 + (-1) * n) by lia. rewrite Z.mod_add by lia. symmetry. apply Z.mod_small. lia.
Qed.
Lemma visit_all : forall c q, 0 <= c < n -> 0 <= q < n -> exists k, (k < Z.to_nat n)%nat /\ visit k c = q.
Proof.
  intros c q C Q. destruct (tm_lsb p) eqn:L.
  - exists (Z.to_nat ((q - c) mod n)). pose proof (Z.mod_pos_bound (q - c) n ltac:(lia)). split; [lia|]. rewrite visit_eq, L, Z2Nat.id by lia. rewrite Zplus_mod_idemp_r. replace (c + (q - c)) with q by lia. apply Z.mod_small. lia.
  - exists (Z.to_nat ((c - q) mod n)). pose proof (Z.mod_pos_bound (c - q) n ltac:(lia)). split; [lia|]. rewrite visit_eq, L, Z2Nat.id by lia. rewrite Zminus_mod_idemp_r. replace (c - (c - q)) with q by lia. apply Z.mod_small. lia.
Qed.

(** The port that is picked. *)
Definition head (l : list Z) (q : Z) : bool := Z.testbit (at_ l q 0) 0.
Lemma bsel_head : forall l q, (bsel (at_ l q 0) 0 =? 1) = head l q.
Proof. intros. rewrite bsel_testbit by lia. unfold head. destruct (Z.testbit (at_ l q 0) 0); reflexivity. Qed.
Lemma pick_ok : forall c seg, 0 <= cy_port c < n ->
  (exists q, 0 <= q < n /\ head (cy_psv c) q = true /\ tm_pick p c seg = (true, q, at_ (cy_offn c) q 0, Z.setbit (cy_selvc c) (tm_s p * q + seg))) \/
  ((forall q, 0 <= q < n -> head (cy_psv c) q = false) /\ exists q, 0 <= q < n /\ tm_pick p c seg = (false, q, at_ (cy_offn c) q 0, cy_selvc c)).
Proof.
  intros c seg C. unfold tm_pick. set (f0 := first_port p (cy_port c)). assert (F : 0 <= f0 < n) by now apply first_range.
  set (body := fun '(frame, port, off, selvc, cur) (_ : Z) => _).
  assert (G : forall k l, length l = k -> let r := fold_left body l (false, cy_port c, cy_off c, cy_selvc c, f0) in
    snd r = visit k f0 /\
    ((exists q, 0 <= q < n /\ head (cy_psv c) q = true /\ fst r = (true, q, at_ (cy_offn c) q 0, Z.setbit (cy_selvc c) (tm_s p * q + seg))) \/
     ((forall j, (j < k)%nat -> head (cy_psv c) (visit j f0) = false) /\ (k = O /\ fst r = (false, cy_port c, cy_off c, cy_selvc c) \/ exists q, 0 <= q < n /\ fst r = (false, q, at_ (cy_offn c) q 0, cy_selvc c))))).
  { induction k as [|k IH]; intros l L.
    - destruct l; [|discriminate]. cbn. split; [reflexivity|]. right. split; [intros; lia|]. now left.
    - destruct (exists_last (l := l)) as (l' & x & ->); [intro; subst; discriminate|]. rewrite app_length in L. cbn in L. cbn zeta. rewrite fold_left_app. cbn [fold_left].
      destruct (IH l' ltac:(lia)) as [I1 I2]. destruct (fold_left body l' (false, cy_port c, cy_off c, cy_selvc c, f0)) as [[[[fr po] of] sv] cu]. cbn [snd fst] in *. subst cu.
      assert (HV : 0 <= visit k f0 < n) by now apply visit_range.
      destruct I2 as [(q & Q1 & Q2 & Q3)|(J1 & J2)].
      + injection Q3 as -> -> -> ->. cbn. split; [reflexivity|]. left. exists q. auto.
      + assert (fr = false /\ sv = cy_selvc c). { destruct J2 as [[_ J]|(q & _ & J)]; injection J as -> _ _ ->; auto. } destruct H as [-> ->].
        unfold body. cbn [negb]. rewrite bsel_head. destruct (head (cy_psv c) (visit k f0)) eqn:HD; cbn [fst snd]; (split; [reflexivity|]).
        * left. exists (visit k f0). auto.
        * right. split; [|right; exists (visit k f0); auto]. intros j J. destruct (Nat.eq_dec j k) as [->|]; [exact HD|]. apply J1. lia. }
  destruct (G (Z.to_nat n) (loop n) (loop_len n)) as [_ [G1|[G1 G2]]]; [left; exact G1|right]. split.
  - intros q Q. destruct (visit_all f0 q F Q) as (k & K & <-). now apply G1.
  - destruct G2 as [[G2 _]|G2]; [lia|exact G2].
Qed.
End order.

(** How often a port occurs. *)
Definition cnt (q : Z) (l : list (Z * Z)) : Z := Z.of_nat (length (filter (fun x => fst x =? q) l)).
Lemma cnt_app : forall q a b, cnt q (a ++ b) = cnt q a + cnt q b.
Proof. intros. unfold cnt. rewrite filter_app, app_length. lia. Qed.
Lemma cnt_one : forall q x, cnt q [x] = if fst x =? q then 1 else 0.
Proof. intros. unfold cnt. cbn. destruct (fst x =? q); reflexivity. Qed.
Lemma cnt_len : forall q l, cnt q l <= Z.of_nat (length l).
Proof. intros q l. unfold cnt. induction l as [|x l IH]; cbn; [lia|]. destruct (fst x =? q); cbn [length]; lia. Qed.
Lemma cnt_pos : forall q l, 0 <= cnt q l.
Proof. intros. unfold cnt. lia. Qed.

Section turns.
Variable p : tm_param.
Hypothesis N1 : 1 <= tm_n p.
Hypothesis S1 : 1 <= tm_s p.
Notation n := (tm_n p).
Notation s := (tm_s p).
Variables (psv0 pse0 offs : list Z) (F0 : bool) (P0 : Z).
Hypothesis LV : length psv0 = Z.to_nat n.
Hypothesis LE : length pse0 = Z.to_nat n.
Hypothesis LO : length offs = Z.to_nat n.
Hypothesis RP : 0 <= P0 < n.
Definition o (q : Z) : Z := at_ offs q 0.
Hypothesis RO : forall q, 0 <= q < n -> 0 <= o q < s.
Definition V (q k : Z) : bool := Z.testbit (at_ psv0 q 0) k.
Definition E (x : Z * Z) : bool := Z.testbit (at_ pse0 (fst x) 0) (snd x).

(** Each port's segments are used in turn. *)
Definition in_turn (l : list (Z * Z)) : Prop := forall a q k b, l = a ++ (q, k) :: b -> 0 <= q < n /\ k = cnt q a /\ V q k = true.
(** A packet is not interrupted. *)
Definition unbroken (l : list (Z * Z)) : Prop := (forall a x y b, l = a ++ x :: y :: b -> E x = false -> fst y = fst x) /\ (F0 = true -> forall x r, l = x :: r -> fst x = P0).
(** Where packets start. *)
Definition starts_at (l : list (Z * Z)) (g : nat) : bool := match g with O => negb F0 | S g => match nth_error l g with Some x => E x | None => false end end.
Definition sel_bits (l : list (Z * Z)) (v : Z) : Prop :=
  forall q g, 0 <= q < n -> 0 <= g < s -> Z.testbit v (s * q + g) = match nth_error l (Z.to_nat g) with Some x => (fst x =? q) && starts_at l (Z.to_nat g) | None => false end.

(** What holds from the last commit on. *)
Record done (c : tm_cyc) (X : list (Z * Z)) : Prop := {
  dn_len : length (cy_psv c) = Z.to_nat n /\ length (cy_pse c) = Z.to_nat n /\ length (cy_offn c) = Z.to_nat n;
  dn_off : forall q, 0 <= q < n -> at_ (cy_offn c) q 0 = o q + cnt q X;
  dn_port : forall g x, nth_error X g = Some x -> nth_error (cy_oport c) g = Some (fst x) /\ nth_error (cy_oseg c) g = Some (o (fst x) + snd x);
  dn_osel : cy_osel c = Z.ones (Z.of_nat (length X));
  dn_turn : in_turn X;
  dn_unbroken : unbroken X;
  dn_sel : sel_bits X (cy_selv c);
  dn_cp : 0 <= cy_port c < n;
  dn_pn : 0 <= cy_portn c < n;
  dn_next : (X = [] /\ cy_framen c = F0 /\ cy_portn c = P0) \/ exists a x, X = a ++ [x] /\ cy_framen c = negb (E x) /\ cy_portn c = fst x }.

(** The loop is going on: [U] is not committed yet. *)
Record active (c : tm_cyc) (t : nat) (X U : list (Z * Z)) : Prop := {
  ac_done : done c X;
  ac_abort : cy_abort c = false;
  ac_oselc : cy_oselc c = Z.ones (Z.of_nat t);
  ac_t : length (X ++ U) = t;
  ac_out : cy_oport c = map fst (X ++ U) /\ cy_oseg c = map (fun x => o (fst x) + snd x) (X ++ U);
  ac_psv : forall q, 0 <= q < n -> at_ (cy_psv c) q 0 = Z.shiftr (at_ psv0 q 0) (cnt q (X ++ U));
  ac_pse : forall q, 0 <= q < n -> at_ (cy_pse c) q 0 = Z.shiftr (at_ pse0 q 0) (cnt q (X ++ U));
  ac_turn : in_turn (X ++ U);
  ac_unbroken : unbroken (X ++ U);
  ac_sel : sel_bits (X ++ U) (cy_selvc c);
  ac_u : U <> [] -> cy_frame c = true;
  ac_ul : forall x, In x U -> fst x = cy_port c /\ E x = false;
  ac_frame : cy_frame c = true -> cy_off c = o (cy_port c) + cnt (cy_port c) (X ++ U) /\ (U = [] -> X = [] /\ F0 = true /\ cy_port c = P0);
  ac_idle : cy_frame c = false -> X = [] -> F0 = false;
  ac_last : U = [] -> forall a x, X = a ++ [x] -> E x = true }.

(** No more commits in this clock: stalled, or nothing to pick. *)
Definition stalled (c : tm_cyc) : Prop := cy_abort c = true.
Definition nothing (c : tm_cyc) : Prop := cy_abort c = false /\ cy_frame c = false.

Lemma head_shift : forall l q k x, at_ l q 0 = Z.shiftr x k -> 0 <= k -> head l q = Z.testbit x k.
Proof. intros l q k x H K. unfold head. rewrite H, Z.shiftr_spec by lia. f_equal. Qed.
Lemma in_turn_snoc : forall l q, in_turn l -> 0 <= q < n -> V q (cnt q l) = true -> in_turn (l ++ [(q, cnt q l)]).
Proof.
  intros l q H Q HV a q' k b A. destruct (exists_last (l := (q', k) :: b) ltac:(discriminate)) as (b' & y & B). destruct b' as [|z b'].
  - injection B as <- ->. apply app_inj_tail in A. destruct A as [-> A]. injection A as <- <-. auto.
  - rewrite B in A. change (a ++ (z :: b') ++ [y]) with (a ++ ((z :: b') ++ [y])) in A. rewrite app_assoc in A. apply app_inj_tail in A. destruct A as [A _]. injection B as <- _. eapply H. exact A.
Qed.
Lemma unbroken_snoc : forall l x, unbroken l -> (forall a y, l = a ++ [y] -> E y = false -> fst x = fst y) -> (l = [] -> F0 = true -> fst x = P0) -> unbroken (l ++ [x]).
Proof.
  intros l x [U1 U2] A B. split.
  - intros a y z b L EY. destruct (exists_last (l := z :: b) ltac:(discriminate)) as (b' & w & W). destruct b' as [|z' b'].
    + injection W as -> ->. change (a ++ y :: [w]) with (a ++ [y] ++ [w]) in L. rewrite app_assoc in L. apply app_inj_tail in L. destruct L as [-> ->]. eapply A; [reflexivity|exact EY].
    + rewrite W in L. injection W as <- _. change (a ++ y :: (z :: b') ++ [w]) with (a ++ (y :: z :: b') ++ [w]) in L. rewrite app_assoc in L. apply app_inj_tail in L. destruct L as [L _]. eapply U1; eassumption.
  - intros F y r L. destruct l as [|y' l]; [injection L as <- _; now apply B|]. injection L as <- _. now apply (U2 F y' l).
Qed.
Lemma block_inj : forall q g q' g', 0 <= g < s -> 0 <= g' < s -> s * q + g = s * q' + g' -> q = q' /\ g = g'.
Proof. intros q g q' g' H H' K. assert (q = q') by nia. split; [assumption|]. subst. lia. Qed.
Lemma starts_app : forall l x g, (g <= length l)%nat -> starts_at (l ++ [x]) g = starts_at l g.
Proof. intros l x [|g] H; [reflexivity|]. cbn. now rewrite nth_error_app1 by lia. Qed.
Lemma sel_snoc_same : forall l v x, sel_bits l v -> (length l < Z.to_nat s)%nat -> starts_at l (length l) = false -> sel_bits (l ++ [x]) v.
Proof.
  intros l v x H L ST q g Q G. rewrite H by assumption. destruct (Nat.lt_ge_cases (Z.to_nat g) (length l)).
  - rewrite nth_error_app1 by lia. destruct (nth_error l (Z.to_nat g)); [|reflexivity]. now rewrite starts_app by lia.
  - rewrite (proj2 (nth_error_None l (Z.to_nat g))) by lia. destruct (Nat.eq_dec (Z.to_nat g) (length l)) as [e|ne].
    + rewrite nth_error_app2, e, Nat.sub_diag by lia. cbn [nth_error]. rewrite starts_app, ST by lia. now rewrite andb_false_r.
    + rewrite (proj2 (nth_error_None (l ++ [x]) (Z.to_nat g))); [reflexivity|]. rewrite app_length. cbn. lia.
Qed.
Lemma sel_snoc_new : forall l v q0 k, sel_bits l v -> (length l < Z.to_nat s)%nat -> 0 <= q0 < n -> starts_at l (length l) = true -> sel_bits (l ++ [(q0, k)]) (Z.setbit v (s * q0 + Z.of_nat (length l))).
Proof.
  intros l v q0 k H L Q0 ST q g Q G. rewrite Z.setbit_eqb by nia. rewrite H by assumption. destruct (Nat.lt_ge_cases (Z.to_nat g) (length l)).
  - rewrite nth_error_app1 by lia. replace (s * q0 + Z.of_nat (length l) =? s * q + g) with false.
    + cbn [orb]. destruct (nth_error l (Z.to_nat g)); [|reflexivity]. now rewrite starts_app by lia.
    + symmetry. apply Z.eqb_neq. intros X. apply block_inj in X; lia.
  - rewrite (proj2 (nth_error_None l (Z.to_nat g))) by lia. rewrite orb_false_r. destruct (Nat.eq_dec (Z.to_nat g) (length l)) as [e|ne].
    + rewrite nth_error_app2, e, Nat.sub_diag by lia. cbn [nth_error fst]. rewrite starts_app, ST by lia. rewrite andb_true_r. assert (g = Z.of_nat (length l)) as -> by lia.
      destruct (Z.eqb_spec q0 q) as [->|N]; [apply Z.eqb_refl|]. apply Z.eqb_neq. intros X. apply block_inj in X; lia.
    + rewrite (proj2 (nth_error_None (l ++ [(q0, k)]) (Z.to_nat g))) by (rewrite app_length; cbn; lia). apply Z.eqb_neq. intros X. apply block_inj in X; lia.
Qed.
Lemma setbit_ones : forall t : nat, Z.setbit (Z.ones (Z.of_nat t)) (Z.of_nat t) = Z.ones (Z.of_nat (S t)).
Proof.
  intros t. apply Z.bits_inj'. intros j J. rewrite Z.setbit_eqb by lia. rewrite !Z.testbit_ones_nonneg by lia.
  destruct (Z.eqb_spec (Z.of_nat t) j), (Z.ltb_spec j (Z.of_nat t)), (Z.ltb_spec j (Z.of_nat (S t))); cbn; try reflexivity; lia.
Qed.
Lemma off_small : forall x, 0 <= x < 2 * s -> x mod 2 ^ (clog2 s + 1) = x.
Proof.
  intros x H. apply Z.mod_small. unfold clog2. destruct (Z.eq_dec s 1) as [e|ne].
  - rewrite e in *. change (Z.log2_up 1) with 0. change (2 ^ (0 + 1)) with 2. lia.
  - pose proof (Z.log2_up_spec s ltac:(lia)). pose proof (Z.log2_up_nonneg s). rewrite Z.pow_add_r by lia. change (2 ^ 1) with 2. lia.
Qed.

(** A turn that uses a segment of a port, or finds none. *)
Lemma shift_more : forall x k, 0 <= k -> Z.shiftr (Z.shiftr x k) 1 = Z.shiftr x (k + 1).
Proof. intros. apply Z.shiftr_shiftr. lia. Qed.
Lemma turn_use : forall c t X U q selvc, active c t X U -> (t < Z.to_nat s)%nat -> 0 <= q < n ->
  (if negb (cy_frame c) then tm_pick p c (Z.of_nat t) else (cy_frame c, cy_port c, cy_off c, cy_selvc c)) = (true, q, o q + cnt q (X ++ U), selvc) ->
  sel_bits ((X ++ U) ++ [(q, cnt q (X ++ U))]) selvc -> unbroken ((X ++ U) ++ [(q, cnt q (X ++ U))]) -> (forall y, In y U -> fst y = q) ->
  let c' := tm_turn p true c (Z.of_nat t) in
  (exists X' U', active c' (S t) X' U' /\ (S t < Z.to_nat s)%nat) \/
  (exists X', done c' X' /\ length X' = Z.to_nat s /\ S t = Z.to_nat s) \/
  (done c' X /\ stalled c').
Proof.
  intros c t X U q selvc A T Q PK SB UB UQ c'. destruct A as [D AB OC LT [O1 O2] PV PE TU UN SE AU AL AF AI ALA]. set (L := X ++ U) in *. set (x := (q, cnt q L)) in *.
  pose proof (cnt_pos q L) as CP. pose proof (cnt_len q L) as CL. rewrite LT in CL.
  assert (HV : head (cy_psv c) q = V q (cnt q L)) by (apply head_shift; auto).
  assert (HE : head (cy_pse c) q = E x) by (apply head_shift; auto; apply PE; auto).
  assert (OF : (o q + cnt q L + 1) mod 2 ^ (clog2 s + 1) = o q + cnt q L + 1) by (apply off_small; specialize (RO q Q); lia).
  destruct D as [DL DO DP DS DT DU DSE DCP DPN DN]. destruct DL as (L1 & L2 & L3).
  assert (NP : forall op os, cy_oport c ++ op = map fst (L ++ [x]) -> cy_oseg c ++ os = map (fun x => o (fst x) + snd x) (L ++ [x]) -> forall g y, nth_error (L ++ [x]) g = Some y ->
    nth_error (cy_oport c ++ op) g = Some (fst y) /\ nth_error (cy_oseg c ++ os) g = Some (o (fst y) + snd y)).
  { intros op os -> -> g y G. split; [now rewrite (map_nth_error fst g (L ++ [x]) G)|]. now rewrite (map_nth_error (fun x => o (fst x) + snd x) g (L ++ [x]) G). }
  assert (EP : cy_oport c ++ [q] = map fst (L ++ [x])) by (rewrite O1, map_app; reflexivity).
  assert (ES : cy_oseg c ++ [o q + cnt q L] = map (fun x => o (fst x) + snd x) (L ++ [x])) by (rewrite O2, map_app; reflexivity).
  assert (SP : forall l l0, length l = Z.to_nat n -> (forall r, 0 <= r < n -> at_ l r 0 = Z.shiftr (at_ l0 r 0) (cnt r L)) ->
    forall r, 0 <= r < n -> at_ (set_at l (Z.to_nat q) (Z.shiftr (at_ l q 0) 1)) r 0 = Z.shiftr (at_ l0 r 0) (cnt r (L ++ [x]))).
  { intros l l0 LL H r R. rewrite at_set by lia. rewrite cnt_app, cnt_one. cbn [x fst]. rewrite Z.eqb_sym. destruct (Z.eqb_spec q r) as [->|N]; [rewrite H by assumption; apply shift_more, cnt_pos|]. rewrite Z.add_0_r. auto. }
  assert (OLD : forall g y, nth_error X g = Some y -> forall op os, nth_error (cy_oport c ++ op) g = Some (fst y) /\ nth_error (cy_oseg c ++ os) g = Some (o (fst y) + snd y)).
  { intros g y G op os. destruct (DP g y G) as [G1 G2]. split; rewrite nth_error_app1; auto; apply nth_error_Some; congruence. }
  unfold c', tm_turn. rewrite PK. rewrite !bsel_head, HV, HE, OF, AB, OC, setbit_ones. cbn [andb negb].
  destruct (V q (cnt q L)) eqn:VV.
  - assert (TU' : in_turn (L ++ [x])) by (now apply in_turn_snoc).
    assert (CO : forall fr, fr = negb (E x) -> done (mkCy fr q (o q + cnt q L + 1) false
        (set_at (cy_psv c) (Z.to_nat q) (Z.shiftr (at_ (cy_psv c) q 0) 1)) (set_at (cy_pse c) (Z.to_nat q) (Z.shiftr (at_ (cy_pse c) q 0) 1))
        (set_at (cy_offn c) (Z.to_nat q) (o q + cnt q L + 1)) fr q (Z.ones (Z.of_nat (S t))) (Z.ones (Z.of_nat (S t))) (cy_oport c ++ [q]) (cy_oseg c ++ [o q + cnt q L]) selvc selvc) (L ++ [x])).
    { intros fr FR. constructor; cbn [cy_frame cy_port cy_off cy_abort cy_psv cy_pse cy_offn cy_framen cy_portn cy_osel cy_oselc cy_oport cy_oseg cy_selv cy_selvc]; auto.
      - rewrite !set_at_len. auto.
      - intros r R. rewrite at_set by lia. rewrite cnt_app, cnt_one. cbn [x fst]. rewrite Z.eqb_sym. destruct (Z.eqb_spec q r) as [->|N]; [lia|]. rewrite DO by assumption. unfold L. rewrite cnt_app.
        assert (Z0 : cnt r U = 0). { unfold cnt. rewrite (proj2 (length_zero_iff_nil _)); [reflexivity|]. clear -UQ N. induction U as [|y U' IH]; [reflexivity|]. cbn. rewrite (UQ y ltac:(now left)). destruct (Z.eqb_spec q r); [contradiction|]. apply IH. intros; apply UQ. now right. }
        lia.
      - rewrite app_length, LT. cbn. f_equal. f_equal. lia.
      - right. exists L, x. auto. }
    assert (UC : forall fr, fr = negb (E x) -> E x = true -> (S t < Z.to_nat s)%nat -> active (mkCy fr q (o q + cnt q L + 1) false
        (set_at (cy_psv c) (Z.to_nat q) (Z.shiftr (at_ (cy_psv c) q 0) 1)) (set_at (cy_pse c) (Z.to_nat q) (Z.shiftr (at_ (cy_pse c) q 0) 1))
        (set_at (cy_offn c) (Z.to_nat q) (o q + cnt q L + 1)) fr q (Z.ones (Z.of_nat (S t))) (Z.ones (Z.of_nat (S t))) (cy_oport c ++ [q]) (cy_oseg c ++ [o q + cnt q L]) selvc selvc) (S t) (L ++ [x]) []).
    { intros fr FR EX ST. constructor; rewrite ?app_nil_r; cbn [cy_frame cy_port cy_off cy_abort cy_psv cy_pse cy_offn cy_framen cy_portn cy_osel cy_oselc cy_oport cy_oseg cy_selv cy_selvc]; auto.
      - rewrite app_length, LT. cbn. lia.
      - now elim 1.
      - rewrite FR, EX. discriminate.
      - intros _ H. destruct L; discriminate.
      - intros _ a y H. apply app_inj_tail in H. destruct H as [_ <-]. exact EX. }
    destruct (E x) eqn:EX; cbn [orb andb].
    + destruct (Nat.lt_ge_cases (S t) (Z.to_nat s)) as [ST|ST].
      * left. exists (L ++ [x]), []. split; [|exact ST]. apply UC; auto.
      * right. left. exists (L ++ [x]). rewrite app_length, LT. cbn. split; [apply CO; auto|lia].
    + destruct (Z.eqb_spec (Z.of_nat t) (s - 1)) as [TS|TS]; cbn [andb].
      * right. left. exists (L ++ [x]). rewrite app_length, LT. cbn. split; [apply CO; auto|lia].
      * left. exists X, (U ++ [x]). split; [|lia]. constructor; try rewrite app_assoc; fold L; cbn [cy_frame cy_port cy_off cy_abort cy_psv cy_pse cy_offn cy_framen cy_portn cy_osel cy_oselc cy_oport cy_oseg cy_selv cy_selvc]; auto.
        -- constructor; cbn [cy_frame cy_port cy_off cy_abort cy_psv cy_pse cy_offn cy_framen cy_portn cy_osel cy_oselc cy_oport cy_oseg cy_selv cy_selvc]; rewrite ?set_at_len; auto.
        -- rewrite app_length, LT. cbn. lia.
        -- intros y H. apply in_app_or in H. destruct H as [H|[<-|[]]]; [|auto]. split; [now apply UQ|]. now apply AL.
        -- intros _. rewrite cnt_app, cnt_one. cbn [x fst]. rewrite Z.eqb_refl. split; [lia|]. intros H. destruct U; discriminate.
        -- discriminate.
        -- intros H. destruct U; discriminate.
  - right. right. split; [|reflexivity]. constructor; cbn [cy_frame cy_port cy_off cy_abort cy_psv cy_pse cy_offn cy_framen cy_portn cy_osel cy_oselc cy_oport cy_oseg cy_selv cy_selvc]; rewrite ?set_at_len; auto.
Qed.

(** One turn while the loop is going on. *)
Lemma turn_active : forall c t X U, active c t X U -> (t < Z.to_nat s)%nat ->
  let c' := tm_turn p true c (Z.of_nat t) in
  (exists X' U', active c' (S t) X' U' /\ (S t < Z.to_nat s)%nat) \/
  (exists X', done c' X' /\ length X' = Z.to_nat s /\ S t = Z.to_nat s) \/
  (done c' X /\ stalled c') \/
  (done c' X /\ nothing c' /\ U = [] /\ (forall q, 0 <= q < n -> V q (cnt q X) = false) /\
   cy_frame c = false /\ cy_oselc c' = Z.ones (Z.of_nat (S t)) /\
   exists q, 0 <= q < n /\ cy_port c' = q /\ cy_oport c' = cy_oport c ++ [q] /\ cy_oseg c' = cy_oseg c ++ [o q + cnt q X] /\
   forall q', 0 <= q' < n -> at_ (cy_psv c') q' 0 = Z.shiftr (at_ psv0 q' 0) (cnt q' X + if q' =? q then 1 else 0)).
Proof.
  intros c t X U A T c'. pose proof A as A0. destruct A as [D AB OC LT [O1 O2] PV PE TU UN SE AU AL AF AI ALA]. destruct (cy_frame c) eqn:FR.
  - (* a packet is under way *)
    assert (Q : 0 <= cy_port c < n) by apply D. destruct (AF eq_refl) as [OF ST].
    assert (LA : forall a y, X ++ U = a ++ [y] -> E y = false /\ fst y = cy_port c).
    { intros a y H. destruct U as [|u U'] using rev_ind.
      - destruct (ST eq_refl) as (-> & _ & _). destruct a; discriminate.
      - rewrite app_assoc in H. apply app_inj_tail in H. destruct H as [_ <-]. destruct (AL u) as [B1 B2]; [apply in_or_app; right; now left|]. auto. }
    assert (NS : starts_at (X ++ U) (length (X ++ U)) = false).
    { destruct (X ++ U) as [|y l] eqn:XU using rev_ind.
      - destruct X, U; try discriminate. destruct (ST eq_refl) as (_ & FF & _). cbn. now rewrite FF.
      - clear IHl. rewrite app_length, Nat.add_1_r. cbn [starts_at]. rewrite nth_error_app2, Nat.sub_diag by lia. cbn. now destruct (LA l y eq_refl). }
    destruct (turn_use c t X U (cy_port c) (cy_selvc c) A0 T Q) as [H|[H|H]]; auto.
    + rewrite FR. cbn [negb]. now rewrite OF.
    + apply sel_snoc_same; auto. lia.
    + apply unbroken_snoc; auto. * intros a y H _. now destruct (LA a y H). * intros H _. destruct X, U; try discriminate. cbn. now apply ST.
    + intros y H. now apply AL.
  - assert (UE : U = []) by (destruct U; [reflexivity|specialize (AU ltac:(discriminate)); discriminate]). subst U. rewrite app_nil_r in *.
    destruct (pick_ok p N1 c (Z.of_nat t)) as [(q & Q & HD & PK)|(HD & q & Q & PK)]; [apply D| |].
    + destruct (turn_use c t X [] q (Z.setbit (cy_selvc c) (s * q + Z.of_nat t)) A0 T Q) as [H|[H|H]]; auto.
      * rewrite FR, app_nil_r. cbn [negb]. rewrite PK. now rewrite (dn_off _ _ D q Q).
      * rewrite app_nil_r. rewrite <- LT. apply sel_snoc_new; auto; [lia|]. destruct X as [|y l] using rev_ind; [cbn; now rewrite (AI eq_refl eq_refl)|].
        rewrite app_length, Nat.add_1_r. cbn [starts_at]. rewrite nth_error_app2, Nat.sub_diag by lia. cbn. now apply (ALA eq_refl l).
      * rewrite app_nil_r. apply unbroken_snoc; auto. -- intros a y H H'. rewrite (ALA eq_refl a y H) in H'. discriminate. -- intros H H'. rewrite (AI eq_refl H) in H'. discriminate.
      * intros y [].
    + right. right. right. destruct D as [DL DO DP DS DT DU DSE DCP DPN DN]. destruct DL as (L1 & L2 & L3).
      assert (OLD : forall g y, nth_error X g = Some y -> forall op os, nth_error (cy_oport c ++ op) g = Some (fst y) /\ nth_error (cy_oseg c ++ os) g = Some (o (fst y) + snd y)).
      { intros g y G op os. destruct (DP g y G) as [G1 G2]. split; rewrite nth_error_app1; auto; apply nth_error_Some; congruence. }
      unfold c', tm_turn. rewrite FR. cbn [negb]. rewrite PK. cbn [andb].
      split; [|split; [|split; [|split; [|split; [|split]]]]].
      * constructor; cbn [cy_frame cy_port cy_off cy_abort cy_psv cy_pse cy_offn cy_framen cy_portn cy_osel cy_oselc cy_oport cy_oseg cy_selv cy_selvc]; rewrite ?set_at_len; auto.
      * split; cbn [cy_abort cy_frame]; auto. now destruct (_ =? 1).
      * reflexivity.
      * intros r R. specialize (HD r R). rewrite (head_shift _ _ _ _ (PV r R)) in HD by apply cnt_pos. exact HD.
      * reflexivity.
      * cbn [cy_oselc]. now rewrite OC, setbit_ones.
      * exists q. split; [exact Q|]. split; [reflexivity|]. cbn [cy_oport cy_oseg]. split; [reflexivity|]. split; [now rewrite (DO q Q)|]. intros r R. cbn [cy_psv]. rewrite at_set by lia. destruct (Z.eqb_spec r q) as [->|N].
        -- rewrite PV by assumption. apply shift_more, cnt_pos.
        -- rewrite Z.add_0_r. auto.
Qed.

(** Nothing changes any more. *)
Definition same (c c' : tm_cyc) : Prop := cy_offn c' = cy_offn c /\ cy_framen c' = cy_framen c /\ cy_portn c' = cy_portn c /\ cy_osel c' = cy_osel c /\ cy_selv c' = cy_selv c.
Lemma pick_range : forall c g, 0 <= cy_port c < n -> exists f q of sv, tm_pick p c g = (f, q, of, sv) /\ 0 <= q < n.
Proof. intros c g C. destruct (pick_ok p N1 c g C) as [(q & Q & _ & K)|(_ & q & Q & K)]; rewrite K; eauto 10. Qed.
Lemma stalled_turn : forall c X g, done c X -> stalled c -> done (tm_turn p true c g) X /\ stalled (tm_turn p true c g).
Proof.
  intros c X g D ST. destruct D as [DL DO DP DS DT DU DSE DCP DPN DN]. destruct DL as (L1 & L2 & L3).
  assert (OLD : forall g y, nth_error X g = Some y -> forall op os, nth_error (cy_oport c ++ op) g = Some (fst y) /\ nth_error (cy_oseg c ++ os) g = Some (o (fst y) + snd y)).
  { intros g' y G op os. destruct (DP g' y G) as [G1 G2]. split; rewrite nth_error_app1; auto; apply nth_error_Some; congruence. }
  assert (K : exists f q of sv, (if negb (cy_frame c) then tm_pick p c g else (cy_frame c, cy_port c, cy_off c, cy_selvc c)) = (f, q, of, sv) /\ 0 <= q < n).
  { destruct (negb (cy_frame c)); [now apply pick_range|]. exists (cy_frame c), (cy_port c), (cy_off c), (cy_selvc c). auto. }
  destruct K as (f & q & of & sv & K & Q). unfold tm_turn. rewrite K. red in ST. rewrite ST. cbn [negb]. rewrite andb_false_r.
  split; [|exact ST || reflexivity]. constructor; cbn [cy_frame cy_port cy_off cy_abort cy_psv cy_pse cy_offn cy_framen cy_portn cy_osel cy_oselc cy_oport cy_oseg cy_selv cy_selvc]; rewrite ?set_at_len; auto.
Qed.

(** With two segments: when nothing is found for the first one, the second may be taken from a port whose first segment is empty. *)
Record glitch (c : tm_cyc) (q : Z) : Prop := {
  gl_q : 0 <= q < n;
  gl_v : V q 0 = false /\ V q 1 = true;
  gl_len : length (cy_offn c) = Z.to_nat n;
  gl_off : forall q', 0 <= q' < n -> at_ (cy_offn c) q' 0 = o q' + if q' =? q then 1 else 0;
  gl_out : cy_oport c = [q; q] /\ cy_oseg c = [o q; o q];
  gl_next : F0 = false /\ cy_portn c = q }.
Lemma turn_two : forall c, s = 2 -> active c 0 [] [] -> let c' := tm_turn p true (tm_turn p true c 0) 1 in (exists X, done c' X) \/ exists q, glitch c' q.
Proof.
  intros c S2 A c'. pose proof (turn_active c 0 [] [] A ltac:(lia)) as H. cbn zeta in H. change (Z.of_nat 0) with 0 in H. unfold c'. set (c1 := tm_turn p true c 0) in *.
  destruct H as [(X & U & A1 & _)|[(X & _ & _ & H)|[[D ST]|(D & [AB FR] & _ & HV & FR0 & OC & q & Q & QP & OP & OS & PS)]]]; [|lia| |].
  - pose proof (turn_active c1 1 X U A1 ltac:(lia)) as H. cbn zeta in H. change (Z.of_nat 1) with 1 in H. destruct H as [(X' & U' & A2 & L)|[(X' & H & _)|[[H _]|(H & _)]]]; [lia|eauto|eauto|eauto].
  - left. exists []. now apply stalled_turn.
  - assert (HV0 : forall r, 0 <= r < n -> V r 0 = false) by (intros r R; apply (HV r R)).
    destruct (pick_ok p N1 c1 1) as [(r & R & HD & PK)|(HD & r & R & PK)]; [now rewrite QP| |].
    + assert (r = q).
      { destruct (Z.eq_dec r q) as [|N]; [assumption|]. rewrite (head_shift _ _ _ _ (PS r R)) in HD by (destruct (r =? q); cbn; lia). destruct (Z.eqb_spec r q); [contradiction|]. rewrite (HV r R : Z.testbit _ (cnt r [] + 0) = false) in HD. discriminate. }
      subst r. assert (V1 : V q 1 = true). { rewrite (head_shift _ _ _ _ (PS q Q)) in HD by (rewrite Z.eqb_refl; cbn; lia). rewrite Z.eqb_refl in HD. exact HD. }
      assert (OQ : at_ (cy_offn c1) q 0 = o q). { rewrite (dn_off _ _ D q Q). cbn. lia. }
      assert (OC0 : cy_oport c = [] /\ cy_oseg c = []) by (destruct (ac_out _ _ _ _ A) as [-> ->]; auto). destruct OC0 as [OC1 OC2].
      destruct (dn_len _ _ D) as (L1 & L2 & L3).
      assert (OF2 : (o q + 1) mod 2 ^ (clog2 2 + 1) = o q + 1). { pose proof (off_small (o q + 1)) as K. rewrite S2 in K. apply K. specialize (RO q Q). lia. }
      right. exists q. unfold tm_turn. rewrite FR. cbn [negb]. rewrite PK, !bsel_head, HD, AB, S2. cbn [negb andb]. replace (_ || (1 =? 2 - 1)) with true by (destruct (head (cy_pse c1) q); reflexivity). cbn [andb].
      constructor; cbn [cy_frame cy_port cy_off cy_abort cy_psv cy_pse cy_offn cy_framen cy_portn cy_osel cy_oselc cy_oport cy_oseg cy_selv cy_selvc]; auto.
      * now rewrite set_at_len.
      * intros r R'. rewrite at_set by lia. rewrite OQ, OF2. destruct (Z.eqb_spec r q) as [->|N]; [lia|]. rewrite (dn_off _ _ D r R'). cbn. lia.
      * rewrite OP, OS, OC1, OC2, OQ. cbn [cnt filter length Z.of_nat app]. rewrite Z.add_0_r. auto.
      * split; [|reflexivity]. apply (ac_idle _ _ _ _ A); auto.
    + left. exists []. destruct D as [DL DO DP DS DT DU DSE DCP DPN DN]. destruct DL as (L1 & L2 & L3).
      unfold tm_turn. rewrite FR. cbn [negb]. rewrite PK. cbn [andb]. constructor; cbn [cy_frame cy_port cy_off cy_abort cy_psv cy_pse cy_offn cy_framen cy_portn cy_osel cy_oselc cy_oport cy_oseg cy_selv cy_selvc]; rewrite ?set_at_len; auto.
      intros g y G. destruct g; discriminate.
Qed.

Hypothesis MONO : forall q k k', 0 <= q < n -> 0 <= k <= k' -> k' < s -> V q k = false -> V q k' = false.
Definition idle (c : tm_cyc) (t : nat) (X : list (Z * Z)) : Prop :=
  nothing c /\ (forall q, 0 <= q < n -> V q (cnt q X) = false) /\ (length X <= t)%nat /\
  forall q, 0 <= q < n -> exists k, 0 <= k <= Z.of_nat t - Z.of_nat (length X) /\ at_ (cy_psv c) q 0 = Z.shiftr (at_ psv0 q 0) (cnt q X + k).
Lemma idle_turn : forall c t X, done c X -> idle c t X -> (t < Z.to_nat s)%nat -> let c' := tm_turn p true c (Z.of_nat t) in done c' X /\ idle c' (S t) X.
Proof.
  intros c t X D ((AB & FR) & HV & LX & PS) T c'.
  assert (HD : forall q, 0 <= q < n -> head (cy_psv c) q = false).
  { intros q Q. destruct (PS q Q) as (k & K & E1). rewrite (head_shift _ _ _ _ E1) by (pose proof (cnt_pos q X); lia). pose proof (cnt_pos q X). pose proof (cnt_len q X). apply (MONO q (cnt q X)); try lia. now apply HV. }
  destruct (pick_ok p N1 c (Z.of_nat t)) as [(q & Q & H & PK)|(_ & q & Q & PK)]; [apply D|rewrite HD in H by assumption; discriminate|].
  destruct D as [DL DO DP DS DT DU DSE DCP DPN DN]. destruct DL as (L1 & L2 & L3).
  assert (OLD : forall g y, nth_error X g = Some y -> forall op os, nth_error (cy_oport c ++ op) g = Some (fst y) /\ nth_error (cy_oseg c ++ os) g = Some (o (fst y) + snd y)).
  { intros g y G op os. destruct (DP g y G) as [G1 G2]. split; rewrite nth_error_app1; auto; apply nth_error_Some; congruence. }
  unfold c', tm_turn. rewrite FR. cbn [negb]. rewrite PK. cbn [andb]. split.
  - constructor; cbn [cy_frame cy_port cy_off cy_abort cy_psv cy_pse cy_offn cy_framen cy_portn cy_osel cy_oselc cy_oport cy_oseg cy_selv cy_selvc]; rewrite ?set_at_len; auto.
  - split; [split; cbn [cy_abort cy_frame]; [exact AB|now destruct (_ =? 1)]|]. split; [exact HV|]. split; [lia|]. intros r R. cbn [cy_psv]. rewrite at_set by lia. destruct (PS r R) as (k & K & E1).
    destruct (Z.eqb_spec r q) as [->|N]; [|exists k; split; [lia|exact E1]]. exists (k + 1). split; [lia|]. rewrite E1, shift_more by (pose proof (cnt_pos q X); lia). f_equal. lia.
Qed.

(** The whole loop. *)
Lemma loop_done : forall c, active c 0 [] [] -> exists X, done (fold_left (tm_turn p true) (loop s) c) X.
Proof.
  intros c A.
  assert (G : forall k, (k <= Z.to_nat s)%nat -> let c' := fold_left (tm_turn p true) (loop (Z.of_nat k)) c in
    (exists X U, active c' k X U /\ (k < Z.to_nat s)%nat) \/ (exists X, done c' X /\ length X = Z.to_nat s /\ k = Z.to_nat s) \/ (exists X, done c' X /\ stalled c') \/ (exists X, done c' X /\ idle c' k X)).
  { induction k as [|k IH]; intros K; [left; exists [], []; split; [exact A|lia]|]. specialize (IH ltac:(lia)). cbn zeta in *. rewrite loop_S, fold_left_app. cbn [fold_left].
    set (c1 := fold_left (tm_turn p true) (loop (Z.of_nat k)) c) in *. destruct IH as [(X & U & AC & KS)|[(X & _ & _ & KS)|[(X & D & ST)|(X & D & ID)]]]; [|lia| |].
    - destruct (turn_active c1 k X U AC KS) as [(X' & U' & H & H')|[(X' & H & H')|[[H H']|(H & H' & -> & HV & _ & _ & q & Q & _ & _ & _ & PS)]]]; eauto 10.
      right. right. right. exists X. split; [exact H|]. pose proof (ac_t _ _ _ _ AC) as LT. rewrite app_nil_r in LT. repeat split; try apply H'; [exact HV|lia|]. intros r R. exists (if r =? q then 1 else 0). rewrite PS by assumption. split; [destruct (r =? q); lia|reflexivity].
    - destruct (stalled_turn c1 X (Z.of_nat k) D ST) as [H H']. eauto 10.
    - destruct (idle_turn c1 k X D ID ltac:(lia)) as [H H']. eauto 10. }
  specialize (G (Z.to_nat s) ltac:(lia)). rewrite Z2Nat.id in G by lia. cbn zeta in G. destruct G as [(X & U & _ & H)|[(X & H & _)|[(X & H & _)|(X & H & _)]]]; [lia|eauto|eauto|eauto].
Qed.

(** When the output registers are not ready nothing is committed. *)
Lemma loop_not_ready : forall l c, let c' := fold_left (tm_turn p false) l c in same c c'.
Proof.
  induction l as [|g l IH]; intros c; [cbn; repeat split|]. cbn [fold_left]. cbn zeta in *. destruct (IH (tm_turn p false c g)) as (I1 & I2 & I3 & I4 & I5).
  assert (T : same c (tm_turn p false c g)).
  { unfold tm_turn. destruct (if negb (cy_frame c) then tm_pick p c g else _) as [[[f q] of] sv]. rewrite andb_false_r. destruct (f && negb (cy_abort c)); [destruct (bsel (at_ (cy_psv c) q 0) 0 =? 1)|]; repeat split; reflexivity. }
  destruct T as (T1 & T2 & T3 & T4 & T5). repeat split; congruence.
Qed.
End turns.
