(** Proofs for the segmented RAM interface: runs of the write side. *)
From Verif Require Import PyBase BitLemmas TlpProofs PcieIfProofs4 PsdpModel PsdpSpec PsdpProofs PsdpProofs2.
From Coq Require Import ZifyBool ZifyNat.
Ltac Zify.zify_post_hook ::= Z.div_mod_to_equations.
Local Arguments Z.mul : simpl never.

(** ** Operations of one segment. *)
Definition sel {A} (s : Z) (l : list (Z * A)) : list A := map snd (filter (fun p => fst p =? s) l).
Definition wops (c : pcfg) (w : Z * list Z) : list (Z * segop) := match write_ops c (fst w) (snd w) with Ok l => l | Err _ => [] end.
Definition allops (c : pcfg) (s : Z) (ws : list (Z * list Z)) : list segop := flat_map (fun w => sel s (wops c w)) ws.
Definition apply_ops (c : pcfg) (s : Z) (ops : list segop) (old x : Z) : Z := fold_left (fun v o => op_byte c s o v x) ops old.

Lemma enqueue_sel : forall {A} (ops : list (Z * A)) q s, enqueue ops q s = q s ++ sel s ops.
Proof.
  intros A. induction ops as [|[s' o] ops IH]; intros q s; cbn [enqueue]; [unfold sel; cbn; rewrite app_nil_r; reflexivity|].
  rewrite IH. unfold sel, pupd. cbn [filter fst]. rewrite (Z.eqb_sym s s').
  destruct (Z.eqb_spec s' s) as [->|Hn]; cbn [map snd]; [rewrite <- app_assoc; reflexivity|reflexivity].
Qed.

Lemma does_all_in : forall c a d ops w s o, pcfg_ok c -> does_all c a d w ops -> In o (sel s ops) ->
  exists w', w <= w' /\ s = w' mod p_n c /\ does c a d w' o.
Proof.
  intros c a d. induction ops as [|[s' o'] ops IH]; intros w s o Hc HA Hin; [destruct Hin|].
  cbn [does_all] in HA. destruct HA as (Hs & Hd & HA). unfold sel in Hin. cbn [filter fst] in Hin.
  destruct (Z.eqb_spec s' s) as [He|Hn]; cbn [map snd] in Hin.
  - destruct Hin as [<-|Hin]; [exists w; split; [lia|split; [congruence|assumption]]|].
    destruct (IH (w + 1) s o Hc HA Hin) as (w' & H1 & H2). exists w'. split; [lia|assumption].
  - destruct (IH (w + 1) s o Hc HA Hin) as (w' & H1 & H2). exists w'. split; [lia|assumption].
Qed.

Lemma does_all_has : forall c a d ops w w', does_all c a d w ops -> w <= w' < w + Z.of_nat (length ops) ->
  exists o, In o (sel (w' mod p_n c) ops) /\ does c a d w' o.
Proof.
  intros c a d. induction ops as [|[s' o'] ops IH]; intros w w' HA Hw; [cbn [length] in Hw; lia|].
  cbn [does_all] in HA. destruct HA as (Hs & Hd & HA). cbn [length] in Hw. unfold sel. cbn [filter fst].
  destruct (Z.eq_dec w' w) as [->|Hn].
  - exists o'. rewrite Hs, Z.eqb_refl. cbn [map snd]. split; [left; reflexivity|assumption].
  - destruct (IH (w + 1) w' HA ltac:(lia)) as (o & H1 & H2). exists o. split; [|assumption].
    destruct (s' =? w' mod p_n c); cbn [map snd]; [right|]; exact H1.
Qed.

Definition w_target (w : Z * list Z) (x old : Z) : Z :=
  if (fst w <=? x) && (x <? fst w + zlen (snd w)) then nth (Z.to_nat (x - fst w)) (snd w) 0 else old.

Lemma wops_ok : forall c w, pcfg_ok c -> write_ok c w -> write_ops c (fst w) (snd w) = Ok (wops c w) /\
  does_all c (fst w) (snd w) (fst w / p_sbl c) (wops c w) /\ length (wops c w) = Z.to_nat (seg_num c (fst w) (zlen (snd w))).
Proof.
  intros c [a d] Hc [H1 H2]. cbn [fst snd] in *. destruct (write_ops_spec c a d Hc H1 H2) as (ops & E & HH).
  unfold wops. cbn [fst snd]. rewrite E. split; [reflexivity|exact HH].
Qed.

Lemma wops_each : forall c w x o, pcfg_ok c -> write_ok c w -> In o (sel (seg_at c x) (wops c w)) ->
  op_ok c o /\
  ((forall old, op_byte c (seg_at c x) o old x = old) \/
   ((fst w <=? x) && (x <? fst w + zlen (snd w)) = true /\ forall old, op_byte c (seg_at c x) o old x = nth (Z.to_nat (x - fst w)) (snd w) 0)).
Proof.
  intros c w x o Hc Hw Hin. destruct (wops_ok c w Hc Hw) as (_ & HA & _).
  destruct (does_all_in c _ _ _ _ _ _ Hc HA Hin) as (w' & _ & Hs & Hd1 & Hd2 & Hd3).
  split; [assumption|]. rewrite Hs.
  destruct (Z.eqb_spec (x / p_sbl c) w') as [He|Hn].
  - destruct ((fst w <=? x) && (x <? fst w + zlen (snd w))) eqn:E.
    + right. split; [reflexivity|]. intro old. rewrite Hd3. rewrite He, Z.eqb_refl. cbn [andb]. rewrite E. reflexivity.
    + left. intro old. rewrite Hd3. rewrite <- andb_assoc, E, andb_false_r. reflexivity.
  - left. intro old. rewrite Hd3. replace (x / p_sbl c =? w') with false by (symmetry; apply Z.eqb_neq; assumption). reflexivity.
Qed.

Lemma wops_hit : forall c w x, pcfg_ok c -> write_ok c w -> (fst w <=? x) && (x <? fst w + zlen (snd w)) = true ->
  exists o, In o (sel (seg_at c x) (wops c w)) /\ forall old, op_byte c (seg_at c x) o old x = nth (Z.to_nat (x - fst w)) (snd w) 0.
Proof.
  intros c w x Hc Hw Hx. destruct (wops_ok c w Hc Hw) as (_ & HA & HL).
  destruct Hw as [(Ha & Hn & Hs) Hb]. pose proof Hc as (Hc1 & Hc2 & Hc3).
  rewrite seg_num_eq in HL by (try assumption; lia).
  assert (fst w / p_sbl c <= x / p_sbl c) by (apply Z.div_le_mono; lia).
  assert (x / p_sbl c <= (fst w + zlen (snd w) - 1) / p_sbl c) by (apply Z.div_le_mono; lia).
  destruct (does_all_has c _ _ _ _ (x / p_sbl c) HA ltac:(lia)) as (o & H1 & H2 & H3 & H4).
  exists o. split; [exact H1|]. intro old. unfold seg_at. rewrite H4. rewrite Z.eqb_refl. cbn [andb]. rewrite Hx. reflexivity.
Qed.

Lemma apply_some : forall c w x ops old, pcfg_ok c -> write_ok c w -> (forall o, In o ops -> In o (sel (seg_at c x) (wops c w))) ->
  apply_ops c (seg_at c x) ops old x = old \/ apply_ops c (seg_at c x) ops old x = w_target w x old.
Proof.
  intros c w x ops. induction ops as [|o ops IH] using rev_ind; intros old Hc Hw Hin; [left; reflexivity|].
  unfold apply_ops in *. rewrite fold_left_app. cbn [fold_left].
  destruct (wops_each c w x o Hc Hw) as [_ [H|[H1 H2]]].
  - apply Hin, in_or_app. right. left. reflexivity.
  - rewrite H. apply IH; try assumption. intros o' Ho. apply Hin, in_or_app. left. assumption.
  - right. rewrite H2. unfold w_target. rewrite H1. reflexivity.
Qed.

Lemma apply_all : forall c w x old, pcfg_ok c -> write_ok c w ->
  apply_ops c (seg_at c x) (sel (seg_at c x) (wops c w)) old x = w_target w x old.
Proof.
  intros c w x old Hc Hw. unfold w_target. destruct ((fst w <=? x) && (x <? fst w + zlen (snd w))) eqn:E.
  - destruct (wops_hit c w x Hc Hw E) as (o & Hin & Ho). apply in_split in Hin. destruct Hin as (l1 & l2 & El).
    rewrite El. unfold apply_ops. rewrite fold_left_app. cbn [fold_left]. rewrite Ho. fold (apply_ops c (seg_at c x) l2 (nth (Z.to_nat (x - fst w)) (snd w) 0) x).
    destruct (apply_some c w x l2 (nth (Z.to_nat (x - fst w)) (snd w) 0) Hc Hw) as [H|H].
    + intros o' Ho'. rewrite El. apply in_or_app. right. right. assumption.
    + exact H.
    + rewrite H. unfold w_target. rewrite E. reflexivity.
  - destruct (apply_some c w x (sel (seg_at c x) (wops c w)) old Hc Hw) as [H|H]; [auto|exact H|].
    rewrite H. unfold w_target. rewrite E. reflexivity.
Qed.

Lemma stores_cons : forall w ws m x, stores (w :: ws) m x = stores ws (fun y => w_target w y (m y)) x.
Proof. intros [a d] ws m x. reflexivity. Qed.

Lemma stores_ext : forall ws m m' x, m x = m' x -> stores ws m x = stores ws m' x.
Proof.
  induction ws as [|[a d] ws IH]; intros m m' x H; cbn [stores]; [exact H|].
  apply IH. unfold mem_store. rewrite H. reflexivity.
Qed.

Lemma stores_app : forall u v m, stores (u ++ v) m = stores v (stores u m).
Proof. induction u as [|[a d] u IH]; intros v m; cbn [app stores]; [reflexivity|]. apply IH. Qed.

Lemma apply_allops : forall c ws m x, pcfg_ok c -> Forall (write_ok c) ws ->
  apply_ops c (seg_at c x) (allops c (seg_at c x) ws) (m x) x = stores ws m x.
Proof.
  intros c. induction ws as [|w ws IH]; intros m x Hc Hw; [reflexivity|].
  inversion_clear Hw as [|? ? H1 H2]. unfold allops. cbn [flat_map]. unfold apply_ops. rewrite fold_left_app.
  fold (apply_ops c (seg_at c x) (sel (seg_at c x) (wops c w)) (m x) x). rewrite apply_all by assumption.
  rewrite stores_cons. rewrite <- IH by assumption. reflexivity.
Qed.

Lemma apply_prefix : forall c ws m x e r, pcfg_ok c -> Forall (write_ok c) ws ->
  allops c (seg_at c x) ws = e ++ r ->
  exists j, (j <= length ws)%nat /\ apply_ops c (seg_at c x) e (m x) x = stores (firstn j ws) m x.
Proof.
  intros c. induction ws as [|w ws IH]; intros m x e r Hc Hw He.
  - exists 0%nat. split; [lia|]. destruct e; [reflexivity|discriminate].
  - inversion_clear Hw as [|? ? H1 H2]. unfold allops in He. cbn [flat_map] in He.
    set (o1 := sel (seg_at c x) (wops c w)) in *.
    destruct (Nat.le_gt_cases (length o1) (length e)) as [Hl|Hl].
    + assert (e = o1 ++ skipn (length o1) e) as Ee.
      { rewrite <- (firstn_skipn (length o1) e) at 1. f_equal.
        assert (firstn (length o1) (o1 ++ flat_map (fun w => sel (seg_at c x) (wops c w)) ws) = firstn (length o1) (e ++ r)) as F by congruence.
        rewrite firstn_app, Nat.sub_diag, firstn_O, app_nil_r, firstn_all, firstn_app in F.
        replace (length o1 - length e)%nat with 0%nat in F by lia. rewrite firstn_O, app_nil_r in F. congruence. }
      rewrite Ee in He. rewrite <- app_assoc in He. apply app_inv_head in He.
      destruct (IH (fun y => w_target w y (m y)) x _ _ Hc H2 He) as (j & Hj & E).
      exists (S j). split; [cbn [length]; lia|]. cbn [firstn]. rewrite stores_cons, <- E.
      rewrite Ee. unfold apply_ops at 1. rewrite fold_left_app.
      fold (apply_ops c (seg_at c x) o1 (m x) x). unfold o1 at 2. rewrite apply_all by assumption. 
      rewrite skipn_app, Nat.sub_diag, skipn_all. reflexivity.
    + assert (forall o, In o e -> In o o1) as Hin.
      { intros o Ho. assert (e = firstn (length e) o1) as Ee.
        { assert (firstn (length e) (o1 ++ flat_map (fun w => sel (seg_at c x) (wops c w)) ws) = firstn (length e) (e ++ r)) as F by congruence.
          rewrite !firstn_app in F. rewrite Nat.sub_diag, firstn_O, app_nil_r, firstn_all in F.
          replace (length e - length o1)%nat with 0%nat in F by lia. rewrite firstn_O, app_nil_r in F. congruence. }
        rewrite <- (firstn_skipn (length e) o1). apply in_or_app. left. rewrite <- Ee. exact Ho. }
      destruct (apply_some c w x e (m x) Hc H1 Hin) as [E|E].
      * exists 0%nat. split; [lia|]. exact E.
      * exists 1%nat. split; [cbn [length]; lia|]. cbn [firstn]. rewrite stores_cons. exact E.
Qed.

(** ** Counting responses. *)
Fixpoint walk (n : nat) (c : pcfg) (seg : Z) : list Z :=
  match n with O => [] | S n => seg :: walk n c ((seg + 1) mod p_n c) end.
Definition occ (s : Z) (l : list Z) : Z := zlen (filter (fun y => y =? s) l).
Definition pocc (c : pcfg) (s : Z) (ps : list wresp) : Z := fold_right (fun p n => occ s (walk (wr_left p) c (wr_seg p)) + n) 0 ps.

Lemma occ_nonneg : forall s l, 0 <= occ s l.
Proof. intros. unfold occ, zlen. lia. Qed.

Lemma occ_cons : forall s y l, occ s (y :: l) = (if y =? s then 1 else 0) + occ s l.
Proof. intros. unfold occ, zlen. cbn [filter]. destruct (y =? s); cbn [length]; lia. Qed.

Lemma pocc_nonneg : forall c s ps, 0 <= pocc c s ps.
Proof. induction ps; cbn; [lia|]. pose proof (occ_nonneg s (walk (wr_left a) c (wr_seg a))). unfold pocc in *. lia. Qed.

Lemma next_seg : forall c s, pcfg_ok c -> 0 <= (s + 1) mod p_n c < p_n c.
Proof. intros c s (H & _). apply Z.mod_pos_bound. unfold p_n. lia. Qed.

Lemma take_done_spec : forall n c seg r n' seg' r', pcfg_ok c -> 0 <= seg < p_n c -> (forall i, 0 <= i < p_n c -> 0 <= r i) ->
  take_done n c seg r = (n', seg', r') ->
  (forall i, 0 <= i < p_n c -> 0 <= r' i /\ r i - r' i = occ i (walk n c seg) - occ i (walk n' c seg') /\ occ i (walk n' c seg') <= occ i (walk n c seg)) /\
  0 <= seg' < p_n c /\ (n' = O \/ r' seg' = 0).
Proof.
  induction n; intros c seg r n' seg' r' Hc Hs Hr E; cbn [take_done] in E.
  - injection E as <- <- <-. split; [|split; [assumption|left; reflexivity]]. intros i Hi. specialize (Hr i Hi). lia.
  - destruct (Z.gtb_spec (r seg) 0) as [G|G].
    + apply IHn in E; [|assumption|apply next_seg; assumption|].
      * destruct E as (H1 & H2). split; [|exact H2]. intros i Hi. destruct (H1 i Hi) as (A1 & A2 & A3).
        cbn [walk]. rewrite !occ_cons. unfold pupd in A2. rewrite (Z.eqb_sym i seg) in A2.
        destruct (Z.eqb_spec seg i) as [->|Hn]; lia.
      * intros i Hi. unfold pupd. destruct (i =? seg); [lia|]. apply Hr. assumption.
    + injection E as <- <- <-. split; [|split; [assumption|right]].
      * intros i Hi. specialize (Hr i Hi). lia.
      * specialize (Hr seg Hs). lia.
Qed.

(** A response command waits for at most the operations of its write. *)
Definition pend_for (c : pcfg) (p : wresp) (w : Z * list Z) : Prop :=
  (forall i, 0 <= i < p_n c -> occ i (walk (wr_left p) c (wr_seg p)) <= zlen (sel i (wops c w))) /\
  wr_addr p = fst w /\ wr_len p = zlen (snd w) /\ 0 <= wr_seg p < p_n c.

Definition wdone (w : Z * list Z) : Z * Z := (fst w, zlen (snd w)).

Lemma resp_run_spec : forall c ps ws r ps' r' out, pcfg_ok c -> Forall2 (pend_for c) ps ws -> (forall i, 0 <= i < p_n c -> 0 <= r i) ->
  resp_run c ps r = (ps', r', out) ->
  (forall i, 0 <= i < p_n c -> 0 <= r' i /\ r i - r' i = pocc c i ps - pocc c i ps') /\
  (exists w1 w2, ws = w1 ++ w2 /\ out = map wdone w1 /\ Forall2 (pend_for c) ps' w2) /\
  match ps' with [] => True | p :: _ => wr_left p <> O /\ r' (wr_seg p) = 0 /\ 0 <= wr_seg p < p_n c end.
Proof.
  intros c. induction ps as [|p ps IH]; intros ws r ps' r' out Hc HF Hr E; cbn [resp_run] in E.
  - injection E as <- <- <-. inversion HF; subst. split; [intros i Hi; specialize (Hr i Hi); lia|].
    split; [|exact I]. exists [], []. repeat split. constructor.
  - inversion HF as [|? w ? ws0 Hp HF']; subst. destruct Hp as (P1 & P2 & P3 & P4).
    destruct (take_done (wr_left p) c (wr_seg p) r) as [[n seg] r1] eqn:E1.
    destruct (take_done_spec _ _ _ _ _ _ _ Hc P4 Hr E1) as (T1 & T2 & T3).
    destruct n as [|n].
    + destruct (resp_run c ps r1) as [[ps2 r2] out2] eqn:E2. injection E as <- <- <-.
      destruct (IH ws0 r1 ps2 r2 out2 Hc HF') as (I1 & (w1 & w2 & I2 & I3 & I4) & I5); [intros i Hi; apply T1; assumption|exact E2|].
      split; [|split; [|exact I5]].
      * intros i Hi. destruct (I1 i Hi) as [J1 J2]. destruct (T1 i Hi) as (J3 & J4 & J5).
        change (pocc c i (p :: ps)) with (occ i (walk (wr_left p) c (wr_seg p)) + pocc c i ps).
        change (occ i (walk 0 c seg)) with 0 in *. lia.
      * exists (w :: w1), w2. split; [rewrite I2; reflexivity|]. split; [|assumption]. cbn [map].
        unfold wdone at 1. rewrite <- P2, <- P3, I3. reflexivity.
    + injection E as <- <- <-. split; [|split].
      * intros i Hi. destruct (T1 i Hi) as (J3 & J4 & J5). split; [assumption|].
        change (pocc c i (p :: ps)) with (occ i (walk (wr_left p) c (wr_seg p)) + pocc c i ps).
        change (pocc c i (mkWr (S n) seg (wr_addr p) (wr_len p) :: ps)) with (occ i (walk (S n) c seg) + pocc c i ps). lia.
      * exists [], (w :: ws0). split; [reflexivity|]. split; [reflexivity|]. constructor; [|assumption].
        split; [|split; [exact P2|split; [exact P3|exact T2]]]. cbn [wr_left wr_seg]. intros i Hi. specialize (P1 i Hi). destruct (T1 i Hi) as (_ & _ & J5). lia.
      * cbn [wr_left wr_seg]. destruct T3 as [T3|T3]; [discriminate|]. split; [discriminate|]. split; assumption.
Qed.

Lemma does_all_walk : forall c a d ops w, pcfg_ok c -> does_all c a d w ops -> map fst ops = walk (length ops) c (w mod p_n c).
Proof.
  intros c a d. induction ops as [|[s o] ops IH]; intros w Hc HA; cbn [does_all map length walk fst]; [reflexivity|].
  destruct HA as (-> & _ & HA). rewrite (IH (w + 1) Hc HA). rewrite word_seg by assumption. reflexivity.
Qed.

Lemma occ_sel : forall {A} i (ops : list (Z * A)), occ i (map fst ops) = zlen (sel i ops).
Proof.
  intros A i. unfold occ, sel, zlen. induction ops as [|[s o] ops IH]; cbn [map filter fst]; [reflexivity|].
  destruct (s =? i); cbn [map length]; lia.
Qed.

(** ** The invariant. *)
Record winv (c : pcfg) (m0 : mem) (ws : list (Z * list Z)) (s : wstate) : Prop := mkWinv {
  wi_flow : exists e : Z -> list segop,
    (forall i, 0 <= i < p_n c -> e i ++ infl c (s_bus s) i ++ s_q s i = allops c i ws) /\
    (forall x, s_mem s x = apply_ops c (seg_at c x) (e (seg_at c x)) (m0 x) x);
  wi_count : forall i, 0 <= i < p_n c ->
    0 <= s_r s i /\
    s_r s i + (if Z.testbit (s_wd s) i then 1 else 0) + zlen (infl c (s_bus s) i) + zlen (s_q s i) = pocc c i (s_pend s);
  wi_resp : exists w1 w2, ws = w1 ++ w2 /\ s_done s = map wdone w1 /\ Forall2 (pend_for c) (s_pend s) w2;
  wi_quiet : match s_pend s with [] => True | p :: _ => wr_left p <> O /\ s_r s (wr_seg p) = 0 /\ 0 <= wr_seg p < p_n c end }.

Lemma winv0 : forall c m, winv c m [] (ws0 m).
Proof.
  intros c m. constructor; cbn.
  - exists (fun _ => []). split; [|reflexivity]. intros i Hi. unfold infl. cbn [w_valid]. rewrite Z.testbit_0_l. reflexivity.
  - intros i Hi. unfold infl. cbn [w_valid]. rewrite Z.testbit_0_l. cbn. lia.
  - exists [], []. repeat split. constructor.
  - exact I.
Qed.

Lemma pocc_app : forall c i p q, pocc c i (p ++ q) = pocc c i p + pocc c i q.
Proof. intros c i p q. unfold pocc. induction p; cbn [app fold_right]; lia. Qed.

Lemma zlen_app' : forall {A} (l r : list A), zlen (l ++ r) = zlen l + zlen r.
Proof. intros. unfold zlen. rewrite app_length. lia. Qed.

Lemma bit_length_bound : forall t, 1 <= t -> t <= 2 ^ bit_length (t - 1).
Proof.
  intros t Ht. unfold bit_length. destruct (Z.eqb_spec (t - 1) 0) as [E|E]; [rewrite Z.pow_0_r; lia|].
  rewrite Z.abs_eq by lia. pose proof (Z.log2_spec (t - 1) ltac:(lia)). replace (Z.log2 (t - 1) + 1) with (Z.succ (Z.log2 (t - 1))) by lia. lia.
Qed.

Lemma p_check_ok : forall c a n, pcfg_ok c -> in_cap c a n -> p_check c a n = Ok tt.
Proof.
  intros c a n (H1 & H2 & H3) (Ha & Hn & Hs). unfold p_check, p_address_width.
  assert (1 <= p_n c) by (unfold p_n; lia).
  assert (capacity c <= 2 ^ (p_aw c + bit_length (p_sbl c * p_n c - 1))) as B.
  { unfold capacity. fold (p_n c). assert (0 <= bit_length (p_sbl c * p_n c - 1)).
    { unfold bit_length. destruct (_ =? 0); [lia|]. pose proof (Z.log2_nonneg (Z.abs (p_sbl c * p_n c - 1))). lia. }
    rewrite Z.pow_add_r by lia. pose proof (bit_length_bound (p_sbl c * p_n c) ltac:(nia)).
    assert (0 < 2 ^ p_aw c) by (apply Z.pow_pos_nonneg; lia). nia. }
  assert ((a <? 0) || (2 ^ (p_aw c + bit_length (p_sbl c * p_n c - 1)) <=? a) = false) as -> by lia.
  assert (n <? 0 = false) as -> by lia.
  assert (2 ^ (p_aw c + bit_length (p_sbl c * p_n c - 1)) <? a + n = false) as -> by lia. reflexivity.
Qed.

Lemma first_seg_range : forall c a, pcfg_ok c -> 0 <= first_seg c a < p_n c.
Proof. intros c a Hc. apply (seg_at_range c a Hc). Qed.

Lemma write_step : forall c m0 ws s a d, pcfg_ok c -> winv c m0 ws s -> write_ok c (a, d) ->
  exists s', ws_write c a d s = Ok s' /\ winv c m0 (ws ++ [(a, d)]) s' /\ s_rdy s' = s_rdy s.
Proof.
  intros c m0 ws s a d Hc [(e & F1 & F2) Fc (w1 & w2 & R1 & R2 & R3) Fq] Hw.
  destruct (wops_ok c (a, d) Hc Hw) as (E & HA & HL). cbn [fst snd] in *.
  unfold ws_write. rewrite p_check_ok by (try assumption; apply Hw). cbn [bind]. rewrite E. cbn [bind].
  set (p := mkWr _ _ _ _). destruct (resp_run c (s_pend s ++ [p]) (s_r s)) as [[ps' r'] out] eqn:Er.
  assert (forall i, occ i (walk (wr_left p) c (wr_seg p)) = zlen (sel i (wops c (a, d)))) as Hocc.
  { intro i. rewrite <- occ_sel. rewrite (does_all_walk c a d _ _ Hc HA). rewrite HL. reflexivity. }
  assert (Forall2 (pend_for c) (s_pend s ++ [p]) (w2 ++ [(a, d)])) as HF.
  { apply Forall2_app; [assumption|]. constructor; [|constructor]. split; [|split; [reflexivity|split; [reflexivity|apply first_seg_range; assumption]]].
    intros i Hi. rewrite Hocc. lia. }
  destruct (resp_run_spec c _ _ _ _ _ _ Hc HF ltac:(intros i Hi; exact (proj1 (Fc i Hi))) Er) as (I1 & (u1 & u2 & I2 & I3 & I4) & I5).
  eexists. split; [reflexivity|]. split; [|reflexivity].
  constructor; cbn [s_q s_bus s_r s_pend s_done s_rdy s_wd s_mem].
  - exists e. split; [|exact F2]. intros i Hi. rewrite enqueue_sel, !app_assoc. rewrite <- (app_assoc (e i)), F1 by assumption.
    unfold allops. rewrite flat_map_app. cbn [flat_map]. rewrite app_nil_r. reflexivity.
  - intros i Hi. destruct (I1 i Hi) as [J1 J2]. destruct (Fc i Hi) as [J3 J4]. split; [assumption|].
    rewrite enqueue_sel, zlen_app'. rewrite pocc_app in J2.
    assert (pocc c i [p] = zlen (sel i (wops c (a, d)))) by (rewrite <- Hocc; cbn; lia). lia.
  - exists (w1 ++ u1), u2. split; [rewrite R1, <- !app_assoc; f_equal; exact I2|]. split; [|assumption]. rewrite R2, I3, map_app. reflexivity.
  - exact I5.
Qed.

Lemma allops_ok : forall c i ws, pcfg_ok c -> Forall (write_ok c) ws -> 0 <= i < p_n c -> Forall (op_ok c) (allops c i ws).
Proof.
  intros c i ws Hc Hw Hi. apply Forall_forall. intros o Ho. unfold allops in Ho. apply in_flat_map in Ho. destruct Ho as (w & Hin & Ho).
  rewrite Forall_forall in Hw. specialize (Hw w Hin). destruct (wops_ok c w Hc Hw) as (_ & HA & _).
  destruct (does_all_in c _ _ _ _ _ _ Hc HA Ho) as (w' & _ & _ & H & _). exact H.
Qed.

Lemma edge_step : forall c size m0 ws s mp rp, pcfg_ok c -> capacity c <= size -> Forall (write_ok c) ws -> winv c m0 ws s ->
  exists s', ws_edge c size mp rp s = Ok s' /\ winv c m0 ws s' /\ s_rdy s' = all_ready c rp /\
    forall i, 0 <= i < p_n c ->
      (infl c (s_bus s') i, s_q s' i) = mw_next c (s_rdy s) mp (s_bus s) (s_q s) i /\
      Z.testbit (s_wd s') i = Z.testbit (s_rdy s) i && Z.testbit (w_valid (s_bus s)) i.
Proof.
  intros c size m0 ws s mp rp Hc Hsz Hw [(e & F1 & F2) Fc (w1 & w2 & R1 & R2 & R3) Fq].
  unfold ws_edge. destruct (mw_segs (p_segs c) c (s_rdy s) (s_wd s) mp 0 (s_bus s, s_q s, s_r s)) as [[b q] r] eqn:Em.
  pose proof (mw_segs_spec _ _ _ _ _ _ _ _ _ _ _ _ Hc (Z.le_refl 0) Em) as M.
  destruct (rw_segs_spec (p_segs c) c size (s_rdy s) (s_bus s) 0 (s_mem s) 0 Hc Hsz ltac:(lia) ltac:(unfold p_n; lia)) as (m & done & Er & H1 & H2).
  rewrite Er. cbn [bind]. destruct (resp_run c (s_pend s) r) as [[ps' r'] out] eqn:Ep.
  assert (forall i, 0 <= i < p_n c -> (infl c b i, q i) = mw_next c (s_rdy s) mp (s_bus s) (s_q s) i /\
            r i = s_r s i + (if Z.testbit (s_wd s) i then 1 else 0)) as M'.
  { intros i Hi. destruct (M i ltac:(lia)) as [A1 A2].
    assert ((0 <=? i) && (i <? 0 + Z.of_nat (p_segs c)) = true) as Eb by (unfold p_n in Hi; lia).
    rewrite Eb in A1, A2. cbn [andb] in A2. split; assumption. }
  assert (forall i, 0 <= i < p_n c -> Z.testbit done i = Z.testbit (s_rdy s) i && Z.testbit (w_valid (s_bus s)) i) as D.
  { intros i Hi. rewrite H2 by lia. rewrite Z.testbit_0_l. 
    assert ((0 <=? i) && (i <? 0 + Z.of_nat (p_segs c)) = true) as -> by (unfold p_n in Hi; lia). reflexivity. }
  destruct (resp_run_spec c _ _ _ _ _ _ Hc R3 ltac:(intros i Hi; destruct (M' i Hi) as [_ ->]; destruct (Fc i Hi); destruct (Z.testbit (s_wd s) i); lia) Ep)
    as (I1 & (u1 & u2 & I2 & I3 & I4) & I5).
  eexists. split; [reflexivity|]. cbn [s_q s_bus s_r s_pend s_done s_rdy s_wd s_mem].
  split; [|split; [reflexivity|intros i Hi; split; [apply M'; assumption|apply D; assumption]]].
  set (fire := fun i => Z.testbit (s_rdy s) i && Z.testbit (w_valid (s_bus s)) i).
  assert (forall i, 0 <= i < p_n c -> infl c (s_bus s) i ++ s_q s i = (if fire i then [bus_op c (s_bus s) i] else []) ++ infl c b i ++ q i) as Flow.
  { intros i Hi. destruct (M' i Hi) as [A1 _]. pose proof (allops_ok c i ws Hc Hw Hi) as Ho. rewrite <- (F1 i Hi) in Ho.
    apply Forall_app in Ho. destruct Ho as [_ Ho]. apply Forall_app in Ho. destruct Ho as [_ Ho].
    unfold mw_next in A1. unfold fire. unfold infl at 1.
    destruct (Z.testbit (s_rdy s) i) eqn:Eb1; cbn [orb andb] in *.
    - destruct (s_q s i) as [|o rest] eqn:Eq.
      + injection A1 as A1 A2. rewrite A1, A2. reflexivity.
      + destruct mp; injection A1 as A1 A2; rewrite A1, A2; [reflexivity|].
        rewrite mask_op_ok by (try assumption; inversion Ho; assumption). destruct (Z.testbit (w_valid (s_bus s)) i); reflexivity.
    - destruct (Z.testbit (w_valid (s_bus s)) i) eqn:Ev; cbn [negb] in *.
      + injection A1 as A1 A2. rewrite A1, A2. unfold infl. rewrite Ev. reflexivity.
      + destruct (s_q s i) as [|o rest] eqn:Eq; [injection A1 as A1 A2; rewrite A1, A2; reflexivity|].
        destruct mp; injection A1 as A1 A2; rewrite A1, A2; [reflexivity|].
        rewrite mask_op_ok by (try assumption; inversion Ho; assumption). reflexivity. }
  constructor; cbn [s_q s_bus s_r s_pend s_done s_rdy s_wd s_mem].
  - exists (fun i => e i ++ if fire i then [bus_op c (s_bus s) i] else []). split.
    + intros i Hi. rewrite <- app_assoc, <- Flow by assumption. apply F1. assumption.
    + intro x. rewrite H1, F2. pose proof (seg_at_range c x Hc) as Hx.
      assert ((0 <=? seg_at c x) && (seg_at c x <? 0 + Z.of_nat (p_segs c)) = true) as -> by (unfold p_n in Hx; lia). cbn [andb].
      fold (fire (seg_at c x)). unfold apply_ops. rewrite fold_left_app. destruct (fire (seg_at c x)); reflexivity.
  - intros i Hi. destruct (I1 i Hi) as [J1 J2]. destruct (Fc i Hi) as [J3 J4]. destruct (M' i Hi) as [_ J5].
    split; [assumption|]. rewrite D by assumption. fold (fire i).
    assert (zlen (infl c (s_bus s) i) + zlen (s_q s i) = (if fire i then 1 else 0) + zlen (infl c b i) + zlen (q i)) as Hz.
    { rewrite <- !zlen_app'. rewrite Flow by assumption. rewrite !zlen_app'. destruct (fire i); unfold zlen; cbn [length]; lia. }
    destruct (Z.testbit (s_wd s) i), (fire i); lia.
  - exists (w1 ++ u1), u2. split; [rewrite R1, <- app_assoc; f_equal; exact I2|]. split; [|assumption]. rewrite R2, I3, map_app. reflexivity.
  - exact I5.
Qed.

(** ** Runs. *)
Lemma run_spec : forall evs c size m0 ws s, pcfg_ok c -> capacity c <= size -> Forall (write_ok c) (ws ++ writes evs) -> winv c m0 ws s ->
  exists s', ws_run c size evs s = Ok s' /\ winv c m0 (ws ++ writes evs) s'.
Proof.
  induction evs as [|[a d|mp rp] evs IH]; intros c size m0 ws s Hc Hsz Hw Hi; cbn [ws_run writes].
  - rewrite app_nil_r. exists s. split; [reflexivity|assumption].
  - cbn [writes] in Hw. assert (write_ok c (a, d)) as Hok.
    { rewrite Forall_forall in Hw. apply Hw, in_or_app. right. left. reflexivity. }
    destruct (write_step c m0 ws s a d Hc Hi Hok) as (s1 & E & I1 & _). cbn [ws_step]. rewrite E. cbn [bind].
    replace (ws ++ (a, d) :: writes evs) with ((ws ++ [(a, d)]) ++ writes evs) in * by (rewrite <- app_assoc; reflexivity).
    apply IH; assumption.
  - cbn [writes] in Hw. assert (Forall (write_ok c) ws) as Hw1 by (apply Forall_app in Hw; tauto).
    destruct (edge_step c size m0 ws s mp rp Hc Hsz Hw1 Hi) as (s1 & E & I1 & _). cbn [ws_step]. rewrite E. cbn [bind].
    apply IH; assumption.
Qed.

Lemma winv_safe : forall c m0 ws s, pcfg_ok c -> Forall (write_ok c) ws -> winv c m0 ws s ->
  exists k, (k <= length ws)%nat /\ s_done s = map wdone (firstn k ws) /\
    forall x, exists j, (k <= j <= length ws)%nat /\ s_mem s x = stores (firstn j ws) m0 x.
Proof.
  intros c m0 ws s Hc Hw [(e & F1 & F2) Fc (w1 & w2 & R1 & R2 & R3) Fq].
  exists (length w1). split; [rewrite R1, app_length; lia|]. split.
  { rewrite R1, firstn_app, Nat.sub_diag, firstn_O, app_nil_r, firstn_all. exact R2. }
  intro x. rewrite F2. set (i := seg_at c x). pose proof (seg_at_range c x Hc) as Hi. fold i in Hi.
  specialize (F1 i Hi). destruct (Fc i Hi) as [J1 J2].
  assert (pocc c i (s_pend s) <= zlen (allops c i w2)) as P.
  { clear - R3 Hi. induction R3 as [|p w ps ws2 Hp HF IH]; [cbn; lia|].
    change (pocc c i (p :: ps)) with (occ i (walk (wr_left p) c (wr_seg p)) + pocc c i ps).
    unfold allops. cbn [flat_map]. rewrite zlen_app'. fold (allops c i ws2). destruct Hp as (Hp & _). specialize (Hp i Hi). lia. }
  assert (allops c i ws = allops c i w1 ++ allops c i w2) as A by (rewrite R1; unfold allops; apply flat_map_app).
  assert (length (allops c i w1) <= length (e i))%nat as L.
  { assert (zlen (allops c i ws) = zlen (e i) + zlen (infl c (s_bus s) i) + zlen (s_q s i)) by (rewrite <- F1, !zlen_app'; lia).
    rewrite A, zlen_app' in H. destruct (Z.testbit (s_wd s) i); unfold zlen in *; lia. }
  set (o1 := allops c i w1) in *.
  assert (e i = o1 ++ skipn (length o1) (e i)) as Ee.
  { rewrite <- (firstn_skipn (length o1) (e i)) at 1. f_equal.
    assert (firstn (length o1) (o1 ++ allops c i w2) = firstn (length o1) (e i ++ infl c (s_bus s) i ++ s_q s i)) as F by congruence.
    rewrite firstn_app, Nat.sub_diag, firstn_O, app_nil_r, firstn_all, firstn_app in F.
    replace (length o1 - length (e i))%nat with 0%nat in F by lia. rewrite firstn_O, app_nil_r in F. congruence. }
  rewrite A, Ee, <- app_assoc in F1. apply app_inv_head in F1.
  rewrite R1 in Hw. apply Forall_app in Hw. destruct Hw as [Hw1 Hw2].
  destruct (apply_prefix c w2 (stores w1 m0) x _ _ Hc Hw2 (eq_sym F1)) as (j & Hj & E).
  exists (length w1 + j)%nat. split; [rewrite R1, app_length; lia|].
  assert (apply_ops c i (e i) (m0 x) x = apply_ops c i (skipn (length o1) (e i)) (stores w1 m0 x) x) as ->.
  { rewrite Ee at 1. unfold apply_ops at 1. rewrite fold_left_app.
    pose proof (apply_allops c w1 m0 x Hc Hw1) as HA. fold i in HA. fold o1 in HA. unfold apply_ops in HA. rewrite HA. reflexivity. }
  fold i in E. rewrite E.
  rewrite R1, firstn_app. rewrite (firstn_all2 w1) by lia. replace (length w1 + j - length w1)%nat with j by lia.
  rewrite stores_app. reflexivity.
Qed.

(** ** Progress. *)
Lemma bound_exists : forall (f : Z -> nat) n, exists K, forall i, 0 <= i < Z.of_nat n -> (f i <= K)%nat.
Proof.
  intros f. induction n as [|n [K HK]]; [exists 0%nat; lia|].
  exists (Nat.max K (f (Z.of_nat n))). intros i Hi. destruct (Z.eq_dec i (Z.of_nat n)) as [->|Hn]; [lia|]. specialize (HK i ltac:(lia)). lia.
Qed.

Definition load (c : pcfg) (s : wstate) (i : Z) : nat := (2 * length (s_q s i) + length (infl c (s_bus s) i))%nat.

Lemma all_ready_bit : forall c i, pcfg_ok c -> 0 <= i < p_n c -> Z.testbit (all_ready c false) i = true.
Proof.
  intros c i _ Hi. unfold all_ready. replace (2 ^ p_n c - 1) with (Z.ones (p_n c)) by (rewrite Z.ones_equiv; lia).
  rewrite Z.testbit_ones_nonneg by lia. apply Z.ltb_lt. lia.
Qed.

Lemma free_spec : forall n K c size m0 ws s, pcfg_ok c -> capacity c <= size -> Forall (write_ok c) ws -> winv c m0 ws s ->
  s_rdy s = all_ready c false -> (forall i, 0 <= i < p_n c -> (load c s i <= K)%nat) ->
  exists s', ws_run c size (free_edges n) s = Ok s' /\ winv c m0 ws s' /\ s_rdy s' = all_ready c false /\
    forall i, 0 <= i < p_n c -> (load c s' i <= K - n)%nat.
Proof.
  induction n; intros K c size m0 ws s Hc Hsz Hw Hi Hr HK.
  - exists s. split; [reflexivity|]. split; [assumption|]. split; [assumption|]. intros i Hi'. specialize (HK i Hi'). lia.
  - destruct (edge_step c size m0 ws s false false Hc Hsz Hw Hi) as (s1 & E & I1 & R & M).
    change (free_edges (S n)) with (WEdge false false :: free_edges n). cbn [ws_run ws_step]. rewrite E. cbn [bind].
    destruct (IHn (K - 1)%nat c size m0 ws s1 Hc Hsz Hw I1 R) as (s' & E' & I' & R' & L').
    + intros i Hi'. specialize (HK i Hi'). destruct (M i Hi') as [A _]. unfold mw_next in A.
      rewrite Hr, all_ready_bit in A by assumption. cbn [orb] in A. unfold load in *.
      destruct (s_q s i) as [|o rest]; injection A as A1 A2; rewrite A1, A2; cbn [length] in *; lia.
    + exists s'. split; [assumption|]. split; [assumption|]. split; [assumption|]. intros i Hi'. specialize (L' i Hi'). lia.
Qed.

Lemma ws_run_app : forall c size a b s s', ws_run c size a s = Ok s' -> ws_run c size (a ++ b) s = ws_run c size b s'.
Proof.
  intros c size. induction a as [|e a IH]; intros b s s' H; cbn [ws_run app] in *; [congruence|].
  destruct (ws_step c size s e) as [s1|]; cbn [bind] in *; [|discriminate]. apply IH. exact H.
Qed.

Lemma run_completes : forall c size m evs, pcfg_ok c -> capacity c <= size -> Forall (write_ok c) (writes evs) ->
  exists n0, forall n, (n0 <= n)%nat -> exists s,
    ws_run c size (evs ++ free_edges n) (ws0 m) = Ok s /\ s_done s = map wdone (writes evs) /\ forall x, s_mem s x = stores (writes evs) m x.
Proof.
  intros c size m evs Hc Hsz Hw.
  destruct (run_spec evs c size m [] (ws0 m) Hc Hsz Hw (winv0 c m)) as (s & E & Hi). cbn [app] in Hi.
  destruct (edge_step c size m (writes evs) s false false Hc Hsz Hw Hi) as (s1 & E1 & I1 & R1 & _).
  destruct (bound_exists (load c s1) (p_segs c)) as (K & HK). fold (p_n c) in HK.
  exists (K + 2)%nat. intros n Hn.
  destruct (free_spec (n - 2) K c size m (writes evs) s1 Hc Hsz Hw I1 R1 HK) as (s2 & E2 & I2 & R2 & L2).
  destruct (edge_step c size m (writes evs) s2 false false Hc Hsz Hw I2) as (s3 & E3 & I3 & R3 & M3).
  exists s3. split.
  { rewrite (ws_run_app _ _ _ _ _ _ E). replace n with (1 + ((n - 2) + 1))%nat by lia. unfold free_edges. rewrite repeat_app.
    change (repeat (WEdge false false) 1) with [WEdge false false]. cbn [app ws_run ws_step]. rewrite E1. cbn [bind].
    rewrite repeat_app. erewrite ws_run_app by exact E2. cbn [repeat ws_run ws_step]. rewrite E3. reflexivity. }
  assert (s_pend s3 = []) as Hp.
  { destruct (s_pend s3) as [|p ps] eqn:Ep; [reflexivity|exfalso].
    pose proof (wi_quiet _ _ _ _ I3) as Q. rewrite Ep in Q. destruct Q as (Q1 & Q2 & Q3).
    destruct (wi_count _ _ _ _ I3 (wr_seg p) Q3) as [_ C]. rewrite Q2, Ep in C.
    destruct (M3 (wr_seg p) Q3) as [A B]. specialize (L2 (wr_seg p) Q3). unfold load in L2.
    assert (s_q s2 (wr_seg p) = []) as Hq by (destruct (s_q s2 (wr_seg p)); [reflexivity|cbn [length] in L2; lia]).
    assert (infl c (s_bus s2) (wr_seg p) = []) as Hf by (destruct (infl c (s_bus s2) (wr_seg p)); [reflexivity|cbn [length] in L2; lia]).
    assert (Z.testbit (w_valid (s_bus s2)) (wr_seg p) = false) as Hv.
    { unfold infl in Hf. destruct (Z.testbit (w_valid (s_bus s2)) (wr_seg p)); [discriminate|reflexivity]. }
    rewrite B, Hv, andb_false_r in C. unfold mw_next in A. rewrite Hq, Hv in A. rewrite orb_true_r in A. injection A as A1 A2. rewrite A1, A2 in C.
    change (pocc c (wr_seg p) (p :: ps)) with (occ (wr_seg p) (walk (wr_left p) c (wr_seg p)) + pocc c (wr_seg p) ps) in C.
    destruct (wr_left p) as [|n']; [congruence|]. cbn [walk] in C. rewrite occ_cons, Z.eqb_refl in C.
    pose proof (occ_nonneg (wr_seg p) (walk n' c ((wr_seg p + 1) mod p_n c))). pose proof (pocc_nonneg c (wr_seg p) ps).
    unfold zlen in C. cbn [length] in C. lia. }
  destruct (wi_resp _ _ _ _ I3) as (w1 & w2 & W1 & W2 & W3). rewrite Hp in W3. inversion W3; subst.
  rewrite app_nil_r in W1. subst w1. split; [assumption|].
  intro x. destruct (winv_safe c m (writes evs) s3 Hc Hw I3) as (k & Hk & Hd & Hm).
  destruct (Hm x) as (j & Hj & ->).
  assert (length (map wdone (writes evs)) = length (map wdone (firstn k (writes evs)))) as HL by congruence.
  rewrite !map_length, firstn_length in HL. rewrite firstn_all2 by lia. reflexivity.
Qed.
