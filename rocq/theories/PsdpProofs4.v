(** Proofs for the segmented RAM interface: runs of the read side. *)
From Verif Require Import PyBase BitLemmas TlpProofs SplitProofs PcieIfProofs4 PsdpModel PsdpSpec PsdpProofs PsdpProofs2 PsdpProofs3.
From Coq Require Import ZifyBool ZifyNat.
Ltac Zify.zify_post_hook ::= idtac.
Local Arguments Z.mul : simpl never.

Definition opt {A} (b : bool) (v : A) : list A := if b then [v] else [].
Definition olist {A} (o : option A) : list A := match o with Some v => [v] | None => [] end.

(** ** The read master, one segment at a time. *)
Definition rinfl (c : pcfg) (b : rbus) (i : Z) : list Z := opt (Z.testbit (r_valid b) i) (get_field (p_aw c) i (r_addr b)).

Definition mr_next (c : pcfg) (ready : Z) (pause : bool) (b : rbus) (q : Z -> list Z) (i : Z) : list Z * list Z :=
  if Z.testbit ready i || negb (Z.testbit (r_valid b) i) then
    match q i with
    | o :: r => if pause then ([], o :: r) else ([Z.land o (p_mask (p_aw c))], r)
    | [] => ([], [])
    end
  else (rinfl c b i, q i).

Lemma mr_seg_spec : forall c ready rvalid rdata rready pause s b q r b' q' r', pcfg_ok c -> 0 <= s ->
  mr_seg c ready rvalid rdata rready pause s (b, q, r) = (b', q', r') ->
  forall i, 0 <= i ->
    (rinfl c b' i, q' i) = (if i =? s then mr_next c ready pause b q i else (rinfl c b i, q i)) /\
    r' i = r i ++ opt ((i =? s) && (Z.testbit rready i && Z.testbit rvalid i)) (get_field (8 * p_sbl c) i rdata).
Proof.
  intros c ready rvalid rdata rready pause s b q r b' q' r' (Hc1 & Hc2 & Hc3) Hs E i Hi.
  unfold mr_seg in E. rewrite testbit_land3, !seg_bit_testbit in E by lia.
  assert (r' = if Z.testbit rready s && Z.testbit rvalid s then pupd r s (r s ++ [get_field (8 * p_sbl c) s rdata]) else r) as Hr.
  { destruct (if Z.testbit ready s || _ then _ else _) in E. congruence. }
  split.
  2:{ rewrite Hr. unfold opt. destruct (Z.eqb_spec i s) as [->|Hn]; cbn [andb].
      - destruct (Z.testbit rready s && Z.testbit rvalid s); unfold pupd; [rewrite Z.eqb_refl|rewrite app_nil_r]; reflexivity.
      - rewrite app_nil_r. destruct (Z.testbit rready s && Z.testbit rvalid s); unfold pupd; [|reflexivity].
        replace (i =? s) with false by (symmetry; apply Z.eqb_neq; lia). reflexivity. }
  clear Hr. unfold mr_next.
  destruct (Z.testbit ready s || negb (Z.testbit (r_valid b) s)) eqn:G.
  - destruct (q s) as [|o rest] eqn:Eq.
    + injection E as <- <- _. unfold rinfl, opt. cbn [r_valid r_addr]. rewrite clear_bit by lia.
      destruct (Z.eqb_spec i s) as [->|Hn]; cbn [negb]; [rewrite G, Eq, andb_false_r; reflexivity|].
      rewrite andb_true_r. reflexivity.
    + destruct pause; cbn [negb] in E.
      * injection E as <- <- _. unfold rinfl, opt. cbn [r_valid r_addr]. rewrite clear_bit by lia.
        destruct (Z.eqb_spec i s) as [->|Hn]; cbn [negb]; [rewrite G, Eq, andb_false_r; reflexivity|].
        rewrite andb_true_r. reflexivity.
      * injection E as <- <- _. unfold rinfl, opt. cbn [r_valid r_addr].
        rewrite set_bit by lia. rewrite !get_put by lia. unfold pupd.
        destruct (Z.eqb_spec i s) as [->|Hn].
        -- rewrite orb_true_r, G, Eq. reflexivity.
        -- rewrite orb_false_r. reflexivity.
  - injection E as <- <- _. destruct (Z.eqb_spec i s) as [->|Hn]; [rewrite G|]; reflexivity.
Qed.

Lemma mr_segs_spec : forall n c ready rvalid rdata rready pause s b q r b' q' r', pcfg_ok c -> 0 <= s ->
  mr_segs n c ready rvalid rdata rready pause s (b, q, r) = (b', q', r') ->
  forall i, 0 <= i ->
    (rinfl c b' i, q' i) = (if (s <=? i) && (i <? s + Z.of_nat n) then mr_next c ready pause b q i else (rinfl c b i, q i)) /\
    r' i = r i ++ opt ((s <=? i) && (i <? s + Z.of_nat n) && (Z.testbit rready i && Z.testbit rvalid i)) (get_field (8 * p_sbl c) i rdata).
Proof.
  induction n; intros c ready rvalid rdata rready pause s b q r b' q' r' Hc Hs E i Hi; cbn [mr_segs] in E.
  - injection E as <- <- <-. assert ((s <=? i) && (i <? s + Z.of_nat 0) = false) as -> by lia. cbn [andb opt]. rewrite app_nil_r. split; reflexivity.
  - destruct (mr_seg c ready rvalid rdata rready pause s (b, q, r)) as [[b1 q1] r1] eqn:E1.
    pose proof (mr_seg_spec _ _ _ _ _ _ _ _ _ _ _ _ _ Hc Hs E1) as H1.
    destruct (IHn c ready rvalid rdata rready pause (s + 1) b1 q1 r1 b' q' r' Hc ltac:(lia) E i Hi) as [H2 H3].
    rewrite H2, H3. destruct (H1 i Hi) as [H4 H5]. clear H2 H3 E E1.
    destruct (Z.eqb_spec i s) as [->|Hn].
    + assert ((s + 1 <=? s) && (s <? s + 1 + Z.of_nat n) = false) as -> by lia.
      assert ((s <=? s) && (s <? s + Z.of_nat (S n)) = true) as -> by lia.
      cbn [andb] in *. split; [exact H4|]. rewrite H5. cbn [opt]. rewrite app_nil_r. reflexivity.
    + replace ((s <=? i) && (i <? s + Z.of_nat (S n))) with ((s + 1 <=? i) && (i <? s + 1 + Z.of_nat n)) by lia.
      cbn [andb opt] in *. rewrite app_nil_r in H5. injection H4 as H4 H6. split.
      * destruct ((s + 1 <=? i) && (i <? s + 1 + Z.of_nat n)); [|congruence].
        unfold mr_next. rewrite H6. rewrite H4.
        assert (Z.testbit (r_valid b1) i = Z.testbit (r_valid b) i) as ->; [|reflexivity].
        unfold rinfl, opt in H4. destruct (Z.testbit (r_valid b1) i), (Z.testbit (r_valid b) i); congruence.
      * rewrite H5. reflexivity.
Qed.

(** ** The RAM read port. *)
Definition rd (c : pcfg) (m : mem) (i a : Z) : Z := le_val (mem_load m ((a * p_n c + i) * p_sbl c) (p_sbl c)).
Definition rout (c : pcfg) (p : rport) (i : Z) : list Z := opt (Z.testbit (rp_valid p) i) (get_field (8 * p_sbl c) i (rp_data p)).

(** What a segment of the port is after an edge: response, pipeline, ready. *)
Definition rr_next (c : pcfg) (m : mem) (b : rbus) (rready : Z) (p : rport) (i : Z) : list Z * list Z * bool :=
  let adv := Z.testbit rready i || negb (Z.testbit (rp_valid p) i) in
  let out := if adv then map (fun v => Z.land v (p_mask (8 * p_sbl c))) (olist (rp_pipe p i)) else rout c p i in
  let pipe := if adv then [] else olist (rp_pipe p i) in
  let pipe := if Z.testbit (rp_ready p) i && Z.testbit (r_valid b) i then [rd c m i (get_field (p_aw c) i (r_addr b))] else pipe in
  (out, pipe, (length out =? 0)%nat || (length pipe =? 0)%nat).

Definition rr_view (c : pcfg) (p : rport) (i : Z) : list Z * list Z * bool := (rout c p i, olist (rp_pipe p i), Z.testbit (rp_ready p) i).

Lemma rr_out_spec : forall c rready s p, pcfg_ok c -> 0 <= s -> forall i, 0 <= i ->
  rp_ready (rr_out c rready s p) = rp_ready p /\
  rout c (rr_out c rready s p) i =
    (if (i =? s) && (Z.testbit rready i || negb (Z.testbit (rp_valid p) i)) then map (fun v => Z.land v (p_mask (8 * p_sbl c))) (olist (rp_pipe p i)) else rout c p i) /\
  olist (rp_pipe (rr_out c rready s p) i) =
    (if (i =? s) && (Z.testbit rready i || negb (Z.testbit (rp_valid p) i)) then [] else olist (rp_pipe p i)).
Proof.
  intros c rready s p (Hc1 & Hc2 & Hc3) Hs i Hi. unfold rr_out. rewrite !seg_bit_testbit by lia.
  destruct (Z.testbit rready s || negb (Z.testbit (rp_valid p) s)) eqn:G.
  - destruct (rp_pipe p s) as [v|] eqn:Ep; cbn [rp_ready rp_pipe]; (split; [reflexivity|]); unfold rout; cbn [rp_valid rp_data].
    + rewrite set_bit, get_put by lia. unfold pupd. destruct (Z.eqb_spec i s) as [->|Hn]; cbn [andb].
      * rewrite G, orb_true_r, Ep. split; reflexivity.
      * rewrite orb_false_r. split; reflexivity.
    + rewrite clear_bit by lia. destruct (Z.eqb_spec i s) as [->|Hn]; cbn [andb negb].
      * rewrite G, Ep, andb_false_r. split; reflexivity.
      * rewrite andb_true_r. split; reflexivity.
  - split; [reflexivity|]. destruct (Z.eqb_spec i s) as [->|Hn]; cbn [andb]; [rewrite G|]; split; reflexivity.
Qed.

Lemma word_read : forall c size m s a, pcfg_ok c -> capacity c <= size -> 0 <= s < p_n c -> 0 <= a < 2 ^ p_aw c ->
  mm_read size m (((a * p_n c + s) * p_sbl c) mod size) (p_sbl c) = Ok (mem_load m ((a * p_n c + s) * p_sbl c) (p_sbl c)).
Proof.
  intros c size m s a (H1 & H2 & H3) Hsz Hs Ha.
  assert (0 <= (a * p_n c + s) * p_sbl c /\ (a * p_n c + s) * p_sbl c + p_sbl c <= capacity c) as [B1 B2].
  { unfold capacity. fold (p_n c). split; [apply Z.mul_nonneg_nonneg; nia|].
    assert (a * p_n c + s + 1 <= 2 ^ p_aw c * p_n c) by nia. nia. }
  set (base := (a * p_n c + s) * p_sbl c) in *. rewrite Z.mod_small by lia. unfold mm_read.
  assert ((base <? 0) || (size <? base) = false) as -> by lia. rewrite Z.min_l by lia. reflexivity.
Qed.

Lemma rr_seg_spec : forall c size m b rready s p, pcfg_ok c -> capacity c <= size -> 0 <= s < p_n c ->
  exists p', rr_seg c size m b rready s p = Ok p' /\
    forall i, 0 <= i -> rr_view c p' i = if i =? s then rr_next c m b rready p i else rr_view c p i.
Proof.
  intros c size m b rready s p Hc Hsz Hs. unfold rr_seg. pose proof (rr_out_spec c rready s p Hc ltac:(lia)) as O.
  set (p1 := rr_out c rready s p) in *. rewrite testbit_land3 by lia.
  assert (rp_ready p1 = rp_ready p) as Er by apply (O 0 ltac:(lia)). rewrite Er.
  set (fire := Z.testbit (rp_ready p) s && Z.testbit (r_valid b) s).
  set (a := get_field (p_aw c) s (r_addr b)).
  assert (0 <= a < 2 ^ p_aw c) as Ha by (apply get_field_range; apply Hc).
  rewrite word_read by assumption. cbn [bind]. fold (rd c m s a).
  set (p2 := if fire then mkRp (pupd (rp_pipe p1) s (Some (rd c m s a))) (rp_ready p) (rp_valid p1) (rp_data p1) else p1).
  assert ((if fire then Ok (mkRp (pupd (rp_pipe p1) s (Some (rd c m s a))) (rp_ready p) (rp_valid p1) (rp_data p1)) else Ok p1) = Ok p2) as ->
    by (unfold p2; destruct fire; reflexivity).
  cbn [bind]. rewrite seg_bit_testbit by lia.
  assert (rp_valid p2 = rp_valid p1 /\ rp_data p2 = rp_data p1 /\ rp_ready p2 = rp_ready p) as (V1 & V2 & V3)
    by (unfold p2; destruct fire; repeat split; assumption).
  assert (forall i, 0 <= i -> rout c p2 i = rout c p1 i) as Ro by (intros i Hi; unfold rout; rewrite V1, V2; reflexivity).
  assert (forall i, 0 <= i -> olist (rp_pipe p2 i) = if (i =? s) && fire then [rd c m s a] else olist (rp_pipe p1 i)) as Rp.
  { intros i Hi. unfold p2. destruct fire; cbn [rp_pipe]; [|rewrite andb_false_r; reflexivity].
    unfold pupd. destruct (i =? s); reflexivity. }
  set (rdy := negb (Z.testbit (rp_valid p2) s) || match rp_pipe p2 s with None => true | Some _ => false end).
  exists (mkRp (rp_pipe p2) (if rdy then Z.lor (rp_ready p2) (Z.shiftl 1 s) else Z.land (rp_ready p2) (Z.lnot (Z.shiftl 1 s))) (rp_valid p2) (rp_data p2)).
  split; [destruct rdy; reflexivity|]. intros i Hi.
  assert (Z.testbit (if rdy then Z.lor (rp_ready p2) (Z.shiftl 1 s) else Z.land (rp_ready p2) (Z.lnot (Z.shiftl 1 s))) i =
          if i =? s then rdy else Z.testbit (rp_ready p) i) as Rb.
  { rewrite V3. destruct rdy; [rewrite set_bit by lia|rewrite clear_bit by lia]; destruct (i =? s);
      rewrite ?orb_true_r, ?orb_false_r, ?andb_false_r, ?andb_true_r; reflexivity. }
  unfold rr_view at 1. unfold rout at 1. cbn [rp_valid rp_data rp_pipe rp_ready]. fold (rout c p2 i). rewrite Rb, Rp, Ro by lia.
  destruct (O i Hi) as (_ & O1 & O2). rewrite O1, O2.
  destruct (Z.eqb_spec i s) as [->|Hn]; cbn [andb]; [|reflexivity].
  unfold rr_next. fold a fire.
  set (adv := Z.testbit rready s || negb (Z.testbit (rp_valid p) s)) in *.
  set (out := if adv then map _ _ else rout c p s) in *.
  set (pipe := if fire then [rd c m s a] else if adv then [] else olist (rp_pipe p s)).
  f_equal. unfold rdy.
  assert (rout c p2 s = out) as E1 by (rewrite Ro by lia; exact O1).
  assert (olist (rp_pipe p2 s) = pipe) as E2 by (rewrite Rp, Z.eqb_refl, O2 by lia; reflexivity).
  rewrite <- E1, <- E2. f_equal.
  - unfold rout, opt. destruct (Z.testbit (rp_valid p2) s); reflexivity.
  - destruct (rp_pipe p2 s); reflexivity.
Qed.

Lemma rr_next_local : forall c m b rready p p' i, rr_view c p i = rr_view c p' i -> rr_next c m b rready p i = rr_next c m b rready p' i.
Proof.
  intros c m b rready p p' i H. unfold rr_view in H. injection H as H1 H2 H3. unfold rr_next.
  assert (Z.testbit (rp_valid p) i = Z.testbit (rp_valid p') i) as ->.
  { unfold rout, opt in H1. destruct (Z.testbit (rp_valid p) i), (Z.testbit (rp_valid p') i); congruence. }
  rewrite H1, H2, H3. reflexivity.
Qed.

Lemma rr_segs_spec : forall n c size m b rready s p, pcfg_ok c -> capacity c <= size -> 0 <= s -> s + Z.of_nat n <= p_n c ->
  exists p', rr_segs n c size m b rready s p = Ok p' /\
    forall i, 0 <= i -> rr_view c p' i = if (s <=? i) && (i <? s + Z.of_nat n) then rr_next c m b rready p i else rr_view c p i.
Proof.
  induction n; intros c size m b rready s p Hc Hsz Hs Hn; cbn [rr_segs].
  - exists p. split; [reflexivity|]. intros i Hi. assert ((s <=? i) && (i <? s + Z.of_nat 0) = false) as -> by lia. reflexivity.
  - destruct (rr_seg_spec c size m b rready s p Hc Hsz ltac:(lia)) as (p1 & E1 & H1). rewrite E1. cbn [bind].
    destruct (IHn c size m b rready (s + 1) p1 Hc Hsz ltac:(lia) ltac:(lia)) as (p' & E & H2).
    exists p'. split; [exact E|]. intros i Hi. rewrite H2 by lia. clear H2. specialize (H1 i Hi). revert H1.
    destruct (Z.eqb_spec i s) as [Hx|Hx]; intro H1; [subst i|].
    + assert ((s + 1 <=? s) && (s <? s + 1 + Z.of_nat n) = false) as -> by lia.
      assert ((s <=? s) && (s <? s + Z.of_nat (S n)) = true) as -> by lia. exact H1.
    + replace ((s <=? i) && (i <? s + Z.of_nat (S n))) with ((s + 1 <=? i) && (i <? s + 1 + Z.of_nat n)) by lia.
      rewrite H1. rewrite (rr_next_local c m b rready p1 p i H1). reflexivity.
Qed.

(** ** Reassembly. *)
Definition words (c : pcfg) (m : mem) (i : Z) (l : list (Z * Z)) : list Z := map (rd c m i) (sel i l).

Lemma take_bytes_spec : forall n m base len j, (forall x, base <= x < base + len -> is_byte (m x)) -> 0 <= j -> j + Z.of_nat n <= len ->
  take_bytes n (le_val (mem_load m base len)) j = mem_load m (base + j) (Z.of_nat n).
Proof.
  intros n m base len j Hm. assert (Forall is_byte (mem_load m base len)) as HF.
  { apply Forall_forall. intros y Hy. unfold mem_load in Hy. apply in_map_iff in Hy. destruct Hy as (k & <- & Hk). apply in_seq in Hk. apply Hm. lia. }
  assert (forall j, 0 <= j < len -> Z.land (Z.shiftr (le_val (mem_load m base len)) (j * 8)) 0xff = m (base + j)) as B.
  { intros k Hk. change 0xff with (Z.ones 8). rewrite Z.land_ones, Z.shiftr_div_pow2 by lia. change (2 ^ 8) with 256.
    replace (k * 8) with (8 * Z.of_nat (Z.to_nat k)) by lia.
    assert (length (mem_load m base len) = Z.to_nat len) as HL by (unfold mem_load; rewrite map_length, seq_length; reflexivity).
    rewrite le_val_byte by (try assumption; lia). unfold mem_load.
    rewrite (nth_indep _ 0 (m (base + Z.of_nat 0))) by (rewrite map_length, seq_length; lia).
    rewrite (map_nth (fun k => m (base + Z.of_nat k))). rewrite seq_nth by lia. f_equal. lia. }
  revert j. induction n; intros j Hj Hn; cbn [take_bytes].
  - reflexivity.
  - rewrite B by lia. rewrite IHn by lia. unfold mem_load. rewrite !Nat2Z.id. cbn [seq map].
    rewrite <- seq_shift, map_map. f_equal; [f_equal; lia|]. apply map_ext. intro k. f_equal. lia.
Qed.

Lemma mem_load_split : forall m a n k, 0 <= n -> 0 <= k -> mem_load m a n ++ mem_load m (a + n) k = mem_load m a (n + k).
Proof.
  intros m a n k Hn Hk. unfold mem_load. rewrite Z2Nat.inj_add, seq_app, map_app by lia. f_equal. cbn [Nat.add].
  assert (forall b s, map (fun j => m (a + n + Z.of_nat j)) (seq s b) = map (fun j => m (a + Z.of_nat j)) (seq (Z.to_nat n + s) b)) as F.
  { induction b; intro s; cbn [seq map]; [reflexivity|]. rewrite IHb. rewrite Nat.add_succ_r. f_equal. f_equal. lia. }
  rewrite F, Nat.add_0_r. reflexivity.
Qed.

(** A response command that has consumed the words before [rr_k]. *)
Record rr_ok (c : pcfg) (m : mem) (w : rresp) : Prop := mkRrok {
  ro_cap : in_cap c (rr_addr w) (rr_len w);
  ro_num : rr_num w = seg_num c (rr_addr w) (rr_len w);
  ro_k : 0 <= rr_k w <= rr_num w;
  ro_sg : rr_sg w = (rr_addr w / p_sbl c + rr_k w) mod p_n c;
  ro_data : rr_data w = mem_load m (rr_addr w) (Z.min (rr_len w) (Z.max 0 ((rr_addr w / p_sbl c + rr_k w) * p_sbl c - rr_addr w))) }.

Definition left_of (c : pcfg) (w : rresp) : list (Z * Z) := seg_reads (Z.to_nat (rr_num w - rr_k w)) c (rr_addr w) (rr_k w) (rr_sg w).

Lemma word_addr_seg : forall c w, pcfg_ok c -> w / p_n c * p_n c + w mod p_n c = w.
Proof. intros c w (H & _). pose proof (Z.div_mod w (p_n c) ltac:(unfold p_n; lia)). lia. Qed.

Lemma rr_complete : forall c m w, pcfg_ok c -> rr_ok c m w -> rr_k w = rr_num w -> rr_data w = mem_load m (rr_addr w) (rr_len w).
Proof.
  intros c m w Hc [Hcap Hnum Hk Hsg Hd] He. rewrite Hd. f_equal. rewrite He, Hnum.
  destruct Hcap as (Ha & Hn & _). rewrite seg_num_eq by (try assumption; lia).
  destruct Hc as (_ & Hs & _). set (a := rr_addr w) in *. set (n := rr_len w) in *.
  pose proof (Z.div_mod (a + n - 1) (p_sbl c) ltac:(lia)) as De. pose proof (Z.mod_pos_bound (a + n - 1) (p_sbl c) ltac:(lia)) as Me.
  set (qe := (a + n - 1) / p_sbl c) in *. set (re := (a + n - 1) mod p_sbl c) in *.
  replace (a / p_sbl c + (qe - a / p_sbl c + 1)) with (qe + 1) by ring.
  replace ((qe + 1) * p_sbl c - a) with (p_sbl c * qe + p_sbl c - a) by ring. clear - De Me Hn. lia.
Qed.

Lemma take_words_spec : forall n c m w r, pcfg_ok c -> (forall x, 0 <= x < capacity c -> is_byte (m x)) -> rr_ok c m w -> Z.of_nat n = rr_num w - rr_k w ->
  forall (tl rest : Z -> list Z), (forall i, 0 <= i < p_n c -> r i ++ tl i = words c m i (left_of c w) ++ rest i) ->
  forall n' w' r', take_words n c w r = (n', w', r') ->
    rr_ok c m w' /\ rr_addr w' = rr_addr w /\ rr_len w' = rr_len w /\ rr_num w' = rr_num w /\ Z.of_nat n' = rr_num w' - rr_k w' /\
    (forall i, 0 <= i < p_n c -> r' i ++ tl i = words c m i (left_of c w') ++ rest i) /\ (n' = O \/ r' (rr_sg w') = []).
Proof.
  induction n; intros c m w r Hc Hm Hw Hn tl rest HF n' w' r' E; cbn [take_words] in E.
  - injection E as <- <- <-. split; [assumption|]. split; [reflexivity|]. split; [reflexivity|]. split; [reflexivity|]. split; [lia|]. split; [assumption|left; reflexivity].
  - destruct (r (rr_sg w)) as [|v vs] eqn:Er.
    + injection E as <- <- <-. split; [assumption|]. split; [reflexivity|]. split; [reflexivity|]. split; [reflexivity|]. split; [lia|]. split; [assumption|right; assumption].
    + set (start := if rr_k w =? 0 then seg_start c (rr_addr w) else 0) in *.
      set (stop := if rr_k w =? rr_num w - 1 then seg_end c (rr_addr w) (rr_len w) else p_sbl c) in *.
      set (w1 := mkRr _ _ _ _ _ _) in E.
      pose proof Hw as [Hcap Hnum Hk Hsg Hd]. pose proof Hc as (Hc1 & Hc2 & Hc3).
      assert (0 <= rr_sg w < p_n c) as Hsr by (rewrite Hsg; apply Z.mod_pos_bound; unfold p_n; lia).
      assert (left_of c w = (rr_sg w, (rr_addr w + rr_k w * p_sbl c) / p_bl c) :: left_of c w1) as Hleft.
      { unfold left_of, w1. cbn [rr_num rr_k rr_addr rr_sg]. replace (Z.to_nat (rr_num w - rr_k w)) with (S n) by lia.
        replace (Z.to_nat (rr_num w - (rr_k w + 1))) with n by lia. reflexivity. }
      pose proof (HF (rr_sg w) Hsr) as HFs. rewrite Er, Hleft in HFs. unfold words, sel in HFs. cbn [filter fst] in HFs.
      rewrite Z.eqb_refl in HFs. cbn [map snd app] in HFs. injection HFs as Hv Hvs.
      rewrite word_addr in Hv by assumption. set (wd := rr_addr w / p_sbl c + rr_k w) in *.
      unfold rd in Hv. rewrite Hsg, word_addr_seg in Hv by assumption.
      assert (rr_ok c m w1) as Hw1.
      { constructor; cbn [w1 rr_num rr_k rr_addr rr_sg rr_len rr_data].
        - exact Hcap.
        - exact Hnum.
        - clear - Hk Hn. lia.
        - rewrite Hsg, <- word_seg by assumption. f_equal. unfold wd. clear. ring.
        - clear HF Hvs Er Hleft E Hw IHn. destruct Hcap as (Ha & Hl & Hal). rewrite seg_num_eq in Hnum by (try assumption; clear - Ha; lia).
          assert (p_sbl c <> 0) as Hnz by (clear - Hc2; lia). assert (0 < p_sbl c) as Hpz by (clear - Hc2; lia).
          pose proof (Z.div_mod (rr_addr w) (p_sbl c) Hnz) as Da. pose proof (Z.mod_pos_bound (rr_addr w) (p_sbl c) Hpz) as Ma.
          pose proof (Z.div_mod (rr_addr w + rr_len w - 1) (p_sbl c) Hnz) as De. pose proof (Z.mod_pos_bound (rr_addr w + rr_len w - 1) (p_sbl c) Hpz) as Me.
          assert (wd <= (rr_addr w + rr_len w - 1) / p_sbl c) as Hwq by (unfold wd; rewrite Hnum in Hn; clear - Hn; lia).
          assert (0 <= wd) as Hwd by (unfold wd; pose proof (Z.div_pos (rr_addr w) (p_sbl c) (proj1 Ha) Hpz); clear - H Hk; lia).
          assert (start = if rr_k w =? 0 then rr_addr w mod p_sbl c else 0) as Est by reflexivity.
          assert (stop = if rr_k w =? (rr_addr w + rr_len w - 1) / p_sbl c - rr_addr w / p_sbl c + 1 - 1 then (rr_addr w + rr_len w - 1) mod p_sbl c + 1 else p_sbl c) as Esp
            by (unfold stop, seg_end; rewrite Hnum; reflexivity).
          clearbody start stop. subst w1. assert (wd = rr_addr w / p_sbl c + rr_k w) as Ewd by reflexivity. clearbody wd.
          destruct (geom (p_sbl c) (rr_addr w) (rr_len w) (rr_k w) _ _ _ _ wd start stop Hpz (proj1 Ha) Hl (proj1 Hk) Da Ma De Me Ewd Hwq Est Esp) as ((Hst & Hss) & Hsp & Hlo & Hhi & Hoff & Hoff2).
          clear Est Esp.
          { assert (wd * p_sbl c + p_sbl c <= capacity c) as HB.
            { assert (wd * p_sbl c <= rr_addr w + rr_len w - 1).
              { rewrite De. clear - Hwq Me Hc2. nia. }
              assert (wd * p_sbl c < capacity c) as L by (clear - H Ha Hal; lia).
              unfold capacity in L |- *. fold (p_n c) in L |- *.
              replace (p_n c * p_sbl c * 2 ^ p_aw c) with (p_n c * 2 ^ p_aw c * p_sbl c) in * by ring.
              apply Z.mul_lt_mono_pos_r in L; [|assumption]. replace (wd * p_sbl c + p_sbl c) with ((wd + 1) * p_sbl c) by ring.
              apply Z.mul_le_mono_nonneg_r; [clear - Hpz; lia|]. clear - L. lia. }
            rewrite Hv. rewrite (take_bytes_spec _ m (wd * p_sbl c) (p_sbl c)).
            2:{ intros x Hx. apply Hm. clear - Hx HB Hwd Hc2. nia. } 2:{ assumption. } 2:{ rewrite Z2Nat.id by (clear - Hss; lia). clear - Hsp; lia. }
            rewrite Z2Nat.id by (clear - Hss; lia). rewrite Hd. rewrite Hoff.
            replace (rr_addr w / p_sbl c + (rr_k w + 1)) with (wd + 1) by (rewrite Ewd; ring). rewrite <- Hoff2.
            destruct (Z.eq_dec start stop) as [Es|Es].
            * rewrite Es, Z.sub_diag, Z.add_0_r. unfold mem_load at 2. cbn [Z.to_nat seq map]. apply app_nil_r.
            * replace (wd * p_sbl c + start) with (rr_addr w + Z.max 0 (wd * p_sbl c - rr_addr w)) by (clear - Hlo; lia).
              apply mem_load_split; clear - Hss; lia. } }
      assert (forall i, 0 <= i < p_n c -> pupd r (rr_sg w) vs i ++ tl i = words c m i (left_of c w1) ++ rest i) as HF1.
      { intros i Hi. unfold pupd. destruct (Z.eqb_spec i (rr_sg w)) as [->|Hne].
        - exact Hvs.
        - rewrite HF by assumption. rewrite Hleft. unfold words, sel. cbn [filter fst].
          replace (rr_sg w =? i) with false by (symmetry; apply Z.eqb_neq; clear - Hne; lia). reflexivity. }
      assert (Z.of_nat n = rr_num w1 - rr_k w1) as Hn1 by (cbn [w1 rr_num rr_k]; clear - Hn; lia).
      destruct (IHn c m w1 _ Hc Hm Hw1 Hn1 tl rest HF1 n' w' r' E) as (A1 & A2 & A3 & A4 & A5).
      cbn [w1 rr_addr rr_len rr_num] in A2, A3, A4. exact (conj A1 (conj A2 (conj A3 (conj A4 A5)))).
Qed.

Definition pwords (c : pcfg) (m : mem) (i : Z) (ps : list rresp) : list Z := flat_map (fun w => words c m i (left_of c w)) ps.
Definition ranswer (m : mem) (w : rresp) : Z * list Z := (rr_addr w, mem_load m (rr_addr w) (rr_len w)).

Lemma rresp_run_spec : forall c m ps, pcfg_ok c -> (forall x, 0 <= x < capacity c -> is_byte (m x)) -> Forall (rr_ok c m) ps ->
  forall r (tl : Z -> list Z), (forall i, 0 <= i < p_n c -> r i ++ tl i = pwords c m i ps) ->
  forall ps' r' out, rresp_run c ps r = (ps', r', out) ->
    Forall (rr_ok c m) ps' /\ (forall i, 0 <= i < p_n c -> r' i ++ tl i = pwords c m i ps') /\
    out ++ map (ranswer m) ps' = map (ranswer m) ps /\
    match ps' with [] => True | w :: _ => rr_k w < rr_num w /\ r' (rr_sg w) = [] /\ 0 <= rr_sg w < p_n c end.
Proof.
  intros c m. induction ps as [|w ps IH]; intros Hc Hm HF r tl Hfl ps' r' out E; cbn [rresp_run] in E.
  - injection E as <- <- <-. split; [constructor|]. split; [assumption|]. split; [reflexivity|exact I].
  - inversion_clear HF as [|? ? Hw HF']. destruct (take_words (Z.to_nat (rr_num w - rr_k w)) c w r) as [[n w1] r1] eqn:E1.
    assert (Z.of_nat (Z.to_nat (rr_num w - rr_k w)) = rr_num w - rr_k w) as Hn by (pose proof (ro_k _ _ _ Hw); lia).
    destruct (take_words_spec _ c m w r Hc Hm Hw Hn tl (fun i => pwords c m i ps) Hfl n w1 r1 E1) as (T1 & T2 & T3 & T4 & T5 & T6 & T7).
    assert (ranswer m w1 = ranswer m w) as Ha by (unfold ranswer; rewrite T2, T3; reflexivity).
    destruct n as [|n].
    + destruct (rresp_run c ps r1) as [[ps2 r2] out2] eqn:E2. injection E as <- <- <-.
      destruct (IH Hc Hm HF' r1 tl) with (ps' := ps2) (r' := r2) (out := out2) as (I1 & I2 & I3 & I4).
      * intros i Hi. rewrite T6 by assumption. unfold left_of. replace (Z.to_nat (rr_num w1 - rr_k w1)) with O by lia. reflexivity.
      * exact E2.
      * split; [assumption|]. split; [assumption|]. split; [|assumption]. cbn [app map]. rewrite I3. f_equal.
        rewrite <- Ha. unfold ranswer. rewrite (rr_complete c m w1 Hc T1) by lia. reflexivity.
    + injection E as <- <- <-. split; [constructor; assumption|]. split; [assumption|]. split; [cbn [app map]; rewrite Ha; reflexivity|].
      split; [lia|]. destruct T7 as [T7|T7]; [discriminate|]. split; [assumption|].
      rewrite (ro_sg _ _ _ T1). apply Z.mod_pos_bound. destruct Hc. unfold p_n. lia.
Qed.

(** ** The invariant. *)
Definition pipeline (c : pcfg) (m : mem) (s : rstate) (i : Z) : list Z :=
  rout c (t_port s) i ++ olist (rp_pipe (t_port s) i) ++ map (rd c m i) (rinfl c (t_bus s) i) ++ map (rd c m i) (t_q s i).

Record rinv (c : pcfg) (m : mem) (rs : list (Z * Z)) (s : rstate) : Prop := mkRinv {
  ri_flow : forall i, 0 <= i < p_n c -> t_r s i ++ pipeline c m s i = pwords c m i (t_pend s);
  ri_ok : Forall (rr_ok c m) (t_pend s);
  ri_resp : t_done s ++ map (ranswer m) (t_pend s) = map (answer m) rs;
  ri_quiet : match t_pend s with [] => True | w :: _ => rr_k w < rr_num w /\ t_r s (rr_sg w) = [] /\ 0 <= rr_sg w < p_n c end;
  ri_ready : forall i, 0 <= i < p_n c -> Z.testbit (rp_ready (t_port s)) i = true -> rout c (t_port s) i = [] \/ rp_pipe (t_port s) i = None;
  ri_pipe : forall i v, 0 <= i < p_n c -> rp_pipe (t_port s) i = Some v -> 0 <= v < 2 ^ (8 * p_sbl c);
  ri_q : forall i, 0 <= i < p_n c -> Forall (fun a => 0 <= a < 2 ^ p_aw c) (t_q s i) }.

Lemma rinv0 : forall c m, rinv c m [] rs0.
Proof.
  intros c m. constructor; cbn.
  - intros i Hi. unfold pipeline, rout, rinfl. cbn [t_port t_bus rs0 rp_valid rp_pipe r_valid t_q]. rewrite !Z.testbit_0_l. reflexivity.
  - constructor.
  - reflexivity.
  - exact I.
  - intros i Hi H. rewrite Z.testbit_0_l in H. discriminate.
  - intros i v Hi H. discriminate.
  - intros. constructor.
Qed.

Lemma seg_reads_range : forall n c a k seg i, pcfg_ok c -> 0 <= a -> 0 <= k ->
  a / p_sbl c + k + Z.of_nat n <= 2 ^ p_aw c * p_n c -> Forall (fun y => 0 <= y < 2 ^ p_aw c) (sel i (seg_reads n c a k seg)).
Proof.
  induction n; intros c a k seg i Hc Ha Hk Hn; cbn [seg_reads]; [constructor|].
  pose proof Hc as (H1 & H2 & H3). unfold sel. cbn [filter fst]. 
  assert (0 <= a / p_sbl c) by (apply Z.div_pos; lia).
  assert (Forall (fun y => 0 <= y < 2 ^ p_aw c) (sel i (seg_reads n c a (k + 1) ((seg + 1) mod p_n c)))) as IH by (apply IHn; try assumption; lia).
  destruct (seg =? i); cbn [map snd]; [|exact IH]. constructor; [|exact IH].
  rewrite word_addr by assumption. assert (1 <= p_n c) by (unfold p_n; lia).
  split; [apply Z.div_pos; lia|]. apply Z.div_lt_upper_bound; lia.
Qed.

Lemma pwords_app : forall c m i p q, pwords c m i (p ++ q) = pwords c m i p ++ pwords c m i q.
Proof. intros. unfold pwords. apply flat_map_app. Qed.

Lemma seg_num_nonneg : forall c a n, pcfg_ok c -> 0 <= a -> 0 <= n -> 0 <= seg_num c a n.
Proof.
  intros c a n (H1 & H2 & H3) Ha Hn. unfold seg_num. apply Z.div_pos; [|lia].
  pose proof (Z.mod_pos_bound a (p_sbl c) ltac:(lia)). lia.
Qed.

Lemma last_word : forall c a n, pcfg_ok c -> in_cap c a n -> a / p_sbl c + seg_num c a n <= 2 ^ p_aw c * p_n c.
Proof.
  intros c a n Hc (Ha & Hn & Hal). rewrite seg_num_eq by (try assumption; lia). destruct Hc as (H1 & H2 & H3).
  unfold capacity in *. fold (p_n c) in *.
  pose proof (Z.div_mod (a + n - 1) (p_sbl c) ltac:(lia)) as De. pose proof (Z.mod_pos_bound (a + n - 1) (p_sbl c) ltac:(lia)) as Me.
  set (qe := (a + n - 1) / p_sbl c) in *. replace (a / p_sbl c + (qe - a / p_sbl c + 1)) with (qe + 1) by lia.
  assert (p_sbl c * qe < p_sbl c * (2 ^ p_aw c * p_n c)) as L by (replace (p_sbl c * (2 ^ p_aw c * p_n c)) with (p_n c * p_sbl c * 2 ^ p_aw c) by ring; lia).
  clear - L H2. nia.
Qed.

Lemma read_step : forall c m rs s a n, pcfg_ok c -> (forall x, 0 <= x < capacity c -> is_byte (m x)) -> rinv c m rs s -> in_cap c a n ->
  exists s', rs_read c a n s = Ok s' /\ rinv c m (rs ++ [(a, n)]) s'.
Proof.
  intros c m rs s a n Hc Hm [F1 F2 F3 F4 F5 F6 F7] Hcap. unfold rs_read. rewrite p_check_ok by assumption. cbn [bind].
  set (w := mkRr _ _ _ _ _ _). destruct (rresp_run c (t_pend s ++ [w]) (t_r s)) as [[ps' r'] out] eqn:Er.
  pose proof Hcap as (Ha & Hn & Hal). pose proof Hc as (Hc1 & Hc2 & Hc3).
  pose proof (seg_num_nonneg c a n Hc ltac:(lia) Hn) as Hsn.
  assert (rr_ok c m w) as Hw.
  { constructor; cbn [w rr_num rr_k rr_addr rr_sg rr_len rr_data].
    - assumption.
    - reflexivity.
    - lia.
    - rewrite Z.add_0_r. reflexivity.
    - rewrite Z.add_0_r. pose proof (Z.div_mod a (p_sbl c) ltac:(lia)). pose proof (Z.mod_pos_bound a (p_sbl c) ltac:(lia)).
      replace (Z.min n (Z.max 0 (a / p_sbl c * p_sbl c - a))) with 0 by lia. reflexivity. }
  set (ops := seg_reads (Z.to_nat (seg_num c a n)) c a 0 (first_seg c a)).
  assert (left_of c w = ops) as Hl by (unfold left_of, w, ops; cbn [rr_num rr_k rr_addr rr_sg]; rewrite Z.sub_0_r; reflexivity).
  destruct (rresp_run_spec c m (t_pend s ++ [w]) Hc Hm) with (r := t_r s) (tl := fun i => pipeline c m s i ++ words c m i ops) (ps' := ps') (r' := r') (out := out)
    as (I1 & I2 & I3 & I4).
  - apply Forall_app. split; [assumption|constructor; [assumption|constructor]].
  - intros i Hi. rewrite app_assoc, F1 by assumption. rewrite pwords_app. cbn [pwords flat_map]. rewrite app_nil_r, Hl. reflexivity.
  - exact Er.
  - eexists. split; [reflexivity|]. constructor; cbn [t_q t_bus t_rready t_r t_pend t_done t_port].
    + intros i Hi. rewrite <- I2 by assumption. f_equal. unfold pipeline. cbn [t_q t_bus t_port]. rewrite enqueue_sel, map_app, !app_assoc. reflexivity.
    + assumption.
    + rewrite <- app_assoc, I3, map_app, app_assoc, F3, map_app. reflexivity.
    + assumption.
    + assumption.
    + assumption.
    + intros i Hi. rewrite enqueue_sel. apply Forall_app. split; [apply F7; assumption|].
      apply seg_reads_range; try assumption; try lia. pose proof (last_word c a n Hc Hcap). lia.
Qed.

Lemma rd_range : forall c m i a, pcfg_ok c -> (forall x, 0 <= x < capacity c -> is_byte (m x)) -> 0 <= i < p_n c -> 0 <= a < 2 ^ p_aw c ->
  0 <= rd c m i a < 2 ^ (8 * p_sbl c).
Proof.
  intros c m i a Hc Hm Hi Ha. unfold rd.
  destruct (op_base_range c i (mkOp a 0 0) Hc) as [B1 B2].
  { unfold op_ok. cbn [o_addr o_data o_be]. destruct Hc as (_ & ? & ?). repeat split; try lia; apply Z.pow_pos_nonneg; lia. } { assumption. }
  unfold op_base in B1, B2. cbn [o_addr] in B1, B2. set (base := (a * p_n c + i) * p_sbl c) in *.
  destruct Hc as (H1 & H2 & H3).
  assert (Forall is_byte (mem_load m base (p_sbl c))) as HF.
  { apply Forall_forall. intros y Hy. unfold mem_load in Hy. apply in_map_iff in Hy. destruct Hy as (k & <- & Hk). apply in_seq in Hk. apply Hm. lia. }
  pose proof (le_val_range _ HF) as HR. rewrite Z.pow_mul_r by lia. change (2 ^ 8) with 256.
  replace (p_sbl c) with (zlen (mem_load m base (p_sbl c))) at 3; [exact HR|]. unfold zlen, mem_load. rewrite map_length, seq_length. lia.
Qed.

Lemma redge_step : forall c size m rs s mp rp, pcfg_ok c -> capacity c <= size -> (forall x, 0 <= x < capacity c -> is_byte (m x)) -> rinv c m rs s ->
  exists s', rs_edge c size m mp rp s = Ok s' /\ rinv c m rs s' /\ t_rready s' = all_ready c mp /\
    forall i, 0 <= i < p_n c ->
      (rinfl c (t_bus s') i, t_q s' i) = mr_next c (rp_ready (t_port s)) mp (t_bus s) (t_q s) i /\
      (rout c (t_port s') i, olist (rp_pipe (t_port s') i)) = fst (rr_next c m (t_bus s) (t_rready s) (t_port s) i) /\
      Z.testbit (rp_ready (t_port s')) i = negb rp && snd (rr_next c m (t_bus s) (t_rready s) (t_port s) i).
Proof.
  intros c size m rs s mp rp Hc Hsz Hm [F1 F2 F3 F4 F5 F6 F7]. unfold rs_edge.
  destruct (mr_segs (p_segs c) c _ _ _ _ mp 0 (t_bus s, t_q s, t_r s)) as [[b q] r] eqn:Em.
  pose proof (mr_segs_spec _ _ _ _ _ _ _ _ _ _ _ _ _ _ Hc (Z.le_refl 0) Em) as M.
  destruct (rr_segs_spec (p_segs c) c size m (t_bus s) (t_rready s) 0 (t_port s) Hc Hsz ltac:(lia) ltac:(unfold p_n; lia)) as (p & Er & P).
  rewrite Er. cbn [bind]. destruct (rresp_run c (t_pend s) r) as [[ps' r'] out] eqn:Ep.
  assert (forall i, 0 <= i < p_n c -> (0 <=? i) && (i <? 0 + Z.of_nat (p_segs c)) = true) as Hin by (intros i Hi; unfold p_n in Hi; lia).
  assert (forall i, 0 <= i < p_n c -> (rinfl c b i, q i) = mr_next c (rp_ready (t_port s)) mp (t_bus s) (t_q s) i /\
     r i = t_r s i ++ opt (Z.testbit (t_rready s) i && Z.testbit (rp_valid (t_port s)) i) (get_field (8 * p_sbl c) i (rp_data (t_port s)))) as M'.
  { intros i Hi. destruct (M i ltac:(lia)) as [A1 A2]. rewrite (Hin i Hi) in A1, A2. cbn [andb] in A2. split; assumption. }
  assert (forall i, 0 <= i < p_n c -> rr_view c p i = rr_next c m (t_bus s) (t_rready s) (t_port s) i) as P'.
  { intros i Hi. rewrite P by lia. rewrite (Hin i Hi). reflexivity. }
  clear M P.
  set (s1 := mkRs q b (all_ready c mp) r' ps' (t_done s ++ out) (mkRp (rp_pipe p) (if rp then 0 else rp_ready p) (rp_valid p) (rp_data p))).
  (* the flow of words through one segment *)
  assert (forall i, 0 <= i < p_n c -> t_r s i ++ pipeline c m s i = r i ++ pipeline c m s1 i) as Flow.
  { intros i Hi. destruct (M' i Hi) as [A1 A2]. rewrite A2. rewrite <- app_assoc. f_equal. clear A2.
    specialize (P' i Hi). unfold rr_view, rr_next in P'. injection P' as P1 P2 _.
    unfold pipeline. cbn [s1 t_q t_bus t_port rp_pipe]. unfold rout at 2. cbn [rp_valid rp_data]. fold (rout c p i).
    assert (map (fun v => Z.land v (p_mask (8 * p_sbl c))) (olist (rp_pipe (t_port s) i)) = olist (rp_pipe (t_port s) i)) as Hmask.
    { destruct (rp_pipe (t_port s) i) as [v|] eqn:Ev; cbn [olist map]; [|reflexivity]. rewrite mask_small; [reflexivity| |]; [destruct Hc as (_ & ? & _); lia|].
      apply (F6 i); assumption. }
    rewrite Hmask in P1.
    assert (map (rd c m i) (rinfl c (t_bus s) i) ++ map (rd c m i) (t_q s i) =
            opt (Z.testbit (rp_ready (t_port s)) i && Z.testbit (r_valid (t_bus s)) i) (rd c m i (get_field (p_aw c) i (r_addr (t_bus s)))) ++
            map (rd c m i) (rinfl c b i) ++ map (rd c m i) (q i)) as HC.
    { rewrite <- !map_app. unfold mr_next in A1. specialize (F7 i Hi).
      assert (forall o rest, t_q s i = o :: rest -> Z.land o (p_mask (p_aw c)) = o) as Hmo.
      { intros o rest Eq. rewrite Eq in F7. inversion_clear F7. apply mask_small; [destruct Hc as (_ & _ & ?); lia|assumption]. }
      unfold rinfl, opt. unfold opt in A1. unfold rinfl, opt in A1.
      destruct (Z.testbit (rp_ready (t_port s)) i) eqn:B1, (Z.testbit (r_valid (t_bus s)) i) eqn:B2; cbn [orb andb negb] in *.
      - destruct (t_q s i) as [|o rest] eqn:Eq; [|destruct mp]; injection A1 as A1 A3; rewrite A3; rewrite A1; cbn [app map]; rewrite ?(Hmo _ _ eq_refl); reflexivity.
      - destruct (t_q s i) as [|o rest] eqn:Eq; [|destruct mp]; injection A1 as A1 A3; rewrite A3; rewrite A1; cbn [app map]; rewrite ?(Hmo _ _ eq_refl); reflexivity.
      - injection A1 as A1 A3. rewrite A3, A1. reflexivity.
      - destruct (t_q s i) as [|o rest] eqn:Eq; [|destruct mp]; injection A1 as A1 A3; rewrite A3; rewrite A1; cbn [app map]; rewrite ?(Hmo _ _ eq_refl); reflexivity. }
    rewrite HC. rewrite P1, P2. specialize (F5 i Hi). unfold rout in *. unfold opt in *.
    destruct (Z.testbit (rp_ready (t_port s)) i) eqn:B1; cbn [andb].
    - destruct (Z.testbit (r_valid (t_bus s)) i) eqn:B2.
      + destruct (Z.testbit (rp_valid (t_port s)) i) eqn:B3; cbn [negb orb andb] in *; rewrite ?orb_false_r, ?orb_true_r, ?andb_true_r, ?andb_false_r in *.
        * destruct F5 as [F5|F5]; [reflexivity|discriminate|]. rewrite F5. cbn [olist].
          destruct (Z.testbit (t_rready s) i); reflexivity.
        * cbn [app]. rewrite ?andb_false_r, ?andb_true_r. cbn [app]. rewrite <- ?app_assoc. reflexivity.
      + destruct (Z.testbit (rp_valid (t_port s)) i) eqn:B3, (Z.testbit (t_rready s) i); cbn [negb orb andb app]; rewrite ?app_nil_r; try reflexivity.
    - destruct (Z.testbit (rp_valid (t_port s)) i) eqn:B3, (Z.testbit (t_rready s) i); cbn [negb orb andb app]; rewrite ?app_nil_r; try reflexivity. }
  destruct (rresp_run_spec c m (t_pend s) Hc Hm F2) with (r := r) (tl := fun i => pipeline c m s1 i) (ps' := ps') (r' := r') (out := out) as (I1 & I2 & I3 & I4).
  { intros i Hi. rewrite <- Flow by assumption. apply F1. assumption. } { exact Ep. }
  exists s1. split; [reflexivity|]. split; [|split; [reflexivity|]].
  - constructor; cbn [s1 t_q t_bus t_rready t_r t_pend t_done t_port rp_pipe rp_ready].
    + intros i Hi. apply I2. assumption.
    + assumption.
    + rewrite <- app_assoc, I3. assumption.
    + assumption.
    + intros i Hi Hb. unfold rout. cbn [rp_valid rp_data]. fold (rout c p i). destruct rp; [rewrite Z.testbit_0_l in Hb; discriminate|].
      specialize (P' i Hi). unfold rr_view, rr_next in P'. injection P' as P1 P2 P3. rewrite Hb in P3. rewrite <- P1, <- P2 in P3.
      symmetry in P3. apply orb_true_iff in P3. destruct P3 as [P3|P3]; apply Nat.eqb_eq in P3.
      * left. destruct (rout c p i); [reflexivity|discriminate].
      * right. destruct (rp_pipe p i); [discriminate|reflexivity].
    + intros i v Hi Hv. specialize (P' i Hi). unfold rr_view, rr_next in P'. injection P' as _ P2 _. rewrite Hv in P2. cbn [olist] in P2.
      destruct (Z.testbit (rp_ready (t_port s)) i && Z.testbit (r_valid (t_bus s)) i).
      * injection P2 as ->. apply rd_range; try assumption. apply get_field_range. apply Hc.
      * destruct (Z.testbit (t_rready s) i || negb (Z.testbit (rp_valid (t_port s)) i)); [discriminate|].
        destruct (rp_pipe (t_port s) i) as [v'|] eqn:Ev; [|discriminate]. cbn [olist] in P2. injection P2 as ->. apply (F6 i); assumption.
    + intros i Hi. destruct (M' i Hi) as [A1 _]. unfold mr_next in A1. specialize (F7 i Hi).
      destruct (Z.testbit (rp_ready (t_port s)) i || negb (Z.testbit (r_valid (t_bus s)) i)).
      * destruct (t_q s i) as [|o rest]; [|destruct mp]; injection A1 as _ A3; rewrite A3; try assumption. inversion F7. assumption.
      * injection A1 as _ A3. rewrite A3. assumption.
  - intros i Hi. cbn [s1 t_bus t_q t_port rp_pipe rp_ready]. split; [apply M'; assumption|].
    specialize (P' i Hi). rewrite <- P'. unfold rr_view. cbn [fst snd]. split.
    + unfold rout. cbn [rp_valid rp_data]. reflexivity.
    + destruct rp; cbn [negb andb]; [apply Z.testbit_0_l|reflexivity].
Qed.

(** ** Runs. *)
Lemma rrun_spec : forall evs c size m rs s, pcfg_ok c -> capacity c <= size -> (forall x, 0 <= x < capacity c -> is_byte (m x)) ->
  Forall (fun r => in_cap c (fst r) (snd r)) (reads evs) -> rinv c m rs s ->
  exists s', rs_run c size m evs s = Ok s' /\ rinv c m (rs ++ reads evs) s'.
Proof.
  induction evs as [|[a n|mp rp] evs IH]; intros c size m rs s Hc Hsz Hm Hw Hi; cbn [rs_run reads].
  - rewrite app_nil_r. exists s. split; [reflexivity|assumption].
  - cbn [reads] in Hw. inversion_clear Hw as [|? ? H1 H2]. cbn [fst snd] in H1.
    destruct (read_step c m rs s a n Hc Hm Hi H1) as (s1 & E & I1). cbn [rs_step]. rewrite E. cbn [bind].
    replace (rs ++ (a, n) :: reads evs) with ((rs ++ [(a, n)]) ++ reads evs) in * by (rewrite <- app_assoc; reflexivity).
    apply IH; assumption.
  - destruct (redge_step c size m rs s mp rp Hc Hsz Hm Hi) as (s1 & E & I1 & _). cbn [rs_step]. rewrite E. cbn [bind].
    apply IH; assumption.
Qed.

(** Work left in a segment. *)
Definition rload (c : pcfg) (s : rstate) (i : Z) : nat :=
  (5 * length (t_q s i) + 4 * length (rinfl c (t_bus s) i) + 2 * length (olist (rp_pipe (t_port s) i)) + length (rout c (t_port s) i)
   + if Z.testbit (rp_ready (t_port s)) i then 0 else 1)%nat.

Lemma rfree_spec : forall n K c size m rs s, pcfg_ok c -> capacity c <= size -> (forall x, 0 <= x < capacity c -> is_byte (m x)) -> rinv c m rs s ->
  t_rready s = all_ready c false -> (forall i, 0 <= i < p_n c -> (rload c s i <= K)%nat) ->
  exists s', rs_run c size m (free_redges n) s = Ok s' /\ rinv c m rs s' /\ t_rready s' = all_ready c false /\
    forall i, 0 <= i < p_n c -> (rload c s' i <= K - n)%nat.
Proof.
  induction n; intros K c size m rs s Hc Hsz Hm Hi Hr HK.
  - exists s. split; [reflexivity|]. split; [assumption|]. split; [assumption|]. intros i Hi'. specialize (HK i Hi'). lia.
  - destruct (redge_step c size m rs s false false Hc Hsz Hm Hi) as (s1 & E & I1 & R & M).
    change (free_redges (S n)) with (REdge false false :: free_redges n). cbn [rs_run rs_step]. rewrite E. cbn [bind].
    destruct (IHn (K - 1)%nat c size m rs s1 Hc Hsz Hm I1 R) as (s' & E' & I' & R' & L').
    + intros i Hi'. specialize (HK i Hi'). destruct (M i Hi') as (A & B & C). pose proof (ri_ready _ _ _ _ Hi i Hi') as F5.
      unfold mr_next in A. unfold rr_next in B, C. rewrite Hr, all_ready_bit in B, C by assumption. cbn [orb fst snd negb andb] in B, C.
      assert (length (map (fun v => Z.land v (p_mask (8 * p_sbl c))) (olist (rp_pipe (t_port s) i))) = length (olist (rp_pipe (t_port s) i))) as Lm by apply map_length.
      injection B as B1 B2. rewrite <- B1, <- B2 in C. rewrite <- B1 in Lm. clear B1.
      unfold rload in *. rewrite C, B2, Lm. clear C Lm. unfold rinfl in *.
      assert (length (olist (rp_pipe (t_port s) i)) <= 1)%nat as Lp by (destruct (rp_pipe (t_port s) i); cbn; lia).
      destruct (Z.testbit (rp_ready (t_port s)) i) eqn:Br, (Z.testbit (r_valid (t_bus s)) i) eqn:Bv; cbn [orb negb andb opt length] in *.
      * destruct (t_q s i) as [|o rest]; injection A as A1 A2; rewrite A1, A2; cbn [length] in *;
          destruct ((length (olist (rp_pipe (t_port s) i)) =? 0)%nat || _) eqn:G; lia.
      * destruct (t_q s i) as [|o rest]; injection A as A1 A2; rewrite A1, A2; cbn [length] in *; rewrite orb_true_r; lia.
      * injection A as A1 A2. rewrite A1, A2. cbn [length Nat.eqb]. rewrite orb_true_r. lia.
      * destruct (t_q s i) as [|o rest]; injection A as A1 A2; rewrite A1, A2; cbn [length] in *; rewrite orb_true_r; lia.
    + exists s'. split; [assumption|]. split; [assumption|]. split; [assumption|]. intros i Hi'. specialize (L' i Hi'). lia.
Qed.

Lemma rs_run_app : forall c size m a b s s', rs_run c size m a s = Ok s' -> rs_run c size m (a ++ b) s = rs_run c size m b s'.
Proof.
  intros c size m. induction a as [|e a IH]; intros b s s' H; cbn [rs_run app] in *; [congruence|].
  destruct (rs_step c size m s e) as [s1|]; cbn [bind] in *; [|discriminate]. apply IH. exact H.
Qed.

Lemma rinv_prefix : forall c m rs s, rinv c m rs s -> exists k, t_done s = map (answer m) (firstn k rs).
Proof.
  intros c m rs s [_ _ F3 _ _ _ _]. exists (length (t_done s)). rewrite <- firstn_map, <- F3.
  rewrite firstn_app, Nat.sub_diag, firstn_O, app_nil_r, firstn_all. reflexivity.
Qed.

Lemma rrun_completes : forall c size m evs, pcfg_ok c -> capacity c <= size -> (forall x, 0 <= x < capacity c -> is_byte (m x)) ->
  Forall (fun r => in_cap c (fst r) (snd r)) (reads evs) ->
  exists n0, forall n, (n0 <= n)%nat -> exists s,
    rs_run c size m (evs ++ free_redges n) rs0 = Ok s /\ t_done s = map (answer m) (reads evs).
Proof.
  intros c size m evs Hc Hsz Hm Hw.
  destruct (rrun_spec evs c size m [] rs0 Hc Hsz Hm Hw (rinv0 c m)) as (s & E & Hi). cbn [app] in Hi.
  destruct (redge_step c size m (reads evs) s false false Hc Hsz Hm Hi) as (s1 & E1 & I1 & R1 & _).
  destruct (bound_exists (rload c s1) (p_segs c)) as (K & HK). fold (p_n c) in HK.
  exists (K + 1)%nat. intros n Hn.
  destruct (rfree_spec (n - 1) K c size m (reads evs) s1 Hc Hsz Hm I1 R1 HK) as (s2 & E2 & I2 & R2 & L2).
  exists s2. split.
  { rewrite (rs_run_app _ _ _ _ _ _ _ E). replace n with (1 + (n - 1))%nat by lia. unfold free_redges. rewrite repeat_app.
    change (repeat (REdge false false) 1) with [REdge false false]. cbn [app rs_run rs_step]. rewrite E1. cbn [bind]. exact E2. }
  assert (t_pend s2 = []) as Hp.
  { destruct (t_pend s2) as [|w ps] eqn:Ep; [reflexivity|exfalso].
    pose proof (ri_quiet _ _ _ _ I2) as Q. rewrite Ep in Q. destruct Q as (Q1 & Q2 & Q3).
    pose proof (ri_flow _ _ _ _ I2 (rr_sg w) Q3) as F. rewrite Q2, Ep in F. specialize (L2 (rr_sg w) Q3). unfold rload in L2.
    unfold pipeline in F.
    assert (forall {A} (l : list A), (length l <= 0)%nat -> l = []) as Z0 by (intros A [|]; [reflexivity|cbn; lia]).
    rewrite (Z0 _ (rout c (t_port s2) (rr_sg w))), (Z0 _ (olist (rp_pipe (t_port s2) (rr_sg w)))), (Z0 _ (rinfl c (t_bus s2) (rr_sg w))), (Z0 _ (t_q s2 (rr_sg w))) in F by lia.
    cbn [app map] in F. unfold pwords in F. cbn [flat_map] in F. unfold left_of in F.
    replace (Z.to_nat (rr_num w - rr_k w)) with (S (Z.to_nat (rr_num w - rr_k w - 1))) in F by lia.
    cbn [seg_reads] in F. unfold words, sel in F. cbn [filter fst] in F. rewrite Z.eqb_refl in F. discriminate. }
  pose proof (ri_resp _ _ _ _ I2) as F. rewrite Hp in F. cbn [map] in F. rewrite app_nil_r in F. exact F.
Qed.
