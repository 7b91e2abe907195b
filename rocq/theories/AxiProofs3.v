(** AXI: the read side. *)
From Verif Require Import PyBase TlpProofs SplitProofs AxilModel AxilSpec AxilProofs AxilProofs2 AxiModel AxiSpec AxiProofs AxiProofs2.
From Coq Require Import ZifyBool ZifyNat Arith.
Ltac Zify.zify_post_hook ::= idtac.
Local Arguments Z.mul : simpl never.

Fixpoint consec (nb a : Z) (l : list Z) : Prop := match l with [] => True | x :: l => x = a /\ consec nb (a + nb) l end.

Lemma consec_app : forall nb l1 l2 a, consec nb a (l1 ++ l2) <-> consec nb a l1 /\ consec nb (a + zlen l1 * nb) l2.
Proof.
  induction l1 as [|x l1 IH]; intros l2 a; cbn [app consec]; [change (zlen (@nil Z)) with 0; rewrite Z.mul_0_l, Z.add_0_r; tauto|].
  rewrite IH, zlen_cons1. replace (a + (zlen l1 + 1) * nb) with (a + nb + zlen l1 * nb) by ring. tauto.
Qed.

Lemma consec_run : forall nb n a, consec nb a (map fst (run_beats a nb n)).
Proof. induction n; intro a; [exact I|]. rewrite run_beats_S. cbn [map consec fst]. split; [reflexivity|apply IHn]. Qed.

(** ** Splitting of reads. *)
Definition blim (b : xaw) : Prop := 0 <= xa_addr b /\ xa_addr b + (xa_len b + 1) * 2 ^ xa_size b <= 2 ^ 53.

Lemma obeats_len : forall b, 0 <= xa_len b -> zlen (obeats b) = xa_len b + 1.
Proof. intros. unfold obeats, zlen. rewrite run_beats_len. lia. Qed.

Lemma zlen_map1 : forall {A B} (f : A -> B) l, zlen (map f l) = zlen l.
Proof. intros. unfold zlen. rewrite map_length. reflexivity. Qed.

Lemma xrloop_spec : forall n cfg s C k cur cnt bl id, lanes_ok (xc_bw cfg) -> 0 <= s -> lanes_ok (2 ^ s) -> (2 ^ s | xc_bw cfg) ->
  let nb := 2 ^ s in let rem := Z.max 0 (bl - cnt - 1) in
  k + Z.of_nat n = C -> 0 <= cur -> cur mod nb = 0 -> cur + Z.of_nat n * nb <= 2 ^ 53 -> rem <= Z.of_nat n ->
  exists ars id', x_rloop n cfg s nb C 1 k cur cnt bl id = (ars, id') /\ Forall (legal cfg) ars /\ Forall blim ars /\ Forall (fun b => xa_size b = s) ars /\
    consec nb (cur + rem * nb) (map fst (flat_map obeats ars)) /\ zlen (flat_map obeats ars) = Z.of_nat n - rem.
Proof.
  induction n; intros cfg s C k cur cnt bl id Hbw Hs0 Hb Hdv nb rem Hk Hc Hm Hlim Hrem; cbn [x_rloop].
  - exists [], id. split; [reflexivity|]. repeat (split; [constructor|]). change (zlen (flat_map obeats [])) with 0. unfold rem in *. lia.
  - pose proof (lanes_range _ Hb) as Hr. fold nb in Hr. pose proof (lanes_range _ Hbw) as Hr2. assert (1 <= nb) as Hr1 by lia.
    assert ((cur + nb) mod nb = 0) as Hm2 by (rewrite <- (Z.mul_1_l nb) at 1; rewrite Z.mod_add by lia; exact Hm).
    assert (cur + nb + Z.of_nat n * nb = cur + Z.of_nat (S n) * nb) as Ecur by (rewrite Nat2Z.inj_succ; ring).
    destruct (cnt + 1 >=? bl) eqn:EC.
    + assert (k < C) as HkC by lia. destruct (burst_len_spec cfg C k nb cur Hb Hc Hm HkC) as (B1 & B2 & B3 & B4 & _).
      set (B := x_burst_len cfg C k nb cur) in *. clearbody B.
      destruct (IHn cfg s C (k + 1) (cur + nb) 0 B (x_next_id (xc_arid cfg) id)) as (ars & id' & E & T1 & T2 & T3 & T4 & T5); try assumption.
      { lia. } { lia. } { fold nb. rewrite Ecur. assumption. } { lia. }
      fold nb in E, T4. rewrite E. replace (Z.max 0 (B - 0 - 1)) with (B - 1) in * by lia. exists (mkXa cur id (B - 1) s 1 :: ars), id'.
      split; [reflexivity|]. split; [|split; [|split; [|]]].
      * constructor; [|assumption]. unfold legal. cbn [xa_burst xa_size xa_addr xa_len]. fold nb. replace (B - 1 + 1) with B by lia. split; [reflexivity|]. split; [assumption|]. split; [apply Z.divide_pos_le; [lia|assumption]|].
        split; [assumption|]. split; [exact B1|]. split; [exact B2|]. exact B4.
      * constructor; [|assumption]. unfold blim. cbn [xa_size xa_addr xa_len]. fold nb. replace (B - 1 + 1) with B by lia. split; [assumption|].
        assert (B * nb <= Z.of_nat (S n) * nb) by (apply Z.mul_le_mono_nonneg_r; lia). clear - Hlim H. lia.
      * constructor; [reflexivity|assumption].
      * assert (rem = 0) as Er by (unfold rem; lia). rewrite Er, Z.mul_0_l, Z.add_0_r. cbn [flat_map]. rewrite map_app, zlen_app, consec_app, zlen_map1, (obeats_len (mkXa cur id (B - 1) s 1)) by (cbn [xa_len]; lia). cbn [xa_len].
        split; [split; [unfold obeats; cbn [xa_addr xa_size]; apply consec_run|]|rewrite T5; lia].
        replace (cur + (B - 1 + 1) * nb) with (cur + nb + (B - 1) * nb) by ring. exact T4.
    + destruct (IHn cfg s C (k + 1) (cur + nb) (cnt + 1) bl id) as (ars & id' & E & T1 & T2 & T3 & T4 & T5); try assumption.
      { lia. } { lia. } { fold nb. rewrite Ecur. assumption. } { unfold rem in Hrem. lia. }
      fold nb in E, T4. rewrite E. exists ars, id'. split; [reflexivity|]. repeat (split; [assumption|]). 
      assert (rem = Z.max 0 (bl - (cnt + 1) - 1) + 1) as Er by (unfold rem; lia). rewrite Er. split; [|rewrite T5; lia].
      replace (cur + (Z.max 0 (bl - (cnt + 1) - 1) + 1) * nb) with (cur + nb + Z.max 0 (bl - (cnt + 1) - 1) * nb) by ring. exact T4.
Qed.

(** A waiting command and its bursts. *)
Definition rc_ok (cfg : xcfg) (c : xrcmd) (bs : list xaw) : Prop :=
  let nb := 2 ^ xq_size c in
  0 <= xq_addr c /\ 0 <= xq_len c /\ xq_addr c + xq_len c <= 2 ^ 52 /\ 0 <= xq_size c /\ lanes_ok nb /\ (nb | xc_bw cfg) /\ xq_size c <= Z.log2 (xc_bw cfg) /\
  xq_bursts c = map (fun b => (xa_id b, xa_len b + 1)) bs /\ Forall (legal cfg) bs /\ Forall (fun b => xa_size b = xq_size c) bs /\
  consec nb (xq_addr c / nb * nb) (map fst (flat_map obeats bs)) /\ zlen (flat_map obeats bs) = x_cycles nb (xq_addr c) (xq_len c).

Lemma xread_spec : forall cfg id a n z p, lanes_ok (xc_bw cfg) -> 0 <= a -> 0 <= n -> a + n <= 2 ^ 52 -> size_ok cfg z ->
  exists ars c id', x_read cfg id a n 1 z p = Ok (ars, c, id') /\ rc_ok cfg c ars /\ Forall blim ars /\ xq_addr c = a /\ xq_len c = n /\ xq_prot c = p.
Proof.
  intros cfg id a n z p Hb Ha Hn Hd Hz. destruct (size_lanes cfg z Hb Hz) as (s & E & S1 & S2 & S3 & S4). unfold x_read. rewrite E. cbn [bind].
  destruct (cycles_spec (2 ^ s) a n S2 Ha Hn Hd) as (C0 & C1 & C2 & C3). pose proof (lanes_range _ S2) as Hr. pose proof (Z.mod_pos_bound a (2 ^ s) ltac:(lia)) as Hs.
  set (nb := 2 ^ s) in *. assert (0 <= a / nb) as Hq by (apply Z.div_pos; lia). pose proof (Z.div_mod a nb ltac:(lia)) as Da. assert (0 <= a / nb * nb) as HA by (apply Z.mul_nonneg_nonneg; lia).
  rewrite truediv_exact by (clear - Ha Hd Hn Hr; lia). set (A := a / nb * nb) in *.
  assert ((l_cycles nb a n - 1) * nb <= n + a mod nb) as HC.
  { destruct (Z.eq_dec (n + a mod nb) 0) as [Ez|Ez]; [rewrite (C3 Ez); clear - Hr Ez; lia|]. destruct C2 as (_ & C2 & _); [clear - Ez Hn Hs; lia|]. clear - C2; lia. }
  destruct (xrloop_spec (Z.to_nat (x_cycles nb a n)) cfg s (x_cycles nb a n) 0 A 0 0 id Hb S1 S2 S3) as (ars & id' & X1 & X2 & X3 & X4 & X5 & X6).
  { rewrite xcycles_is, Z2Nat.id by assumption. reflexivity. }
  { assumption. }
  { apply Z.mod_mul. unfold nb in Hr. lia. }
  { rewrite xcycles_is, Z2Nat.id by assumption. fold nb. assert (A = a - a mod nb) as EA by (unfold A; clear - Da; lia). rewrite EA. clear - HC Hd Hr Hs Hn Ha. lia. }
  { rewrite xcycles_is, Z2Nat.id by assumption. lia. }
  fold nb in X1, X5. rewrite X1. exists ars, (mkXq a n s p (map (fun b => (xa_id b, xa_len b + 1)) ars)), id'. split; [reflexivity|].
  change (Z.max 0 (0 - 0 - 1)) with 0 in *. rewrite Z.mul_0_l, Z.add_0_r in X5. rewrite Z.sub_0_r, xcycles_is, Z2Nat.id in X6 by assumption.
  split; [|repeat split; assumption]. unfold rc_ok. cbn [xq_addr xq_len xq_size xq_prot xq_bursts]. fold nb. repeat (split; [assumption|]). split; [reflexivity|]. repeat (split; [assumption|]). exact X6.
Qed.

(** ** Beats. *)
Definition ebeats (b : xaw) : list (Z * Z * bool) := map (fun x => (xa_id b, fst x, snd x)) (obeats b).

Section Reads.
Variables (cfg : xcfg) (m0 : Z -> Z).
Hypothesis (HC : cfg_ok cfg).
Let bw := xc_bw cfg.
Let size := xc_size cfg.

(** A moment of the writes [ops]. *)
Definition moment (ops : list (Z * Z)) (m : Z -> Z) : Prop :=
  (exists k, (k <= length ops)%nat /\ m = put_ops size m0 (firstn k ops)) /\ forall x, 0 <= x < size -> is_byte (m x).

Definition beat_is (ops : list (Z * Z)) (x : xrbeat) (e : Z * Z * bool) : Prop :=
  let '(id, v, resp, last) := x in let '(id', a, last') := e in
  id = id' /\ resp = 0 /\ last = last' /\ exists m, moment ops m /\ v = word_at size bw m a.

Lemma rbeats_spec : forall c b a n l pos ops m, legal cfg b -> 0 <= n -> n + Z.of_nat c = xa_len b + 1 -> 0 <= a -> a + Z.of_nat c * 2 ^ xa_size b <= 2 ^ 53 ->
  holds size l m -> moment ops m ->
  exists bs pos', x_rbeats c bw size b a n (mkLm l pos) = Ok (bs, mkLm l pos') /\
    Forall2 (beat_is ops) bs (map (fun x => (xa_id b, fst x, snd x)) (run_beats a (2 ^ xa_size b) c)).
Proof.
  induction c; intros b a n l pos ops m HL Hn Hc Ha Hlim Hh Hm; cbn [x_rbeats].
  - exists [], pos. split; [reflexivity|constructor].
  - destruct HC as (H1 & H2 & H3 & _). fold bw in H1, H3. fold size in H2, H3. assert (0 < 2 ^ xa_size b) as Hp by (destruct HL as (_ & L & _); apply Z.pow_pos_nonneg; lia).
    set (nb := 2 ^ xa_size b) in *. assert (Z.of_nat (S c) * nb = nb + Z.of_nat c * nb) as En by (rewrite Nat2Z.inj_succ; ring). assert (0 <= Z.of_nat c * nb) as H0 by (apply Z.mul_nonneg_nonneg; lia).
    destruct (rget_spec bw size a l pos m H1 H2 H3 ltac:(clear - Ha Hlim En Hp H0; lia) Hh) as (p & E). rewrite E. cbn [bind].
    assert (x_next b a = a + nb) as -> by (destruct HL as (G & _); unfold x_next; rewrite G; reflexivity).
    destruct (IHc b (a + nb) (n + 1) l p ops m HL) as (bs & pos' & R1 & R2); try assumption; try (clear - Hn Hc Ha Hp; lia).
    { fold nb. clear - Hlim En. lia. }
    rewrite R1. cbn [bind]. eexists _, _. split; [reflexivity|]. rewrite run_beats_S. cbn [map fst snd]. constructor; [|exact R2].
    unfold beat_is. split; [reflexivity|]. split; [reflexivity|]. split; [clear - Hc; lia|]. exists m. split; [assumption|reflexivity].
Qed.

Lemma rlogic_spec : forall bs l pos ops m, Forall (legal cfg) bs -> Forall blim bs -> holds size l m -> moment ops m ->
  exists rs pos', x_rlogic bw size bs (mkLm l pos) = Ok (rs, mkLm l pos') /\ Forall2 (beat_is ops) rs (flat_map ebeats bs).
Proof.
  induction bs as [|b bs IH]; intros l pos ops m HL HB Hh Hm; cbn [x_rlogic flat_map].
  - exists [], pos. split; [reflexivity|constructor].
  - inversion_clear HL as [|? ? L1 L2]. inversion_clear HB as [|? ? [B1 B1'] B2]. unfold x_rburst.
    assert (0 <= xa_len b) as Hlen by (destruct L1 as (_ & _ & _ & _ & G & _); lia). assert (0 < 2 ^ xa_size b) as Hp by (destruct L1 as (_ & L & _); apply Z.pow_pos_nonneg; lia).
    assert (1 * 2 ^ xa_size b <= (xa_len b + 1) * 2 ^ xa_size b) as Hmul by (apply Z.mul_le_mono_nonneg_r; lia).
    assert (x_start bw b = Ok (xa_addr b)) as -> by (apply (start_legal cfg b L1); clear - B1 B1' Hp Hmul; lia). cbn [bind].
    destruct (rbeats_spec (Z.to_nat (xa_len b + 1)) b (xa_addr b) 0 l pos ops m L1) as (r1 & p1 & E1 & E2); try assumption; try (clear - Hlen; lia).
    { rewrite Z2Nat.id by (clear - Hlen; lia). assumption. }
    rewrite E1. cbn [bind]. destruct (IH l p1 ops m L2 B2 Hh Hm) as (r2 & p2 & E3 & E4). rewrite E3. cbn [bind].
    eexists _, _. split; [reflexivity|]. apply Forall2_app; assumption.
Qed.

(** ** The response logic. *)
Definition cexp (cur : xrcur) (lb : list xaw) (ca : Z) : list (Z * Z * bool) :=
  map (fun x => (xr_rid cur, fst x, snd x)) (run_beats ca (2 ^ xq_size (xr_cmd cur)) (Z.to_nat (xr_bl cur - xr_k cur))) ++ flat_map ebeats lb.

Definition eaddr (e : Z * Z * bool) : Z := snd (fst e).

Record curok (ops : list (Z * Z)) (cur : xrcur) (lb : list xaw) (ca q : Z) : Prop := mkCo {
  co_a : 0 <= xq_addr (xr_cmd cur) /\ 0 <= xq_len (xr_cmd cur) /\ xq_addr (xr_cmd cur) + xq_len (xr_cmd cur) <= 2 ^ 52;
  co_s : 0 <= xq_size (xr_cmd cur) /\ lanes_ok (2 ^ xq_size (xr_cmd cur)) /\ (2 ^ xq_size (xr_cmd cur) | bw);
  co_l : map (fun b => (xa_id b, xa_len b + 1)) lb = xr_left cur /\ Forall (legal cfg) lb /\ Forall (fun b => xa_size b = xq_size (xr_cmd cur)) lb;
  co_ca : ca = xq_addr (xr_cmd cur) / 2 ^ xq_size (xr_cmd cur) * 2 ^ xq_size (xr_cmd cur) + q * 2 ^ xq_size (xr_cmd cur) /\ 0 <= q;
  co_co : xr_co cur = ca mod bw;
  co_r : xr_resp cur = 0;
  co_f : xr_first cur = (q =? 0);
  co_len : zlen (xr_data cur) = if q =? 0 then 0 else q * 2 ^ xq_size (xr_cmd cur) - xq_addr (xr_cmd cur) mod 2 ^ xq_size (xr_cmd cur);
  co_d : forall i, 0 <= i < zlen (xr_data cur) -> exists m, moment ops m /\ nth (Z.to_nat i) (xr_data cur) 0 = m ((xq_addr (xr_cmd cur) + i) mod size);
  co_c : consec (2 ^ xq_size (xr_cmd cur)) ca (map eaddr (cexp cur lb ca));
  co_n : q + zlen (cexp cur lb ca) = x_cycles (2 ^ xq_size (xr_cmd cur)) (xq_addr (xr_cmd cur)) (xq_len (xr_cmd cur)) }.

Definition rfor (ops : list (Z * Z)) (c : xrcmd) (r : lrdone) : Prop :=
  le_addr r = xq_addr c /\ le_prot r = xq_prot c /\ le_resp r = 0 /\ zlen (le_data r) = xq_len c /\
  forall i, 0 <= i < xq_len c -> exists m, moment ops m /\ nth (Z.to_nat i) (le_data r) 0 = m ((xq_addr c + i) mod size).

(** The state of the response logic with what it expects. *)
Definition rst (ops : list (Z * Z)) (cur : option xrcur) (exp : list (Z * Z * bool)) : Prop :=
  match cur with None => exp = [] | Some cur => exists lb ca q, curok ops cur lb ca q /\ exp = cexp cur lb ca end.

Definition xropt (cur : option xrcur) : list xrcmd := match cur with Some c => [xr_cmd c] | None => [] end.

Lemma eaddr_ebeats : forall b, map eaddr (ebeats b) = map fst (obeats b).
Proof. intros. unfold ebeats. rewrite map_map. reflexivity. Qed.

Lemma eaddr_flat : forall bs, map eaddr (flat_map ebeats bs) = map fst (flat_map obeats bs).
Proof. induction bs as [|b bs IH]; [reflexivity|]. cbn [flat_map]. rewrite !map_app, IH, eaddr_ebeats. reflexivity. Qed.

Lemma zlen_ebeats : forall bs, zlen (flat_map ebeats bs) = zlen (flat_map obeats bs).
Proof. induction bs as [|b bs IH]; [reflexivity|]. cbn [flat_map]. rewrite !zlen_app, IH. unfold ebeats. rewrite zlen_map1. reflexivity. Qed.

Lemma cstart : forall ops c bs, rc_ok cfg c bs ->
  exists co, int_truediv (xq_addr c) (2 ^ xq_size c) * 2 ^ xq_size c - int_truediv (xq_addr c) bw * bw = co /\
   curok ops (mkXr c (xq_bursts c) 0 0 0 co [] 0 true) bs (xq_addr c / 2 ^ xq_size c * 2 ^ xq_size c) 0 /\
   cexp (mkXr c (xq_bursts c) 0 0 0 co [] 0 true) bs (xq_addr c / 2 ^ xq_size c * 2 ^ xq_size c) = flat_map ebeats bs /\ xq_size c <= Z.log2 bw.
Proof.
  intros ops c bs (R1 & R2 & R3 & R4 & R5 & R6 & R7 & R8 & R9 & R10 & R11 & R12). set (nb := 2 ^ xq_size c) in *. destruct HC as (H1 & _). fold bw in H1, R6, R7.
  pose proof (lanes_range _ R5) as Hr. pose proof (lanes_range _ H1) as Hr2. rewrite !truediv_exact by (clear - R1 R2 R3 Hr Hr2; lia).
  destruct (beat_geometry bw nb (xq_addr c) (xq_len c) 0 ltac:(lia) R6 ltac:(lia) R1 R2 ltac:(lia)) as (_ & _ & _ & _ & G & _).
  eexists. split; [reflexivity|].
  assert (cexp (mkXr c (xq_bursts c) 0 0 0 (xq_addr c / nb * nb - xq_addr c / bw * bw) [] 0 true) bs (xq_addr c / nb * nb) = flat_map ebeats bs) as Ee by reflexivity.
  split; [|split; [reflexivity|assumption]]. constructor; cbn [xr_cmd xr_left xr_co xr_resp xr_first xr_data xr_k xr_bl].
  - repeat split; assumption.
  - repeat split; assumption.
  - split; [symmetry; assumption|split; assumption].
  - split; [fold nb; ring|lia].
  - symmetry. exact G.
  - reflexivity.
  - reflexivity.
  - reflexivity.
  - intros i Hi. change (zlen (@nil Z)) with 0 in Hi. lia.
  - rewrite Ee, eaddr_flat. exact R11.
  - rewrite Ee, zlen_ebeats, Z.add_0_l. exact R12.
Qed.

Lemma cbeat : forall ops cur lb ca q id v resp last e es,
  curok ops cur lb ca q -> xr_k cur < xr_bl cur -> cexp cur lb ca = e :: es -> beat_is ops (id, v, resp, last) e -> 
  id = xr_rid cur /\ resp = 0 /\ last = (xr_k cur =? xr_bl cur - 1) /\
  let c := xr_cmd cur in
  let cur' := mkXr c (xr_left cur) (xr_rid cur) (xr_bl cur) (xr_k cur + 1) ((xr_co cur + 2 ^ xq_size c) mod bw)
     (xr_data cur ++ l_lanes (if xr_first cur then xq_addr c mod bw else xr_co cur) (xr_co cur + 2 ^ xq_size c) v) 0 false in
  curok ops cur' lb (ca + 2 ^ xq_size c) (q + 1) /\ cexp cur' lb (ca + 2 ^ xq_size c) = es.
Proof.
  intros ops [c lft rid bl k co data resp0 first] lb ca q id v resp last e es [V1 V2 V3 V4 V5 V6 V7 V8 V9 V10 V11] Hk He HB. cbn [xr_cmd xr_left xr_rid xr_bl xr_k xr_co xr_data xr_resp xr_first] in *.
  destruct HC as (H1 & H2 & H3 & _). fold bw in H1, H3. fold size in H2, H3. pose proof (lanes_range _ H1) as Hr2. destruct V1 as (A1 & A2 & A3). destruct V2 as (S1 & S2 & S3). pose proof (lanes_range _ S2) as Hr. destruct V4 as (V4 & Hq).
  set (nb := 2 ^ xq_size c) in *. unfold cexp in He at 1. cbn [xr_cmd xr_rid xr_bl xr_k] in He. fold nb in He.
  replace (Z.to_nat (bl - k)) with (S (Z.to_nat (bl - (k + 1)))) in He by (clear - Hk; lia). rewrite run_beats_S in He. cbn [map fst snd app] in He. injection He as E1 E2.
  subst e. destruct HB as (B1 & B2 & B3 & (m & B4 & B5)). split; [assumption|]. split; [assumption|]. split; [rewrite B3; clear - Hk; lia|]. cbn zeta.
  assert (forall dd, cexp (mkXr c lft rid bl (k + 1) ((co + nb) mod bw) dd 0 false) lb (ca + nb) = es) as Ee by (intro; exact E2).
  split; [|apply Ee].
  destruct (beat_geometry bw nb (xq_addr c) (xq_len c) q ltac:(clear - Hr; lia) S3 ltac:(clear - Hr2; lia) A1 A2 Hq) as (G1 & G2 & G3 & G4 & _ & G5). rewrite <- V4 in G1, G2, G3, G4, G5. rewrite <- V5 in G1, G2, G3, G4, G5.
  pose proof (Z.div_mod (xq_addr c) nb ltac:(clear - Hr; lia)) as Da. pose proof (Z.mod_pos_bound (xq_addr c) nb ltac:(clear - Hr; lia)) as Hs. pose proof (Z.div_mod ca bw ltac:(clear - Hr2; lia)) as Dc. rewrite <- V5 in Dc.
  set (so := xq_addr c mod nb) in *.
  assert (exists st, (if first then xq_addr c mod bw else co) = co + st /\ 0 <= st < nb /\ xq_addr c + zlen data = ca + st /\ zlen data + (nb - st) = (q + 1) * nb - so) as (st & Est & Hst & Ead & Eln).
  { rewrite V7. exists (if q =? 0 then so else 0). rewrite V8. destruct (Z.eqb_spec q 0) as [Q|Q].
    - rewrite (G3 Q). rewrite Q in V4. clear - Hs V4 Da Q. subst q. lia.
    - clear - Hs V4 Da Hr. lia. }
  rewrite Est. rewrite B5.
  assert (l_lanes (co + st) (co + nb) (word_at size bw m ca) = get_bytes size m (ca + st) (nb - st)) as El.
  { rewrite lanes_word; try assumption; [|clear - Hr2; lia|clear - G2 Hst; lia|apply (proj2 B4)]. f_equal; clear - Dc; lia. }
  rewrite El. constructor; cbn [xr_cmd xr_left xr_rid xr_bl xr_k xr_co xr_data xr_resp xr_first]; fold nb.
  - repeat split; assumption.
  - repeat split; assumption.
  - assumption.
  - split; [rewrite V4; clear; lia|clear - Hq; lia].
  - rewrite G4. f_equal. rewrite V4. clear; lia.
  - reflexivity.
  - symmetry. apply Z.eqb_neq. clear - Hq. lia.
  - rewrite zlen_app, get_bytes_length by (clear - Hst; lia). assert (q + 1 =? 0 = false) as -> by (clear - Hq; lia). fold so. exact Eln.
  - intros i Hi. rewrite zlen_app, get_bytes_length in Hi by (clear - Hst; lia). destruct (Z.lt_ge_cases i (zlen data)) as [Hlt|Hge].
    + destruct (V9 i ltac:(clear - Hi Hlt; lia)) as (m' & M1 & M2). exists m'. split; [assumption|]. rewrite app_nth1 by (unfold zlen in Hlt; clear - Hi Hlt; lia). exact M2.
    + exists m. split; [exact B4|]. rewrite app_nth2 by (unfold zlen in Hge; clear - Hi Hge; lia). rewrite nth_get_bytes by (unfold zlen in *; clear - Hi Hge; lia). f_equal. f_equal. unfold zlen in *. clear - Ead Hge Hi. lia.
  - rewrite Ee. unfold cexp in V10 at 1. cbn [xr_cmd xr_rid xr_bl xr_k] in V10. fold nb in V10.
    replace (Z.to_nat (bl - k)) with (S (Z.to_nat (bl - (k + 1)))) in V10 by (clear - Hk; lia). rewrite run_beats_S in V10. cbn [map fst snd app] in V10. rewrite E2 in V10. cbn [consec] in V10. apply V10.
  - rewrite Ee. fold nb in V11. rewrite <- V11. unfold cexp. cbn [xr_cmd xr_rid xr_bl xr_k]. fold nb.
    replace (Z.to_nat (bl - k)) with (S (Z.to_nat (bl - (k + 1)))) by (clear - Hk; lia). rewrite run_beats_S. cbn [map fst snd app]. rewrite E2, zlen_cons1. clear; lia.
Qed.

Lemma cdone : forall ops cur ca q, curok ops cur [] ca q -> xr_bl cur <= xr_k cur -> xr_left cur = [] ->
  rfor ops (xr_cmd cur) (mkLe (xq_addr (xr_cmd cur)) (slice (xr_data cur) 0 (xq_len (xr_cmd cur))) (xq_prot (xr_cmd cur)) (xr_resp cur)).
Proof.
  intros ops [c lft rid bl k co data resp0 first] ca q [V1 V2 V3 V4 V5 V6 V7 V8 V9 V10 V11] Hk Hl. cbn [xr_cmd xr_left xr_rid xr_bl xr_k xr_co xr_data xr_resp xr_first] in *.
  destruct V1 as (A1 & A2 & A3). destruct V2 as (S1 & S2 & S3). unfold cexp in V11. cbn [xr_cmd xr_rid xr_bl xr_k flat_map] in V11. replace (Z.to_nat (bl - k)) with O in V11 by (clear - Hk; lia). change (zlen (map (fun x : Z * bool => (rid, fst x, snd x)) (run_beats ca (2 ^ xq_size c) 0) ++ [])) with 0 in V11.
  rewrite Z.add_0_r, xcycles_is in V11. pose proof (lanes_range _ S2) as Hr. set (nb := 2 ^ xq_size c) in *. pose proof (Z.mod_pos_bound (xq_addr c) nb ltac:(lia)) as Hs.
  destruct (cycles_spec nb (xq_addr c) (xq_len c) S2 A1 A2 A3) as (C0 & C1 & C2 & C3). rewrite <- V11 in *.
  assert (xq_len c <= zlen data) as HL.
  { rewrite V8. destruct (Z.eqb_spec q 0) as [Q|Q]; [rewrite Q in C1; clear - C1 Hs; lia|clear - C1; lia]. }
  unfold rfor. cbn [le_addr le_prot le_resp le_data]. split; [reflexivity|]. split; [reflexivity|]. split; [assumption|].
  split; [rewrite zlen_slice by (clear - A2 HL; lia); clear; lia|]. intros i Hi. destruct (V9 i ltac:(clear - Hi HL; lia)) as (m & M1 & M2). exists m. split; [assumption|].
  rewrite nth_slice by (clear - Hi; lia). exact M2.
Qed.

Definition curf (cur : option xrcur) : nat := match cur with Some c => length (xr_left c) + 2 | None => 1 end.
Definition cmdf (cmds : list xrcmd) : nat := fold_right (fun c n => length (xq_bursts c) + 2 + n)%nat O cmds.

Lemma rresp_spec : forall fuel ops cur exp cmds gbs q qe rest out,
  rst ops cur exp -> Forall2 (rc_ok cfg) cmds gbs -> exp ++ flat_map (flat_map ebeats) gbs = qe ++ rest -> Forall2 (beat_is ops) q qe ->
  (length q + curf cur + cmdf cmds <= fuel)%nat ->
  exists cur' cmds' gbs' exp' q' qe' fin dl, x_rresp fuel bw cur cmds q out = Ok (cur', cmds', q', out ++ dl) /\ Forall2 (rfor ops) fin dl /\
    xropt cur ++ cmds = fin ++ xropt cur' ++ cmds' /\ rst ops cur' exp' /\ Forall2 (rc_ok cfg) cmds' gbs' /\
    exp' ++ flat_map (flat_map ebeats) gbs' = qe' ++ rest /\ Forall2 (beat_is ops) q' qe' /\ (cur' = None -> cmds' = []) /\ (cur' <> None -> q' = [] /\ exp' <> []).
Proof.
  induction fuel; intros ops cur exp cmds gbs q qe rest out Hc Hg He Hq Hf; [destruct cur; cbn [curf] in Hf; lia|]. cbn [x_rresp]. destruct cur as [cur|].
  - destruct Hc as (lb & ca & n & HK & EX). pose proof HK as HK'. destruct cur as [c lft rid bl k co data resp0 first]. cbn [curf xr_left] in Hf. destruct (Z.ltb_spec k bl) as [L|L].
    + destruct q as [|[[[id v] resp] last] q].
      * cbn [x_pop]. inversion Hq; subst qe. eexists (Some _), cmds, gbs, exp, [], [], [], []. rewrite app_nil_r. split; [reflexivity|]. split; [constructor|]. split; [reflexivity|].
        split; [exists lb, ca, n; split; assumption|]. split; [assumption|]. split; [assumption|]. split; [constructor|]. split; [discriminate|]. intros _. split; [reflexivity|].
        rewrite EX. unfold cexp. cbn [xr_cmd xr_rid xr_bl xr_k]. replace (Z.to_nat (bl - k)) with (S (Z.to_nat (bl - (k + 1)))) by lia. rewrite run_beats_S. discriminate.
      * inversion Hq as [|? e ? qe' Hb Hq' E1 E2]. subst qe.
        assert (exists es, cexp (mkXr c lft rid bl k co data resp0 first) lb ca = e :: es) as (es & Ees).
        { rewrite EX in He. unfold cexp in *. cbn [xr_cmd xr_rid xr_bl xr_k] in *. replace (Z.to_nat (bl - k)) with (S (Z.to_nat (bl - (k + 1)))) in * by lia. rewrite run_beats_S in *. cbn [map app] in *. injection He as He1 _. eexists. f_equal. exact He1. }
        destruct (cbeat ops _ lb ca n id v resp last e es HK L Ees Hb) as (D1 & D2 & D3 & D4). cbn zeta in D4. cbn [xr_cmd xr_left xr_rid xr_bl xr_k xr_co xr_data xr_resp xr_first] in *.
        cbn [x_pop]. rewrite D1, Z.eqb_refl, D3, Bool.eqb_reflx, D2. cbn [negb Z.eqb].
        assert (resp0 = 0) as -> by (apply (co_r _ _ _ _ _ HK)).
        destruct D4 as (D4 & D5).
        destruct (IHfuel ops (Some (mkXr c lft rid bl (k + 1) ((co + 2 ^ xq_size c) mod bw) (data ++ l_lanes (if first then xq_addr c mod bw else co) (co + 2 ^ xq_size c) v) 0 false)) es cmds gbs q qe' rest out) as (cur' & cmds' & gbs' & exp' & q' & qe2 & fin & dl & R1 & R2 & R3 & R4 & R5 & R6 & R7 & R8 & R9); try assumption.
        { exists lb, (ca + 2 ^ xq_size c), (n + 1). split; [exact D4|symmetry; exact D5]. }
        { rewrite EX, Ees in He. cbn [app] in He. injection He as He. exact He. }
        { cbn [length curf xr_left] in *. lia. }
        exists cur', cmds', gbs', exp', q', qe2, fin, dl. repeat (split; [assumption|]). assumption.
    + destruct lft as [|[rid' bl'] lft].
      * assert (lb = []) as -> by (destruct (co_l _ _ _ _ _ HK) as (E & _); cbn [xr_left] in E; destruct lb; [reflexivity|discriminate]).
        pose proof (cdone ops _ ca n HK L eq_refl) as HD. cbn [xr_cmd xr_data xr_resp] in HD.
        destruct (IHfuel ops None [] cmds gbs q qe rest (out ++ [mkLe (xq_addr c) (slice data 0 (xq_len c)) (xq_prot c) resp0])) as (cur' & cmds' & gbs' & exp' & q' & qe2 & fin & dl & R1 & R2 & R3 & R4 & R5 & R6 & R7 & R8 & R9); try assumption.
        { reflexivity. }
        { rewrite EX in He. unfold cexp in He. cbn [xr_cmd xr_rid xr_bl xr_k flat_map] in He. replace (Z.to_nat (bl - k)) with O in He by lia. exact He. }
        { cbn [curf length] in *. lia. }
        exists cur', cmds', gbs', exp', q', qe2, (c :: fin), (mkLe (xq_addr c) (slice data 0 (xq_len c)) (xq_prot c) resp0 :: dl). split; [rewrite R1, <- app_assoc; reflexivity|]. split; [constructor; assumption|].
        split; [cbn [xropt xr_cmd app] in *; rewrite R3; reflexivity|]. repeat (split; [assumption|]). assumption.
      * destruct lb as [|b lb]; [destruct (co_l _ _ _ _ _ HK) as (E & _); discriminate|].
        destruct HK as [V1 V2 (V3a & V3b & V3c) V4 V5 V6 V7 V8 V9 V10 V11]. cbn [xr_cmd xr_left xr_rid xr_bl xr_k xr_co xr_data xr_resp xr_first] in *. cbn [map] in V3a. injection V3a as X1 X2 V3a. inversion_clear V3b as [|? ? L1 L2]. inversion_clear V3c as [|? ? L3 L4].
        assert (cexp (mkXr c ((rid', bl') :: lft) rid bl k co data resp0 first) (b :: lb) ca = ebeats b ++ flat_map ebeats lb) as E0.
        { unfold cexp. cbn [xr_cmd xr_rid xr_bl xr_k flat_map]. replace (Z.to_nat (bl - k)) with O by lia. reflexivity. }
        assert (xa_addr b = ca) as Eb.
        { rewrite E0, map_app, consec_app, eaddr_ebeats in V10. destruct (obeats_cons cfg b L1) as (la & r & Eo). rewrite Eo in V10. cbn [map fst consec] in V10. apply V10. }
        assert (cexp (mkXr c lft rid' bl' 0 co data resp0 first) lb ca = ebeats b ++ flat_map ebeats lb) as E1.
        { unfold cexp. cbn [xr_cmd xr_rid xr_bl xr_k]. f_equal. unfold ebeats, obeats. rewrite X1, L3, Eb, <- X2, Z.sub_0_r. reflexivity. }
        destruct (IHfuel ops (Some (mkXr c lft rid' bl' 0 co data resp0 first)) exp cmds gbs q qe rest out) as (cur' & cmds' & gbs' & exp' & q' & qe2 & fin & dl & R1 & R2 & R3 & R4 & R5 & R6 & R7 & R8 & R9); try assumption.
        { exists lb, ca, n. split; [|rewrite EX, E0, E1; reflexivity]. constructor; cbn [xr_cmd xr_left xr_rid xr_bl xr_k xr_co xr_data xr_resp xr_first]; try assumption.
          - split; [assumption|split; assumption].
          - rewrite E1, <- E0. assumption.
          - rewrite E1, <- E0. assumption. }
        { cbn [curf xr_left length] in *. lia. }
        exists cur', cmds', gbs', exp', q', qe2, fin, dl. repeat (split; [assumption|]). assumption.
  - cbn [rst] in Hc. subst exp. destruct cmds as [|c cmds].
    + inversion Hg; subst gbs. exists None, [], [], [], q, qe, [], []. rewrite app_nil_r. repeat split; try assumption; try constructor; congruence.
    + inversion Hg as [|? bs ? gbs1 G1 G2]. subst gbs. destruct (cstart ops c bs G1) as (co & E1 & E2 & E3 & E4). rewrite E1. assert (xq_size c <=? Z.log2 bw = true) as -> by lia. cbn [negb].
      destruct (IHfuel ops (Some (mkXr c (xq_bursts c) 0 0 0 co [] 0 true)) (flat_map ebeats bs) cmds gbs1 q qe rest out) as (cur' & cmds' & gbs' & exp' & q' & qe2 & fin & dl & R1 & R2 & R3 & R4 & R5 & R6 & R7 & R8 & R9); try assumption.
      { eexists _, _, _. split; [exact E2|symmetry; exact E3]. }
      { cbn [curf xr_left length cmdf fold_right] in *. fold (cmdf cmds) in *. lia. }
      exists cur', cmds', gbs', exp', q', qe2, fin, dl. repeat (split; [assumption|]). assumption.
Qed.

(** ** Invariant. *)
Definition rcmd_for (c : Z * Z * Z) (k : xrcmd) : Prop := xq_addr k = fst (fst c) /\ xq_len k = snd (fst c) /\ xq_prot k = snd c.
Definition ar_out (r : xrside) : list xaw := regl (xr_ar r) ++ xr_arq r.

Record xrinv (ops : list (Z * Z)) (base : list lrdone) (cmds : list (Z * Z * Z)) (r : xrside) : Prop := mkXri {
  ri_flow : exists ccs gbs exp qe qf fin dl, Forall2 rcmd_for cmds ccs /\ ccs = fin ++ xropt (xr_cur r) ++ xr_rc r /\ xr_done r = base ++ dl /\ Forall2 (rfor ops) fin dl /\
    rst ops (xr_cur r) exp /\ Forall2 (rc_ok cfg) (xr_rc r) gbs /\ exp ++ flat_map (flat_map ebeats) gbs = (qe ++ qf) ++ flat_map ebeats (ar_out r) /\
    Forall2 (beat_is ops) (xr_rq r) qe /\ Forall2 (beat_is ops) (regl (xs_r r) ++ xs_rq r) qf /\ (xr_cur r <> None -> xr_rq r = [] /\ exp <> []);
  ri_ar : Forall (legal cfg) (ar_out r) /\ Forall blim (ar_out r);
  ri_c : xr_cur r = None -> xr_rc r = [] }.

Definition rmu (r : xrside) : nat := (rwt (xr_ar r) (xr_arq r) + 4 * length (flat_map ebeats (ar_out r)) + rwt (xs_r r) (xs_rq r))%nat.
Definition rpend (r : xrside) : Z := zlen (xropt (xr_cur r) ++ xr_rc r).
Definition rempty (r : xrside) : Prop := xr_arq r = [] /\ xr_rc r = [] /\ xr_cur r = None /\ xr_rq r = [] /\ xr_ar r = None /\ xs_rq r = [] /\ xs_r r = None.

Lemma cmdf_app : forall a b, cmdf (a ++ b) = (cmdf a + cmdf b)%nat.
Proof. unfold cmdf. induction a as [|c a IH]; intro b; [reflexivity|]. cbn [app fold_right]. rewrite IH. lia. Qed.

Lemma rfuel_is : forall cur rc q, (length q + curf cur + cmdf rc <= x_rfuel cur rc q)%nat.
Proof. intros cur rc q. unfold x_rfuel, cmdf. destruct cur as [c|]; cbn [curf]; lia. Qed.

Lemma xinit_read_spec : forall ops base cmds r a n z p, xrinv ops base cmds r -> event_ok cfg (XRead a n 1 z p) ->
  exists r', x_init_read cfg r a n 1 z p = Ok r' /\ xrinv ops base (cmds ++ [(a, n, p)]) r' /\ 1 - (zlen (xr_done r') - zlen (xr_done r)) = rpend r' - rpend r.
Proof.
  intros ops base cmds r a n z p [(ccs & gbs & exp & qe & qf & fin & dl & F1 & F2 & F3 & F4 & F5 & F6 & F7 & F8 & F9 & F10) [A1 A2] HN] (E1 & E2 & E3 & _ & E4).
  unfold x_init_read. destruct (xread_spec cfg (xr_id r) a n z p (proj1 HC) E1 E2 E3 E4) as (ars & c & id' & X1 & X2 & X3 & X4 & X5 & X6). rewrite X1. cbn [bind].
  assert (flat_map (flat_map ebeats) (gbs ++ [ars]) = flat_map (flat_map ebeats) gbs ++ flat_map ebeats ars) as Eg by (rewrite flat_map_app; cbn [flat_map]; rewrite app_nil_r; reflexivity).
  assert (flat_map ebeats (ar_out r ++ ars) = flat_map ebeats (ar_out r) ++ flat_map ebeats ars) as Ea by apply flat_map_app.
  assert (exists cur' rc' gbs' exp' q' qe' fin2 dl2, (match xr_cur r with
    | None => x_rresp (x_rfuel None (xr_rc r ++ [c]) (xr_rq r)) (xc_bw cfg) None (xr_rc r ++ [c]) (xr_rq r) (xr_done r)
    | Some c0 => Ok (Some c0, xr_rc r ++ [c], xr_rq r, xr_done r) end) = Ok (cur', rc', q', xr_done r ++ dl2) /\ Forall2 (rfor ops) fin2 dl2 /\
      (xropt (xr_cur r) ++ xr_rc r) ++ [c] = fin2 ++ xropt cur' ++ rc' /\ rst ops cur' exp' /\ Forall2 (rc_ok cfg) rc' gbs' /\
      exp' ++ flat_map (flat_map ebeats) gbs' = (qe' ++ qf) ++ flat_map ebeats (ar_out r ++ ars) /\ Forall2 (beat_is ops) q' qe' /\ (cur' = None -> rc' = []) /\ (cur' <> None -> q' = [] /\ exp' <> []))
    as (cur' & rc' & gbs' & exp' & q' & qe' & fin2 & dl2 & R1 & R2 & R3 & R4 & R5 & R6 & R7 & R8 & R9).
  { assert (Forall2 (rc_ok cfg) (xr_rc r ++ [c]) (gbs ++ [ars])) as Hg by (apply f2_app_split; assumption).
    assert (exp ++ flat_map (flat_map ebeats) (gbs ++ [ars]) = qe ++ qf ++ flat_map ebeats (ar_out r ++ ars)) as He by (rewrite Eg, Ea, app_assoc, F7, <- !app_assoc; reflexivity).
    destruct (xr_cur r) as [c0|] eqn:EC.
    - exists (Some c0), (xr_rc r ++ [c]), (gbs ++ [ars]), exp, (xr_rq r), qe, [], []. rewrite app_nil_r. split; [reflexivity|]. split; [constructor|]. split; [cbn [app xropt]; reflexivity|]. split; [assumption|]. split; [assumption|].
      split; [rewrite <- app_assoc; exact He|]. split; [assumption|]. split; [discriminate|assumption].
    - destruct (rresp_spec (x_rfuel None (xr_rc r ++ [c]) (xr_rq r)) ops None exp (xr_rc r ++ [c]) (gbs ++ [ars]) (xr_rq r) qe _ (xr_done r) F5 Hg He F8 (rfuel_is _ _ _))
        as (cur' & rc' & gbs' & exp' & q' & qe2 & fin2 & dl2 & R1 & R2 & R3 & R4 & R5 & R6 & R7 & R8 & R9).
      exists cur', rc', gbs', exp', q', qe2, fin2, dl2. split; [exact R1|]. split; [assumption|]. split; [exact R3|]. split; [assumption|]. split; [assumption|]. split; [rewrite <- app_assoc; exact R6|]. split; [assumption|]. split; assumption. }
  rewrite R1. cbn [bind]. eexists. split; [reflexivity|]. split.
  - constructor; unfold ar_out; cbn [xr_cur xr_rc xr_done xr_rq xs_r xs_rq xr_ar xr_arq]; try assumption.
    + exists (ccs ++ [c]), gbs', exp', qe', qf, (fin ++ fin2), (dl ++ dl2). split; [apply f2_app_split; [assumption|split; [assumption|split; assumption]]|].
      split; [rewrite F2, <- !app_assoc; f_equal; rewrite app_assoc; exact R3|]. split; [rewrite F3, app_assoc; reflexivity|]. split; [apply Forall2_app; assumption|]. split; [assumption|]. split; [assumption|].
      split; [rewrite R6; unfold ar_out; rewrite <- !app_assoc; reflexivity|]. split; [assumption|]. split; [assumption|]. assumption.
    + rewrite app_assoc. split; apply Forall_app; split; try assumption. destruct X2 as (_ & _ & _ & _ & _ & _ & _ & _ & L & _). exact L.
  - unfold rpend. cbn [xr_done xr_cur xr_rc]. apply (f_equal (@zlen _)) in R3. rewrite !zlen_app in *. change (zlen [c]) with 1 in R3.
    assert (zlen dl2 = zlen fin2) as Em by (unfold zlen; rewrite (f2_len _ _ _ R2); reflexivity). lia.
Qed.

Lemma ebeats_nil : forall bs, Forall (legal cfg) bs -> flat_map ebeats bs = [] -> bs = [].
Proof.
  intros bs H E. destruct H as [|b bs L H]; [reflexivity|]. destruct (obeats_cons cfg b L) as (la & r & Eo). cbn [flat_map] in E. unfold ebeats in E at 1. rewrite Eo in E. discriminate.
Qed.

Lemma rempty_iff : forall ops base cmds r, xrinv ops base cmds r -> (regl (xs_r r) ++ xs_rq r = [] /\ ar_out r = []) \/ rpend r = 0 -> rempty r.
Proof.
  intros ops base cmds r [(ccs & gbs & exp & qe & qf & fin & dl & F1 & F2 & F3 & F4 & F5 & F6 & F7 & F8 & F9 & F10) [A1 A2] HN] H.
  assert (xr_cur r = None) as EC.
  { destruct H as [[H1 H2]|H]; [|unfold rpend in H; rewrite zlen_app in H; pose proof (zlen_nonneg (xr_rc r)); destruct (xr_cur r) as [c|]; [cbn [xropt] in H; change (zlen [xr_cmd c]) with 1 in H; lia|reflexivity]].
    rewrite H1 in F9. assert (qf = []) as Eqf by (inversion F9; reflexivity). rewrite H2, Eqf in F7. cbn [flat_map] in F7. rewrite !app_nil_r in F7. destruct (xr_cur r) eqn:EC; [|reflexivity]. destruct F10 as [Q1 Q2]; [discriminate|].
    rewrite Q1 in F8. assert (qe = []) as Eqe by (inversion F8; reflexivity). rewrite Eqe in F7. apply app_eq_nil in F7. tauto. }
  rewrite EC in *. specialize (HN eq_refl). rewrite HN in *. cbn [rst] in F5. subst exp. inversion F6; subst gbs. cbn [flat_map app] in F7. symmetry in F7. apply app_eq_nil in F7. destruct F7 as [F7 F7a]. apply app_eq_nil in F7. destruct F7 as [-> ->].
  inversion F8. inversion F9 as [F9a|]. apply ebeats_nil in F7a; [|assumption]. unfold ar_out in F7a. apply app_eq_nil in F7a. destruct F7a as [Z1 Z2]. symmetry in F9a. apply app_eq_nil in F9a. destruct F9a as [Z3 Z4].
  unfold rempty. repeat split; try assumption; try (symmetry; assumption); apply regl_nil; assumption.
Qed.

Lemma xedge_r_spec : forall ops base cmds r p, xrinv ops base cmds r ->
  exists r1 bs, x_edge_r cfg p r = Ok (r1, bs) /\ Forall (legal cfg) bs /\ Forall blim bs /\
    forall l, Forall2 (beat_is ops) l (flat_map ebeats bs) -> exists r', x_after_r cfg r1 l = Ok r' /\ xrinv ops base cmds r' /\
      - (zlen (xr_done r') - zlen (xr_done r)) = rpend r' - rpend r /\
      (p = mkXp false false false false false false false false false false -> (rmu r' <= rmu r)%nat /\ ((rmu r' < rmu r)%nat \/ rempty r)).
Proof.
  intros ops base cmds r p HI. pose proof HI as [(ccs & gbs & exp & qe & qf & fin & dl & F1 & F2 & F3 & F4 & F5 & F6 & F7 & F8 & F9 & F10) [A1 A2] HN]. destruct HC as (_ & _ & _ & _ & HU). unfold x_edge_r.
  destruct (xiface_spec (xr_ar r) (s_ar p) (m_ar p) (xr_arq r)) as (ar & arq & t1 & B1 & B2 & B3 & B4). rewrite B1.
  destruct (xiface_spec (xs_r r) (m_r p) (s_r p) (xs_rq r)) as (rr & rq & t2 & D1 & D2 & D3 & D4). rewrite D1.
  assert (match x_taken (xs_r r) (m_r p) with [] => false | _ :: _ => xc_buser cfg && negb (xc_ruser cfg) end = false) as ->.
  { destruct (x_taken (xs_r r) (m_r p)); [reflexivity|]. destruct (xc_buser cfg); [rewrite HU by reflexivity; reflexivity|reflexivity]. }
  unfold ar_out in *. rewrite B2 in A1, A2. apply Forall_app in A1, A2. destruct A1 as [A1 A1'], A2 as [A2 A2']. eexists _, _. split; [reflexivity|]. split; [assumption|]. split; [assumption|].
  intros l Hl. unfold x_after_r. cbn [xr_cur xr_rc xr_rq xr_done xr_id xr_arq xr_ar xs_rq xs_r].
  rewrite D2 in F9. apply Forall2_app_inv_l in F9. destruct F9 as (qf1 & qf2 & G1 & G2 & ->).
  assert (Forall2 (beat_is ops) (xr_rq r ++ x_taken (xs_r r) (m_r p)) (qe ++ qf1)) as Hq by (apply Forall2_app; assumption).
  rewrite B2, flat_map_app in F7.
  assert (exp ++ flat_map (flat_map ebeats) gbs = (qe ++ qf1) ++ qf2 ++ flat_map ebeats (x_taken (xr_ar r) (s_ar p)) ++ flat_map ebeats (regl ar ++ arq)) as He by (rewrite F7, <- !app_assoc; reflexivity).
  destruct (rresp_spec (x_rfuel (xr_cur r) (xr_rc r) (xr_rq r ++ x_taken (xs_r r) (m_r p))) ops (xr_cur r) exp (xr_rc r) gbs _ _ _ (xr_done r) F5 F6 He Hq (rfuel_is _ _ _))
    as (cur' & rc' & gbs' & exp' & q' & qe2 & fin2 & dl2 & R1 & R2 & R3 & R4 & R5 & R6 & R7 & R8 & R9).
  fold bw. rewrite R1. cbn [bind]. eexists. split; [reflexivity|].
  match goal with |- xrinv _ _ _ ?w' /\ _ => set (rn := w') end.
  assert (xrinv ops base cmds rn) as HI'.
  { constructor; unfold ar_out; cbn [rn xr_cur xr_rc xr_rq xr_done xr_id xr_arq xr_ar xs_rq xs_r]; try assumption.
    - exists ccs, gbs', exp', qe2, (qf2 ++ flat_map ebeats (x_taken (xr_ar r) (s_ar p))), (fin ++ fin2), (dl ++ dl2). split; [assumption|]. split; [rewrite F2, R3, <- app_assoc; reflexivity|].
      split; [rewrite F3, app_assoc; reflexivity|]. split; [apply Forall2_app; assumption|]. split; [assumption|]. split; [assumption|]. split; [rewrite R6, <- !app_assoc; reflexivity|]. split; [assumption|].
      split; [rewrite app_assoc; apply Forall2_app; assumption|assumption].
    - split; assumption. }
  split; [exact HI'|]. split.
  - unfold rpend. cbn [rn xr_done xr_cur xr_rc]. apply (f_equal (@zlen _)) in R3. rewrite !zlen_app in *. assert (zlen dl2 = zlen fin2) as Em by (unfold zlen; rewrite (f2_len _ _ _ R2); reflexivity). lia.
  - intros ->. cbn [m_ar m_r s_ar s_r] in *. destruct (B4 eq_refl eq_refl) as [B4a B4b]. destruct (D4 eq_refl eq_refl) as [D4a D4b].
    assert (HM : (rmu rn + length l = rwt ar arq + 4 * length (flat_map ebeats (regl (xr_ar r) ++ xr_arq r)) + rwt rr rq)%nat).
    { unfold rmu, ar_out. cbn [rn xr_ar xr_arq xs_r xs_rq]. assert (rwt rr (rq ++ l) = rwt rr rq + 3 * length l)%nat as -> by (unfold rwt; rewrite app_length; lia).
      rewrite B2, (flat_map_app ebeats (x_taken (xr_ar r) false)), app_length, <- (f2_len _ _ _ Hl). lia. }
    assert (HW : rmu r = (rwt (xr_ar r) (xr_arq r) + 4 * length (flat_map ebeats (regl (xr_ar r) ++ xr_arq r)) + rwt (xs_r r) (xs_rq r))%nat) by reflexivity.
    split; [clear - HM HW B4a D4a; lia|]. destruct B4b as [B4b|[B4b B5]]; [left; clear - HM HW B4b D4a; lia|]. destruct D4b as [D4b|[D4b D5]]; [left; clear - HM HW B4a D4b; lia|]. right.
    apply (rempty_iff _ _ _ _ HI). left. unfold ar_out. rewrite B4b, B5, D4b, D5. split; reflexivity.
Qed.

Lemma moment_mono : forall ops more m, moment ops m -> moment (ops ++ more) m.
Proof.
  intros ops more m ((k & Hk & E) & HB). split; [|assumption]. exists k. split; [rewrite app_length; lia|]. rewrite firstn_app. replace (k - length ops)%nat with O by lia. cbn [firstn]. rewrite app_nil_r. assumption.
Qed.

Lemma f2_mono : forall {A B} (P Q : A -> B -> Prop) a b, (forall x y, P x y -> Q x y) -> Forall2 P a b -> Forall2 Q a b.
Proof. intros A B P Q a b H. induction 1; constructor; auto. Qed.

Lemma beat_mono : forall ops more x e, beat_is ops x e -> beat_is (ops ++ more) x e.
Proof. intros ops more [[[id v] resp] last] [[id' a] last'] (H1 & H2 & H3 & m & H4 & H5). repeat (split; [assumption|]). exists m. split; [apply moment_mono; assumption|assumption]. Qed.

Lemma rfor_mono : forall ops more c r, rfor ops c r -> rfor (ops ++ more) c r.
Proof. intros ops more c r (H1 & H2 & H3 & H4 & H5). repeat (split; [assumption|]). intros i Hi. destruct (H5 i Hi) as (m & M1 & M2). exists m. split; [apply moment_mono; assumption|assumption]. Qed.

Lemma rst_mono : forall ops more cur exp, rst ops cur exp -> rst (ops ++ more) cur exp.
Proof.
  intros ops more [cur|] exp; [|exact (fun H => H)]. intros (lb & ca & q & [V1 V2 V3 V4 V5 V6 V7 V8 V9 V10 V11] & E). exists lb, ca, q. split; [|assumption]. constructor; try assumption.
  intros i Hi. destruct (V9 i Hi) as (m & M1 & M2). exists m. split; [apply moment_mono; assumption|assumption].
Qed.

Lemma xrinv_mono : forall ops more base cmds r, xrinv ops base cmds r -> xrinv (ops ++ more) base cmds r.
Proof.
  intros ops more base cmds r [(ccs & gbs & exp & qe & qf & fin & dl & F1 & F2 & F3 & F4 & F5 & F6 & F7 & F8 & F9 & F10) HA HN]. constructor; try assumption.
  exists ccs, gbs, exp, qe, qf, fin, dl. split; [assumption|]. split; [assumption|]. split; [assumption|]. split; [eapply f2_mono; [apply rfor_mono|eassumption]|]. split; [apply rst_mono; assumption|]. split; [assumption|]. split; [assumption|].
  split; [eapply f2_mono; [apply beat_mono|eassumption]|]. split; [eapply f2_mono; [apply beat_mono|eassumption]|assumption].
Qed.
End Reads.
