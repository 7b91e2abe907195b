(** AXI-Lite: runs with writes. *)
From Verif Require Import PyBase TlpProofs SplitProofs AxilModel AxilSpec AxilProofs.
From Coq Require Import ZifyBool ZifyNat Arith.
Ltac Zify.zify_post_hook ::= idtac.
Local Arguments Z.mul : simpl never.

Definition ol {A} (o : option A) : list A := match o with Some x => [x] | None => [] end.

Lemma iface_spec : forall {A} (v : option A) ready q, exists v' q', l_iface v ready q = (v', q') /\
  ol v' ++ q' = (match v with Some _ => if ready then q else ol v ++ q | None => q end) /\ (v' = None -> q' = []).
Proof.
  intros A v ready q. unfold l_iface. destruct v as [x|]; [destruct ready|]; try destruct q as [|y q]; eexists _, _; (split; [reflexivity|]); split; try reflexivity; discriminate.
Qed.

(** ** Write responses. *)
Definition wcr (bw : Z) (c : Z * list Z * Z) : lwcmd := mkLc (fst (fst c)) (zlen (snd (fst c))) (l_cycles bw (fst (fst c)) (zlen (snd (fst c)))) (snd c).
Definition wans (c : lwcmd) : lwdone := mkLd (lc_addr c) (lc_len c) (lc_prot c) 0.
Definition copt (cur : option (lwcmd * Z * Z)) : list lwcmd := match cur with Some (c, _, _) => [c] | None => [] end.
Definition crem (cur : option (lwcmd * Z * Z)) : Z := match cur with Some (_, n, _) => n | None => 0 end.
Definition csum (l : list lwcmd) : Z := fold_right (fun c s => lc_cycles c + s) 0 l.
Definition cok (cur : option (lwcmd * Z * Z)) : Prop := match cur with Some (c, n, r) => 0 <= n <= lc_cycles c /\ r = 0 | None => True end.
Definition cpos (l : list lwcmd) : Prop := Forall (fun c => 0 <= lc_cycles c) l.

Lemma csum_nonneg : forall l, cpos l -> 0 <= csum l.
Proof. induction 1; cbn [csum fold_right]; [lia|]. fold (csum l). lia. Qed.

Lemma csum_app : forall a b, csum (a ++ b) = csum a + csum b.
Proof. induction a as [|c a IH]; intro b; [reflexivity|]. cbn [app csum fold_right]. fold (csum (a ++ b)) (csum a). rewrite IH. lia. Qed.

Lemma wresp_spec : forall fuel cur cmds q out, cok cur -> cpos cmds -> Forall (fun r => r = 0) q ->
  (2 * length cmds + length q + (match cur with None => 1 | _ => 2 end) <= fuel)%nat ->
  exists cur' rc' q' fin, l_wresp fuel cur cmds q out = Ok (cur', rc', q', out ++ map wans fin) /\
    copt cur ++ cmds = fin ++ copt cur' ++ rc' /\ cok cur' /\ cpos rc' /\ Forall (fun r => r = 0) q' /\
    zlen q - zlen q' = (crem cur + csum cmds) - (crem cur' + csum rc') /\
    (cur' = None -> rc' = []) /\ (cur' <> None -> 0 < crem cur' /\ q' = []).
Proof.
  induction fuel; intros cur cmds q out Hc Hp Hq Hf; [destruct cur; lia|]. cbn [l_wresp]. destruct cur as [[[c n] r]|].
  - destruct Hc as [Hn ->]. destruct (Z.ltb_spec 0 n) as [L|L].
    + destruct q as [|x q].
      * exists (Some (c, n, 0)), cmds, [], []. rewrite app_nil_r. split; [reflexivity|]. split; [reflexivity|]. split; [split; [assumption|reflexivity]|]. split; [assumption|].
        split; [constructor|]. split; [lia|]. split; [discriminate|]. intros _. split; [exact L|reflexivity].
      * inversion_clear Hq as [|? ? Hx Hq']. subst x. cbn [Z.eqb]. destruct (IHfuel (Some (c, n - 1, 0)) cmds q out) as (cur' & rc' & q' & fin & H1 & H2 & H3 & H4 & H5 & H6 & H7 & H8); try assumption.
        { split; [lia|reflexivity]. }
        { cbn [length] in Hf. lia. }
        exists cur', rc', q', fin. split; [assumption|]. split; [assumption|]. split; [assumption|]. split; [assumption|]. split; [assumption|].
        cbn [crem] in *. replace (zlen (0 :: q)) with (zlen q + 1) by (unfold zlen; cbn [length]; lia). split; [lia|]. split; assumption.
    + destruct (IHfuel None cmds q (out ++ [wans c])) as (cur' & rc' & q' & fin & H1 & H2 & H3 & H4 & H5 & H6 & H7 & H8); try assumption; try exact I; [lia|].
      exists cur', rc', q', (c :: fin). split; [change (mkLd (lc_addr c) (lc_len c) (lc_prot c) 0) with (wans c); rewrite H1; cbn [map]; rewrite <- app_assoc; reflexivity|].
      split; [cbn [copt app] in *; rewrite H2; reflexivity|]. split; [assumption|]. split; [assumption|]. split; [assumption|].
      cbn [crem] in *. split; [lia|]. split; assumption.
  - destruct cmds as [|c cmds].
    + exists None, [], q, []. rewrite app_nil_r. split; [reflexivity|]. split; [reflexivity|]. split; [exact I|]. split; [constructor|]. split; [assumption|].
      split; [lia|]. split; [reflexivity|congruence].
    + inversion_clear Hp as [|? ? Hp1 Hp2].
      destruct (IHfuel (Some (c, lc_cycles c, 0)) cmds q out) as (cur' & rc' & q' & fin & H1 & H2 & H3 & H4 & H5 & H6 & H7 & H8); try assumption.
      { split; [lia|reflexivity]. }
      { cbn [length] in Hf. lia. }
      exists cur', rc', q', fin. split; [assumption|]. split; [assumption|]. split; [assumption|]. split; [assumption|]. split; [assumption|].
      cbn [crem csum fold_right] in *. split; [fold (csum cmds) in *; lia|]. split; assumption.
Qed.

(** ** Expansion of commands. *)
Definition pieces_for (bw : Z) (c : Z * list Z * Z) (ps : list (Z * list Z)) : Prop :=
  pieces_ops ps = byte_ops (fst (fst c)) (snd (fst c)) /\ zlen ps = lc_cycles (wcr bw c).

Lemma f2_len : forall {A B} (P : A -> B -> Prop) a b, Forall2 P a b -> length a = length b.
Proof. induction 1; cbn; congruence. Qed.

Lemma words_are_app : forall bw a b c d, words_are bw a c -> words_are bw b d -> words_are bw (a ++ b) (c ++ d).
Proof. intros. apply Forall2_app; assumption. Qed.

Lemma wcmds_spec : forall bw cs, lanes_ok bw -> Forall write_ok cs -> exists ws pss, l_wcmds bw cs = Ok (ws, map (wcr bw) cs) /\
  words_are bw ws (concat pss) /\ Forall2 (pieces_for bw) cs pss /\ zlen ws = csum (map (wcr bw) cs) /\ cpos (map (wcr bw) cs).
Proof.
  intros bw cs Hb. induction 1 as [|[[a d] p] cs (H1 & H2 & H3) H IH]; cbn [l_wcmds].
  - exists [], []. repeat split; constructor.
  - destruct IH as (ws & pss & E & W1 & W2 & W3 & W4). destruct (write_words_spec bw a d Hb H1 H2 H3) as (w & ps & E1 & E2 & E3 & E4). rewrite E1, E. cbn [bind].
    exists (w ++ ws), (ps :: pss). split; [reflexivity|]. split; [cbn [concat]; apply words_are_app; assumption|].
    assert (zlen w = zlen ps) as EL by (unfold zlen; f_equal; eapply f2_len; exact E3).
    split; [constructor; [split; [exact E4|cbn [wcr lc_cycles fst snd]; congruence]|assumption]|].
    split; [rewrite zlen_app, W3, E2; reflexivity|]. constructor; [|assumption]. cbn [wcr lc_cycles fst snd]. rewrite <- E2. apply zlen_nonneg.
Qed.

Lemma pieces_app : forall a b, pieces_ops (a ++ b) = pieces_ops a ++ pieces_ops b.
Proof. intros. unfold pieces_ops. apply flat_map_app. Qed.

Lemma pieces_all : forall bw cs pss, Forall2 (pieces_for bw) cs pss -> pieces_ops (concat pss) = all_ops cs.
Proof.
  induction 1 as [|c ps cs pss [H1 H2] H IH]; [reflexivity|]. cbn [concat]. rewrite pieces_app, IH, H1. reflexivity.
Qed.

Lemma pieces_len : forall bw cs pss, Forall2 (pieces_for bw) cs pss -> zlen (concat pss) = csum (map (wcr bw) cs).
Proof.
  induction 1 as [|c ps cs pss [H1 H2] H IH]; [reflexivity|]. cbn [concat map csum fold_right]. rewrite zlen_app, IH, H2. reflexivity.
Qed.

(** ** Invariant. *)
Definition rquiet (r : lrside) : Prop :=
  rs_cmd r = [] /\ rs_arq r = [] /\ rs_rc r = [] /\ rs_cur r = None /\ rs_rq r = [] /\ rs_ar r = None /\ rs_ph r = RAddr /\ rs_arready r = true /\ rs_r r = None.

Lemma rquiet_step : forall bw size lat r m, rquiet r -> l_ram_r bw size lat r m = Ok (RAddr, true, None, m) /\ l_master_r bw r (RAddr, true, None) = Ok (r, 0).
Proof.
  intros bw size lat [a b c d e f g h i j] m (H1 & H2 & H3 & H4 & H5 & H6 & H7 & H8 & H9). cbn in *. subst. split; [reflexivity|].
  unfold l_master_r, l_rcmds. cbn. rewrite Z.sub_diag. reflexivity.
Qed.

Definition vs (w : lword) : Z * Z := (lw_val w, lw_strb w).

Definition phase_ok (bw size : Z) (w : lwside) (pos : Z) (todo : list lword) : Prop :=
  ol (ws_w w) ++ ws_wq w = map vs todo /\
  match ws_ph w with
  | WAddr => ol (ws_aw w) ++ ws_awq w = map lw_addr todo /\ ws_awready w = true /\ ws_wready w = false /\ ws_bvalid w = false
  | WLat n addr => exists x rest, todo = x :: rest /\ addr = int_truediv (lw_addr x) bw * bw /\ ol (ws_aw w) ++ ws_awq w = map lw_addr rest /\
                   ws_awready w = false /\ ws_wready w = false /\ ws_bvalid w = false
  | WData => exists x rest, todo = x :: rest /\ pos = (int_truediv (lw_addr x) bw * bw) mod size /\ ol (ws_aw w) ++ ws_awq w = map lw_addr rest /\
                   ws_awready w = false /\ ws_wready w = true /\ ws_bvalid w = false
  | WResp => ol (ws_aw w) ++ ws_awq w = map lw_addr todo /\ ws_awready w = false /\ ws_wready w = false /\ ws_bvalid w = true
  end.

Record winv (bw size : Z) (m0 : Z -> Z) (base : list lwdone) (rd : lrside) (cmds : list (Z * list Z * Z)) (s : lstate) : Prop := mkWinv {
  wv_cmds : Forall write_ok cmds;
  wv_flow : exists ec pss dn todo fin,
    cmds = ec ++ ws_cmd (ls_w s) /\ Forall2 (pieces_for bw) ec pss /\ words_are bw (dn ++ todo) (concat pss) /\
    holds size (lm_data (ls_mem s)) (put_ops size m0 (pieces_ops (firstn (length dn) (concat pss)))) /\
    phase_ok bw size (ls_w s) (lm_pos (ls_mem s)) todo /\
    map (wcr bw) ec = fin ++ copt (ws_cur (ls_w s)) ++ ws_rc (ls_w s) /\
    ws_done (ls_w s) = base ++ map wans fin /\
    zlen (ws_rq (ls_w s)) + (if ws_bvalid (ls_w s) then 1 else 0) + zlen todo = crem (ws_cur (ls_w s)) + csum (ws_rc (ls_w s));
  wv_bytes : Forall is_byte (lm_data (ls_mem s));
  wv_cur : cok (ws_cur (ls_w s));
  wv_pos : cpos (ws_rc (ls_w s));
  wv_rq : Forall (fun r => r = 0) (ws_rq (ls_w s));
  wv_fly : ls_fly s = zlen (copt (ws_cur (ls_w s)) ++ ws_rc (ls_w s));
  wv_aw : ws_aw (ls_w s) = None -> ws_awq (ls_w s) = [];
  wv_w : ws_w (ls_w s) = None -> ws_wq (ls_w s) = [];
  wv_r : ls_r s = rd /\ rquiet rd }.

Definition wmeasure (lat : nat) (w : lwside) : nat :=
  (length (ol (ws_w w) ++ ws_wq w) * (lat + 6) +
   match ws_ph w with WAddr => match ws_aw w with None => lat + 4 | Some _ => lat + 3 end | WLat n _ => n + 2 | WData => 1 | WResp => lat + 5 end)%nat.

Lemma words_split : forall bw x dn rest ps, words_are bw (dn ++ x :: rest) ps -> exists a d, word_is bw x a d /\
  pieces_ops (firstn (length (dn ++ [x])) ps) = pieces_ops (firstn (length dn) ps) ++ byte_ops a d.
Proof.
  intros bw x. induction dn as [|y dn IH]; intros rest ps H; inversion_clear H as [|? p ? ps' H1 H2].
  - exists (fst p), (snd p). split; [assumption|]. cbn. rewrite app_nil_r. reflexivity.
  - destruct (IH rest ps' H2) as (a & d & W & E). exists a, d. split; [assumption|]. cbn [app length firstn]. unfold pieces_ops in *. cbn [flat_map]. rewrite E, app_assoc. reflexivity.
Qed.

Lemma zlen_cons1 : forall {A} (x : A) l, zlen (x :: l) = zlen l + 1.
Proof. intros. unfold zlen. cbn [length]. lia. Qed.

Section Run.
Variables (bw size : Z) (lat : nat).
Hypothesis (Hb : lanes_ok bw) (Hs : 0 < size) (Hd : (bw | size)).

Lemma ram_w_spec : forall m0 pss dn todo w l pos,
  words_are bw (dn ++ todo) (concat pss) -> holds size l (put_ops size m0 (pieces_ops (firstn (length dn) (concat pss)))) -> Forall is_byte l ->
  phase_ok bw size w pos todo -> (ws_aw w = None -> ws_awq w = []) -> (ws_w w = None -> ws_wq w = []) ->
  exists ph awr wr bv l' pos' dn' todo', l_ram_w bw size lat w (mkLm l pos) = Ok (ph, awr, wr, bv, mkLm l' pos') /\
    dn' ++ todo' = dn ++ todo /\ holds size l' (put_ops size m0 (pieces_ops (firstn (length dn') (concat pss)))) /\ Forall is_byte l' /\
    (bv = true -> zlen todo' + 1 = zlen todo) /\ (bv = false -> todo' = todo) /\
    forall aw awq wv wq ext cmd rc cur rq done,
      ol aw ++ awq = (match ws_aw w with Some _ => if ws_awready w then ws_awq w else ol (ws_aw w) ++ ws_awq w | None => ws_awq w end) ++ map lw_addr ext ->
      ol wv ++ wq = (match ws_w w with Some _ => if ws_wready w then ws_wq w else ol (ws_w w) ++ ws_wq w | None => ws_wq w end) ++ map vs ext ->
      phase_ok bw size (mkWs cmd awq wq rc cur rq done aw wv ph awr wr bv) pos' (todo' ++ ext) /\
      (ext = [] -> (wmeasure lat (mkWs cmd awq wq rc cur rq done aw wv ph awr wr bv) < wmeasure lat w)%nat \/ ws_ph w = WAddr /\ todo = []).
Proof.
  intros m0 pss dn todo w l pos HW HM HB [HPw HP] Haw Hw. unfold l_ram_w. unfold phase_ok in *. pose proof (lanes_range bw Hb) as Hr.
  destruct (ws_ph w) as [|n addr| |] eqn:EP.
  - destruct HP as (HP1 & HP2 & HP3 & HP4). rewrite HP2, HP3, HP4. destruct (ws_aw w) as [a|] eqn:EA.
    + destruct todo as [|x rest]; [discriminate|]. cbn [ol app map] in HP1. injection HP1 as E1 E2.
      destruct (words_split bw x dn rest _ HW) as (a' & d & WI & _). destruct (word_store bw size x a' d l _ ltac:(lia) Hs Hd WI HM HB) as (p & l' & S1 & S2 & S3 & _).
      destruct lat as [|n] eqn:EL.
      * unfold l_wseek. rewrite E1. unfold lm_seek in *. cbn [lm_data] in *. rewrite S3 in *. destruct ((p <? 0) || (zlen l <? p)); [discriminate|]. cbn [bind].
        exists WData, false, true, false, l, p, dn, (x :: rest). split; [reflexivity|]. split; [reflexivity|]. split; [assumption|]. split; [assumption|]. split; [discriminate|]. split; [reflexivity|].
        intros aw awq wv wq ext cmd rc cur rq done A1 A2. cbn [ws_w ws_wq ws_ph ws_aw ws_awq ws_awready ws_wready ws_bvalid].
        assert (ol wv ++ wq = map vs ((x :: rest) ++ ext)) as A2'.
        { rewrite A2, map_app, <- HPw. destruct (ws_w w) eqn:EW; [reflexivity|rewrite Hw by reflexivity; reflexivity]. }
        split; [split; [assumption|]; exists x, (rest ++ ext); rewrite S3; repeat split; rewrite A1, E2, map_app; reflexivity|].
        intros ->. left. unfold wmeasure. cbn [ws_w ws_wq ws_ph ws_aw]. rewrite A2', HPw, EP, EA, app_nil_r. lia.
      * exists (WLat n (int_truediv a bw * bw)), false, false, false, l, pos, dn, (x :: rest). split; [reflexivity|]. split; [reflexivity|]. split; [assumption|]. split; [assumption|]. split; [discriminate|]. split; [reflexivity|].
        intros aw awq wv wq ext cmd rc cur rq done A1 A2. cbn [ws_w ws_wq ws_ph ws_aw ws_awq ws_awready ws_wready ws_bvalid].
        assert (ol wv ++ wq = map vs ((x :: rest) ++ ext)) as A2'.
        { rewrite A2, map_app, <- HPw. destruct (ws_w w) eqn:EW; [reflexivity|rewrite Hw by reflexivity; reflexivity]. }
        split; [split; [assumption|]; exists x, (rest ++ ext); rewrite E1; repeat split; rewrite A1, E2, map_app; reflexivity|].
        intros ->. left. unfold wmeasure. cbn [ws_w ws_wq ws_ph ws_aw]. rewrite A2', HPw, EP, EA, app_nil_r. lia.
    + exists WAddr, true, false, false, l, pos, dn, todo. split; [reflexivity|]. split; [reflexivity|]. split; [assumption|]. split; [assumption|]. split; [discriminate|]. split; [reflexivity|].
      intros aw awq wv wq ext cmd rc cur rq done A1 A2. cbn [ws_w ws_wq ws_ph ws_aw ws_awq ws_awready ws_wready ws_bvalid].
      rewrite Haw in * by reflexivity. cbn [ol app] in *. destruct todo as [|x rest]; [|discriminate]. cbn [map app] in *.
      split; [|intros _; right; split; reflexivity]. split; [|repeat split; assumption].
      rewrite A2. destruct (ws_w w); [discriminate|]. cbn [ol app] in HPw. rewrite HPw. reflexivity.
  - destruct HP as (x & rest & -> & HA & HP1 & HP2 & HP3 & HP4). rewrite HP2, HP3, HP4.
    destruct (words_split bw x dn rest _ HW) as (a' & d & WI & _). destruct (word_store bw size x a' d l _ ltac:(lia) Hs Hd WI HM HB) as (p & l' & S1 & S2 & S3 & _).
    destruct n as [|n].
    + unfold l_wseek. rewrite HA. unfold lm_seek in *. cbn [lm_data] in *. rewrite S3 in *. destruct ((p <? 0) || (zlen l <? p)); [discriminate|]. cbn [bind].
      exists WData, false, true, false, l, p, dn, (x :: rest). split; [reflexivity|]. split; [reflexivity|]. split; [assumption|]. split; [assumption|]. split; [discriminate|]. split; [reflexivity|].
      intros aw awq wv wq ext cmd rc cur rq done A1 A2. cbn [ws_w ws_wq ws_ph ws_aw ws_awq ws_awready ws_wready ws_bvalid].
      assert (ol wv ++ wq = map vs ((x :: rest) ++ ext)) as A2'.
      { rewrite A2, map_app, <- HPw. destruct (ws_w w) eqn:EW; [reflexivity|rewrite Hw by reflexivity; reflexivity]. }
      split; [split; [assumption|]; exists x, (rest ++ ext); rewrite S3; repeat split; rewrite A1, map_app, <- HP1; destruct (ws_aw w); reflexivity|].
      intros ->. left. unfold wmeasure. cbn [ws_w ws_wq ws_ph ws_aw]. rewrite A2', HPw, EP, app_nil_r. lia.
    + exists (WLat n addr), false, false, false, l, pos, dn, (x :: rest). split; [reflexivity|]. split; [reflexivity|]. split; [assumption|]. split; [assumption|]. split; [discriminate|]. split; [reflexivity|].
      intros aw awq wv wq ext cmd rc cur rq done A1 A2. cbn [ws_w ws_wq ws_ph ws_aw ws_awq ws_awready ws_wready ws_bvalid].
      assert (ol wv ++ wq = map vs ((x :: rest) ++ ext)) as A2'.
      { rewrite A2, map_app, <- HPw. destruct (ws_w w) eqn:EW; [reflexivity|rewrite Hw by reflexivity; reflexivity]. }
      split; [split; [assumption|]; exists x, (rest ++ ext); repeat split; try assumption; rewrite A1, map_app, <- HP1; destruct (ws_aw w); reflexivity|].
      intros ->. left. unfold wmeasure. cbn [ws_w ws_wq ws_ph ws_aw]. rewrite A2', HPw, EP, app_nil_r. lia.
  - destruct HP as (x & rest & -> & HA & HP1 & HP2 & HP3 & HP4). rewrite HP2, HP3, HP4.
    destruct (ws_w w) as [[val strb]|] eqn:EW; [|rewrite Hw in HPw by reflexivity; discriminate].
    cbn [ol app map] in HPw. injection HPw as E1 E2 E3.
    destruct (words_split bw x dn rest _ HW) as (a' & d & WI & Eops). destruct (word_store bw size x a' d l _ ltac:(lia) Hs Hd WI HM HB) as (p & l' & S1 & S2 & S3 & S4 & S5 & S6 & S7).
    rewrite S3 in HA. subst pos. rewrite E1, E2, S4. cbn [bind].
    exists WResp, false, false, true, l', (p + bw), (dn ++ [x]), rest. split; [reflexivity|]. split; [rewrite <- app_assoc; reflexivity|].
    split; [rewrite Eops, put_ops_app; assumption|]. split; [assumption|]. split; [intros _; rewrite zlen_cons1; reflexivity|]. split; [discriminate|].
    intros aw awq wv wq ext cmd rc cur rq done A1 A2. cbn [ws_w ws_wq ws_ph ws_aw ws_awq ws_awready ws_wready ws_bvalid].
    rewrite E3 in A2. rewrite <- map_app in A2.
    split; [split; [assumption|]; repeat split; rewrite A1, map_app, <- HP1; destruct (ws_aw w); reflexivity|].
    intros ->. left. unfold wmeasure. cbn [ws_w ws_wq ws_ph ws_aw]. rewrite A2, EP, EW, app_nil_r, E3. cbn [ol app length]. lia.
  - destruct HP as (HP1 & HP2 & HP3 & HP4). rewrite HP3.
    exists WAddr, true, false, false, l, pos, dn, todo. split; [reflexivity|]. split; [reflexivity|]. split; [assumption|]. split; [assumption|]. split; [discriminate|]. split; [reflexivity|].
    intros aw awq wv wq ext cmd rc cur rq done A1 A2. cbn [ws_w ws_wq ws_ph ws_aw ws_awq ws_awready ws_wready ws_bvalid]. rewrite HP2 in A1.
    assert (ol wv ++ wq = map vs (todo ++ ext)) as A2'.
    { rewrite A2, map_app, <- HPw. destruct (ws_w w) eqn:EW; reflexivity. }
    split; [split; [assumption|]; repeat split; rewrite A1, map_app, <- HP1; destruct (ws_aw w); reflexivity|].
    intros ->. left. unfold wmeasure. cbn [ws_w ws_wq ws_ph ws_aw]. rewrite A2', HPw, EP, app_nil_r. destruct aw; lia.
Qed.

Lemma wedge : forall rf m0 base rd cmds s, winv bw size m0 base rd cmds s ->
  exists s', l_edge bw size lat rf s = Ok s' /\ winv bw size m0 base rd cmds s' /\ ws_cmd (ls_w s') = [] /\
    (ws_cmd (ls_w s) = [] -> (wmeasure lat (ls_w s') < wmeasure lat (ls_w s))%nat \/
       (ws_ph (ls_w s) = WAddr /\ ol (ws_w (ls_w s)) ++ ws_wq (ls_w s) = [] /\ l_idle s' = true)).
Proof.
  intros rf m0 base rd cmds [w r fly [l pos]] [I1 (ec & pss & dn & todo & fin & F1 & F2 & F3 & F4 & F5 & F6 & F7 & F8) I2 I3 I4 I5 I6 I7 I8 [I9 I10]].
  cbn [ls_w ls_r ls_fly ls_mem lm_data lm_pos] in *. subst r.
  destruct (ram_w_spec m0 pss dn todo w l pos F3 F4 I2 F5 I7 I8) as (ph & awr & wr & bv & l' & pos' & dn' & todo' & R1 & R2 & R3 & R4 & R5 & R6 & R7).
  assert (Forall write_ok (ws_cmd w)) as Hok by (rewrite F1 in I1; apply Forall_app in I1; tauto).
  destruct (wcmds_spec bw (ws_cmd w) Hb Hok) as (ext & pss2 & X1 & X2 & X3 & X4 & X5).
  unfold l_edge. cbn [ls_w ls_r ls_fly ls_mem].
  assert ((if rf
     then let! (ph, rdy, r, m) := l_ram_r bw size lat rd (mkLm l pos) in let! (wph, awr, wr, bv, m0) := l_ram_w bw size lat w m in Ok (wph, awr, wr, bv, (ph, rdy, r), m0)
     else let! (wph, awr, wr, bv, m) := l_ram_w bw size lat w (mkLm l pos) in let! (ph, rdy, r, m0) := l_ram_r bw size lat rd m in Ok (wph, awr, wr, bv, (ph, rdy, r), m0))
    = Ok ((ph, awr, wr, bv), (RAddr, true, @None Z), mkLm l' pos')) as ->.
  { destruct rf; [rewrite (proj1 (rquiet_step bw size lat rd _ I10)); cbn [bind]; rewrite R1; reflexivity|].
    rewrite R1. cbn [bind]. rewrite (proj1 (rquiet_step bw size lat rd _ I10)). reflexivity. }
  cbn [bind]. unfold l_master_w. rewrite X1. cbn [bind].
  assert (cpos (ws_rc w ++ map (wcr bw) (ws_cmd w))) as Hcp by (apply Forall_app; split; assumption).
  destruct (wresp_spec (2 * length (ws_rc w ++ map (wcr bw) (ws_cmd w)) + length (ws_rq w) + 3) (ws_cur w) (ws_rc w ++ map (wcr bw) (ws_cmd w)) (ws_rq w) (ws_done w) I3 Hcp I5)
    as (cur' & rc' & q' & fin2 & W1 & W2 & W3 & W4 & W5 & W6 & W7 & W8); [destruct (ws_cur w); lia|].
  rewrite W1. cbn [bind].
  destruct (iface_spec (ws_aw w) (ws_awready w) (ws_awq w ++ map lw_addr ext)) as (aw & awq & A1 & A2 & A3). rewrite A1.
  destruct (iface_spec (ws_w w) (ws_wready w) (ws_wq w ++ map (fun x => (lw_val x, lw_strb x)) ext)) as (wv & wq & B1 & B2 & B3). rewrite B1.
  rewrite (proj2 (rquiet_step bw size lat rd (mkLm l' pos') I10)). cbn [bind].
  set (rq' := if ws_bvalid w then q' ++ [0] else q').
  assert (zlen rq' = zlen q' + (if ws_bvalid w then 1 else 0)) as Hrq by (unfold rq'; destruct (ws_bvalid w); [rewrite zlen_app; reflexivity|lia]).
  destruct (R7 aw awq wv wq ext [] rc' cur' rq' (ws_done w ++ map wans fin2)) as [P1 P2].
  { rewrite A2. destruct (ws_aw w); [destruct (ws_awready w)|]; reflexivity. }
  { rewrite B2. destruct (ws_w w); [destruct (ws_wready w)|]; reflexivity. }
  assert (zlen rq' + (if bv then 1 else 0) + zlen (todo' ++ ext) = crem cur' + csum rc') as Hcount.
  { rewrite csum_app in W6. rewrite zlen_app. clear - W6 F8 Hrq R5 R6 X4. destruct bv; [specialize (R5 eq_refl)|rewrite R6 by reflexivity]; lia. }
  eexists. split; [reflexivity|]. cbn [ls_w ls_r ls_fly ls_mem]. split; [|split; [reflexivity|]].
  - constructor; cbn [ls_w ls_r ls_fly ls_mem lm_data lm_pos ws_cmd ws_done ws_rq ws_cur ws_rc ws_bvalid ws_aw ws_awq ws_w ws_wq]; try assumption.
    + exists (ec ++ ws_cmd w), (pss ++ pss2), dn', (todo' ++ ext), (fin ++ fin2). rewrite !app_nil_r, concat_app.
      split; [assumption|]. split; [apply Forall2_app; assumption|]. split; [rewrite app_assoc, R2; apply words_are_app; assumption|]. split; [|split; [exact P1|]].
      * assert (length dn' <= length (concat pss))%nat as HL. { rewrite <- (f2_len _ _ _ F3), <- R2, app_length. lia. }
        rewrite firstn_app. replace (length dn' - length (concat pss))%nat with O by lia. cbn [firstn]. rewrite app_nil_r. assumption.
      * split; [rewrite map_app, F6, <- !app_assoc; f_equal; exact W2|].
        split; [rewrite F7, map_app, app_assoc; reflexivity|]. exact Hcount.
    + unfold rq'. destruct (ws_bvalid w); [apply Forall_app; split; [assumption|constructor; [reflexivity|constructor]]|assumption].
    + apply (f_equal (@zlen _)) in W2. rewrite !zlen_app in *. rewrite I6. unfold zlen in *. rewrite !map_length in *. lia.
    + split; [reflexivity|assumption].
  - intro HC. assert (ext = []) as Hext. { rewrite HC in X1. cbn in X1. injection X1 as <-. reflexivity. }
    destruct (P2 Hext) as [Hlt|[HA Ht]]; [left; exact Hlt|right]. split; [assumption|]. destruct F5 as [F5a F5b]. rewrite Ht in F5a. split; [exact F5a|].
    unfold l_idle. cbn [ls_w ls_r ls_fly ws_cmd]. destruct I10 as (-> & _). rewrite HC. cbn [map zlen length].
    assert (ws_bvalid w = false) as HBv by (rewrite HA in F5b; tauto).
    assert (todo' = []) as Ht'. { subst todo. apply (f_equal (@length _)) in R2. destruct bv; [specialize (R5 eq_refl); pose proof (zlen_nonneg todo'); change (zlen (@nil lword)) with 0 in R5; lia|apply R6; reflexivity]. }
    rewrite Ht', Hext, HBv in *. cbn [app] in Hcount. change (zlen (@nil lword)) with 0 in *.
    assert (bv = false) as Hbv by (destruct bv; [specialize (R5 eq_refl); subst todo; change (zlen (@nil lword)) with 0 in R5; lia|reflexivity]).
    rewrite Hbv in Hcount. pose proof (csum_nonneg rc' W4) as Hcs.
    assert (cur' = None) as Ec.
    { destruct cur' as [c'|]; [|reflexivity]. exfalso. destruct W8 as [W8a W8b]; [discriminate|]. rewrite W8b in *. change (zlen (@nil Z)) with 0 in Hrq. lia. }
    specialize (W7 Ec). rewrite Ec, W7 in W2. apply (f_equal (@zlen _)) in W2. cbn [copt] in W2. rewrite !app_nil_r in W2. rewrite HC in W2. cbn [map] in W2. rewrite app_nil_r in W2. rewrite I6, W2.
    rewrite zlen_app. unfold zlen. rewrite map_length. cbn [length]. lia.
Qed.

Lemma wrun : forall evs m0 base rd cmds s, Forall write_ok (writes evs) -> reads evs = [] -> winv bw size m0 base rd cmds s ->
  exists s', l_run bw size lat evs s = Ok s' /\ winv bw size m0 base rd (cmds ++ writes evs) s'.
Proof.
  induction evs as [|[a d p|a n p|rf] evs IH]; intros m0 base rd cmds s Hok Hrd Hi; cbn [l_run writes reads] in *.
  - rewrite app_nil_r. exists s. split; [reflexivity|assumption].
  - inversion_clear Hok as [|? ? H1 H2]. cbn [l_step bind].
    replace (cmds ++ (a, d, p) :: writes evs) with ((cmds ++ [(a, d, p)]) ++ writes evs) by (rewrite <- app_assoc; reflexivity).
    apply IH; try assumption.
    destruct Hi as [I1 (ec & pss & dn & todo & fin & F1 & F2 & F3 & F4 & F5 & F6 & F7 & F8) I2 I3 I4 I5 I6 I7 I8 I9].
    constructor; cbn [ls_w ls_r ls_fly ls_mem lm_data lm_pos ws_cmd ws_done ws_rq ws_cur ws_rc ws_bvalid ws_aw ws_awq ws_w ws_wq]; try assumption.
    + apply Forall_app. split; [assumption|constructor; [assumption|constructor]].
    + exists ec, pss, dn, todo, fin. split; [rewrite F1, app_assoc; reflexivity|]. repeat (split; [assumption|]). assumption.
  - discriminate.
  - cbn [l_step]. destruct (wedge rf m0 base rd cmds s Hi) as (s1 & E & I1 & _). rewrite E. cbn [bind]. apply IH; assumption.
Qed.

Definition wquiet (w : lwside) : Prop :=
  ws_cmd w = [] /\ ws_awq w = [] /\ ws_wq w = [] /\ ws_rc w = [] /\ ws_cur w = None /\ ws_rq w = [] /\ ws_aw w = None /\ ws_w w = None /\
  ws_ph w = WAddr /\ ws_awready w = true /\ ws_wready w = false /\ ws_bvalid w = false.

Definition quiet (m : Z -> Z) (s : lstate) : Prop :=
  wquiet (ls_w s) /\ rquiet (ls_r s) /\ ls_fly s = 0 /\ holds size (lm_data (ls_mem s)) m /\ Forall is_byte (lm_data (ls_mem s)).

Lemma winv0 : forall m s, quiet m s -> winv bw size m (ws_done (ls_w s)) (ls_r s) [] s.
Proof.
  intros m s ((W1 & W2 & W3 & W4 & W5 & W6 & W7 & W8 & W9 & W10 & W11 & W12) & Q2 & Q3 & Q4 & Q5).
  constructor; try (rewrite ?W1, ?W2, ?W3, ?W4, ?W5, ?W6, ?W7, ?W8, ?W9, ?Q3; try assumption; try constructor; try reflexivity; try assumption; fail).
  - exists [], [], [], [], []. rewrite W1, W4, W5, W6, W12. cbn [concat length firstn app map]. rewrite app_nil_r. split; [reflexivity|]. split; [constructor|]. split; [constructor|]. split; [assumption|].
    split; [unfold phase_ok; rewrite W2, W3, W7, W8, W9; repeat split; assumption|]. split; [reflexivity|]. split; [rewrite ?app_nil_r; reflexivity|]. reflexivity.
Qed.

Lemma widle : forall m0 base rd cmds s, winv bw size m0 base rd cmds s -> l_idle s = true ->
  quiet (put_ops size m0 (all_ops cmds)) s /\ ws_done (ls_w s) = base ++ write_answers cmds /\ ls_r s = rd.
Proof.
  intros m0 base rd cmds s [I1 (ec & pss & dn & todo & fin & F1 & F2 & F3 & F4 & F5 & F6 & F7 & F8) I2 I3 I4 I5 I6 I7 I8 [I9 I10]] Hi.
  unfold l_idle in Hi. destruct (ws_cmd (ls_w s)) eqn:EC; [|discriminate]. rewrite I9 in Hi. destruct I10 as (Q1 & Q2). rewrite Q1 in Hi. cbn iota in Hi. apply Z.eqb_eq in Hi.
  rewrite app_nil_r in F1. subst ec.
  assert (copt (ws_cur (ls_w s)) ++ ws_rc (ls_w s) = []) as E by (destruct (copt (ws_cur (ls_w s)) ++ ws_rc (ls_w s)) as [|c0 l0]; [reflexivity|rewrite zlen_cons1 in I6; pose proof (zlen_nonneg l0); lia]).
  apply app_eq_nil in E. destruct E as [E1 E2]. assert (ws_cur (ls_w s) = None) as E1' by (destruct (ws_cur (ls_w s)) as [[[c n] x]|]; [discriminate|reflexivity]).
  rewrite E1', E2 in *. cbn [crem csum fold_right] in F8. pose proof (zlen_nonneg (ws_rq (ls_w s))). pose proof (zlen_nonneg todo).
  assert (ws_bvalid (ls_w s) = false) as EB by (destruct (ws_bvalid (ls_w s)); [lia|reflexivity]). rewrite EB in F8.
  assert (todo = []) as Et by (destruct todo; [reflexivity|rewrite zlen_cons1 in *; pose proof (zlen_nonneg todo); lia]).
  assert (ws_rq (ls_w s) = []) as Er by (destruct (ws_rq (ls_w s)) as [|x l]; [reflexivity|rewrite zlen_cons1 in *; pose proof (zlen_nonneg l); lia]).
  subst todo. destruct F5 as [P1 P2]. destruct (ws_w (ls_w s)) eqn:EW; [discriminate|].
  assert (ws_ph (ls_w s) = WAddr /\ ol (ws_aw (ls_w s)) ++ ws_awq (ls_w s) = [] /\ ws_awready (ls_w s) = true /\ ws_wready (ls_w s) = false) as (P3 & P4 & P5 & P6).
  { destruct (ws_ph (ls_w s)) as [|n a| |]; [tauto| | |destruct P2 as (_ & _ & _ & P2); congruence]; destruct P2 as (x & rest & P2 & _); discriminate. }
  destruct (ws_aw (ls_w s)) eqn:EA; [discriminate|]. cbn [ol app] in P4.
  split; [|split; [|assumption]].
  - split; [|split; [rewrite I9; split; assumption|split; [rewrite I6; reflexivity|split; [|assumption]]]].
    + unfold wquiet. rewrite I8 by reflexivity. repeat split; assumption.
    + rewrite app_nil_r in F3. rewrite (f2_len _ _ _ F3), firstn_all in F4. rewrite (pieces_all bw _ _ F2) in F4. assumption.
  - rewrite F7. f_equal. cbn [copt app] in F6. rewrite app_nil_r in F6. rewrite <- F6, map_map. reflexivity.
Qed.

Lemma wprogress : forall k m0 base rd cmds s rf, (wmeasure lat (ls_w s) <= k)%nat -> ws_cmd (ls_w s) = [] -> winv bw size m0 base rd cmds s ->
  exists n s', l_run bw size lat (edges rf n) s = Ok s' /\ winv bw size m0 base rd cmds s' /\ l_idle s' = true.
Proof.
  induction k; intros m0 base rd cmds s rf Hk Hc Hi; destruct (wedge rf m0 base rd cmds s Hi) as (s1 & E & I1 & C1 & M); destruct (M Hc) as [M1|(M1 & M2 & M3)]; try lia.
  - exists 1%nat, s1. cbn [edges repeat l_run l_step]. rewrite E. split; [reflexivity|]. split; assumption.
  - destruct (IHk m0 base rd cmds s1 rf) as (n & s' & R1 & R2 & R3); try assumption; [lia|].
    exists (S n), s'. cbn [edges repeat l_run l_step]. rewrite E. split; [exact R1|]. split; assumption.
  - exists 1%nat, s1. cbn [edges repeat l_run l_step]. rewrite E. split; [reflexivity|]. split; assumption.
Qed.

Lemma wcompletes : forall m0 base rd cmds s rf, winv bw size m0 base rd cmds s ->
  exists n s', l_run bw size lat (edges rf n) s = Ok s' /\ winv bw size m0 base rd cmds s' /\ l_idle s' = true.
Proof.
  intros m0 base rd cmds s rf Hi. destruct (wedge rf m0 base rd cmds s Hi) as (s1 & E & I1 & C1 & _).
  destruct (wprogress _ m0 base rd cmds s1 rf (le_n _) C1 I1) as (n & s' & R1 & R2 & R3). exists (S n), s'. cbn [edges repeat l_run l_step]. rewrite E. split; [exact R1|]. split; assumption.
Qed.

(** In a run of writes: the answers so far and the memory so far. *)
Lemma wstate : forall m0 base rd cmds s, winv bw size m0 base rd cmds s ->
  exists k n, (k <= length cmds)%nat /\ ws_done (ls_w s) = base ++ write_answers (firstn k cmds) /\
    holds size (lm_data (ls_mem s)) (put_ops size m0 (firstn n (all_ops cmds))) /\ (length (all_ops (firstn k cmds)) <= n <= length (all_ops cmds))%nat.
Proof.
  intros m0 base rd cmds s [I1 (ec & pss & dn & todo & fin & F1 & F2 & F3 & F4 & F5 & F6 & F7 & F8) I2 I3 I4 I5 I6 I7 I8 [I9 I10]].
  exists (length fin), (length (pieces_ops (firstn (length dn) (concat pss)))).
  assert (fin = map (wcr bw) (firstn (length fin) ec)) as Ef.
  { rewrite <- firstn_map, F6, firstn_app, Nat.sub_diag, firstn_all. cbn [firstn]. rewrite app_nil_r. reflexivity. }
  assert (length fin <= length ec)%nat as HL. { apply (f_equal (@length _)) in F6. rewrite map_length, app_length in F6. lia. }
  assert (firstn (length fin) cmds = firstn (length fin) ec) as Efc.
  { rewrite F1, firstn_app. replace (length fin - length ec)%nat with O by lia. cbn [firstn]. apply app_nil_r. }
  rewrite Efc. split; [rewrite F1, app_length; lia|]. split; [|split].
  - rewrite F7, Ef at 1. rewrite map_map. reflexivity.
  - assert (firstn (length (pieces_ops (firstn (length dn) (concat pss)))) (all_ops cmds) = pieces_ops (firstn (length dn) (concat pss))) as ->; [|assumption].
    rewrite F1. unfold all_ops. rewrite flat_map_app. fold (all_ops ec). rewrite <- (pieces_all bw ec pss F2).
    rewrite <- (firstn_skipn (length dn) (concat pss)) at 2. rewrite pieces_app, <- app_assoc, firstn_app, Nat.sub_diag, firstn_all. cbn [firstn]. apply app_nil_r.
  - assert (exists p1 p2, pss = p1 ++ p2 /\ Forall2 (pieces_for bw) (firstn (length fin) ec) p1) as (p1 & p2 & Ep & Fp).
    { rewrite <- (firstn_skipn (length fin) ec) in F2. apply Forall2_app_inv_l in F2. destruct F2 as (p1 & p2 & G1 & G2 & G3). exists p1, p2. split; assumption. }
    assert (length (concat p1) <= length dn)%nat as HD.
    { pose proof (pieces_len bw _ _ Fp) as L1. rewrite <- Ef in L1. pose proof (pieces_len bw _ _ F2) as L2. rewrite F6, !csum_app in L2.
      pose proof (f2_len _ _ _ F3) as L3. rewrite app_length in L3. unfold zlen in *.
      assert (crem (ws_cur (ls_w s)) <= csum (copt (ws_cur (ls_w s)))) as L4 by (destruct (ws_cur (ls_w s)) as [[[c n] x]|]; cbn in *; lia).
      clear - L1 L2 L3 L4 F8. destruct (ws_bvalid (ls_w s)); lia. }
    split.
    + rewrite <- (pieces_all bw _ _ Fp). rewrite Ep, concat_app, firstn_app. rewrite pieces_app, app_length. rewrite (firstn_all2 (concat p1)) by assumption. lia.
    + rewrite F1. unfold all_ops. rewrite flat_map_app, app_length. fold (all_ops ec). rewrite <- (pieces_all bw ec pss F2).
      rewrite <- (firstn_skipn (length dn) (concat pss)) at 2. rewrite pieces_app, app_length. lia.
Qed.

End Run.
