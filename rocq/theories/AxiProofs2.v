(** AXI: the write side. *)
From Verif Require Import PyBase TlpProofs SplitProofs AxilModel AxilSpec AxilProofs AxilProofs2 AxiModel AxiSpec AxiProofs.
From Coq Require Import ZifyBool ZifyNat Arith.
Ltac Zify.zify_post_hook ::= idtac.
Local Arguments Z.mul : simpl never.

(** ** Registers. *)
Definition regl {A} (r : option (A * bool)) : list A := match r with Some (x, _) => [x] | None => [] end.
Definition rwt {A} (r : option (A * bool)) (q : list A) : nat := (3 * length q + match r with None => 0 | Some (_, true) => 1 | Some (_, false) => 2 end)%nat.

Lemma xiface_spec : forall {A} (r : option (A * bool)) p1 p2 q, exists r' q' t, x_iface r (negb p1) p2 q = (r', q', t) /\
  regl r ++ q = x_taken r p1 ++ regl r' ++ q' /\ (t = true -> q <> []) /\
  (p1 = false -> p2 = false -> (rwt r' q' <= rwt r q)%nat /\ ((rwt r' q' < rwt r q)%nat \/ r = None /\ q = [])).
Proof.
  intros A r p1 p2 q. unfold x_iface, x_taken. destruct r as [[x [|]]|], p1, p2, q as [|y q]; cbn;
    eexists _, _, _; (split; [reflexivity|]); (split; [reflexivity|]); (split; [discriminate|]); try discriminate; intros _ _; unfold rwt; cbn [length]; (split; [lia|]); try (right; split; reflexivity); left; lia.
Qed.

(** ** The RAM's write logic. *)
Definition cbeats (cur : option xwcur) : list (Z * bool) :=
  match cur with Some (mkXw b a n) => run_beats a (2 ^ xa_size b) (Z.to_nat (xa_len b + 1 - n)) | None => [] end.
Definition unf (cur : option xwcur) : Z := match cur with Some (mkXw b _ n) => if n <=? xa_len b then 1 else 0 | None => 0 end.
Definition caws (cur : option xwcur) : list xaw := match cur with Some (mkXw b _ n) => if n <=? xa_len b then [b] else [] | None => [] end.
Definition ccok (cfg : xcfg) (cur : option xwcur) : Prop := match cur with Some (mkXw b _ n) => legal cfg b /\ 0 <= n <= xa_len b + 1 | None => True end.

Record wflow (cfg : xcfg) (m0 : Z -> Z) (ps : list (Z * list Z)) (dn todo : list tbeat) (cur : option xwcur) (aws : list xaw) (ws : list xbeat) (l : list Z) : Prop := mkWf {
  wf_words : words_are (xc_bw cfg) (map t_w (dn ++ todo)) ps;
  wf_ok : Forall (t_ok (xc_bw cfg)) todo;
  wf_aw : map t_al todo = cbeats cur ++ flat_map obeats aws;
  wf_w : map t_beat todo = ws;
  wf_legal : Forall (legal cfg) aws;
  wf_cur : ccok cfg cur;
  wf_mem : holds (xc_size cfg) l (put_ops (xc_size cfg) m0 (pieces_ops (firstn (length dn) ps)));
  wf_bytes : Forall is_byte l }.

Lemma obeats_cons : forall cfg b, legal cfg b -> exists la r, obeats b = (xa_addr b, la) :: r.
Proof.
  intros cfg b (H1 & H2 & H3 & H4 & H5 & H6 & H7). unfold obeats. replace (Z.to_nat (xa_len b + 1)) with (S (Z.to_nat (xa_len b))) by lia. rewrite run_beats_S. eexists _, _. reflexivity.
Qed.

Lemma start_legal : forall cfg b, legal cfg b -> 0 <= xa_addr b < 2 ^ 53 -> x_start (xc_bw cfg) b = Ok (xa_addr b).
Proof.
  intros cfg b (H1 & H2 & H3 & H4 & H5 & H6 & H7) Ha. unfold x_start. assert (2 ^ xa_size b <=? xc_bw cfg = true) as -> by lia. cbn [negb].
  assert (0 < 2 ^ xa_size b) as Hp by (apply Z.pow_pos_nonneg; lia). rewrite truediv_exact by lia. set (nb := 2 ^ xa_size b) in *.
  pose proof (Z.div_mod (xa_addr b) nb ltac:(lia)) as D. rewrite H4 in D. replace (xa_addr b / nb * nb) with (xa_addr b) by (rewrite Z.mul_comm; lia).
  rewrite H1. change 0xfff with (2 ^ 12 - 1). rewrite BitLemmas.land_low_mod by lia. change (2 ^ 12) with 4096. change 0x1000 with 4096.
  assert (nb * (xa_len b + 1) <=? 4096 - xa_addr b mod 4096 = true) as ->; [|reflexivity]. rewrite Z.mul_comm. set (T := (xa_len b + 1) * nb) in *. clearbody T.
  pose proof (Z.div_mod (xa_addr b) 4096 ltac:(lia)). pose proof (Z.div_mod (xa_addr b + T - 1) 4096 ltac:(lia)). pose proof (Z.mod_pos_bound (xa_addr b + T - 1) 4096 ltac:(lia)). lia.
Qed.

Lemma seek_pos : forall l pos p, lm_seek (mkLm l pos) p = lm_seek (mkLm l 0) p.
Proof. reflexivity. Qed.

Lemma wlogic_spec : forall fuel cfg cur awq ar wq wr m0 ps dn todo l pos bq, lanes_ok (xc_bw cfg) -> 0 < xc_size cfg -> (xc_bw cfg | xc_size cfg) ->
  wflow cfg m0 ps dn todo cur (awq ++ ar) (wq ++ wr) l -> (2 * length awq + length wq + (match cur with None => 1 | _ => 2 end) <= fuel)%nat ->
  exists cur' awq' wq' l' pos' bs dn' todo', x_wlogic fuel (xc_bw cfg) (xc_size cfg) cur awq wq (mkLm l pos) bq = Ok (cur', awq', wq', mkLm l' pos', bq ++ bs) /\
    wflow cfg m0 ps dn' todo' cur' (awq' ++ ar) (wq' ++ wr) l' /\ dn' ++ todo' = dn ++ todo /\ Forall (fun b => snd b = 0) bs /\
    zlen bs + unf cur' + zlen awq' = unf cur + zlen awq /\ (exists gone, caws cur ++ awq = gone ++ caws cur' ++ awq') /\ (cur' = None /\ awq' = [] \/ unf cur' = 1 /\ wq' = []).
Proof.
  induction fuel; intros cfg cur awq ar wq wr m0 ps dn todo l pos bq Hb Hs Hd HF Hf; [destruct cur; lia|]. cbn [x_wlogic]. destruct cur as [[b a n]|].
  - destruct HF as [F1 F2 F3 F4 F5 [F6 F6n] F7 F8]. destruct (Z.ltb_spec n (xa_len b + 1)) as [L|L].
    + destruct wq as [|[[val strb] last] wq].
      * exists (Some (mkXw b a n)), awq, [], l, pos, [], dn, todo. rewrite app_nil_r. split; [reflexivity|]. split; [constructor; try assumption; split; assumption|]. split; [reflexivity|]. split; [constructor|].
        split; [reflexivity|]. split; [exists []; reflexivity|]. right. cbn [unf]. assert (n <=? xa_len b = true) as -> by lia. split; reflexivity.
      * destruct todo as [|t todo]; [discriminate|]. cbn [map app] in F4. injection F4 as E1 E2 E3 F4. cbn [cbeats] in F3.
        replace (Z.to_nat (xa_len b + 1 - n)) with (S (Z.to_nat (xa_len b + 1 - (n + 1)))) in F3 by lia. rewrite run_beats_S in F3. cbn [map app] in F3. injection F3 as E4 E5 F3.
        rewrite map_app in F1. cbn [map] in F1. inversion_clear F2 as [|? ? [T1 T2] F2'].
        destruct (words_split _ _ _ _ _ F1) as (a' & d & WI & Eops). replace (map t_w dn ++ [t_w t]) with (map t_w (dn ++ [t])) in Eops by (rewrite map_app; reflexivity). rewrite !map_length in Eops.
        assert (lw_addr (t_w t) = a' /\ 0 <= a' < 2 ^ 53) as [W1 W2] by (destruct WI as (? & ? & _); split; assumption). pose proof (lanes_range _ Hb) as Hr.
        destruct (word_store (xc_bw cfg) (xc_size cfg) (t_w t) a' d l _ ltac:(lia) Hs Hd WI F7 F8) as (p & l' & S1 & S2 & S3 & S4 & S5 & S6 & S7).
        assert (int_truediv a (xc_bw cfg) * xc_bw cfg = int_truediv (lw_addr (t_w t)) (xc_bw cfg) * xc_bw cfg) as ->.
        { rewrite !truediv_exact by lia. rewrite <- E4, T1. reflexivity. }
        rewrite seek_pos, S1. cbn [bind]. rewrite <- E1, <- E2, S4. cbn [bind].
        assert (last = (n =? xa_len b)) as El by (rewrite <- E3, E5; lia). rewrite El. rewrite Bool.eqb_reflx. cbn [negb].
        assert (x_next b a = a + 2 ^ xa_size b) as -> by (destruct F6 as (G & _); unfold x_next; rewrite G; reflexivity).
        set (bq' := if n =? xa_len b then bq ++ [(xa_id b, 0)] else bq).
        destruct (IHfuel cfg (Some (mkXw b (a + 2 ^ xa_size b) (n + 1))) awq ar wq wr m0 ps (dn ++ [t]) todo l' (p + xc_bw cfg) bq') as (cur' & awq' & wq' & l2 & pos' & bs & dn' & todo' & R1 & R2 & R3 & R4 & R5 & (gone & RG) & R6); try assumption.
        { constructor; try assumption.
          - rewrite <- app_assoc. rewrite map_app. exact F1.
          - split; [assumption|lia].
          - rewrite Eops, put_ops_app. assumption. }
        { cbn [length] in Hf. lia. }
        rewrite R1. exists cur', awq', wq', l2, pos', ((if n =? xa_len b then [(xa_id b, 0)] else []) ++ bs), dn', todo'.
        split; [unfold bq'; destruct (n =? xa_len b); [rewrite <- app_assoc; reflexivity|reflexivity]|]. split; [assumption|]. split; [rewrite R3, <- app_assoc; reflexivity|].
        split; [apply Forall_app; split; [destruct (n =? xa_len b); [constructor; [reflexivity|constructor]|constructor]|assumption]|]. split; [|split; [|assumption]].
        2:{ cbn [caws] in *. assert (n <=? xa_len b = true) as -> by lia. destruct (Z.eqb_spec n (xa_len b)) as [En|En].
            - assert (n + 1 <=? xa_len b = false) as Hx by lia. rewrite Hx in RG. exists (b :: gone). cbn [app] in *. rewrite RG. reflexivity.
            - assert (n + 1 <=? xa_len b = true) as Hx by lia. rewrite Hx in RG. exists gone. exact RG. }
        rewrite zlen_app. cbn [unf] in *. destruct (Z.eqb_spec n (xa_len b)) as [En|En].
        -- assert (n + 1 <=? xa_len b = false) as Hx by lia. rewrite Hx in R5. assert (n <=? xa_len b = true) as -> by lia. change (zlen [(xa_id b, 0)]) with 1. lia.
        -- assert (n + 1 <=? xa_len b = true) as Hx by lia. rewrite Hx in R5. assert (n <=? xa_len b = true) as -> by lia. change (zlen (@nil (Z * Z))) with 0. lia.
    + destruct (IHfuel cfg None awq ar wq wr m0 ps dn todo l pos bq) as (cur' & awq' & wq' & l2 & pos' & bs & dn' & todo' & R1 & R2 & R3 & R4 & R5 & (gone & RG) & R6); try assumption.
      { constructor; try assumption; try exact I. rewrite F3. cbn [cbeats]. replace (Z.to_nat (xa_len b + 1 - n)) with O by lia. reflexivity. }
      { lia. }
      exists cur', awq', wq', l2, pos', bs, dn', todo'. repeat (split; [assumption|]). split; [|split; [|assumption]]; [cbn [unf] in *; assert (n <=? xa_len b = false) as -> by lia; assumption|].
      exists gone. cbn [caws] in *. assert (n <=? xa_len b = false) as -> by lia. exact RG.
  - destruct awq as [|b awq].
    + exists None, [], wq, l, pos, [], dn, todo. rewrite app_nil_r. split; [reflexivity|]. split; [assumption|]. split; [reflexivity|]. split; [constructor|]. split; [reflexivity|]. split; [exists []; reflexivity|]. left. split; reflexivity.
    + destruct HF as [F1 F2 F3 F4 F5 F6 F7 F8]. cbn [app] in F5. inversion_clear F5 as [|? ? L1 L2].
      assert (0 <= xa_addr b < 2 ^ 53) as Ha.
      { cbn [cbeats app flat_map] in F3. destruct (obeats_cons cfg b L1) as (la & r & Eo). rewrite Eo in F3. destruct todo as [|t todo]; [discriminate|]. cbn [map app] in F3. injection F3 as E1 _ _. inversion_clear F2 as [|? ? [_ T2] _]. lia. }
      rewrite (start_legal cfg b L1 Ha). cbn [bind].
      assert (1 <= xa_len b + 1) as Hlen by (destruct L1 as (_ & _ & _ & _ & G & _); lia).
      destruct (IHfuel cfg (Some (mkXw b (xa_addr b) 0)) awq ar wq wr m0 ps dn todo l pos bq) as (cur' & awq' & wq' & l2 & pos' & bs & dn' & todo' & R1 & R2 & R3 & R4 & R5 & (gone & RG) & R6); try assumption.
      { constructor; try assumption.
        - rewrite F3. cbn [cbeats app flat_map]. unfold obeats at 1. rewrite Z.sub_0_r. reflexivity.
        - split; [assumption|lia]. }
      { cbn [length] in Hf. lia. }
      exists cur', awq', wq', l2, pos', bs, dn', todo'. repeat (split; [assumption|]). assert (0 <=? xa_len b = true) as Hx by lia. split; [|split; [|assumption]]; [cbn [unf] in *; rewrite Hx in R5; rewrite zlen_cons1; lia|].
      exists gone. cbn [caws] in *. rewrite Hx in RG. exact RG.
Qed.

(** ** Invariant. *)
Definition wcmd_for (c : Z * list Z * Z) (k : lwcmd) : Prop := wans k = mkLd (fst (fst c)) (zlen (snd (fst c))) (snd c) 0 /\ 0 <= lc_cycles k.
Record grp := mkG { g_k : lwcmd; g_aw : list xaw; g_t : list tbeat; g_p : list (Z * list Z) }.
Definition grp_ok (cfg : xcfg) (c : Z * list Z * Z) (g : grp) : Prop :=
  wcmd_for c (g_k g) /\ zlen (g_aw g) = lc_cycles (g_k g) /\ map t_al (g_t g) = flat_map obeats (g_aw g) /\ words_are (xc_bw cfg) (map t_w (g_t g)) (g_p g) /\ pieces_ops (g_p g) = byte_ops (fst (fst c)) (snd (fst c)).
Definition aw_out (w : xwside) : list xaw := xs_awq w ++ regl (xw_aw w) ++ xw_awq w.
Definition w_out (w : xwside) : list xbeat := xs_wq w ++ regl (xw_w w) ++ xw_wq w.

Record xwinv (cfg : xcfg) (m0 : Z -> Z) (base : list lwdone) (cmds : list (Z * list Z * Z)) (w : xwside) (l : list Z) : Prop := mkXwi {
  xv_flow : exists gs gone dn todo fin, Forall2 (grp_ok cfg) cmds gs /\ (dn ++ todo = flat_map g_t gs /\ flat_map g_aw gs = gone ++ caws (xs_cur w) ++ aw_out w) /\
    wflow cfg m0 (flat_map g_p gs) dn todo (xs_cur w) (aw_out w) (w_out w) l /\
    map g_k gs = fin ++ copt (xw_cur w) ++ xw_rc w /\ xw_done w = base ++ map wans fin;
  xv_count : zlen (xw_rq w) + zlen (regl (xs_b w)) + zlen (xs_bq w) + unf (xs_cur w) + zlen (aw_out w) = crem (xw_cur w) + csum (xw_rc w);
  xv_cur : cok (xw_cur w);
  xv_pos : cpos (xw_rc w);
  xv_c1 : xw_cur w = None -> xw_rc w = [];
  xv_c2 : xw_cur w <> None -> 0 < crem (xw_cur w);
  xv_rq : Forall (fun r => r = 0) (xw_rq w);
  xv_b : Forall (fun b => snd b = 0) (regl (xs_b w) ++ xs_bq w);
  xv_ram : xs_cur w = None /\ xs_awq w = [] \/ unf (xs_cur w) = 1 /\ xs_wq w = [] }.

Definition wmu (w : xwside) : nat :=
  (rwt (xw_aw w) (xw_awq w) + rwt (xw_w w) (xw_wq w) + 5 * (Z.to_nat (unf (xs_cur w)) + length (aw_out w)) +
   (rwt (xs_b w) (xs_bq w) + length (regl (xs_b w) ++ xs_bq w)) + length (xw_rq w))%nat.

Definition wpend (w : xwside) : Z := zlen (copt (xw_cur w) ++ xw_rc w).

Lemma unf_nonneg : forall c, 0 <= unf c <= 1.
Proof. intros [[b a n]|]; cbn [unf]; [destruct (n <=? xa_len b)|]; lia. Qed.

Lemma f2_app_split : forall {A B} (P : A -> B -> Prop) a b c, Forall2 P a b -> forall x, P c x -> Forall2 P (a ++ [c]) (b ++ [x]).
Proof. intros. apply Forall2_app; [assumption|constructor; [assumption|constructor]]. Qed.

Lemma all_ops_app : forall a b, all_ops (a ++ b) = all_ops a ++ all_ops b.
Proof. intros. unfold all_ops. apply flat_map_app. Qed.

Lemma xinit_write_spec : forall cfg m0 base cmds w l a d z p, cfg_ok cfg -> xwinv cfg m0 base cmds w l -> event_ok cfg (XWrite a d 1 z p) ->
  exists w', x_init_write cfg w a d 1 z p = Ok w' /\ xwinv cfg m0 base (cmds ++ [(a, d, p)]) w' l /\
    1 - (zlen (xw_done w') - zlen (xw_done w)) = wpend w' - wpend w.
Proof.
  intros cfg m0 base cmds w l a d z p HC [(gs & gone & dn & todo & fin & V1 & [V2 V2g] & V3 & V4 & V5) V6 V7 V8 V9 V10 V11 V12 V13] (A1 & A2 & A3 & _ & A4).
  unfold x_init_write. destruct (xwrite_spec cfg (xw_id w) a d z (proj1 HC) A1 A2 A3 A4) as (aws & ts & qs & id' & X1 & X2 & X3 & X4 & X5 & X6). rewrite X1. cbn [bind].
  set (k := mkLc a (zlen d) (zlen aws) p).
  assert (exists cur' rc' rq' fin2, (match xw_cur w with
    | None => x_wresp (2 * length (xw_rc w ++ [k]) + length (xw_rq w) + 3) None (xw_rc w ++ [k]) (xw_rq w) (xw_done w)
    | Some c => Ok (Some c, xw_rc w ++ [k], xw_rq w, xw_done w) end) = Ok (cur', rc', rq', xw_done w ++ map wans fin2) /\
      (copt (xw_cur w) ++ xw_rc w) ++ [k] = fin2 ++ copt cur' ++ rc' /\ cok cur' /\ cpos rc' /\ Forall (fun r => r = 0) rq' /\ 
      zlen (xw_rq w) - zlen rq' = (crem (xw_cur w) + csum (xw_rc w ++ [k])) - (crem cur' + csum rc') /\ (cur' = None -> rc' = []) /\ (cur' <> None -> 0 < crem cur'))
    as (cur' & rc' & rq' & fin2 & R1 & R2 & R3 & R4 & R5 & R6 & R7 & R8).
  { assert (cpos (xw_rc w ++ [k])) as Hcp by (apply Forall_app; split; [assumption|constructor; [apply zlen_nonneg|constructor]]).
    destruct (xw_cur w) as [c|] eqn:EC.
    - exists (Some c), (xw_rc w ++ [k]), (xw_rq w), []. cbn [map app]. rewrite app_nil_r. split; [reflexivity|]. split; [rewrite app_assoc; reflexivity|]. split; [assumption|]. split; [assumption|]. split; [assumption|].
      split; [lia|]. split; [discriminate|assumption].
    - destruct (wresp_spec (2 * length (xw_rc w ++ [k]) + length (xw_rq w) + 3) None (xw_rc w ++ [k]) (xw_rq w) (xw_done w) V7 Hcp V11) as (cur' & rc' & q' & fin2 & W1 & W2 & W3 & W4 & W5 & W6 & W7 & W8); [lia|].
      exists cur', rc', q', fin2. split; [exact W1|]. split; [exact W2|]. split; [assumption|]. split; [assumption|]. split; [assumption|]. split; [exact W6|]. split; [assumption|]. intro Hn. apply W8, Hn. }
  rewrite R1. cbn [bind]. eexists. split; [reflexivity|]. rewrite csum_app in R6. cbn [csum fold_right k lc_cycles] in R6. fold (csum (xw_rc w)) in R6. split.
  - constructor; cbn [xw_cur xw_rc xw_rq xw_done xs_b xs_bq xs_cur xs_awq xs_wq xw_aw xw_awq xw_w xw_wq xw_id]; try assumption.
    + set (g := mkG k aws ts qs). exists (gs ++ [g]), gone, dn, (todo ++ ts), (fin ++ fin2).
      assert (forall {A} (f : grp -> list A), flat_map f (gs ++ [g]) = flat_map f gs ++ f g) as Efm by (intros; rewrite flat_map_app; cbn [flat_map]; rewrite app_nil_r; reflexivity).
      split; [apply f2_app_split; [assumption|]|].
      { split; [split; [reflexivity|apply zlen_nonneg]|]. split; [reflexivity|]. split; [assumption|]. split; assumption. }
      split; [rewrite !Efm, app_assoc, V2, V2g; unfold aw_out; cbn [g g_t g_aw xs_awq xw_aw xw_awq]; split; [reflexivity|rewrite <- !app_assoc; reflexivity]|]. rewrite Efm. cbn [g g_p].
      split; [|split; [rewrite map_app; cbn [map g g_k]; rewrite V4, <- !app_assoc; f_equal; rewrite app_assoc; exact R2|rewrite V5, map_app, app_assoc; reflexivity]].
      set (ps := flat_map g_p gs) in *.
      destruct V3 as [F1 F2 F3 F4 F5 F6 F7 F8]. constructor; unfold aw_out, w_out in *; cbn [xs_cur xs_awq xs_wq xw_aw xw_awq xw_w xw_wq] in *; try assumption.
      * rewrite app_assoc, map_app. apply words_are_app; assumption.
      * apply Forall_app. split; assumption.
      * rewrite map_app, F3, X5, <- !app_assoc. f_equal. rewrite <- flat_map_app, <- !app_assoc. reflexivity.
      * rewrite map_app, F4, <- !app_assoc. reflexivity.
      * rewrite !app_assoc. apply Forall_app. rewrite <- app_assoc. split; assumption.
      * assert (length dn <= length ps)%nat as HL. { apply f2_len in F1. rewrite map_length, app_length in F1. lia. }
        rewrite firstn_app. replace (length dn - length ps)%nat with O by lia. cbn [firstn]. rewrite app_nil_r. assumption.
    + unfold aw_out in *. cbn [xs_awq xw_aw xw_awq]. rewrite !zlen_app in *. lia.
  - unfold wpend. cbn [xw_done xw_cur xw_rc]. apply (f_equal (@zlen _)) in R2. rewrite !zlen_app in *. change (zlen [k]) with 1 in R2.
    assert (zlen (map wans fin2) = zlen fin2) as Em by (unfold zlen; rewrite map_length; reflexivity). lia.
Qed.

Lemma zlen_pos_cons : forall {A} (l : list A), l <> [] -> 0 < zlen l.
Proof. intros A [|x l] H; [congruence|]. rewrite zlen_cons1. pose proof (zlen_nonneg l). lia. Qed.

Lemma zlen0_nil : forall {A} (l : list A), zlen l <= 0 -> l = [].
Proof. intros A [|x l] H; [reflexivity|]. rewrite zlen_cons1 in H. pose proof (zlen_nonneg l). lia. Qed.

Definition wempty (w : xwside) : Prop :=
  xw_awq w = [] /\ xw_wq w = [] /\ xw_rc w = [] /\ xw_cur w = None /\ xw_rq w = [] /\ xw_aw w = None /\ xw_w w = None /\
  xs_awq w = [] /\ xs_wq w = [] /\ xs_cur w = None /\ xs_bq w = [] /\ xs_b w = None.

Lemma regl_nil : forall {A} (r : option (A * bool)), regl r = [] -> r = None.
Proof. intros A [[x v]|]; [discriminate|reflexivity]. Qed.

Lemma wempty_iff : forall cfg m0 base cmds w l, xwinv cfg m0 base cmds w l -> zlen (xw_rq w) + zlen (regl (xs_b w)) + zlen (xs_bq w) + unf (xs_cur w) + zlen (aw_out w) = 0 \/ wpend w = 0 -> wempty w.
Proof.
  intros cfg m0 base cmds w l [(gs & gone & dn & todo & fin & V1 & [V2 V2g] & V3 & V4 & V5) V6 V7 V8 V9 V10 V11 V12 V13] H.
  pose proof (csum_nonneg _ V8) as Hc. pose proof (zlen_nonneg (xw_rq w)). pose proof (zlen_nonneg (regl (xs_b w))). pose proof (zlen_nonneg (xs_bq w)). pose proof (zlen_nonneg (aw_out w)). pose proof (unf_nonneg (xs_cur w)).
  assert (xw_cur w = None) as E1.
  { destruct H as [H|H]; [|unfold wpend in H; rewrite zlen_app in H; pose proof (zlen_nonneg (xw_rc w)); destruct (xw_cur w) as [[[c n] r]|]; [cbn [copt] in H; change (zlen [c]) with 1 in H; lia|reflexivity]].
    destruct (xw_cur w) eqn:E; [|reflexivity]. rewrite <- E in *. specialize (V10 ltac:(rewrite E; discriminate)). lia. }
  specialize (V9 E1). rewrite E1, V9 in V6. cbn [crem csum fold_right] in V6.
  assert (xw_rq w = []) by (apply zlen0_nil; lia). assert (regl (xs_b w) = []) by (apply zlen0_nil; lia). assert (xs_bq w = []) by (apply zlen0_nil; lia). assert (aw_out w = []) as Ea by (apply zlen0_nil; lia).
  assert (xs_cur w = None) as Ec by (destruct V13 as [[V _]|[V _]]; [assumption|lia]).
  destruct V3 as [F1 F2 F3 F4 F5 F6 F7 F8]. rewrite Ec, Ea in F3. cbn [cbeats flat_map app] in F3. destruct todo; [|discriminate]. cbn [map] in F4. symmetry in F4.
  unfold aw_out in Ea. unfold w_out in F4. apply app_eq_nil in Ea. destruct Ea as [Ea1 Ea]. apply app_eq_nil in Ea. destruct Ea as [Ea2 Ea3].
  apply app_eq_nil in F4. destruct F4 as [W1 F4]. apply app_eq_nil in F4. destruct F4 as [W2 W3]. unfold wempty. repeat split; try assumption; apply regl_nil; assumption.
Qed.

Lemma xedge_w_spec : forall cfg m0 base cmds w l p, cfg_ok cfg -> xwinv cfg m0 base cmds w l ->
  exists w1, x_edge_w cfg p w = Ok w1 /\
    forall pos, exists w' l' pos', x_ram_w cfg w1 (mkLm l pos) = Ok (w', mkLm l' pos') /\ xwinv cfg m0 base cmds w' l' /\
      - (zlen (xw_done w') - zlen (xw_done w)) = wpend w' - wpend w /\
      (p = mkXp false false false false false false false false false false -> (wmu w' <= wmu w)%nat /\ ((wmu w' < wmu w)%nat \/ wempty w)).
Proof.
  intros cfg m0 base cmds w l p HC HI. pose proof HI as [(gs & gone & dn & todo & fin & V1 & [V2 V2g] & V3 & V4 & V5) V6 V7 V8 V9 V10 V11 V12 V13].
  destruct HC as (HC1 & HC2 & HC3 & HC4 & HC5). unfold x_edge_w.
  destruct (wresp_spec (2 * length (xw_rc w) + length (xw_rq w) + 3) (xw_cur w) (xw_rc w) (xw_rq w) (xw_done w) V7 V8 V11) as (cur' & rc' & q' & fin2 & W1 & W2 & W3 & W4 & W5 & W6 & W7 & W8); [destruct (xw_cur w); lia|].
  unfold x_wresp. rewrite W1. cbn [bind].
  destruct (xiface_spec (xw_aw w) (s_aw p) (m_aw p) (xw_awq w)) as (aw & awq & t1 & A1 & A2 & A3 & A4). rewrite A1.
  destruct (xiface_spec (xw_w w) (s_w p) (m_w p) (xw_wq w)) as (wv & wq & t2 & B1 & B2 & B3 & B4). rewrite B1.
  destruct (xiface_spec (xs_b w) (m_b p) (s_b p) (xs_bq w)) as (b & bq & t3 & D1 & D2 & D3 & D4). rewrite D1.
  assert (t1 && match xc_awid cfg with None => true | Some _ => false end = false) as -> by (destruct (xc_awid cfg); [apply Bool.andb_false_r|congruence]).
  eexists. split; [reflexivity|]. intro pos. unfold x_ram_w. cbn [xs_awq xs_wq xs_cur xs_bq].
  assert (wflow cfg m0 (flat_map g_p gs) dn todo (xs_cur w) ((xs_awq w ++ x_taken (xw_aw w) (s_aw p)) ++ regl aw ++ awq) ((xs_wq w ++ x_taken (xw_w w) (s_w p)) ++ regl wv ++ wq) l) as HF.
  { rewrite <- !app_assoc, <- A2, <- B2. exact V3. }
  destruct (wlogic_spec (2 * length (xs_awq w ++ x_taken (xw_aw w) (s_aw p)) + length (xs_wq w ++ x_taken (xw_w w) (s_w p)) + 3) cfg (xs_cur w) _ _ _ _ m0 (flat_map g_p gs) dn todo l pos bq HC1 HC2 HC3 HF)
    as (scur & sawq & swq & l' & pos' & bs & dn' & todo' & R1 & R2 & R3 & R4 & R5 & (gone2 & RG) & R6); [destruct (xs_cur w); lia|].
  rewrite R1. cbn [bind xw_id xw_awq xw_wq xw_rc xw_cur xw_rq xw_done xw_aw xw_w xs_b]. eexists _, _, _. split; [reflexivity|].
  assert (Forall (fun b => snd b = 0) (x_taken (xs_b w) (m_b p)) /\ Forall (fun b => snd b = 0) (regl b ++ bq)) as [Hb1 Hb2] by (rewrite D2 in V12; apply Forall_app in V12; exact V12).
  assert (Hcnt : zlen (q' ++ map snd (x_taken (xs_b w) (m_b p))) + zlen (regl b) + zlen (bq ++ bs) + unf scur + zlen (sawq ++ regl aw ++ awq) = crem cur' + csum rc').
  { apply (f_equal (@zlen _)) in A2, D2. unfold aw_out in V6. rewrite !zlen_app in *. assert (zlen (map snd (x_taken (xs_b w) (m_b p))) = zlen (x_taken (xs_b w) (m_b p))) as Em by (unfold zlen; rewrite map_length; reflexivity). lia. }
  match goal with |- xwinv _ _ _ _ ?w' _ /\ _ => set (wn := w') end.
  assert (xwinv cfg m0 base cmds wn l') as HI'.
  { constructor; cbn [wn xw_cur xw_rc xw_rq xw_done xs_b xs_bq xs_cur xs_awq xs_wq xw_aw xw_awq xw_w xw_wq xw_id]; try assumption.
    - exists gs, (gone ++ gone2), dn', todo', (fin ++ fin2). split; [assumption|]. split.
      { split; [rewrite R3; exact V2|]. rewrite V2g. unfold aw_out. cbn [wn xs_awq xw_aw xw_awq]. rewrite A2, (app_assoc (xs_awq w)), (app_assoc (caws (xs_cur w))), RG, <- !app_assoc. reflexivity. }
      split; [exact R2|]. split; [rewrite V4, W2, app_assoc; reflexivity|]. rewrite V5, map_app, app_assoc. reflexivity.
    - intro H. apply W8, H.
    - apply Forall_app. split; [assumption|]. clear - Hb1. induction Hb1; constructor; assumption.
    - rewrite app_assoc. apply Forall_app. split; assumption. }
  split; [exact HI'|]. split.
  - unfold wpend. cbn [wn xw_done xw_cur xw_rc]. apply (f_equal (@zlen _)) in W2. rewrite !zlen_app in *. assert (zlen (map wans fin2) = zlen fin2) as Em by (unfold zlen; rewrite map_length; reflexivity). lia.
  - intros ->. cbn [m_aw m_w m_b s_aw s_w s_b] in *. specialize (A4 eq_refl eq_refl). specialize (B4 eq_refl eq_refl). specialize (D4 eq_refl eq_refl).
    assert (length q' = 0)%nat as Hq'.
    { destruct cur' as [c|] eqn:Ec; [destruct W8 as [_ ->]; [discriminate|reflexivity]|]. rewrite W7 in * by reflexivity. cbn [crem csum fold_right] in Hcnt. clear - Hcnt.
      rewrite !zlen_app in Hcnt. pose proof (zlen_nonneg q'). unfold zlen in *. pose proof (unf_nonneg scur). lia. }
    assert (HU : (Z.to_nat (unf scur) + length (sawq ++ regl aw ++ awq) + length bs = Z.to_nat (unf (xs_cur w)) + length (aw_out w))%nat).
    { clear - R5 A2. unfold aw_out. apply (f_equal (@length _)) in A2. unfold zlen in R5. rewrite !app_length in *. pose proof (unf_nonneg scur). pose proof (unf_nonneg (xs_cur w)). lia. }
    assert (HBL : (length (regl b ++ bq) + length (x_taken (xs_b w) false) = length (regl (xs_b w) ++ xs_bq w))%nat) by (rewrite D2, !app_length; lia).
    assert (HM : (wmu wn + length bs = rwt aw awq + rwt wv wq + 5 * (Z.to_nat (unf (xs_cur w)) + length (aw_out w)) + (rwt b bq + length (regl (xs_b w) ++ xs_bq w)))%nat).
    { unfold wmu, aw_out at 1. cbn [wn xw_cur xw_rc xw_rq xw_done xs_b xs_bq xs_cur xs_awq xs_wq xw_aw xw_awq xw_w xw_wq xw_id].
      assert (rwt b (bq ++ bs) = rwt b bq + 3 * length bs)%nat as -> by (unfold rwt; rewrite app_length; lia).
      rewrite (app_length q'), map_length, (app_assoc (regl b)), (app_length (regl b ++ bq)). clear - Hq' HU HBL. lia. }
    assert (HW : (wmu w = rwt (xw_aw w) (xw_awq w) + rwt (xw_w w) (xw_wq w) + 5 * (Z.to_nat (unf (xs_cur w)) + length (aw_out w)) + (rwt (xs_b w) (xs_bq w) + length (regl (xs_b w) ++ xs_bq w)) + length (xw_rq w))%nat) by reflexivity.
    destruct A4 as [A4a A4], B4 as [B4a B4], D4 as [D4a D4]. split; [clear - A4a B4a D4a HM HW; lia|].
    destruct A4 as [A4|[A4 A5]]; [left; clear - A4 B4a D4a HM HW; lia|]. destruct B4 as [B4|[B4 B5]]; [left; clear - A4a B4 D4a HM HW; lia|]. destruct D4 as [D4|[D4 D5]]; [left; clear - A4a B4a D4 HM HW; lia|].
    destruct (xw_rq w) as [|r0 rq0] eqn:Erq; [right|left; cbn [length] in HW; clear - A4a B4a D4a HM HW; lia].
    apply (wempty_iff _ _ _ _ _ _ HI). left. rewrite Erq, D4, D5. unfold aw_out. rewrite A4, A5. cbn [regl app]. rewrite app_nil_r. change (zlen (@nil Z)) with 0. change (zlen (@nil (Z * Z))) with 0.
    destruct V13 as [[V13a V13b]|[V13a V13b]]; [rewrite V13a, V13b; reflexivity|exfalso].
    destruct V3 as [F1 F2 F3 F4 F5 F6 F7 F8]. unfold w_out in F4. rewrite V13b, B4, B5 in F4. destruct todo; [|discriminate]. cbn [map] in F3.
    destruct (xs_cur w) as [[cb ca cn]|]; [|discriminate]. cbn [unf] in V13a. destruct (Z.leb_spec cn (xa_len cb)); [|discriminate]. cbn [cbeats] in F3.
    replace (Z.to_nat (xa_len cb + 1 - cn)) with (S (Z.to_nat (xa_len cb - cn))) in F3 by lia. rewrite run_beats_S in F3. discriminate.
Qed.

(** ** What the invariant says about memory and answers. *)
Lemma grp_ops : forall cfg cmds gs, Forall2 (grp_ok cfg) cmds gs -> pieces_ops (flat_map g_p gs) = all_ops cmds.
Proof. induction 1 as [|c g cmds gs (_ & _ & _ & _ & H) HF IH]; [reflexivity|]. cbn [flat_map]. rewrite pieces_app, IH, H. reflexivity. Qed.

Lemma grp_len : forall cfg cmds gs, Forall2 (grp_ok cfg) cmds gs ->
  length (flat_map g_t gs) = length (flat_map obeats (flat_map g_aw gs)) /\ length (flat_map g_t gs) = length (flat_map g_p gs) /\ zlen (flat_map g_aw gs) = csum (map g_k gs).
Proof.
  induction 1 as [|c g cmds gs (_ & H1 & H2 & H3 & _) HF (IH1 & IH2 & IH3)]; [repeat split; reflexivity|]. cbn [flat_map map csum fold_right]. fold (csum (map g_k gs)).
  rewrite flat_map_app, !app_length, zlen_app, IH3, <- IH1, <- IH2, H1. apply (f_equal (@length _)) in H2. rewrite map_length in H2. apply f2_len in H3. rewrite map_length in H3. repeat split; lia.
Qed.

Lemma grp_firstn : forall cfg cmds gs k, Forall2 (grp_ok cfg) cmds gs -> Forall2 (grp_ok cfg) (firstn k cmds) (firstn k gs).
Proof. intros cfg cmds gs k H. revert k. induction H; intros [|k]; cbn [firstn]; constructor; auto. Qed.

Lemma wmoment : forall cfg m0 base cmds w l, xwinv cfg m0 base cmds w l ->
  exists k n, (k <= length cmds)%nat /\ (length (all_ops (firstn k cmds)) <= n <= length (all_ops cmds))%nat /\
    xw_done w = base ++ write_answers (firstn k cmds) /\ (wpend w = 0 -> k = length cmds /\ n = length (all_ops cmds)) /\
    holds (xc_size cfg) l (put_ops (xc_size cfg) m0 (firstn n (all_ops cmds))) /\ Forall is_byte l.
Proof.
  intros cfg m0 base cmds w l HI. pose proof HI as [(gs & gone & dn & todo & fin & V1 & [V2 V2g] & V3 & V4 & V5) V6 V7 V8 V9 V10 V11 V12 V13].
  pose proof (f2_len _ _ _ V1) as HL. pose proof (grp_ops _ _ _ V1) as HO. destruct (grp_len _ _ _ V1) as (L1 & L2 & L3).
  assert (fin = map g_k (firstn (length fin) gs)) as Ef by (rewrite <- firstn_map, V4, firstn_app, firstn_all, Nat.sub_diag; cbn [firstn]; rewrite app_nil_r; reflexivity).
  pose proof (f_equal (@length _) V4) as HL4. rewrite map_length, app_length in HL4.
  set (ps := flat_map g_p gs) in *. exists (length fin), (length (pieces_ops (firstn (length dn) ps))).
  assert (HP : pieces_ops (firstn (length dn) ps) ++ pieces_ops (skipn (length dn) ps) = all_ops cmds) by (rewrite <- pieces_app, firstn_skipn; exact HO).
  pose proof (grp_firstn _ _ _ (length fin) V1) as V1f. destruct (grp_len _ _ _ V1f) as (K1 & K2 & K3). rewrite <- Ef in K3.
  destruct V3 as [F1 F2 F3 F4 F5 F6 F7 F8].
  assert (HD : (length (flat_map g_p (firstn (length fin) gs)) <= length dn)%nat).
  { rewrite <- K2, K1. apply (f_equal (@length _)) in F3, V2. rewrite map_length, app_length in F3. rewrite app_length, L1, V2g, flat_map_app, app_length in V2.
    assert (length (cbeats (xs_cur w)) <= length (flat_map obeats (caws (xs_cur w))))%nat as Hcb.
    { clear - F6. destruct (xs_cur w) as [[b a n]|]; cbn [cbeats caws]; [|cbn; lia]. destruct F6 as [_ F6]. rewrite run_beats_len. destruct (Z.leb_spec n (xa_len b)); [cbn [flat_map]; rewrite app_nil_r; unfold obeats; rewrite run_beats_len; lia|cbn; lia]. }
    rewrite flat_map_app, app_length in V2.
    assert (length (flat_map obeats (flat_map g_aw (firstn (length fin) gs))) <= length (flat_map obeats gone))%nat as Hgo; [|lia].
    assert (exists x, gone = flat_map g_aw (firstn (length fin) gs) ++ x) as (x & ->); [|rewrite flat_map_app, app_length; lia].
    assert (length (flat_map g_aw (firstn (length fin) gs)) <= length gone)%nat as Hle.
    { assert (zlen (flat_map g_aw gs) = csum fin + csum (copt (xw_cur w)) + csum (xw_rc w)) as HS by (rewrite L3, V4, !csum_app; lia).
      rewrite V2g, !zlen_app in HS. assert (zlen (caws (xs_cur w)) = unf (xs_cur w)) as Eu by (destruct (xs_cur w) as [[b a n]|]; cbn [caws unf]; [destruct (n <=? xa_len b)|]; reflexivity).
      assert (crem (xw_cur w) <= csum (copt (xw_cur w))) as Hcr by (destruct (xw_cur w) as [[[c n] r0]|]; cbn [crem copt csum fold_right]; [destruct V7; lia|lia]).
      pose proof (zlen_nonneg (xw_rq w)). pose proof (zlen_nonneg (regl (xs_b w))). pose proof (zlen_nonneg (xs_bq w)). unfold zlen in *. clear - HS Eu Hcr V6 K3 H H0 H1. lia. }
    assert (flat_map g_aw gs = flat_map g_aw (firstn (length fin) gs) ++ flat_map g_aw (skipn (length fin) gs)) as Esp by (rewrite <- flat_map_app, firstn_skipn; reflexivity).
    rewrite V2g in Esp. exists (skipn (length (flat_map g_aw (firstn (length fin) gs))) gone).
    assert (firstn (length (flat_map g_aw (firstn (length fin) gs))) gone = flat_map g_aw (firstn (length fin) gs)) as Ex.
    { apply (f_equal (firstn (length (flat_map g_aw (firstn (length fin) gs))))) in Esp. rewrite !firstn_app, firstn_all, Nat.sub_diag in Esp. cbn [firstn] in Esp. rewrite app_nil_r in Esp. replace (length (flat_map g_aw (firstn (length fin) gs)) - length gone)%nat with O in Esp by lia. cbn [firstn] in Esp. rewrite app_nil_r in Esp. exact Esp. }
    rewrite <- Ex at 1. symmetry. rewrite Ex at 1. rewrite <- Ex at 1. apply firstn_skipn. }
  split; [lia|]. split.
  { split; [|rewrite <- HP, app_length; lia].
    assert (ps = flat_map g_p (firstn (length fin) gs) ++ flat_map g_p (skipn (length fin) gs)) as Esp by (unfold ps; rewrite <- flat_map_app, firstn_skipn; reflexivity).
    rewrite Esp, firstn_app, pieces_app, app_length. rewrite (@firstn_all2 _ (length dn) (flat_map g_p (firstn (length fin) gs))) by exact HD. rewrite (grp_ops _ _ _ V1f). lia. }
  split.
  { rewrite V5. f_equal. rewrite Ef at 1. clear - V1f. unfold write_answers. revert V1f. generalize (firstn (length fin) cmds) (firstn (length fin) gs). induction 1 as [|c g a b ((H & _) & _) HF IH]; [reflexivity|]. cbn [map]. rewrite H, IH. reflexivity. }
  split.
  { intro Hp. pose proof (wempty_iff _ _ _ _ _ _ HI (or_intror Hp)) as (W1 & W2 & W3 & W4 & W5 & W6 & W7 & W8 & W9 & W10 & W11 & W12).
    rewrite W3, W4 in HL4. cbn [copt app length] in HL4. split; [lia|]. assert (todo = []) as Et. { unfold aw_out in F3. rewrite W10, W8, W6, W1 in F3. cbn in F3. destruct todo; [reflexivity|discriminate]. }
    rewrite Et, app_nil_r in V2. rewrite firstn_all2; [rewrite HO; reflexivity|]. rewrite V2, L2. unfold ps. lia. }
  split; [|assumption]. rewrite <- HP, firstn_app, firstn_all, Nat.sub_diag. cbn [firstn]. rewrite app_nil_r. assumption.
Qed.
