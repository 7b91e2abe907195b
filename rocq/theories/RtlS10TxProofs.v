(** Lemmas on the output side of pcie_s10_if_tx (C135). *)
From Verif Require Import PyBase RtlModel RtlS10TxModel RtlS10TxSpec.

Fixpoint lay (fr h4 : bool) (sh : list Z) (q : list xb) : list sx_ob :=
  match q with
  | [] => []
  | b :: t =>
    let h := if fr then h4 else xb_4dw b in let top := skipn 4 (xb_w b) in
    if xb_extra h b then mkOb (sx_data h (negb fr) sh b) (negb fr) false :: mkOb (sx_data h false top b) false true :: lay false h top t
    else mkOb (sx_data h (negb fr) sh b) (negb fr) (xb_e b) :: lay (negb (xb_e b)) h top t
  end.
Definition ostage (s : sx_state) : list sx_ob := let o := ss_op s in if op_sel o then [mkOb (sx_data (op_h4 o) (op_hdr o) (ss_sh s) (hd xb0 (ss_qd s))) (op_sop o) (op_eop o)] else [].
Definition rsh (s : sx_state) : list Z := if op_sel (ss_op s) then skipn 4 (xb_w (hd xb0 (ss_qd s))) else ss_sh s.
Definition later (s : sx_state) (q : list xb) : list sx_ob :=
  if ss_fr s && ss_sp s then match q with [] => [] | b :: t => mkOb (sx_data (ss_h4 s) false (rsh s) b) false true :: lay false (ss_h4 s) (skipn 4 (xb_w b)) t end
  else lay (ss_fr s) (ss_h4 s) (rsh s) q.
(** The data side is behind the control side by the beat just read; a split beat is still there. *)
Record SI (s : sx_state) : Prop := {
  si_q : if ss_ren s then exists b, ss_qd s = b :: ss_qc s else ss_qd s = ss_qc s;
  si_r : ss_ren s = true -> op_sel (ss_op s) = true;
  si_s : ss_fr s && ss_sp s = true -> exists b t, ss_qc s = b :: t /\ xb_extra (ss_h4 s) b = true }.

Lemma si_step s i e : sx_running i -> SI s -> SI (sx_step s i) /\
  ostage s ++ later s (ss_qc s ++ sx_new i ++ e) = (if ss_v (sx_step s i) then [ss_tx (sx_step s i)] else []) ++ ostage (sx_step s i) ++ later (sx_step s i) (ss_qc (sx_step s i) ++ e).
Proof.
  intros R [Q1 Q2 Q3]. unfold sx_running in R.
  assert (EO : (if ss_v (sx_step s i) then [ss_tx (sx_step s i)] else []) = ostage s).
  { unfold sx_step. destruct (sx_next s (hd xb0 (ss_qc s))) as [[[fr ee] sp] cn]. rewrite R. cbn [negb andb ss_v ss_tx]. unfold ostage. destruct (op_sel (ss_op s)); reflexivity. }
  rewrite EO. assert (ES : ss_sh (sx_step s i) = rsh s) by (unfold sx_step; destruct (sx_next s (hd xb0 (ss_qc s))) as [[[fr ee] sp] cn]; reflexivity).
  cut (SI (sx_step s i) /\ later s (ss_qc s ++ sx_new i ++ e) = ostage (sx_step s i) ++ later (sx_step s i) (ss_qc (sx_step s i) ++ e)).
  { intros [A B]. split; [exact A|]. rewrite B. reflexivity. }
  assert (QD : ss_qd (sx_step s i) = ss_qc s ++ sx_new i).
  { unfold sx_step. destruct (sx_next s (hd xb0 (ss_qc s))) as [[[fr ee] sp] cn]. rewrite R. cbn [ss_qd]. destruct (ss_ren s); [destruct Q1 as [b ->]; reflexivity|rewrite Q1; reflexivity]. }
  unfold rsh in ES. revert QD ES. unfold sx_step. destruct (sx_next s (hd xb0 (ss_qc s))) as [[[fr ee] sp] cn] eqn:EN. rewrite R. cbn [negb andb]. cbn [ss_qd ss_sh].
  intros QD ES. rewrite QD. clear EO QD ES Q1 Q2.
  destruct (sx_go s i) eqn:EG; cbn [andb].
  - unfold sx_go in EG. destruct (ss_qc s) as [|b t] eqn:EQ; [cbn in EG; rewrite andb_false_r in EG; discriminate|]. cbn [hd] in EN. unfold sx_next in EN. cbn [hd tl app].
    destruct (xb_extra (sx_h4c s b) b) eqn:EX.
    + destruct (ss_fr s && ss_sp s) eqn:EF.
      * injection EN as <- <- <- <-. apply andb_true_iff in EF. destruct EF as [F1 F2]. split; [split; cbn [ss_ren ss_qd ss_qc ss_op op_sel ss_fr ss_sp andb]; [exists b; reflexivity|reflexivity|discriminate]|].
        unfold later, ostage, rsh. cbn [ss_op op_sel op_h4 op_hdr op_sop op_eop ss_sh ss_qd hd ss_fr ss_sp ss_h4 ss_qc andb]. rewrite F1, F2. unfold sx_h4c. rewrite F1. cbn [andb negb app]. rewrite <- app_assoc. reflexivity.
      * injection EN as <- <- <- <-. split; [split; cbn [ss_ren ss_qd ss_qc ss_op op_sel ss_fr ss_sp ss_h4 andb]; [reflexivity|discriminate|intros _; exists b, (t ++ sx_new i); split; [reflexivity|exact EX]]|].
        unfold later, ostage, rsh. cbn [ss_op op_sel op_h4 op_hdr op_sop op_eop ss_sh ss_qd hd ss_fr ss_sp ss_h4 ss_qc andb app]. rewrite EF. cbn [lay]. change (if ss_fr s then ss_h4 s else xb_4dw b) with (sx_h4c s b). rewrite EX. rewrite <- app_assoc. reflexivity.
    + injection EN as <- <- <- <-. assert (EF : ss_fr s && ss_sp s = false).
      { destruct (ss_fr s && ss_sp s) eqn:EF; [|reflexivity]. destruct (Q3 eq_refl) as (b' & t' & E1 & E2). injection E1 as <- <-. apply andb_true_iff in EF. destruct EF as [F1 F2]. unfold sx_h4c in EX. rewrite F1 in EX. congruence. }
      split; [split; cbn [ss_ren ss_qd ss_qc ss_op op_sel ss_fr ss_sp andb]; [exists b; reflexivity|reflexivity|rewrite EF, andb_false_r; discriminate]|].
      unfold later, ostage, rsh. cbn [ss_op op_sel op_h4 op_hdr op_sop op_eop ss_sh ss_qd hd ss_fr ss_sp ss_h4 ss_qc andb app]. rewrite EF, andb_false_r. cbn [lay]. change (if ss_fr s then ss_h4 s else xb_4dw b) with (sx_h4c s b). rewrite EX. rewrite <- app_assoc. reflexivity.
  - split; [split; cbn [ss_ren ss_qd ss_qc ss_op op_sel ss_fr ss_sp ss_h4 andb]; [reflexivity|discriminate|]|].
    + intros F. destruct (Q3 F) as (b & t & E1 & E2). rewrite E1. exists b, (t ++ sx_new i). split; [reflexivity|exact E2].
    + unfold later, ostage, rsh. cbn [ss_op op_sel ss_sh ss_fr ss_sp ss_h4 ss_qc andb app]. rewrite <- app_assoc. reflexivity.
Qed.

Lemma si_run : forall l s, Forall sx_running l -> SI s -> SI (sx_run s l) /\
  sx_sent [s] ++ ostage s ++ later s (ss_qc s ++ flat_map sx_new l) = sx_sent (sx_states s l) ++ ostage (sx_run s l) ++ later (sx_run s l) (ss_qc (sx_run s l)).
Proof.
  induction l as [|i t IH]; intros s Hl S.
  - split; [exact S|]. cbn [sx_run fold_left sx_states flat_map]. rewrite app_nil_r. reflexivity.
  - inversion Hl as [|? ? Hi Ht]; subst. destruct (si_step s i (flat_map sx_new t) Hi S) as [S' E]. destruct (IH (sx_step s i) Ht S') as [S2 E2]. split; [exact S2|].
    cbn [flat_map]. rewrite E. cbn [sx_states sx_run fold_left]. unfold sx_run in E2. unfold sx_sent in *. cbn [flat_map] in E2 |- *. rewrite !app_nil_r in *. rewrite E2, <- app_assoc. reflexivity.
Qed.

(** * The layout of one TLP. *)
Definition kw (h : bool) : nat := if h then 4 else 3.
Definition shw (h : bool) (sh : list Z) : list Z := if h then sh else skipn 1 sh.
Lemma strb_shift m k : (m <= 8)%nat -> 0 <= k -> (Z.shiftr (2 ^ Z.of_nat m - 1) k =? 0) = (Z.of_nat m <=? k).
Proof.
  intros Hm Hk. rewrite Z.shiftr_div_pow2 by exact Hk. assert (P : 0 < 2 ^ Z.of_nat m) by (apply Z.pow_pos_nonneg; lia). assert (PK : 0 < 2 ^ k) by (apply Z.pow_pos_nonneg; lia). destruct (Z.leb_spec (Z.of_nat m) k) as [L|L].
  - pose proof (Z.pow_le_mono_r 2 (Z.of_nat m) k ltac:(lia) L). rewrite Z.div_small by lia. reflexivity.
  - apply Z.eqb_neq. assert (2 ^ (k + 1) <= 2 ^ Z.of_nat m) by (apply Z.pow_le_mono_r; lia). rewrite Z.pow_add_r in H by lia. change (2 ^ 1) with 2 in H. assert (1 <= (2 ^ Z.of_nat m - 1) / 2 ^ k) by (apply Z.div_le_lower_bound; lia). lia.
Qed.
Lemma shw_len h sh : length sh = 4%nat -> length (shw h sh) = kw h.
Proof. intros H. unfold shw, kw. destruct h; [exact H|]. rewrite skipn_length. lia. Qed.
Lemma data_eq h sh b : sx_data h false sh b = shw h sh ++ firstn (8 - kw h) (xb_w b).
Proof. unfold sx_data, shw, kw. destruct h; reflexivity. Qed.
Lemma top_eq h b : length (xb_w b) = 8%nat -> shw h (skipn 4 (xb_w b)) = skipn (8 - kw h) (xb_w b).
Proof. intros H. unfold shw, kw. destruct (xb_w b) as [|x0 [|x1 [|x2 [|x3 [|x4 [|x5 [|x6 [|x7 [|]]]]]]]]]; try discriminate. destruct h; reflexivity. Qed.
Lemma data_len h sh b : length sh = 4%nat -> length (xb_w b) = 8%nat -> length (sx_data h false sh b) = 8%nat.
Proof. intros H1 H2. rewrite data_eq, app_length, (shw_len h sh H1), firstn_length. unfold kw. destruct h; lia. Qed.

Lemma mid h m : (m <= 8)%nat -> forall a z sh q, length sh = 4%nat -> Forall (fun b => length (xb_w b) = 8%nat /\ xb_e b = false) a -> length (xb_w z) = 8%nat -> xb_e z = true -> xb_s z = 2 ^ Z.of_nat m - 1 ->
  exists o sh', lay true h sh (a ++ z :: q) = o ++ lay false h sh' q /\ length sh' = 4%nat /\ Forall (fun b => length (ob_d b) = 8%nat) o /\ (1 <= length o)%nat /\
    (let n := (kw h + 8 * length a + m)%nat in (8 * (length o - 1) < n <= 8 * length o)%nat /\ firstn n (flat_map ob_d o) = firstn n (shw h sh ++ flat_map xb_w (a ++ [z]))) /\
    map ob_sop o = repeat false (length o) /\ map ob_eop o = repeat false (length o - 1) ++ [true].
Proof.
  intros Hm. induction a as [|b a IH]; intros z sh q Hs Ha Hz He Hst.
  - cbn [app lay]. cbv zeta. set (top := skipn 4 (xb_w z)). assert (TL : length top = 4%nat) by (unfold top; rewrite skipn_length; lia).
    assert (EX : xb_extra h z = negb (Z.of_nat m <=? Z.of_nat (8 - kw h))).
    { unfold xb_extra. rewrite He, Hst, strb_shift by (destruct h; lia). unfold kw. destruct h; reflexivity. }
    rewrite EX, He. destruct (Z.leb_spec (Z.of_nat m) (Z.of_nat (8 - kw h))) as [L|L]; cbn [negb].
    + eexists [_], top. split; [reflexivity|]. split; [exact TL|]. cbn [flat_map length ob_d app map]. split; [constructor; [cbn [ob_d]; apply data_len; assumption|constructor]|]. split; [lia|]. split; [|split; reflexivity].
      split; [unfold kw in *; destruct h; lia|]. rewrite !app_nil_r, data_eq. assert (KL : length (shw h sh) = kw h) by (apply shw_len; exact Hs).
      rewrite !firstn_app, KL. f_equal. rewrite firstn_firstn. f_equal. unfold kw in *. destruct h; lia.
    + eexists [_; _], top. split; [reflexivity|]. split; [exact TL|]. cbn [flat_map length ob_d app map]. split; [constructor; [cbn [ob_d]; apply data_len; assumption|constructor; [cbn [ob_d]; apply data_len; assumption|constructor]]|]. split; [lia|]. split; [|split; reflexivity].
      split; [unfold kw in *; destruct h; lia|]. rewrite !app_nil_r, !data_eq. unfold top. rewrite (top_eq h z Hz). rewrite <- !app_assoc. rewrite (app_assoc (firstn _ _) (skipn _ _)), firstn_skipn. rewrite app_assoc.
      rewrite (firstn_app _ (shw h sh ++ xb_w z)). assert (KL : length (shw h sh) = kw h) by (apply shw_len; exact Hs). rewrite app_length, KL, Hz. replace (kw h + 8 * 0 + m - (kw h + 8))%nat with 0%nat by lia. cbn [firstn]. rewrite app_nil_r. reflexivity.
  - inversion Ha as [|? ? [Hb1 Hb2] Ha']; subst. cbn [app lay]. cbv zeta. set (top := skipn 4 (xb_w b)). assert (TL : length top = 4%nat) by (unfold top; rewrite skipn_length; lia).
    assert (EX : xb_extra h b = false) by (unfold xb_extra; rewrite Hb2; reflexivity). rewrite EX, Hb2. cbn [negb].
    destruct (IH z top q TL Ha' Hz He Hst) as (o & sh' & E & L' & F & P & (B & D) & S1 & S2). exists (mkOb (sx_data h false sh b) false false :: o), sh'. rewrite E. split; [reflexivity|]. split; [exact L'|].
    split; [constructor; [cbn [ob_d]; apply data_len; assumption|exact F]|]. cbn [length map ob_sop ob_eop flat_map ob_d]. split; [lia|]. split; [|split; [rewrite S1; reflexivity|rewrite S2; replace (S (length o) - 1)%nat with (S (length o - 1)) by lia; reflexivity]].
    cbv zeta in B, D. split; [lia|]. assert (KL : length (shw h sh) = kw h) by (apply shw_len; exact Hs). rewrite data_eq, <- app_assoc.
    unfold top in D. rewrite (top_eq h b Hb1) in D. rewrite !firstn_app, KL. f_equal.
    rewrite (firstn_firstn (xb_w b)). rewrite firstn_length, Hb1.
    assert (K : (kw h <= 4)%nat) by (unfold kw; destruct h; lia).
    replace (kw h + 8 * S (length a) + m - kw h)%nat with (8 + (8 * length a + m))%nat by lia.
    rewrite (firstn_all2 (n := 8 + (8 * length a + m)) (xb_w b)) by lia. replace (Nat.min (8 + (8 * length a + m)) (8 - kw h)) with (8 - kw h)%nat by lia.
    replace (8 + (8 * length a + m) - Nat.min (8 - kw h) 8)%nat with (kw h + 8 * length a + m)%nat by lia. rewrite D. rewrite firstn_app, skipn_length, Hb1.
    rewrite (firstn_all2 (n := kw h + 8 * length a + m) (skipn (8 - kw h) (xb_w b))) by (rewrite skipn_length; lia). rewrite app_assoc, firstn_skipn.
    replace (kw h + 8 * length a + m - (8 - (8 - kw h)))%nat with (8 + (8 * length a + m) - 8)%nat by lia. reflexivity.
Qed.

(** The first beat is as if the header had been shifted. *)
Definition hsh (b : xb) : list Z := if xb_4dw b then xb_h b else 0 :: firstn 3 (xb_h b).
Definition mark (o : list sx_ob) : list sx_ob := match o with [] => [] | b :: t => mkOb (ob_d b) true (ob_eop b) :: t end.
Lemma first_beat b q h sh : length (xb_h b) = 4%nat -> lay false h sh (b :: q) = mark (lay true (xb_4dw b) (hsh b) (b :: q)).
Proof.
  intros HL. cbn [lay]. cbv zeta. assert (E : sx_data (xb_4dw b) true sh b = sx_data (xb_4dw b) false (hsh b) b).
  { unfold sx_data, hsh. destruct (xb_4dw b); [|reflexivity]. rewrite firstn_all2 by lia. reflexivity. }
  cbn [negb]. rewrite E. destruct (xb_extra (xb_4dw b) b); reflexivity.
Qed.
Lemma one_tlp t m h sh q : tlp_ok t m -> exists o h' sh', lay false h sh (t ++ q) = o ++ lay false h' sh' q /\ laid t m o.
Proof.
  intros (a & z & -> & Ha & Hz & He & Hm & Hs & Hh).
  set (b := hd xb0 (a ++ [z])) in *. assert (EB : exists r, (a ++ [z]) ++ q = b :: r) by (unfold b; destruct a as [|x a]; [exists q|exists ((a ++ [z]) ++ q)]; reflexivity). destruct EB as [r EB].
  rewrite EB, (first_beat b r h sh Hh), <- EB, <- app_assoc. cbn [app].
  assert (HS : length (hsh b) = 4%nat) by (unfold hsh; destruct (xb_4dw b); [exact Hh|]; cbn [length]; rewrite firstn_length; lia).
  destruct (mid (xb_4dw b) m Hm a z (hsh b) q HS Ha Hz He Hs) as (o & sh' & E & _ & F & P & (B & D) & S1 & S2). destruct o as [|x o]; [cbn in P; lia|].
  exists (mark (x :: o)), (xb_4dw b), sh'. rewrite E. split; [reflexivity|]. cbn [mark]. unfold laid. cbv zeta in B, D |- *.
  assert (HW : hdr_words (a ++ [z]) = shw (xb_4dw b) (hsh b)).
  { unfold hdr_words. fold b. change (Z.testbit (nth 0 (xb_h b) 0) 29) with (xb_4dw b). unfold shw, hsh. destruct (xb_4dw b); reflexivity. }
  unfold tlp_len. rewrite HW, (shw_len _ _ HS), app_length. cbn [length]. replace (length a + 1 - 1)%nat with (length a) by lia. cbn [length] in *.
  split; [inversion F; subst; constructor; assumption|]. split; [exact B|]. replace (S (length o) - 1)%nat with (length o) in * by lia. cbn [map ob_sop ob_eop flat_map ob_d] in *. split; [|split; [exact S2|exact D]].
  cbn [repeat] in S1. injection S1 as _ S1. rewrite S1. reflexivity.
Qed.
Lemma all_tlps : forall ts h sh, Forall (fun t => tlp_ok (fst t) (snd t)) ts -> exists outs, lay false h sh (concat (map fst ts)) = concat outs /\ Forall2 (fun t o => laid (fst t) (snd t) o) ts outs.
Proof.
  induction ts as [|t ts IH]; intros h sh H; [exists []; split; [reflexivity|constructor]|]. inversion H as [|? ? H1 H2]; subst. cbn [map concat]. destruct (one_tlp (fst t) (snd t) h sh (concat (map fst ts)) H1) as (o & h' & sh' & E & L).
  destruct (IH h' sh' H2) as (outs & E2 & L2). exists (o :: outs). cbn [concat]. rewrite E, E2. split; [reflexivity|]. constructor; assumption.
Qed.
Lemma lay_len : forall q fr h sh, (length (lay fr h sh q) <= 2 * length q)%nat.
Proof. induction q as [|b q IH]; intros fr h sh; [apply Nat.le_refl|]. cbn [lay]. cbv zeta. destruct (xb_extra _ b); cbn [length]; match goal with |- context [lay ?x ?y ?z q] => specialize (IH x y z) end; lia. Qed.

Lemma sx_laid s r l ts : sx_rst r = true -> Forall sx_running l -> flat_map sx_new l = concat (map fst ts) -> Forall (fun t => tlp_ok (fst t) (snd t)) ts -> let s0 := sx_step s r in
  exists outs rest, Forall2 (fun t o => laid (fst t) (snd t) o) ts outs /\ concat outs = sx_sent (sx_states s0 l) ++ rest /\ (length rest <= 2 * length (ss_qc (sx_run s0 l)) + 1)%nat.
Proof.
  intros Hr Hl Hq Ht s0. assert (E0 : ss_fr s0 = false /\ op_sel (ss_op s0) = false /\ ss_ren s0 = false /\ ss_qc s0 = [] /\ ss_qd s0 = [] /\ ss_v s0 = false).
  { unfold s0, sx_step. destruct (sx_next s (hd xb0 (ss_qc s))) as [[[fr ee] sp] cn]. rewrite Hr. repeat split. }
  destruct E0 as (F0 & O0 & R0 & C0 & D0 & V0).
  assert (S : SI s0) by (split; [rewrite R0, C0, D0; reflexivity|rewrite R0; discriminate|rewrite F0; discriminate]).
  destruct (si_run l s0 Hl S) as [S' E]. destruct (all_tlps ts (ss_h4 s0) (rsh s0) Ht) as (outs & EL & F). exists outs, (ostage (sx_run s0 l) ++ later (sx_run s0 l) (ss_qc (sx_run s0 l))).
  split; [exact F|]. split.
  - rewrite <- EL, <- E. unfold sx_sent at 1. cbn [flat_map]. rewrite V0. unfold ostage at 1. rewrite O0. unfold later at 1. rewrite F0, C0, Hq. reflexivity.
  - rewrite app_length. set (s1 := sx_run s0 l) in *. assert (L1 : (length (ostage s1) <= 1)%nat) by (unfold ostage; destruct (op_sel (ss_op s1)); cbn; lia).
    assert (L2 : (length (later s1 (ss_qc s1)) <= 2 * length (ss_qc s1))%nat).
    { unfold later. destruct (ss_fr s1 && ss_sp s1); [|apply lay_len]. destruct (ss_qc s1) as [|b t]; [cbn; lia|]. cbn [length]. pose proof (lay_len t false (ss_h4 s1) (skipn 4 (xb_w b))). lia. }
    lia.
Qed.

(** * Ready latency. *)
Lemma sx_latency s i j k : sx_running i -> sx_running j -> sx_running k -> ss_v (sx_step (sx_step (sx_step s i) j) k) = sx_rdy i && sx_vis j && negb (match ss_qc (sx_step s i) with [] => true | _ => false end).
Proof.
  unfold sx_running. intros Hi Hj Hk.
  assert (A : forall s i, sx_rst i = false -> ss_v (sx_step s i) = op_sel (ss_op s)) by (intros s1 i1 H; unfold sx_step; destruct (sx_next s1 (hd xb0 (ss_qc s1))) as [[[fr ee] sp] cn]; rewrite H; reflexivity).
  assert (B : forall s i, sx_rst i = false -> op_sel (ss_op (sx_step s i)) = sx_go s i) by (intros s1 i1 H; unfold sx_step; destruct (sx_next s1 (hd xb0 (ss_qc s1))) as [[[fr ee] sp] cn]; rewrite H; reflexivity).
  assert (C : forall s i, sx_rst i = false -> ss_r0 (sx_step s i) = sx_rdy i) by (intros s1 i1 H; unfold sx_step; destruct (sx_next s1 (hd xb0 (ss_qc s1))) as [[[fr ee] sp] cn]; rewrite H; reflexivity).
  rewrite (A _ k Hk), (B _ j Hj). unfold sx_go. rewrite (C s i Hi). destruct (sx_rdy i), (sx_vis j), (ss_qc (sx_step s i)); reflexivity.
Qed.
