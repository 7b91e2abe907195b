(** Proofs about the arbitrating multiplexers (C85, C86): delivery. *)
From Verif Require Import PyBase BitLemmas BarProofs RtlModel RtlSpec RtlProofs RtlProofs2 RtlMuxModel RtlMuxSpec RtlMuxProofs.

Lemma unf_snoc {S} ul (a : list (bool * S)) x : unfinished ul (a ++ [x]) = if if ul then fst x else true then [] else unfinished ul a ++ [x].
Proof. unfold unfinished. now rewrite fold_left_app. Qed.
Lemma prefix_refl {A} (a : list A) : prefix a a.
Proof. exists []. now rewrite app_nil_r. Qed.
Lemma prefix_trans {A} (a b c : list A) : prefix a b -> prefix b c -> prefix a c.
Proof. intros [x ->] [y ->]. exists (x ++ y). now rewrite app_assoc. Qed.

Section live.
Context {S M : Type}.
Variable n : Z.
Variables lsb use_last : bool.
Variable route : Z -> bool -> S -> M.
Variable out : M -> M.
Hypothesis Hn : 2 <= n.
Notation step := (mux_step n true lsb use_last route).
Notation event := (mux_event n out).
Notation prm := (mux_arb n true lsb).
Variable s0 : mux_state S M.
Variable tr0 : list (mux_ev S M).
Variable mv0 : list (@beat S).
Hypothesis H0 : inv n true lsb use_last route out s0 tr0 mv0.
Variable f : nat -> mux_in S.
Hypothesis Hf : forall k, mux_in_ok n (f k).
Hypothesis Hr : no_rst f.
Hypothesis Hs : sink_fair f.

Fixpoint st (k : nat) : mux_state S M := match k with O => s0 | Datatypes.S k => step (st k) (f k) end.
Fixpoint TR (k : nat) : list (mux_ev S M) := match k with O => tr0 | Datatypes.S k => TR k ++ [event (st k) (f k)] end.
Fixpoint MV (k : nat) : list (@beat S) := match k with O => mv0 | Datatypes.S k => moved (st k) (f k) (MV k) end.
Variable N : nat.
Hypothesis Hsrc : sources_fair n use_last TR f N.

Lemma inv_k k : inv n true lsb use_last route out (st k) (TR k) (MV k).
Proof. induction k; [exact H0|]. cbn [st TR MV]. apply inv_step; auto. Qed.
Lemma arb_k k : arb_inv prm (mx_arb (st k)).
Proof. apply (v_arb _ _ _ _ _ _ _ _ _ (inv_k k)). Qed.
Lemma vec_k k : vec n (mx_valid (st k)).
Proof. apply (v_valid _ _ _ _ _ _ _ _ _ (inv_k k)). Qed.
Lemma mv_S k : MV (Datatypes.S k) = if mux_vint (st k) then MV k ++ [cur (st k)] else MV k.
Proof. cbn [MV]. unfold moved. now rewrite Hr. Qed.
Lemma mv_mono k m : prefix (MV k) (MV (k + m)).
Proof.
  induction m; [rewrite Nat.add_0_r; apply prefix_refl|]. rewrite <- plus_n_Sm. eapply prefix_trans; [exact IHm|]. rewrite mv_S. destruct (mux_vint _); [now eexists|apply prefix_refl].
Qed.
Lemma acc_S q k : prefix (accepted q (TR k)) (accepted q (TR (Datatypes.S k))).
Proof. cbn [TR]. rewrite acc_snoc. unfold acc_step. cbn [mv_rst mux_event]. rewrite Hr. destruct (_ && _); [now eexists|apply prefix_refl]. Qed.
Lemma acc_mono q k m : prefix (accepted q (TR k)) (accepted q (TR (k + m))).
Proof. induction m; [rewrite Nat.add_0_r; apply prefix_refl|]. rewrite <- plus_n_Sm. eapply prefix_trans; [exact IHm|apply acc_S]. Qed.

Notation full q k := (Z.testbit (mx_valid (st k)) q = true).
Notation gnt k := (as_valid (mx_arb (st k))).
Notation enc k := (as_enc (mx_arb (st k))).
Notation ready k := (sk_ready (mx_skid (st k))).
Notation vint k := (mux_vint (st k)).

Lemma vint_k k : vint k = Z.testbit (mx_valid (st k)) (enc k) && ready k && gnt k.
Proof. apply (vint_eq n true lsb use_last route Hn). apply arb_k. Qed.
Lemma full_S q k : 0 <= q < n -> full q k -> vint k && (enc k =? q) = false -> full q (Datatypes.S k).
Proof.
  intros Hq F E. cbn [st]. rewrite (valid_bit n true lsb use_last route) by (auto || lia). rewrite (ready_bit n true lsb use_last route) by (apply arb_k || assumption || lia). rewrite F. cbn [negb orb]. rewrite vint_k in E.
  destruct (Z.eqb_spec (enc k) q) as [EQ|]; [|now rewrite !andb_false_r]. rewrite EQ, F in E. rewrite !andb_true_r in *. cbn [andb] in E. now rewrite E.
Qed.
Lemma hold_S k : frees use_last (st k) = false -> mx_arb (st (Datatypes.S k)) = mx_arb (st k).
Proof. intros F. cbn [st]. apply (arb_facts n true lsb use_last route Hn); auto using arb_k, vec_k. Qed.
Lemma ready_io k : exists m, ready (k + m) = true.
Proof.
  destruct (Hs k) as [m E]. exists (Datatypes.S m). rewrite <- plus_n_Sm. cbn [st mx_skid mux_step]. rewrite Hr.
  pose proof (inv_k (k + m)) as I. edestruct (skid_ok (mx_skid (st (k + m))) (mi_ready (f (k + m))) (vint (k + m))) as (_ & _ & K & _).
  - apply (v_skid _ _ _ _ _ _ _ _ _ I).
  - rewrite vint_k. intros H. apply andb_true_iff in H. destruct H as [H _]. apply andb_true_iff in H. apply H.
  - rewrite K, E. reflexivity.
Qed.

(** The granted port's register fills; the grant stays. *)
Definition same (k k' : nat) : Prop := (k <= k')%nat /\ mx_arb (st k') = mx_arb (st k) /\ MV k' = MV k /\ forall q, 0 <= q < n -> full q k -> full q k'.
Lemma same_refl k : same k k.
Proof. unfold same. auto. Qed.
Lemma same_S k k' : gnt k = true -> vint k = false -> same (Datatypes.S k) k' -> same k k'.
Proof.
  intros G V (L & A & E & P). split; [lia|]. rewrite A, E. split; [apply hold_S; unfold frees; now rewrite G, V|]. split; [rewrite mv_S, V; reflexivity|].
  intros q Hq F. apply P; [assumption|]. apply full_S; [assumption|assumption|]. now rewrite V.
Qed.
Lemma enc_k k : 0 <= enc k < n.
Proof. apply (enc_range n true lsb use_last route Hn). apply arb_k. Qed.
Lemma wait_fill m : forall k, gnt k = true -> Z.testbit (mi_valid (f (k + m))) (enc k) = true -> exists k', same k k' /\ full (enc k) k'.
Proof.
  induction m as [|m IH]; intros k G H; (destruct (Z.testbit (mx_valid (st k)) (enc k)) eqn:F; [exists k; split; [apply same_refl|assumption]|]);
    assert (V : vint k = false) by (rewrite vint_k, F; reflexivity); assert (E : mx_arb (st (Datatypes.S k)) = mx_arb (st k)) by (apply hold_S; unfold frees; now rewrite G, V).
  - exists (Datatypes.S k). split; [apply same_S; auto using same_refl|]. rewrite Nat.add_0_r in H. pose proof (enc_k k). cbn [st]. rewrite (valid_bit n true lsb use_last route) by (auto || lia).
    rewrite (ready_bit n true lsb use_last route) by (apply arb_k || assumption). rewrite F. cbn [negb orb]. assumption.
  - destruct (IH (Datatypes.S k)) as (k' & S1 & S2); [now rewrite E|rewrite E; replace (Datatypes.S k + m)%nat with (k + Datatypes.S m)%nat by lia; assumption|].
    exists k'. rewrite E in S2. split; [now apply same_S|assumption].
Qed.
Lemma wait_ready m : forall k, gnt k = true -> full (enc k) k -> ready (k + m) = true -> exists k', same k k' /\ vint k' = true.
Proof.
  induction m as [|m IH]; intros k G F H; (destruct (vint k) eqn:V; [exists k; split; [apply same_refl|assumption]|]).
  - rewrite Nat.add_0_r in H. rewrite vint_k, G, F, H in V. discriminate.
  - assert (E : mx_arb (st (Datatypes.S k)) = mx_arb (st k)) by (apply hold_S; unfold frees; now rewrite G, V).
    destruct (IH (Datatypes.S k)) as (k' & S1 & S2).
    + now rewrite E.
    + rewrite E. apply full_S; [apply enc_k|assumption|now rewrite V].
    + replace (Datatypes.S k + m)%nat with (k + Datatypes.S m)%nat by lia. assumption.
    + exists k'. split; [now apply same_S|assumption].
Qed.
Lemma same_trans a b c : same a b -> same b c -> same a c.
Proof. intros (L1 & A1 & E1 & P1) (L2 & A2 & E2 & P2). split; [lia|]. split; [congruence|]. split; [congruence|]. auto. Qed.

(** A granted port moves a beat. *)
Lemma granted_moves k : gnt k = true -> exists k', same k k' /\ vint k' = true.
Proof.
  intros G. assert (X : exists k', same k k' /\ full (enc k) k').
  { destruct (Z.testbit (mx_valid (st k)) (enc k)) eqn:F; [exists k; split; [apply same_refl|assumption]|].
    pose proof (inv_k k) as I. destruct (v_mid _ _ _ _ _ _ _ _ _ I G F) as (a & x & E & L). destruct (v_open _ _ _ _ _ _ _ _ _ I a x E L) as [_ EN].
    assert (U : unfinished use_last (accepted (enc k) (TR k)) <> []).
    { rewrite (v_in _ _ _ _ _ _ _ _ _ I _ (enc_k k)), F, app_nil_r, E, from_app. unfold from at 2. cbn [filter]. rewrite <- EN, Z.eqb_refl. cbn [map]. rewrite unf_snoc. unfold ends in L. rewrite L. now destruct (unfinished _ _). }
    destruct (s_more _ _ _ _ _ Hsrc _ k (enc_k k) U) as [m Hm]. exact (wait_fill m k G Hm). }
  destruct X as (k1 & S1 & F1). pose proof S1 as (_ & A1 & _ & _). destruct (ready_io k1) as [m Hm].
  destruct (wait_ready m k1) as (k2 & S2 & V2); [now rewrite A1|now rewrite A1|assumption|]. exists k2. split; [exact (same_trans _ _ _ S1 S2)|assumption].
Qed.

(** The granted port's frame ends; the other registers stay full. *)
Lemma frame_ends d : forall k, gnt k = true -> (N < length (unfinished use_last (from (enc k) (MV k))) + d)%nat ->
  exists k', (k <= k')%nat /\ mx_arb (st k') = mx_arb (st k) /\ frees use_last (st k') = true /\ forall q, 0 <= q < n -> q <> enc k -> full q k -> full q k'.
Proof.
  induction d as [|d IH]; intros k G L.
  - exfalso. pose proof (inv_k k) as I. pose proof (v_in _ _ _ _ _ _ _ _ _ I _ (enc_k k)) as E. apply (s_len _ _ _ _ _ Hsrc) in E; [lia|apply enc_k].
  - destruct (granted_moves k G) as (k1 & (L1 & A1 & E1 & P1) & V1). destruct (ends use_last (cur (st k1))) eqn:EE.
    { exists k1. split; [assumption|]. split; [assumption|]. split; [unfold frees; rewrite V1, EE; apply orb_true_r|]. intros q Hq _. now apply P1. }
    assert (A2 : mx_arb (st (Datatypes.S k1)) = mx_arb (st k)) by (rewrite hold_S; [assumption|]; unfold frees; now rewrite A1, G, EE, andb_false_r).
    destruct (IH (Datatypes.S k1)) as (k2 & L2 & A3 & F & P2).
    + now rewrite A2.
    + rewrite A2, mv_S, V1, E1, from_app. unfold from at 2. cbn [filter]. unfold cur at 1. cbn [fst]. rewrite A1, Z.eqb_refl. cbn [map]. rewrite unf_snoc. unfold ends in EE. rewrite EE, app_length. cbn [length]. lia.
    + exists k2. split; [lia|]. split; [congruence|]. split; [assumption|]. intros q Hq NE FQ. apply P2; [assumption|now rewrite A2|]. apply full_S; [assumption|now apply P1|]. rewrite A1. destruct (Z.eqb_spec (enc k) q); [congruence|apply andb_false_r].
Qed.

Variable q : Z.
Hypothesis Hq : 0 <= q < n.
Definition at_dist (k : nat) (d : Z) : Prop := exists m, mask_at prm (as_mask (mx_arb (st k))) m /\ rr_dist prm m q <= d.

(** The arbiter is free and [q] requests. *)
Lemma free_step k d : frees use_last (st k) = true -> full q k -> (gnt k = true -> enc k <> q) -> at_dist k d ->
  gnt (Datatypes.S k) = true /\ full q (Datatypes.S k) /\ (enc (Datatypes.S k) = q \/ at_dist (Datatypes.S k) (d - 1)).
Proof.
  intros FR F NE (m & M1 & M2). destruct (arb_facts n true lsb use_last route Hn (st k) (f k) (arb_k k) (vec_k k) (Hf k) (Hr k)) as (IO & HH & _ & _).
  set (ai := mkArbIn false (mux_request (st k) (f k)) (mux_ack n use_last (st k))) in *. rewrite FR in HH. cbn [negb] in HH.
  assert (RQ : Z.testbit (ai_req ai) q = true).
  { cbn [ai_req ai]. rewrite (req_bit n true lsb use_last route) by (apply arb_k || lia). destruct (gnt k) eqn:G; [|assumption]. cbn [andb]. destruct (Z.eqb_spec (enc k) q); [now destruct NE|assumption]. }
  assert (FS : full q (Datatypes.S k)).
  { apply full_S; [assumption|assumption|]. rewrite vint_k. destruct (gnt k) eqn:G; [|now rewrite andb_false_r]. destruct (Z.eqb_spec (enc k) q); [now destruct NE|apply andb_false_r]. }
  assert (EA : mx_arb (st (Datatypes.S k)) = arb_step prm (mx_arb (st k)) ai) by (cbn [st mx_arb mux_step]; now rewrite Hr).
  unfold at_dist. rewrite EA. destruct (Z.eq_dec (as_enc (arb_step prm (mx_arb (st k)) ai)) q) as [E|E].
  - split; [|auto]. pose proof (arb_free prm (mx_arb (st k)) ai m Hn IO M1 eq_refl HH) as Q. cbv zeta in Q. destruct (Z.eqb_spec (ai_req ai) 0) as [Z0|]; [rewrite Z0, Z.bits_0 in RQ; discriminate|apply Q].
  - destruct (rr_step prm (mx_arb (st k)) ai m q Hn IO M1 eq_refl HH eq_refl Hq RQ E) as (V & m' & M' & D'). split; [assumption|]. split; [assumption|]. right. exists m'. split; [assumption|lia].
Qed.

Lemma q_moves d : forall k, full q k -> at_dist k (Z.of_nat d - 1) -> exists k', (k <= k')%nat /\ vint k' = true /\ enc k' = q.
Proof.
  induction d as [|d IH]; intros k F D.
  - exfalso. destruct D as (m & M1 & M2). pose proof (rr_bound prm m q (proj1 M1) Hq). lia.
  - assert (GQ : forall k, gnt k = true -> enc k = q -> exists k', (k <= k')%nat /\ vint k' = true /\ enc k' = q).
    { intros j G E. destruct (granted_moves j G) as (k' & (L & A & _) & V). exists k'. rewrite A. auto. }
    assert (NX : forall j, (k <= j)%nat -> frees use_last (st j) = true -> full q j -> (gnt j = true -> enc j <> q) -> at_dist j (Z.of_nat (Datatypes.S d) - 1) -> exists k', (k <= k')%nat /\ vint k' = true /\ enc k' = q).
    { intros j L FR FJ NE DJ. destruct (free_step j _ FR FJ NE DJ) as (G & F' & [E|D']).
      - destruct (GQ _ G E) as (k' & L' & X). exists k'. split; [lia|assumption].
      - destruct (IH (Datatypes.S j) F') as (k' & L' & X); [replace (Z.of_nat d - 1) with (Z.of_nat (Datatypes.S d) - 1 - 1) by lia; assumption|]. exists k'. split; [lia|assumption]. }
    destruct (gnt k) eqn:G; [|apply (NX k); auto; [unfold frees; now rewrite G|congruence]].
    destruct (Z.eq_dec (enc k) q) as [E|E]; [now apply GQ|].
    destruct (frame_ends (Datatypes.S N) k G ltac:(lia)) as (k1 & L1 & A1 & F1 & P1).
    apply (NX k1); [assumption|assumption|apply P1; auto|rewrite A1; auto|unfold at_dist; rewrite A1; exact D].
Qed.

Lemma all_move k : exists k', (k <= k')%nat /\ prefix (accepted q (TR k)) (from q (MV k')).
Proof.
  pose proof (inv_k k) as I. destruct (Z.testbit (mx_valid (st k)) q) eqn:F.
  - destruct (arb_k k) as [_ (m & M1)]. destruct (q_moves (Z.to_nat n) k F) as (k1 & L1 & V1 & E1).
    { exists m. split; [assumption|]. pose proof (rr_bound prm m q (proj1 M1) Hq) as B. cbn [ap_ports mux_arb] in B. lia. }
    exists (Datatypes.S k1). split; [lia|]. replace k1 with (k + (k1 - k))%nat in * by lia. set (k2 := (k + (k1 - k))%nat) in *. eapply prefix_trans; [apply (acc_mono q k (k1 - k))|]. fold k2.
    pose proof (inv_k k2) as I2. rewrite (v_in _ _ _ _ _ _ _ _ _ I2 q Hq). rewrite mv_S, V1, from_app. unfold from at 3. cbn [filter]. unfold cur at 1. cbn [fst]. rewrite E1, Z.eqb_refl. cbn [map]. unfold cur. cbn [snd]. rewrite E1.
    pose proof V1 as V2. rewrite vint_k, E1 in V2. destruct (Z.testbit (mx_valid (st k2)) q); [apply prefix_refl|discriminate].
  - exists k. split; [lia|]. rewrite (v_in _ _ _ _ _ _ _ _ _ I q Hq), F, app_nil_r. apply prefix_refl.
Qed.

(** What has moved leaves. *)
Lemma lens k : length (MV k) = (length (delivered (TR k)) + length (content (mx_skid (st k))))%nat.
Proof. pose proof (v_out _ _ _ _ _ _ _ _ _ (inv_k k)) as E. apply (f_equal (@length M)) in E. now rewrite app_length, !map_length in E. Qed.
Lemma del_S k : (length (delivered (TR k)) <= length (delivered (TR (Datatypes.S k))))%nat.
Proof. cbn [TR]. rewrite del_snoc. unfold del_step. cbn [mv_rst mux_event]. rewrite Hr. destruct (_ && _); [rewrite app_length; cbn [length]|]; lia. Qed.
Lemma del_mono k m : (length (delivered (TR k)) <= length (delivered (TR (k + m))))%nat.
Proof. induction m; [rewrite Nat.add_0_r; lia|]. rewrite <- plus_n_Sm. pose proof (del_S (k + m)). lia. Qed.
Lemma one_out k : content (mx_skid (st k)) <> [] -> mi_ready (f k) = true -> (length (delivered (TR (Datatypes.S k))) = length (delivered (TR k)) + 1)%nat.
Proof.
  intros C R. cbn [TR]. rewrite del_snoc. unfold del_step. cbn [mv_rst mux_event mv_ovalid mv_oready]. rewrite Hr, R, andb_true_r.
  destruct (v_skid _ _ _ _ _ _ _ _ _ (inv_k k)) as [_ K]. unfold content in C. destruct (sk_valid (mx_skid (st k))); [now rewrite app_length|]. destruct (sk_tvalid (mx_skid (st k))); [discriminate (K eq_refl)|now destruct C].
Qed.
Lemma drain k0 d : forall k, (k0 <= k)%nat -> (length (MV k0) <= length (delivered (TR k)) + d)%nat -> exists k', (k0 <= k')%nat /\ (length (MV k0) <= length (delivered (TR k')))%nat.
Proof.
  induction d as [|d IH]; intros k Lk L; [exists k; split; [assumption|lia]|].
  destruct (Hs k) as [m Hm]. destruct (le_lt_dec (length (MV k0)) (length (delivered (TR (k + m))))) as [|LT]; [exists (k + m)%nat; split; [lia|assumption]|].
  pose proof (one_out (k + m)) as O. pose proof (del_mono k m). apply (IH (Datatypes.S (k + m))); [lia|]. rewrite O; [lia| |assumption].
  intros C. pose proof (lens (k + m)) as E. rewrite C in E. cbn [length] in E. pose proof (mv_mono k0 (k + m - k0)) as [c P]. replace (k0 + (k + m - k0))%nat with (k + m)%nat in P by lia. rewrite P, app_length in E. lia.
Qed.

Lemma delivery k : exists k' src, merged n use_last (fun q l d => out (route q l d)) (TR k') src /\ prefix (accepted q (TR k)) (from q src).
Proof.
  destruct (all_move k) as (k1 & L1 & P1). destruct (drain k1 (length (MV k1)) k1) as (k2 & L2 & D2); [lia|lia|].
  destruct (inv_merged _ _ _ _ _ _ _ _ _ (inv_k k2)) as (a & b & E & MG & _). exists k2, a. split; [assumption|].
  assert (LA : length a = length (delivered (TR k2))) by (rewrite (m_out _ _ _ _ _ MG); now rewrite map_length).
  pose proof (mv_mono k1 (k2 - k1)) as [c P]. replace (k1 + (k2 - k1))%nat with k2 in P by lia. rewrite E in P.
  assert (PA : a = MV k1 ++ skipn (length (MV k1)) a).
  { rewrite <- (firstn_skipn (length (MV k1)) a) at 1. f_equal. apply (f_equal (firstn (length (MV k1)))) in P. rewrite !firstn_app, Nat.sub_diag, firstn_all, firstn_O, app_nil_r in P.
    replace (length (MV k1) - length a)%nat with O in P by lia. now rewrite firstn_O, app_nil_r in P. }
  eapply prefix_trans; [exact P1|]. rewrite PA, from_app. now eexists.
Qed.
End live.
