From Verif Require Import PyBase RtlModel RtlFcModel RtlFifoModel RtlFifoSpec RtlFifoProofs RtlFmuxModel RtlFmuxSpec RtlFmuxProofs RtlFmuxProofs2.

Lemma gi_reset p s i : mp_ok p -> mi_rst i = true -> GI p (fm_step p s i) (fun _ => []) (fun _ => []) (fun _ => []) [].
Proof.
  intros [_ Hp] Hr. unfold fm_step. rewrite Hr. cbv zeta. constructor; cbn [ms_d ms_c ms_ren ms_sel ms_selp ms_sq ms_out].
  - intros n. rewrite !tab_eq. apply dual_reset, Hp.
  - reflexivity.
  - discriminate.
  - apply out_reset.
Qed.
Lemma reset_pend p s i n : mi_rst i = true -> pend (ms_c (fm_step p s i) n) [] = [].
Proof. intros Hr. unfold fm_step. rewrite Hr. cbv zeta. cbn [ms_c]. rewrite tab_eq. reflexivity. Qed.

Lemma frame_port p s i : ms_frame s = true -> fst (fm_arb p s i) = ms_port s.
Proof. unfold fm_arb. intros ->. reflexivity. Qed.

Lemma of_port_app n a b : of_port n (a ++ b) = of_port n a ++ of_port n b.
Proof. unfold of_port. rewrite filter_app, map_app. reflexivity. Qed.

Lemma m_taken_eq n i s : m_taken n (i, s) = if mi_valid i n && df_ready (ms_d s n) (ms_c s n) then [mi_b i n] else [].
Proof. reflexivity. Qed.

Lemma mux_trace p : mp_ok p -> forall l s qd qc qo oq, GI p s qd qc qo oq -> Forall m_running l ->
  exists qd' qc' qo' oq' ev, let s' := fm_run p s l in let tr := fm_trace p s l in
    GI p s' qd' qc' qo' oq' /\ apend s oq ++ map snd ev = flat_map m_given tr ++ apend s' oq' /\
    (forall n, pend (ms_c s n) (qc n) ++ whole (qo n) (flat_map (m_taken n) tr) = of_port n ev ++ pend (ms_c s' n) (qc' n)) /\
    (forall n, spend s n ++ map fb_seq (firsts (negb (ms_frame s && (ms_port s =? n))) (of_port n ev)) = flat_map (m_seq n) tr ++ spend s' n) /\
    together (if ms_frame s then Some (ms_port s) else None) ev.
Proof.
  intros Hp. induction l as [|i t IH]; intros s qd qc qo oq G Hl.
  - exists qd, qc, qo, oq, []. cbn. split; [exact G|]. split; [rewrite app_nil_r; reflexivity|]. split; [intros; rewrite app_nil_r; reflexivity|]. split; [intros; rewrite app_nil_r; reflexivity|exact I].
  - inversion Hl as [|? ? Hi Ht]; subst. destruct (gi_step p s i qd qc qo oq Hp Hi G) as (oq1 & G1 & A1 & B1 & C1). cbv zeta in *.
    destruct (IH _ _ _ _ _ G1 Ht) as (qd' & qc' & qo' & oq' & ev & G2 & A2 & B2 & C2 & D2). cbv zeta in *.
    exists qd', qc', qo', oq', (evs p s i ++ ev). cbn [fm_trace flat_map fm_run fold_left]. fold (fm_run p (fm_step p s i) t).
    assert (EFr : ms_frame (fm_step p s i) = if fm_go p s i then negb (fb_eop (fs_ob (ms_c s (fst (fm_arb p s i))))) else ms_frame s) by (unfold fm_step; rewrite Hi; reflexivity).
    assert (EPo : ms_port (fm_step p s i) = if fm_go p s i then fst (fm_arb p s i) else ms_port s) by (unfold fm_step; rewrite Hi; reflexivity).
    split; [exact G2|]. split; [|split; [|split]].
    + rewrite map_app, app_assoc, A1, <- !app_assoc. f_equal. exact A2.
    + intros n. rewrite of_port_app, m_taken_eq. specialize (B1 n). specialize (B2 n). unfold news in B1. unfold q_o, nopen in B2.
      destruct (mi_valid i n && df_ready (ms_d s n) (ms_c s n)); cbn [app whole andb] in *.
      * destruct (fb_eop (mi_b i n)).
        -- rewrite app_assoc, B1, <- !app_assoc. f_equal. exact B2.
        -- rewrite app_nil_r in B1. rewrite B1, <- !app_assoc. f_equal. exact B2.
      * rewrite app_nil_r in B1. rewrite B1, <- !app_assoc. f_equal. exact B2.
    + intros n. rewrite of_port_app. specialize (C1 n). specialize (C2 n). rewrite <- app_assoc, <- C2, (app_assoc (m_seq n (i, s))), <- C1, <- app_assoc. f_equal.
      rewrite EFr, EPo. unfold evs. destruct (fm_go p s i) eqn:EG.
      * set (k := fst (fm_arb p s i)) in *. set (b := fs_ob (ms_c s k)) in *. unfold of_port at 1 3. cbn [filter fst]. destruct (Z.eqb_spec k n) as [E|E].
        -- cbn [map snd app firsts]. assert (EF : (ms_frame s && (ms_port s =? n)) = ms_frame s).
           { destruct (ms_frame s) eqn:F; [|reflexivity]. cbn [andb]. apply Z.eqb_eq. rewrite <- E. unfold k. symmetry. apply frame_port, F. }
           rewrite EF, andb_true_r, negb_involutive. destruct (ms_frame s); reflexivity.
        -- cbn [map snd app]. rewrite andb_false_r. assert (EF : (ms_frame s && (ms_port s =? n)) = false).
           { destruct (ms_frame s) eqn:F; [|reflexivity]. cbn [andb]. apply Z.eqb_neq. rewrite <- (frame_port p s i F). exact E. }
           rewrite EF. destruct (ms_frame s); reflexivity.
      * cbn [of_port filter map app]. destruct (ms_frame s); reflexivity.
    + unfold evs. rewrite EFr, EPo in D2. destruct (fm_go p s i) eqn:EG; [|exact D2]. cbn [app together]. split.
      * destruct (ms_frame s) eqn:F; [|exact I]. apply frame_port, F.
      * destruct (fb_eop (fs_ob (ms_c s (fst (fm_arb p s i))))); exact D2.
Qed.

Lemma apend_len p s qd qc qo oq : GI p s qd qc qo oq -> (length (apend s oq) <= 19)%nat.
Proof.
  intros G. pose proof (oi_len _ _ _ (g_out _ _ _ _ _ _ G)) as H. unfold apend, opend. rewrite !app_length. unfold lz in H. destruct (mo_v (ms_out s)), (ms_sel s); cbn [length]; lia.
Qed.

Lemma mux_ok p s i l : mp_ok p -> mi_rst i = true -> Forall m_running l -> let tr := fm_trace p (fm_step p s i) l in
  exists ev, (exists rest, map snd ev = flat_map m_given tr ++ rest /\ (length rest <= 19)%nat) /\
    (forall n, exists rest, whole [] (flat_map (m_taken n) tr) = of_port n ev ++ rest /\ Z.of_nat (length rest) <= fp_d (mp_f p) + 1) /\ together None ev.
Proof.
  intros Hp Hr Hl tr. pose proof (gi_reset p s i Hp Hr) as G. destruct (mux_trace p Hp l _ _ _ _ _ G Hl) as (qd & qc & qo & oq & ev & G2 & A & B & C & D). cbv zeta in *.
  assert (E0 : apend (fm_step p s i) [] = []) by (unfold fm_step; rewrite Hr; reflexivity).
  assert (F0 : ms_frame (fm_step p s i) = false) by (unfold fm_step; rewrite Hr; reflexivity).
  rewrite E0 in A. rewrite F0 in D. exists ev. split; [|split; [|exact D]].
  - eexists. split; [exact A|]. eapply apend_len, G2.
  - intros n. specialize (B n). rewrite (reset_pend p s i n Hr) in B. eexists. split; [exact B|]. apply (pend_len _ _ _ _ (pi_c _ _ _ _ _ _ _ (g_pi _ _ _ _ _ _ G2 n))).
Qed.

Lemma spend_len s n : (length (spend s n) <= 2)%nat.
Proof. unfold spend. rewrite app_length. destruct (ms_osqv s n), (ms_sq s n); cbn [length]; lia. Qed.

Lemma mux_seq p s i l : mp_ok p -> mi_rst i = true -> Forall m_running l -> let tr := fm_trace p (fm_step p s i) l in
  forall n, exists rest, map fb_seq (firsts true (whole [] (flat_map (m_taken n) tr))) = flat_map (m_seq n) tr ++ rest /\ Z.of_nat (length rest) <= fp_d (mp_f p) + 3.
Proof.
  intros Hp Hr Hl tr n. pose proof (gi_reset p s i Hp Hr) as G. destruct (mux_trace p Hp l _ _ _ _ _ G Hl) as (qd & qc & qo & oq & ev & G2 & A & B & C & D). cbv zeta in *.
  assert (F0 : ms_frame (fm_step p s i) = false) by (unfold fm_step; rewrite Hr; reflexivity).
  assert (S0 : spend (fm_step p s i) n = []) by (unfold fm_step; rewrite Hr; reflexivity).
  specialize (B n). specialize (C n). rewrite (reset_pend p s i n Hr) in B. rewrite F0, S0 in C. cbn [andb negb app] in B, C.
  pose proof (pend_len _ _ _ _ (pi_c _ _ _ _ _ _ _ (g_pi _ _ _ _ _ _ G2 n))) as PL. unfold tr. rewrite B.
  assert (FA : forall a b f, exists g, firsts f (a ++ b) = firsts f a ++ firsts g b).
  { induction a as [|x a IH]; intros b f; [exists f; reflexivity|]. cbn [app firsts]. destruct (IH b (fb_eop x)) as (g & E). exists g. rewrite E, app_assoc. reflexivity. }
  assert (FL : forall a f, (length (firsts f a) <= length a)%nat).
  { induction a as [|x a IH]; intros f; [reflexivity|]. cbn [firsts length]. rewrite app_length. specialize (IH (fb_eop x)). destruct f; cbn [length]; lia. }
  destruct (FA (of_port n ev) (pend (ms_c (fm_run p (fm_step p s i) l) n) (qc n)) true) as (g & E). rewrite E, map_app, C, <- app_assoc.
  eexists. split; [reflexivity|]. rewrite app_length, map_length.
  pose proof (spend_len (fm_run p (fm_step p s i) l) n). specialize (FL (pend (ms_c (fm_run p (fm_step p s i) l) n) (qc n)) g). unfold lz in PL. lia.
Qed.

(** The ports in turn. *)
Lemma succ_range p c : 1 <= mp_n p -> 0 <= c < mp_n p -> 0 <= fm_succ p c < mp_n p.
Proof. intros H H0. unfold fm_succ. destruct (mp_lsb p); [destruct (Z.ltb_spec c (mp_n p - 1))|destruct (Z.ltb_spec 0 c)]; lia. Qed.
Lemma start_range p c : 1 <= mp_n p -> 0 <= c < mp_n p -> 0 <= fm_start p c < mp_n p.
Proof. intros H H0. unfold fm_start. destruct (mp_rr p); [apply succ_range; assumption|]. destruct (mp_lsb p); lia. Qed.
Lemma scan_first p s i : 1 <= mp_n p -> forall k c, 0 <= c < mp_n p -> exists j, (j <= k)%nat /\ fst (fm_scan p s i k c) = Nat.iter j (fm_succ p) c /\
  snd (fm_scan p s i k c) = fm_can s i (Nat.iter j (fm_succ p) c) /\ (forall h, (h < j)%nat -> fm_can s i (Nat.iter h (fm_succ p) c) = false) /\ (snd (fm_scan p s i k c) = false -> j = k) /\ 0 <= fst (fm_scan p s i k c) < mp_n p.
Proof.
  intros Hn. induction k as [|k IH]; intros c Hc; cbn [fm_scan].
  - exists 0%nat. cbn [Nat.iter nat_rect]. destruct (fm_can s i c) eqn:E; cbn [fst snd]; (split; [lia|]; split; [reflexivity|]; split; [first [reflexivity|symmetry; exact E]|]; split; [intros; lia|]; split; [reflexivity|exact Hc]).
  - destruct (fm_can s i c) eqn:E.
    + exists 0%nat. cbn [Nat.iter nat_rect fst snd]. split; [lia|]; split; [reflexivity|]; split; [first [reflexivity|symmetry; exact E]|]; split; [intros; lia|]; split; [discriminate|exact Hc].
    + destruct (IH (fm_succ p c) (succ_range p c Hn Hc)) as (j & H1 & H2 & H3 & H4 & H5 & H6). exists (S j).
      assert (IT : forall m, Nat.iter (S m) (fm_succ p) c = Nat.iter m (fm_succ p) (fm_succ p c)) by (induction m as [|m IM]; [reflexivity|]; change (fm_succ p (Nat.iter (S m) (fm_succ p) c) = fm_succ p (Nat.iter m (fm_succ p) (fm_succ p c))); rewrite IM; reflexivity).
      rewrite IT. split; [lia|]. split; [exact H2|]. split; [exact H3|]. split; [|split; [intros H; f_equal; apply H5, H|exact H6]].
      intros [|h] Hh; [exact E|]. rewrite IT. apply H4. lia.
Qed.
Lemma iter_eq p c j : 1 <= mp_n p -> 0 <= c < mp_n p -> Nat.iter j (fm_succ p) c = (if mp_lsb p then c + Z.of_nat j else c - Z.of_nat j) mod mp_n p.
Proof.
  intros Hn Hc. induction j as [|j IH].
  - cbn [Nat.iter nat_rect]. destruct (mp_lsb p); [rewrite Z.add_0_r|rewrite Z.sub_0_r]; symmetry; apply Z.mod_small, Hc.
  - cbn [Nat.iter nat_rect]. fold (Nat.iter j (fm_succ p) c). rewrite IH. unfold fm_succ. destruct (mp_lsb p).
    + set (x := c + Z.of_nat j). pose proof (Z.mod_pos_bound x (mp_n p) ltac:(lia)) as B. replace (c + Z.of_nat (S j)) with (x + 1) by (unfold x; lia). clearbody x.
      destruct (Z.ltb_spec (x mod mp_n p) (mp_n p - 1)).
      * rewrite <- (Zplus_mod_idemp_l x). symmetry. apply Z.mod_small. lia.
      * rewrite <- (Zplus_mod_idemp_l x). replace (x mod mp_n p + 1) with (mp_n p) by lia. symmetry. apply Z.mod_same. lia.
    + set (x := c - Z.of_nat j). pose proof (Z.mod_pos_bound x (mp_n p) ltac:(lia)) as B. replace (c - Z.of_nat (S j)) with (x - 1) by (unfold x; lia). clearbody x.
      destruct (Z.ltb_spec 0 (x mod mp_n p)).
      * rewrite <- (Zminus_mod_idemp_l x). symmetry. apply Z.mod_small. lia.
      * rewrite <- (Zminus_mod_idemp_l x). replace (x mod mp_n p - 1) with (mp_n p - 1 + (-1) * mp_n p) by lia. rewrite Z.mod_add by lia. symmetry. apply Z.mod_small. lia.
Qed.
Lemma reach p c m : 1 <= mp_n p -> 0 <= c < mp_n p -> 0 <= m < mp_n p -> exists j, (j <= Z.to_nat (mp_n p - 1))%nat /\ Nat.iter j (fm_succ p) c = m.
Proof.
  intros Hn Hc Hm. set (d := if mp_lsb p then m - c else c - m). pose proof (Z.mod_pos_bound d (mp_n p) ltac:(lia)) as B.
  exists (Z.to_nat (d mod mp_n p)). split; [lia|]. rewrite iter_eq by assumption. rewrite Z2Nat.id by lia. unfold d. destruct (mp_lsb p).
  - rewrite Zplus_mod_idemp_r. replace (c + (m - c)) with m by lia. apply Z.mod_small, Hm.
  - rewrite Zminus_mod_idemp_r. replace (c - (c - m)) with m by lia. apply Z.mod_small, Hm.
Qed.

Lemma arb_range p s i : 1 <= mp_n p -> 0 <= ms_port s < mp_n p -> 0 <= fst (fm_arb p s i) < mp_n p.
Proof.
  intros Hn H. unfold fm_arb. destruct (ms_frame s); [exact H|].
  destruct (scan_first p s i Hn (Z.to_nat (mp_n p - 1)) _ (start_range p _ Hn H)) as (j & _ & _ & _ & _ & _ & R). exact R.
Qed.
Lemma arb_none p s i : 1 <= mp_n p -> 0 <= ms_port s < mp_n p -> snd (fm_arb p s i) = false -> forall m, 0 <= m < mp_n p -> fm_can s i m = false.
Proof.
  intros Hn H. unfold fm_arb. destruct (ms_frame s); [discriminate|]. intros E m Hm.
  destruct (scan_first p s i Hn (Z.to_nat (mp_n p - 1)) _ (start_range p _ Hn H)) as (j & J1 & J2 & J3 & J4 & J5 & _). rewrite E in J3. specialize (J5 E). subst j.
  destruct (reach p _ m Hn (start_range p _ Hn H) Hm) as (h & Hh & <-).
  destruct (Nat.eq_dec h (Z.to_nat (mp_n p - 1))) as [->|]; [symmetry; exact J3|]. apply J4. lia.
Qed.

Lemma port_inv p l s : 1 <= mp_n p -> 0 <= ms_port s < mp_n p -> Forall m_running l -> 0 <= ms_port (fm_run p s l) < mp_n p.
Proof.
  intros Hn. revert s. induction l as [|i t IH]; intros s H Hl; [exact H|]. inversion Hl as [|? ? Hi Ht]; subst. cbn [fm_run fold_left]. fold (fm_run p (fm_step p s i) t). apply IH; [|exact Ht].
  unfold fm_step. rewrite Hi. cbv zeta. cbn [ms_port]. destruct (fm_go p s i); [apply arb_range; assumption|exact H].
Qed.
Lemma reset_port p s i : mi_rst i = true -> ms_port (fm_step p s i) = 0.
Proof. intros Hr. unfold fm_step. rewrite Hr. reflexivity. Qed.
Lemma fm_run_app p l m s : fm_run p s (l ++ m) = fm_run p (fm_run p s l) m.
Proof. apply fold_left_app. Qed.

Lemma mux_pause p s r l i j n : mp_ok p -> mi_rst r = true -> Forall m_running l -> m_running i -> m_running j ->
  let s1 := fm_run p (fm_step p s r) l in ms_osqv (fm_run p (fm_step p s r) (l ++ [i; j])) n = true ->
  0 <= n < mp_n p /\ mi_pause i n = false /\ m_offers s1 n = true /\
  (mp_rr p = false -> forall m, m_before p m n -> mi_pause i m = true \/ m_offers s1 m = false).
Proof.
  intros [Hn Hp] Hr Hl Hi Hj s1 H. rewrite fm_run_app in H. fold s1 in H. cbn [fm_run fold_left] in H.
  assert (E : ms_osqv (fm_step p (fm_step p s1 i) j) n = ms_sq (fm_step p s1 i) n) by (unfold fm_step at 1; rewrite Hj; reflexivity). rewrite E in H.
  assert (E2 : ms_sq (fm_step p s1 i) n = negb (ms_frame s1) && fm_read p s1 i n) by (unfold fm_step; rewrite Hi; reflexivity). rewrite E2 in H.
  apply andb_prop in H. destruct H as [F H]. apply negb_true_iff in F. unfold fm_read in H. apply andb_prop in H. destruct H as [G EN]. apply Z.eqb_eq in EN.
  assert (PR : 0 <= ms_port s1 < mp_n p) by (apply port_inv; [exact Hn|rewrite reset_port by exact Hr; lia|exact Hl]).
  pose proof (start_range p _ Hn PR) as SR. pose proof (arb_range p s1 i Hn PR) as AR. unfold fm_go in G. apply andb_prop in G. destruct G as [G _]. apply andb_prop in G. destruct G as [A _].
  unfold fm_arb in *. rewrite F in *. destruct (scan_first p s1 i Hn (Z.to_nat (mp_n p - 1)) _ SR) as (k & K1 & K2 & K3 & K4 & _ & _).
  rewrite <- EN in *. rewrite A, <- K2 in K3. symmetry in K3. unfold fm_can in K3. apply andb_prop in K3. destruct K3 as [K3 K5]. apply negb_true_iff in K3.
  split; [exact AR|]. split; [exact K3|]. split; [exact K5|]. intros RR m [Hm Hb].
  assert (X : fm_can s1 i m = false).
  { destruct (reach p (fm_start p (ms_port s1)) m Hn SR Hm) as (h & H1 & H2). rewrite <- H2. apply K4.
    rewrite iter_eq in K2, H2 by assumption. unfold fm_start in K2, H2. rewrite RR in K2, H2. destruct (mp_lsb p); rewrite Z.mod_small in K2, H2 by lia; lia. }
  unfold fm_can in X. unfold m_offers. destruct (mi_pause i m); [left; reflexivity|right; exact X].
Qed.
