From Verif Require Import PyBase RtlModel RtlFcModel RtlFifoModel RtlFifoSpec RtlFifoProofs RtlFmuxModel RtlFmuxSpec RtlFmuxProofs RtlFmuxProofs2 RtlFmuxProofs3.

(** Draining. *)
Fixpoint sumz (f : Z -> Z) (l : list Z) : Z := match l with [] => 0 | x :: t => f x + sumz f t end.
Lemma sum_le f g l : (forall x, In x l -> f x <= g x) -> sumz f l <= sumz g l.
Proof. induction l as [|x t IH]; intros H; cbn [sumz]; [lia|]. pose proof (H x (or_introl eq_refl)). assert (sumz f t <= sumz g t) by (apply IH; intros; apply H; right; assumption). lia. Qed.
Lemma sum_lt f g l m : (forall x, In x l -> f x <= g x) -> In m l -> f m <= g m - 1 -> sumz f l <= sumz g l - 1.
Proof.
  induction l as [|x t IH]; intros H Hm Hs; [destruct Hm|]. cbn [sumz]. assert (HT : forall y, In y t -> f y <= g y) by (intros; apply H; right; assumption).
  pose proof (H x (or_introl eq_refl)) as Hx. destruct Hm as [->|Hm].
  - pose proof (sum_le f g t HT). lia.
  - specialize (IH HT Hm Hs). lia.
Qed.
Lemma sum_bound f B l : (forall x, In x l -> f x <= B) -> sumz f l <= B * Z.of_nat (length l).
Proof. induction l as [|x t IH]; intros H; cbn [sumz length]; [lia|]. pose proof (H x (or_introl eq_refl)). assert (sumz f t <= B * Z.of_nat (length t)) by (apply IH; intros; apply H; right; assumption). lia. Qed.
Lemma sum_nonneg f l : (forall x, 0 <= f x) -> 0 <= sumz f l.
Proof. intros H. induction l as [|x t IH]; cbn [sumz]; [lia|]. specialize (H x). lia. Qed.
Lemma sum_zero f l : (forall x, 0 <= f x) -> sumz f l = 0 -> forall x, In x l -> f x = 0.
Proof.
  intros H. induction l as [|x t IH]; intros E y Hy; [destruct Hy|]. cbn [sumz] in E. pose proof (H x). pose proof (sum_nonneg f t H). destruct Hy as [->|Hy]; [lia|]. apply IH; [lia|exact Hy].
Qed.
Lemma sum_pos f l : (forall x, 0 <= f x) -> 0 < sumz f l -> exists x, In x l /\ 0 < f x.
Proof.
  intros H. induction l as [|x t IH]; cbn [sumz]; intros E; [lia|]. destruct (Z_lt_ge_dec 0 (f x)) as [L|L]; [exists x; split; [left; reflexivity|exact L]|].
  destruct IH as (y & Hy & Ly); [lia|]. exists y. split; [right; exact Hy|exact Ly].
Qed.

Definition ports (p : fm_param) : list Z := map Z.of_nat (seq 0 (Z.to_nat (mp_n p))).
Lemma in_ports p m : In m (ports p) <-> 0 <= m < mp_n p.
Proof.
  unfold ports. rewrite in_map_iff. split.
  - intros (k & <- & H). apply in_seq in H. lia.
  - intros H. exists (Z.to_nat m). split; [lia|]. apply in_seq. lia.
Qed.

Definition ends (l : list fbeat) : Prop := l = [] \/ exists t b, l = t ++ [b] /\ fb_eop b = true.
Lemma ends_app a b : ends a -> ends b -> ends (a ++ b).
Proof.
  intros Ha [->|(t & x & -> & E)]; [rewrite app_nil_r; exact Ha|]. right. exists (a ++ t), x. rewrite app_assoc. auto.
Qed.
Lemma ends_cons x l : ends (x :: l) -> ends l /\ (l = [] -> fb_eop x = true).
Proof.
  intros [H|(t & b & E & Hb)]; [discriminate|]. destruct t as [|y t].
  - injection E as -> ->. split; [left; reflexivity|intros _; exact Hb].
  - injection E as -> ->. split; [right; exists t, b; auto|]. intros H. destruct t; discriminate H.
Qed.

Record FI (p : fm_param) (s : fm_st) (qc : Z -> list fbeat) : Prop := mkFI {
  f_ends : forall n, ends (pend (ms_c s n) (qc n)); f_port : 0 <= ms_port s < mp_n p;
  f_frame : ms_frame s = true -> pend (ms_c s (ms_port s)) (qc (ms_port s)) <> [] }.

Lemma fi_next p s i qd qc qo oq : mp_ok p -> m_running i -> GI p s qd qc qo oq -> FI p s qc -> FI p (fm_step p s i) (q_c p s i qc qo).
Proof.
  intros Hp Hi G F. destruct (gi_step p s i qd qc qo oq Hp Hi G) as (oq1 & _ & _ & B & _). cbv zeta in B. destruct F as [F1 F2 F3].
  assert (EFr : ms_frame (fm_step p s i) = if fm_go p s i then negb (fb_eop (fs_ob (ms_c s (fst (fm_arb p s i))))) else ms_frame s) by (unfold fm_step; rewrite Hi; reflexivity).
  assert (EPo : ms_port (fm_step p s i) = if fm_go p s i then fst (fm_arb p s i) else ms_port s) by (unfold fm_step; rewrite Hi; reflexivity).
  assert (EN : forall n, ends (of_port n (evs p s i) ++ pend (ms_c (fm_step p s i) n) (q_c p s i qc qo n))).
  { intros n. rewrite <- B. apply ends_app; [apply F1|]. unfold news. destruct (mi_valid i n && df_ready (ms_d s n) (ms_c s n)); [|left; reflexivity]. cbn [andb].
    destruct (fb_eop (mi_b i n)) eqn:E; [|left; reflexivity]. right. exists (qo n), (mi_b i n). auto. }
  constructor.
  - intros n. specialize (EN n). unfold evs, of_port in EN. destruct (fm_go p s i); [|exact EN]. cbn [filter fst] in EN. destruct (fst (fm_arb p s i) =? n); [|exact EN]. cbn [map snd app] in EN. apply ends_cons in EN. apply EN.
  - rewrite EPo. destruct (fm_go p s i); [apply arb_range; [apply Hp|exact F2]|exact F2].
  - rewrite EFr, EPo. unfold evs, of_port in EN, B. destruct (fm_go p s i) eqn:EG.
    + intros H. set (k := fst (fm_arb p s i)) in *. specialize (EN k). cbn [filter fst] in EN. rewrite Z.eqb_refl in EN. cbn [map snd app] in EN. apply ends_cons in EN. destruct EN as [_ EN].
      intros Q. rewrite (EN Q) in H. discriminate.
    + intros H. specialize (B (ms_port s)). cbn [filter map app] in B. rewrite <- B. intros Q. apply app_eq_nil in Q. apply (F3 H), Q.
Qed.

Definition V (s : fm_st) (oq : list fbeat) : Z := 2 * lz oq + (if ms_sel s then 3 else 0) + (if mo_v (ms_out s) then 1 else 0).
Definition wt (s : fm_st) (qc : Z -> list fbeat) (n : Z) : Z := weight (ms_c s n) (qc n).
Definition Phi (p : fm_param) (s : fm_st) (qc : Z -> list fbeat) (oq : list fbeat) : Z := 8 * sumz (wt s qc) (ports p) + 2 * V s oq + (if mo_half (ms_out s) then 1 else 0).

Lemma w_step p c i qc qo : fp_ok p -> Inv p c qc qo -> fi_rst i = false -> fi_take c i = false ->
  weight (fi_step p c i) (nqc c i qc qo) <= Z.max 0 (weight c qc - (if negb (fs_ov c) || fi_read i then 1 else 0)).
Proof.
  intros Hp I Hr TK. pose proof (empty_ok p c qc qo Hp I) as HE.
  unfold weight, nqc, pend, fi_step. rewrite Hr, TK. cbn [andb]. cbv zeta. cbn [fs_rv fs_rb fs_ov fs_ob]. rewrite app_nil_r.
  unfold fi_ren, fi_go. rewrite HE. rewrite !lz_app. pose proof (lz_pos _ qc).
  destruct qc as [|b [|b2 t]], (fs_rv c), (fs_ov c), (fi_read i); cbn [negb tl orb andb]; unfold lz; cbn [length]; lia.
Qed.

Lemma phi_step p s i qd qc qo oq : mp_ok p -> m_draining i -> GI p s qd qc qo oq -> FI p s qc ->
  exists oq', GI p (fm_step p s i) (q_d p s i qd qo) (q_c p s i qc qo) (q_o s i qo) oq' /\ Phi p (fm_step p s i) (q_c p s i qc qo) oq' <= Z.max 0 (Phi p s qc oq - 1).
Proof.
  intros Hp (Hi & Hv & Hpa & Hrd) G F. destruct (gi_step p s i qd qc qo oq Hp Hi G) as (oq' & G' & A & _ & _). cbv zeta in A. exists oq'. split; [exact G'|].
  pose proof (oi_empty _ _ _ (g_out _ _ _ _ _ _ G)) as OE. pose proof (oi_count _ _ _ (g_out _ _ _ _ _ _ G)) as OC.
  assert (EO : ms_out (fm_step p s i) = mo_step (ms_out s) false (fm_v s) true (fm_b s)) by (unfold fm_step; rewrite Hi, Hrd; reflexivity).
  assert (EH : mo_half (ms_out (fm_step p s i)) = (lz oq >=? 16)) by (rewrite EO, <- OC; reflexivity).
  assert (EV : mo_v (ms_out (fm_step p s i)) = match oq with [] => false | _ => true end).
  { rewrite EO. unfold mo_step. cbn [mo_v]. unfold mo_pop. rewrite OE, orb_true_r, andb_true_r. destruct oq; reflexivity. }
  assert (ES : ms_sel (fm_step p s i) = fm_go p s i) by (unfold fm_step; rewrite Hi; reflexivity).
  assert (EL : lz oq' = lz oq + (if ms_sel s then 1 else 0) - (if mo_v (ms_out (fm_step p s i)) then 1 else 0)).
  { apply (f_equal (@length fbeat)) in A. unfold apend, opend, m_given, evs in A. cbn [fst snd] in A. rewrite Hrd, andb_true_r, ES in A. rewrite !app_length, map_length in A. unfold lz.
    destruct (fm_go p s i), (ms_sel s), (mo_v (ms_out s)), (mo_v (ms_out (fm_step p s i))); cbn [length] in A; lia. }
  assert (W : forall n, wt (fm_step p s i) (q_c p s i qc qo) n <= Z.max 0 (wt s qc n - (if negb (fs_ov (ms_c s n)) || fm_read p s i n then 1 else 0))).
  { intros n. unfold wt, q_c. replace (ms_c (fm_step p s i) n) with (fi_step (mp_f p) (ms_c s n) (df_in false (mi_b i n) (mi_valid i n) (ms_d s n) (fm_read p s i n))) by (unfold fm_step; rewrite Hi; cbv zeta; cbn [ms_c]; rewrite tab_eq; reflexivity).
    apply w_step; [apply Hp|apply (pi_c _ _ _ _ _ _ _ (g_pi _ _ _ _ _ _ G n))|reflexivity|]. unfold fi_take, df_in. cbn [fi_valid]. rewrite Hv. apply andb_false_r. }
  assert (WN : forall n, 0 <= wt s qc n) by (intros n; apply weight_nonneg).
  assert (WL : forall n, wt (fm_step p s i) (q_c p s i qc qo) n <= wt s qc n).
  { intros n. specialize (W n). specialize (WN n). destruct (negb (fs_ov (ms_c s n)) || fm_read p s i n); lia. }
  pose proof (sum_le _ _ (ports p) (fun x _ => WL x)) as SL.
  pose proof (sum_nonneg (wt s qc) (ports p) WN) as S0. pose proof (lz_pos _ oq) as L0.
  assert (EMP : lz oq = 0 -> match oq with [] => false | _ => true end = false) by (destruct oq; [reflexivity|]; unfold lz; cbn [length]; lia).
  assert (EMP2 : 0 < lz oq -> match oq with [] => false | _ => true end = true) by (destruct oq; [unfold lz; cbn [length]; lia|reflexivity]).
  assert (POS : forall n, pend (ms_c s n) (qc n) <> [] -> 1 <= wt s qc n).
  { intros n H. specialize (WN n). unfold wt in *. destruct (Z.eq_dec (weight (ms_c s n) (qc n)) 0) as [E|E]; [|lia]. apply weight_zero in E. contradiction. }
  destruct (fm_go p s i) eqn:EG.
  - (* a beat is read *)
    assert (RD : fm_read p s i (fst (fm_arb p s i)) = true) by (apply go_read, EG). set (k := fst (fm_arb p s i)) in *.
    assert (PK : 1 <= wt s qc k). { apply POS. unfold pend. rewrite (read_ov p s i k RD). discriminate. }
    assert (SD : sumz (wt (fm_step p s i) (q_c p s i qc qo)) (ports p) <= sumz (wt s qc) (ports p) - 1).
    { apply (sum_lt _ _ _ k); [intros x _; apply WL|apply in_ports; apply arb_range; [apply Hp|apply F]|]. specialize (W k). rewrite RD, orb_true_r in W. lia. }
    unfold Phi, V. rewrite ES, EL, EV, EH. destruct (ms_sel s), (mo_v (ms_out s)), (mo_half (ms_out s)), (lz oq >=? 16); destruct (match oq with [] => false | _ => true end); lia.
  - destruct (Z_lt_ge_dec 0 (V s oq)) as [VP|VP].
    + unfold Phi, V in *. rewrite ES, EL, EV, EH. destruct (Z_lt_ge_dec 0 (lz oq)) as [LP|LP].
      * rewrite (EMP2 LP). destruct (ms_sel s), (mo_v (ms_out s)), (mo_half (ms_out s)), (lz oq >=? 16); lia.
      * assert (LZ : lz oq = 0) by lia. rewrite (EMP LZ), LZ. rewrite LZ in VP. cbn [Z.geb Z.compare]. clear - VP SL S0. destruct (ms_sel s), (mo_v (ms_out s)), (mo_half (ms_out s)); lia.
    + assert (LZ : lz oq = 0 /\ ms_sel s = false /\ mo_v (ms_out s) = false). { clear - VP L0. unfold V in VP. destruct (ms_sel s), (mo_v (ms_out s)); (split; [|split]); first [reflexivity|lia]. }
      destruct LZ as (LZ & SE & MV). unfold Phi, V. rewrite ES, EL, EV, EH, (EMP LZ), LZ, SE, MV. cbn [Z.geb Z.compare].
      destruct (mo_half (ms_out s)) eqn:HF; [lia|].
      destruct (Z_lt_ge_dec 0 (sumz (wt s qc) (ports p))) as [TP|TP]; [|lia].
      assert (SD : sumz (wt (fm_step p s i) (q_c p s i qc qo)) (ports p) <= sumz (wt s qc) (ports p) - 1); [|lia].
      destruct (snd (fm_arb p s i)) eqn:SA.
      * assert (NV : fs_ov (ms_c s (fst (fm_arb p s i))) = false). { unfold fm_go in EG. rewrite SA, HF in EG. cbn [negb andb] in EG. rewrite andb_true_r in EG. exact EG. }
        destruct (ms_frame s) eqn:FR.
        -- rewrite (frame_port p s i FR) in NV. pose proof (POS _ (f_frame _ _ _ F FR)) as PP.
           apply (sum_lt _ _ _ (ms_port s)); [intros x _; apply WL|apply in_ports, F|]. specialize (W (ms_port s)). rewrite NV in W. cbn [negb orb] in W. lia.
        -- exfalso. unfold fm_arb in SA, NV. rewrite FR in SA, NV. destruct Hp as [Hn _].
           destruct (scan_first p s i Hn (Z.to_nat (mp_n p - 1)) _ (start_range p _ Hn (f_port _ _ _ F))) as (j & _ & J2 & J3 & _). rewrite SA, <- J2 in J3. unfold fm_can in J3. rewrite NV, andb_false_r in J3. discriminate.
      * destruct (sum_pos _ _ WN TP) as (m & Hm & Pm). apply (sum_lt _ _ _ m); [intros x _; apply WL|exact Hm|].
        assert (CN : fm_can s i m = false) by (apply (arb_none p s i); [apply Hp|apply F|exact SA|apply in_ports, Hm]).
        unfold fm_can in CN. rewrite Hpa in CN. cbn [negb andb] in CN. specialize (W m). rewrite CN in W. cbn [negb orb] in W. lia.
Qed.

Lemma gf_run p : mp_ok p -> forall l s qd qc qo oq, GI p s qd qc qo oq -> FI p s qc -> Forall m_running l ->
  exists qd' qc' qo' oq', GI p (fm_run p s l) qd' qc' qo' oq' /\ FI p (fm_run p s l) qc'.
Proof.
  intros Hp. induction l as [|i t IH]; intros s qd qc qo oq G F Hl; [exists qd, qc, qo, oq; auto|]. inversion Hl as [|? ? Hi Ht]; subst.
  destruct (gi_step p s i qd qc qo oq Hp Hi G) as (oq1 & G1 & _). pose proof (fi_next p s i qd qc qo oq Hp Hi G F) as F1. apply (IH _ _ _ _ _ G1 F1 Ht).
Qed.
Lemma phi_run p : mp_ok p -> forall l s qd qc qo oq, GI p s qd qc qo oq -> FI p s qc -> Forall m_draining l ->
  exists qd' qc' qo' oq', GI p (fm_run p s l) qd' qc' qo' oq' /\ Phi p (fm_run p s l) qc' oq' <= Z.max 0 (Phi p s qc oq - Z.of_nat (length l)).
Proof.
  intros Hp. induction l as [|i t IH]; intros s qd qc qo oq G F Hl; [exists qd, qc, qo, oq; split; [exact G|cbn [length fm_run fold_left]; lia]|]. inversion Hl as [|? ? Hi Ht]; subst.
  destruct (phi_step p s i qd qc qo oq Hp Hi G F) as (oq1 & G1 & P1). pose proof (fi_next p s i qd qc qo oq Hp (proj1 Hi) G F) as F1.
  destruct (IH _ _ _ _ _ G1 F1 Ht) as (a & b & c & d & G2 & P2). exists a, b, c, d. cbn [fm_run fold_left]. fold (fm_run p (fm_step p s i) t). split; [exact G2|]. cbn [length]. lia.
Qed.
Lemma phi_bound p s qd qc qo oq : mp_ok p -> GI p s qd qc qo oq -> Phi p s qc oq <= 8 * mp_n p * (fp_d (mp_f p) + 2) + 79.
Proof.
  intros [Hn Hp] G. unfold Phi, V. pose proof (oi_len _ _ _ (g_out _ _ _ _ _ _ G)) as H.
  assert (S : sumz (wt s qc) (ports p) <= (fp_d (mp_f p) + 2) * Z.of_nat (length (ports p))).
  { apply sum_bound. intros x _. apply (weight_le (mp_f p) _ _ (qo x) Hp). apply (pi_c _ _ _ _ _ _ _ (g_pi _ _ _ _ _ _ G x)). }
  assert (LP : Z.of_nat (length (ports p)) = mp_n p) by (unfold ports; rewrite map_length, seq_length, Z2Nat.id by lia; reflexivity). rewrite LP in S.
  replace (8 * mp_n p * (fp_d (mp_f p) + 2)) with (8 * ((fp_d (mp_f p) + 2) * mp_n p)) by ring. clear - S H. set (y := (fp_d (mp_f p) + 2) * mp_n p) in *. destruct (ms_sel s), (mo_v (ms_out s)), (mo_half (ms_out s)); lia.
Qed.
Lemma m_drain_running l : Forall m_draining l -> Forall m_running l.
Proof. apply Forall_impl. intros i (H & _). exact H. Qed.
Lemma fm_trace_app p : forall l m s, fm_trace p s (l ++ m) = fm_trace p s l ++ fm_trace p (fm_run p s l) m.
Proof. induction l as [|i t IH]; intros m s; [reflexivity|]. cbn [app fm_trace fm_run fold_left]. rewrite IH. reflexivity. Qed.
Lemma m_drain_taken p n : forall l s, Forall m_draining l -> flat_map (m_taken n) (fm_trace p s l) = [].
Proof. induction l as [|i t IH]; intros s H; [reflexivity|]. inversion H as [|? ? (_ & Hv & _) Ht]; subst. cbn [fm_trace flat_map]. unfold m_taken at 1. cbn [fst]. rewrite Hv. cbn [andb app]. apply IH, Ht. Qed.

Lemma mux_drain p s i l d : mp_ok p -> mi_rst i = true -> Forall m_running l -> Forall m_draining d -> 8 * mp_n p * (fp_d (mp_f p) + 2) + 79 <= Z.of_nat (length d) ->
  exists ev, map snd ev = flat_map m_given (fm_trace p (fm_step p s i) (l ++ d)) /\
    (forall n, 0 <= n < mp_n p -> whole [] (flat_map (m_taken n) (fm_trace p (fm_step p s i) l)) = of_port n ev) /\ together None ev.
Proof.
  intros Hp Hr Hl Hd HL. pose proof (gi_reset p s i Hp Hr) as G.
  assert (F : FI p (fm_step p s i) (fun _ => [])).
  { constructor; [intros n; rewrite (reset_pend p s i n Hr); left; reflexivity|rewrite (reset_port p s i Hr); destruct Hp; lia|]. unfold fm_step. rewrite Hr. discriminate. }
  assert (HA : Forall m_running (l ++ d)) by (apply Forall_app; split; [exact Hl|apply m_drain_running, Hd]).
  destruct (mux_trace p Hp (l ++ d) _ _ _ _ _ G HA) as (qd & qc & qo & oq & ev & G2 & A & B & _ & D). cbv zeta in *.
  assert (E0 : apend (fm_step p s i) [] = []) by (unfold fm_step; rewrite Hr; reflexivity).
  assert (F0 : ms_frame (fm_step p s i) = false) by (unfold fm_step; rewrite Hr; reflexivity).
  rewrite E0 in A. rewrite F0 in D. cbn [app] in A.
  destruct (gf_run p Hp l _ _ _ _ _ G F Hl) as (qd1 & qc1 & qo1 & oq1 & G1 & F1).
  destruct (phi_run p Hp d _ _ _ _ _ G1 F1 Hd) as (qd3 & qc3 & qo3 & oq3 & G3 & P3). rewrite <- fm_run_app in G3, P3. pose proof (phi_bound p _ _ _ _ _ Hp G1) as PB.
  set (x := fm_run p (fm_step p s i) (l ++ d)) in *.
  assert (WN : forall n, 0 <= wt x qc3 n) by (intros n; apply weight_nonneg). pose proof (sum_nonneg _ (ports p) WN) as SN. pose proof (lz_pos _ oq3) as LN.
  assert (Z3 : sumz (wt x qc3) (ports p) = 0 /\ lz oq3 = 0 /\ ms_sel x = false /\ mo_v (ms_out x) = false).
  { assert (PZ : Phi p x qc3 oq3 <= 0) by (clear - P3 PB HL; lia). unfold Phi, V in PZ. clear - PZ SN LN. destruct (ms_sel x), (mo_v (ms_out x)), (mo_half (ms_out x)); (split; [|split; [|split]]); first [reflexivity|lia]. }
  destruct Z3 as (Z3 & O3 & S3 & V3).
  exists ev. split; [|split; [|exact D]].
  - rewrite A. assert (OQ : oq = []).
    { pose proof (oi_empty _ _ _ (g_out _ _ _ _ _ _ G2)) as X2. pose proof (oi_empty _ _ _ (g_out _ _ _ _ _ _ G3)) as X3. destruct oq3; [|unfold lz in O3; cbn [length] in O3; lia]. rewrite X3 in X2. destruct oq; [reflexivity|discriminate]. }
    rewrite OQ. unfold apend, opend. rewrite S3, V3. cbn [app]. apply app_nil_r.
  - intros n Hn. specialize (B n). rewrite (reset_pend p s i n Hr), fm_trace_app, flat_map_app, (m_drain_taken p n d _ Hd), app_nil_r in B. cbn [app] in B. rewrite B.
    pose proof (sum_zero _ _ WN Z3 n (proj2 (in_ports p n) Hn)) as W0. unfold wt in W0. apply weight_zero in W0.
    assert (P0 : pend (ms_c x n) (qc n) = []); [|rewrite P0, app_nil_r; reflexivity].
    unfold pend in *. apply app_eq_nil in W0. destruct W0 as (W1 & W0). apply app_eq_nil in W0. destruct W0 as (W2 & W0). rewrite W1, W2.
    pose proof (empty_ok _ _ _ _ (proj2 Hp) (pi_c _ _ _ _ _ _ _ (g_pi _ _ _ _ _ _ G2 n))) as X2. pose proof (empty_ok _ _ _ _ (proj2 Hp) (pi_c _ _ _ _ _ _ _ (g_pi _ _ _ _ _ _ G3 n))) as X3.
    rewrite W0 in X3. rewrite X3 in X2. destruct (qc n); [reflexivity|discriminate].
Qed.

Lemma mux_kept p s i : m_running i -> mo_v (ms_out s) = true -> mi_ready i = false ->
  mo_v (ms_out (fm_step p s i)) = true /\ mo_b (ms_out (fm_step p s i)) = mo_b (ms_out s).
Proof.
  intros Hi Hv Hr. assert (EO : ms_out (fm_step p s i) = mo_step (ms_out s) false (fm_v s) false (fm_b s)) by (unfold fm_step; rewrite Hi, Hr; reflexivity).
  rewrite EO. unfold mo_step, mo_pop. rewrite Hv. cbn [negb orb]. rewrite andb_false_r. cbn [mo_v mo_b]. auto.
Qed.
