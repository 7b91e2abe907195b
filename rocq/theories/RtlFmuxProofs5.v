From Verif Require Import PyBase RtlModel RtlFcModel RtlFifoModel RtlFifoSpec RtlFifoProofs RtlFmuxModel RtlFmuxSpec RtlFmuxProofs RtlFmuxProofs2 RtlFmuxProofs3.

(** A FIFO does not run empty within a TLP. *)
Record CI (c : fi_st) (qc : list fbeat) : Prop := mkCI {
  ci_q : forall t x, qc = t ++ [x] -> fb_eop x = true;
  ci_r : fs_rv c = true -> fb_eop (fs_rb c) = false -> qc <> [];
  ci_o : fs_ov c = true -> fb_eop (fs_ob c) = false -> fs_rv c = true }.

Lemma ci_step p c i qc qo : fp_ok p -> Inv p c qc qo -> running i -> CI c qc -> CI (fi_step p c i) (nqc c i qc qo) /\
  (fs_ov c = true -> fi_read i = false \/ fb_eop (fs_ob c) = false -> fs_ov (fi_step p c i) = true).
Proof.
  intros Hp I Hr [Q R O]. pose proof (empty_ok p c qc qo Hp I) as HE.
  assert (HB : fi_ren c i = true -> exists t, qc = fs_mem c (fs_ra c) :: t).
  { intros H. destruct (ren_cons p c i qc qo Hp I H) as (b & t & E). exists t. rewrite E. f_equal. symmetry. rewrite (i_ra _ _ _ _ I).
    rewrite <- (i_mem _ _ _ _ I 0%nat b); [f_equal; f_equal; lia|]. rewrite E. reflexivity. }
  unfold fi_step. rewrite Hr. cbv zeta. split; [constructor|]; cbn [fs_rv fs_rb fs_ov fs_ob].
  - intros t x E. unfold nqc in E. destruct (fi_take c i && fb_eop (fi_b i)) eqn:ET.
    + apply andb_prop in ET. destruct ET as [_ ET]. rewrite app_assoc in E. apply app_inj_tail in E. destruct E as [_ <-]. exact ET.
    + rewrite app_nil_r in E. destruct (fi_ren c i); [|apply (Q t x E)]. destruct qc as [|y q]; [destruct t; discriminate E|]. cbn [tl] in E. apply (Q (y :: t) x). rewrite E. reflexivity.
  - unfold nqc. destruct (fi_ren c i) eqn:ER.
    + intros _ HN. destruct (HB eq_refl) as (t & E). rewrite E. cbn [tl]. destruct t as [|y t]; [|discriminate]. exfalso. specialize (Q [] _ E). congruence.
    + intros HV HN. unfold fi_ren in ER. destruct (negb (fs_rv c) || fi_go c i); cbn [andb] in ER; [congruence|]. intros E. apply app_eq_nil in E. destruct E as [E _]. apply (R HV HN E).
  - destruct (fi_go c i) eqn:EG; [|intros HV HN; specialize (O HV HN); rewrite O; reflexivity].
    intros HV HN. rewrite orb_true_r, HE. specialize (R HV HN). destruct qc; [destruct (R eq_refl)|reflexivity].
  - unfold fi_go. intros HV. rewrite HV. cbn [negb orb]. intros [->|H]; [reflexivity|]. destruct (fi_read i); [apply O; assumption|reflexivity].
Qed.

(** The output does not run empty within a TLP. *)
Record HI (p : fm_param) (s : fm_st) (qd qc qo : Z -> list fbeat) (oq : list fbeat) : Prop := mkHI {
  h_gi : GI p s qd qc qo oq;
  h_ci : forall n, CI (ms_c s n) (qc n);
  h_fr : ms_frame s = true -> fs_ov (ms_c s (ms_port s)) = true;
  h_sel : ms_sel s = true -> ms_frame s = negb (fb_eop (fm_b s));
  h_tail : ms_sel s = false -> forall t x, opend (ms_out s) oq = t ++ [x] -> ms_frame s = negb (fb_eop x);
  h_half : mo_half (ms_out s) = true -> 15 <= lz oq \/ ms_frame s = false;
  h_cnt : ms_frame s = true -> ms_sel s = false -> 14 <= lz oq;
  h_gap : mo_v (ms_out s) = true -> fb_eop (mo_b (ms_out s)) = false -> oq <> [] }.

Lemma out_cases o o' oq oq' S sel v ready b : OI o oq sel -> o' = mo_step o false v ready b ->
  opend o oq ++ S = (if mo_v o && ready then [mo_b o] else []) ++ opend o' oq' ->
  (mo_v o' = true /\ exists t, oq = mo_b o' :: t /\ oq' = t ++ S) \/ (mo_v o = true /\ mo_v o' = true /\ mo_b o' = mo_b o /\ oq' = oq ++ S) \/ (oq = [] /\ mo_v o' = false /\ oq' = S).
Proof.
  intros I E H. pose proof (oi_empty _ _ _ I) as HE.
  assert (EV : mo_v o' = if mo_pop o ready then true else if ready then false else mo_v o) by (rewrite E; reflexivity). clear E.
  unfold mo_pop in EV. rewrite HE in EV. unfold opend in H. destruct oq as [|x t]; cbn [negb andb] in EV.
  - destruct (mo_v o) eqn:V, ready; cbn [andb app] in H; rewrite EV in H; cbn [app] in H.
    + right. right. repeat split; [exact EV|congruence].
    + right. left. injection H as H1 H2. repeat split; [exact EV|symmetry; exact H1|symmetry; exact H2].
    + right. right. repeat split; [exact EV|congruence].
    + right. right. repeat split; [exact EV|congruence].
  - destruct (mo_v o) eqn:V, ready; cbn [negb orb andb app] in *; rewrite EV in H; cbn [app] in H.
    + left. injection H as H1 H2. split; [exact EV|]. exists t. split; [rewrite <- H1; reflexivity|symmetry; exact H2].
    + right. left. injection H as H1 H2. repeat split; [exact EV|symmetry; exact H1|symmetry; exact H2].
    + left. injection H as H1 H2. split; [exact EV|]. exists t. split; [rewrite <- H1; reflexivity|symmetry; exact H2].
    + left. injection H as H1 H2. split; [exact EV|]. exists t. split; [rewrite <- H1; reflexivity|symmetry; exact H2].
Qed.

Lemma hi_step p s i qd qc qo oq : mp_ok p -> m_running i -> HI p s qd qc qo oq -> exists qd' qc' qo' oq', HI p (fm_step p s i) qd' qc' qo' oq'.
Proof.
  intros Hp Hi [G C HF HS HT HH HC HG]. destruct (gi_step p s i qd qc qo oq Hp Hi G) as (oq' & G' & A & _ & _). cbv zeta in *.
  exists (q_d p s i qd qo), (q_c p s i qc qo), (q_o s i qo), oq'.
  pose proof (sel_v _ _ _ _ _ _ G) as SV. set (k := fst (fm_arb p s i)) in *. set (s' := fm_step p s i) in *.
  assert (EFr : ms_frame s' = if fm_go p s i then negb (fb_eop (fs_ob (ms_c s k))) else ms_frame s) by (unfold s', fm_step; rewrite Hi; reflexivity).
  assert (EPo : ms_port s' = if fm_go p s i then k else ms_port s) by (unfold s', fm_step; rewrite Hi; reflexivity).
  assert (ESe : ms_sel s' = fm_go p s i) by (unfold s', fm_step; rewrite Hi; reflexivity).
  assert (EOu : ms_out s' = mo_step (ms_out s) false (fm_v s) (mi_ready i) (fm_b s)) by (unfold s', fm_step; rewrite Hi; reflexivity).
  assert (EC : forall n, ms_c s' n = fi_step (mp_f p) (ms_c s n) (df_in false (mi_b i n) (mi_valid i n) (ms_d s n) (fm_read p s i n))).
  { intros n. unfold s', fm_step. rewrite Hi. cbv zeta. cbn [ms_c]. rewrite tab_eq. reflexivity. }
  assert (CS : forall n, CI (ms_c s' n) (q_c p s i qc qo n) /\ (fs_ov (ms_c s n) = true -> fm_read p s i n = false \/ fb_eop (fs_ob (ms_c s n)) = false -> fs_ov (ms_c s' n) = true)).
  { intros n. rewrite EC. unfold q_c. destruct Hp as [_ Hp]. exact (ci_step (mp_f p) (ms_c s n) (df_in false (mi_b i n) (mi_valid i n) (ms_d s n) (fm_read p s i n)) (qc n) (qo n) Hp (pi_c _ _ _ _ _ _ _ (g_pi _ _ _ _ _ _ G n)) eq_refl (C n)). }
  assert (A1 : opend (ms_out s) oq ++ (if ms_sel s then [fm_b s] else []) = m_given (i, s) ++ opend (ms_out s') oq' /\ (fm_go p s i = true -> fm_b s' = fs_ob (ms_c s k))).
  { unfold apend, evs in A. rewrite ESe in A. destruct (fm_go p s i).
    - cbn [map snd] in A. rewrite app_assoc in A. apply app_inj_tail in A. destruct A as [A B]. split; [exact A|intros _; symmetry; exact B].
    - cbn [map] in A. rewrite !app_nil_r in A. split; [exact A|discriminate]. }
  destruct A1 as [A1 B1]. unfold m_given in A1. cbn [fst snd] in A1.
  pose proof (out_cases _ _ _ _ _ _ _ _ _ (g_out _ _ _ _ _ _ G) EOu A1) as OC.
  assert (L1 : lz oq - 1 <= lz oq').
  { destruct OC as [(_ & t & E1 & E2)|[(_ & _ & _ & E)|(E & _ & _)]]; [rewrite E1, E2|rewrite E|rewrite E]; rewrite ?lz_app; unfold lz; cbn [length]; lia. }
  assert (GO : ms_frame s = true -> fm_go p s i = false -> mo_half (ms_out s) = true).
  { intros F. specialize (HF F). unfold fm_go, fm_arb. rewrite F. cbn [fst snd andb]. rewrite HF. destruct (mo_half (ms_out s)); [reflexivity|discriminate]. }
  constructor.
  - exact G'.
  - intros n. apply CS.
  - rewrite EFr, EPo. destruct (fm_go p s i) eqn:EG.
    + intros F. apply negb_true_iff in F. apply CS; [|right; exact F]. apply (read_ov p s i). apply go_read, EG.
    + intros F. apply CS; [apply HF, F|left]. unfold fm_read. rewrite EG. reflexivity.
  - rewrite ESe, EFr. intros EG. rewrite EG, (B1 EG). reflexivity.
  - rewrite ESe, EFr. intros EG t x E. rewrite EG, E in *. rewrite app_assoc in A1. destruct (ms_sel s) eqn:ES.
    + apply app_inj_tail in A1. destruct A1 as [_ A1]. rewrite <- A1. apply HS. reflexivity.
    + rewrite app_nil_r in A1. eapply HT; [reflexivity|exact A1].
  - rewrite EOu. unfold mo_step. cbn [mo_half]. rewrite (oi_count _ _ _ (g_out _ _ _ _ _ _ G)). intros H. rewrite Z.geb_leb in H. apply Z.leb_le in H. left. lia.
  - rewrite EFr, ESe. intros F EG. rewrite EG in F. specialize (GO F EG). destruct (HH GO) as [H|H]; [lia|congruence].
  - intros V N. destruct OC as [(_ & t & E1 & E2)|[(V0 & _ & E1 & E2)|(_ & V0 & _)]].
    + rewrite E2. destruct t as [|y t]; [|discriminate]. destruct (ms_sel s) eqn:ES; [discriminate|]. exfalso.
      assert (F : ms_frame s = true).
      { rewrite (HT eq_refl (if mo_v (ms_out s) then [mo_b (ms_out s)] else []) (mo_b (ms_out s'))); [rewrite N; reflexivity|]. unfold opend. rewrite E1. reflexivity. }
      specialize (HC F eq_refl). rewrite E1 in HC. unfold lz in HC. cbn [length] in HC. lia.
    + rewrite E1 in N. specialize (HG V0 N). rewrite E2. intros E. apply app_eq_nil in E. destruct E as [E _]. apply HG, E.
    + congruence.
Qed.

Lemma hi_reset p s i : mp_ok p -> mi_rst i = true -> HI p (fm_step p s i) (fun _ => []) (fun _ => []) (fun _ => []) [].
Proof.
  intros Hp Hr. pose proof (gi_reset p s i Hp Hr) as G.
  assert (E : ms_frame (fm_step p s i) = false /\ ms_sel (fm_step p s i) = false /\ mo_v (ms_out (fm_step p s i)) = false /\ forall n, fs_ov (ms_c (fm_step p s i) n) = false /\ fs_rv (ms_c (fm_step p s i) n) = false).
  { unfold fm_step. rewrite Hr. cbv zeta. cbn [ms_frame ms_sel ms_out ms_c]. split; [reflexivity|]. split; [reflexivity|]. split; [reflexivity|]. intros n. rewrite tab_eq. split; reflexivity. }
  destruct E as (E1 & E2 & E3 & E4). constructor.
  - exact G.
  - intros n. destruct (E4 n) as [E5 E6]. constructor; [intros [|? t] x E; discriminate E|congruence|congruence].
  - congruence.
  - congruence.
  - unfold opend. rewrite E3. intros _ [|? t] x E; discriminate E.
  - intros _. right. exact E1.
  - congruence.
  - congruence.
Qed.
Lemma hi_run p : mp_ok p -> forall l s qd qc qo oq, HI p s qd qc qo oq -> Forall m_running l -> exists qd' qc' qo' oq', HI p (fm_run p s l) qd' qc' qo' oq'.
Proof.
  intros Hp. induction l as [|i t IH]; intros s qd qc qo oq H Hl; [exists qd, qc, qo, oq; exact H|].
  inversion Hl as [|? ? Hi Ht]; subst. destruct (hi_step p s i _ _ _ _ Hp Hi H) as (a & b & c & d & H'). apply (IH _ _ _ _ _ H' Ht).
Qed.

Lemma mux_nogap p s r l i : mp_ok p -> mi_rst r = true -> Forall m_running l -> m_running i ->
  let s1 := fm_run p (fm_step p s r) l in mo_v (ms_out s1) = true -> fb_eop (mo_b (ms_out s1)) = false -> mo_v (ms_out (fm_step p s1 i)) = true.
Proof.
  intros Hp Hr Hl Hi s1 V N. destruct (hi_run p Hp l _ _ _ _ _ (hi_reset p s r Hp Hr) Hl) as (qd & qc & qo & oq & H). fold s1 in H.
  pose proof (h_gap _ _ _ _ _ _ H V N) as HG. pose proof (oi_empty _ _ _ (g_out _ _ _ _ _ _ (h_gi _ _ _ _ _ _ H))) as HE.
  unfold fm_step. rewrite Hi. cbv zeta. cbn [ms_out]. unfold mo_step. cbn [mo_v]. unfold mo_pop. rewrite HE, V. destruct oq; [destruct (HG eq_refl)|]. destruct (mi_ready i); reflexivity.
Qed.
