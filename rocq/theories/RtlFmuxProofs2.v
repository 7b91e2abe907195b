From Verif Require Import PyBase RtlModel RtlFcModel RtlFifoModel RtlFifoSpec RtlFifoProofs RtlFmuxModel RtlFmuxSpec RtlFmuxProofs.

Record GI (p : fm_param) (s : fm_st) (qd qc qo : Z -> list fbeat) (oq : list fbeat) : Prop := mkGI {
  g_pi : forall n, PI (mp_f p) (ms_d s n) (ms_c s n) (ms_ren s n) (qd n) (qc n) (qo n);
  g_ren : forall n, ms_ren s n = ms_sel s && (n =? ms_selp s);
  g_sq : forall n, ms_sq s n = true -> ms_sel s = true /\ ms_selp s = n;
  g_out : OI (ms_out s) oq (ms_sel s) }.

(** What is on its way to the output, and the sequence numbers on their way. *)
Definition apend (s : fm_st) (oq : list fbeat) : list fbeat := opend (ms_out s) oq ++ (if ms_sel s then [fm_b s] else []).
Definition spend (s : fm_st) (n : Z) : list Z := (if ms_osqv s n then [ms_osq s] else []) ++ (if ms_sq s n then [fb_seq (fm_b s)] else []).
(** What is read in a clock. *)
Definition evs (p : fm_param) (s : fm_st) (i : fm_in) : list (Z * fbeat) := if fm_go p s i then [(fst (fm_arb p s i), fs_ob (ms_c s (fst (fm_arb p s i))))] else [].

Lemma sel_v p s qd qc qo oq : GI p s qd qc qo oq -> fm_v s = ms_sel s.
Proof.
  intros G. unfold fm_v. destruct (ms_sel s) eqn:E; [|reflexivity]. cbn [andb]. apply (pi_ov _ _ _ _ _ _ _ (g_pi _ _ _ _ _ _ G (ms_selp s))).
  rewrite (g_ren _ _ _ _ _ _ G), E, Z.eqb_refl. reflexivity.
Qed.

(** Explicit queues after a clock. *)
Definition q_d (p : fm_param) (s : fm_st) (i : fm_in) (qd qo : Z -> list fbeat) (n : Z) : list fbeat :=
  nqc (ms_d s n) (df_in false (mi_b i n) (mi_valid i n) (ms_c s n) (ms_ren s n)) (qd n) (qo n).
Definition q_c (p : fm_param) (s : fm_st) (i : fm_in) (qc qo : Z -> list fbeat) (n : Z) : list fbeat :=
  nqc (ms_c s n) (df_in false (mi_b i n) (mi_valid i n) (ms_d s n) (fm_read p s i n)) (qc n) (qo n).
Definition q_o (s : fm_st) (i : fm_in) (qo : Z -> list fbeat) (n : Z) : list fbeat := nopen (ms_d s n) (ms_c s n) (mi_b i n) (mi_valid i n) (qo n).

Lemma read_ov p s i n : fm_read p s i n = true -> fs_ov (ms_c s n) = true.
Proof.
  unfold fm_read, fm_go. intros H. apply andb_prop in H. destruct H as [H E]. apply Z.eqb_eq in E. subst n. apply andb_prop in H. destruct H as [H _]. apply andb_prop in H. apply H.
Qed.
Lemma go_half p s i : fm_go p s i = true -> mo_half (ms_out s) = false.
Proof. unfold fm_go. destruct (mo_half (ms_out s)); [rewrite andb_false_r; discriminate|reflexivity]. Qed.
Lemma go_read p s i : fm_go p s i = true -> fm_read p s i (fst (fm_arb p s i)) = true.
Proof. unfold fm_read. intros ->. rewrite Z.eqb_refl. reflexivity. Qed.

Lemma gi_step p s i qd qc qo oq : mp_ok p -> m_running i -> GI p s qd qc qo oq -> let s' := fm_step p s i in
  exists oq', GI p s' (q_d p s i qd qo) (q_c p s i qc qo) (q_o s i qo) oq' /\
    apend s oq ++ map snd (evs p s i) = m_given (i, s) ++ apend s' oq' /\
    (forall n, pend (ms_c s n) (qc n) ++ news (ms_d s n) (ms_c s n) (mi_b i n) (mi_valid i n) (qo n) = of_port n (evs p s i) ++ pend (ms_c s' n) (q_c p s i qc qo n)) /\
    (forall n, spend s n ++ (if negb (ms_frame s) then map fb_seq (of_port n (evs p s i)) else []) = m_seq n (i, s) ++ spend s' n).
Proof.
  intros Hp Hr G s'. destruct Hp as [_ Hp]. pose proof (sel_v _ _ _ _ _ _ G) as SV.
  assert (EF : s' = mkMs (fm_tab (mp_n p) (fun n => fi_step (mp_f p) (ms_d s n) (df_in false (mi_b i n) (mi_valid i n) (ms_c s n) (ms_ren s n))))
                         (fm_tab (mp_n p) (fun n => fi_step (mp_f p) (ms_c s n) (df_in false (mi_b i n) (mi_valid i n) (ms_d s n) (fm_read p s i n))))
                         (if fm_go p s i then negb (fb_eop (fs_ob (ms_c s (fst (fm_arb p s i))))) else ms_frame s) (if fm_go p s i then fst (fm_arb p s i) else ms_port s)
                         (fm_go p s i) (fst (fm_arb p s i)) (fm_read p s i) (fun n => negb (ms_frame s) && fm_read p s i n) (fb_seq (fm_b s)) (ms_sq s) (ms_fc s')
                         (mo_step (ms_out s) false (fm_v s) (mi_ready i) (fm_b s))).
  { unfold s', fm_step. rewrite Hr. reflexivity. }
  rewrite SV in EF.
  destruct (out_step (ms_out s) oq (ms_sel s) (mi_ready i) (fm_b s) (fm_go p s i) (g_out _ _ _ _ _ _ G) (go_half p s i)) as (oq' & OI' & OP). cbv zeta in OI', OP.
  exists oq'.
  assert (DS := fun n => dual_step_q (mp_f p) _ _ _ _ _ _ (mi_b i n) (mi_valid i n) (fm_read p s i n) Hp (g_pi _ _ _ _ _ _ G n) (read_ov p s i n)). cbv zeta in DS.
  assert (OB : forall n, fm_read p s i n = true -> fs_ob (ms_d s' n) = fs_ob (ms_c s n)).
  { intros n H. destruct (DS n) as (_ & E & _). rewrite EF. cbn [ms_d]. rewrite tab_eq. apply E, H. }
  assert (ER : forall n, of_port n (evs p s i) = if fm_read p s i n then [fs_ob (ms_c s n)] else []).
  { intros n. unfold of_port, evs, fm_read. destruct (fm_go p s i); [|reflexivity]. cbn [filter fst andb]. rewrite (Z.eqb_sym n). destruct (Z.eqb_spec (fst (fm_arb p s i)) n) as [E|E]; [|reflexivity]. cbn [map snd]. rewrite E. reflexivity. }
  split; [|split; [|split]].
  - rewrite EF. constructor; cbn [ms_d ms_c ms_ren ms_sel ms_selp ms_sq ms_out].
    + intros n. rewrite !tab_eq. unfold q_d, q_c, q_o.
      pose proof (dual_step_q (mp_f p) (ms_d s n) (ms_c s n) (ms_ren s n) (qd n) (qc n) (qo n) (mi_b i n) (mi_valid i n) (fm_read p s i n) Hp (g_pi _ _ _ _ _ _ G n) (read_ov p s i n)) as Q. cbv zeta in Q. apply Q.
    + intros n. reflexivity.
    + intros n H. apply andb_prop in H. destruct H as [_ H]. unfold fm_read in H. apply andb_prop in H. destruct H as [H1 H2]. apply Z.eqb_eq in H2. auto.
    + exact OI'.
  - unfold apend. rewrite OP. unfold m_given. cbn [fst snd]. rewrite <- app_assoc. f_equal. rewrite EF. cbn [ms_out ms_sel]. f_equal. rewrite <- EF.
    unfold evs. destruct (fm_go p s i) eqn:EG; [|reflexivity]. cbn [map snd]. f_equal. unfold fm_b. replace (ms_selp s') with (fst (fm_arb p s i)) by (rewrite EF; reflexivity). symmetry. apply OB, go_read, EG.
  - intros n. rewrite ER.
    pose proof (dual_step_q (mp_f p) (ms_d s n) (ms_c s n) (ms_ren s n) (qd n) (qc n) (qo n) (mi_b i n) (mi_valid i n) (fm_read p s i n) Hp (g_pi _ _ _ _ _ _ G n) (read_ov p s i n)) as Q. cbv zeta in Q.
    destruct Q as (_ & _ & Q). rewrite EF. cbn [ms_c]. rewrite tab_eq. exact Q.
  - intros n. rewrite ER. unfold spend, m_seq. cbn [fst snd]. rewrite <- app_assoc. f_equal.
    replace (ms_osqv s' n) with (ms_sq s n) by (rewrite EF; reflexivity). replace (ms_osq s') with (fb_seq (fm_b s)) by (rewrite EF; reflexivity). f_equal.
    replace (ms_sq s' n) with (negb (ms_frame s) && fm_read p s i n) by (rewrite EF; reflexivity).
    destruct (ms_frame s); [reflexivity|]. cbn [negb andb]. destruct (fm_read p s i n) eqn:EN; [|reflexivity]. cbn [map]. f_equal. f_equal. unfold fm_b.
    replace (ms_selp s') with n; [symmetry; apply OB, EN|]. rewrite EF. cbn [ms_selp]. unfold fm_read in EN. apply andb_prop in EN. destruct EN as [_ EN]. apply Z.eqb_eq in EN. exact EN.
Qed.
