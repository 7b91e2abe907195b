From Verif Require Import PyBase RtlModel RtlFcModel RtlFcSpec RtlFcProofs RtlFifoModel RtlFifoSpec RtlFifoProofs RtlFmuxModel RtlFmuxSpec RtlFmuxProofs RtlFmuxProofs2 RtlFmuxProofs3 RtlPtTxModel RtlPtTxSpec RtlPtTxProofs.

(** The counters. *)
Definition PB (s : pt_state) : Prop := 0 <= pt_av s <= pt_cap s /\ pt_cap s < 2 ^ 12 /\ 0 <= pt_inc s < 2 ^ 12.
Lemma pb_step index s rst lim idx dec : PB s -> 0 <= dec <= pt_av s -> let s' := pt_step 12 index s (mkPtIn rst (lim mod 2 ^ 12) idx dec) in PB s' /\ (rst = false -> pt_av s - dec <= pt_av s').
Proof.
  intros ((A1 & A2) & B & C) D. pose proof (Z.mod_pos_bound lim (2 ^ 12) ltac:(lia)) as LB. unfold pt_step. cbn [pi_rst pi_limit pi_idx pi_dec]. destruct rst.
  { split; [unfold PB; cbn; lia|discriminate]. }
  cbv zeta. unfold PB. cbn [pt_av pt_cap pt_inc]. set (v := pt_av s - dec + pt_inc s). assert (V : 0 <= v < 2 ^ (12 + 1)) by (unfold v; change (2 ^ (12 + 1)) with 8192; change (2 ^ 12) with 4096 in *; lia).
  assert (V0 : (v <? 0) = false) by (apply Z.ltb_ge; lia). rewrite V0. rewrite (Z.mod_small v (2 ^ (12 + 1))) by lia.
  assert (IN : 0 <= (if idx =? index then (lim mod 2 ^ 12 - pt_limit s) mod 2 ^ 12 else pt_inc s) < 2 ^ 12) by (destruct (idx =? index); [apply Z.mod_pos_bound; lia|exact C]).
  assert (CP : pt_cap s <= (if (idx =? index) && (pt_cap s =? 0) then lim mod 2 ^ 12 else pt_cap s) < 2 ^ 12) by (destruct (idx =? index); [destruct (Z.eqb_spec (pt_cap s) 0)|]; cbn [andb]; lia).
  assert (AV : pt_av s - dec <= (if v >? pt_cap s then pt_cap s else v mod 2 ^ 12) <= pt_cap s /\ 0 <= (if v >? pt_cap s then pt_cap s else v mod 2 ^ 12)).
  { rewrite Z.gtb_ltb. destruct (Z.ltb_spec (pt_cap s) v); [lia|]. rewrite Z.mod_small by lia. unfold v. lia. }
  split; [|intros _; apply AV]. lia.
Qed.

(** The counts of one clock. *)
Definition cnt (v sop : bool) (k : Z -> bool) (h : Z) : Z := if v && sop && k (psel h 120 8) then 1 else 0.
Lemma fc_one h (v sop : bool) : let c := fc_step 1 false h (if v then 1 else 0) (if sop then 1 else 0) true in
  fc_ph c = cnt v sop posted h /\ fc_nph c = cnt v sop nonposted h /\ fc_cplh c = cnt v sop completion h.
Proof.
  cbv zeta. unfold fc_step. cbn [fc_next]. unfold fc_seg, cnt. change (Z.of_nat 0 * 128 + 120) with 120. pose proof (types_ok (psel h 120 8) (psel_range h 120 8 ltac:(lia))) as T.
  destruct v, sop; try (cbn; repeat split; reflexivity).
  change (negb (bsel 1 (Z.of_nat 0) =? 0) && negb (bsel 1 (Z.of_nat 0) =? 0) && true) with true. cbv iota. cbn [andb]. destruct (tlp_fc_type (psel h 120 8)); destruct T as (-> & -> & ->); repeat split; reflexivity.
Qed.

(** No FIFO has a beat at its control output (after a reset). *)
Definition none (s : tx_state) : Prop := forall n, fs_ov (ms_c (ts_mux s) n) = false.
(** One class of credits: header counter, gate, the count at the multiplexer. *)
Definition CC (s : tx_state) (c : pt_state) (gate : bool) (n : Z) (k : Z -> bool) : Prop :=
  PB c /\ 0 <= n <= 1 /\ n + cnt (ms_sel (ts_mux s)) (fb_sop (fm_b (ts_mux s))) k (fb_hdr (fm_b (ts_mux s))) <= pt_av c /\ (gate = true -> 4 <= pt_av c \/ none s).
Lemma cnt_range v sop k h : 0 <= cnt v sop k h <= 1.
Proof. unfold cnt. destruct (v && sop && k (psel h 120 8)); lia. Qed.
Lemma cc_step s s' c g g' n k index lim idx : CC s c g n k ->
  (g' = true -> 5 <= pt_av c) ->
  (cnt (ms_sel (ts_mux s')) (fb_sop (fm_b (ts_mux s'))) k (fb_hdr (fm_b (ts_mux s'))) = 1 -> g = true /\ ~ none s) ->
  CC s' (pt_step 12 index c (mkPtIn false (lim mod 2 ^ 12) idx n)) g' (cnt (ms_sel (ts_mux s)) (fb_sop (fm_b (ts_mux s))) k (fb_hdr (fm_b (ts_mux s)))) k.
Proof.
  intros (P & N & H & G) G' E. pose proof (cnt_range (ms_sel (ts_mux s)) (fb_sop (fm_b (ts_mux s))) k (fb_hdr (fm_b (ts_mux s)))) as R.
  set (x := cnt (ms_sel (ts_mux s)) (fb_sop (fm_b (ts_mux s))) k (fb_hdr (fm_b (ts_mux s)))) in *.
  pose proof (cnt_range (ms_sel (ts_mux s')) (fb_sop (fm_b (ts_mux s'))) k (fb_hdr (fm_b (ts_mux s')))) as R'.
  destruct (pb_step index c false lim idx n P ltac:(lia)) as [P' A]. cbv zeta in *. specialize (A eq_refl). unfold CC. split; [exact P'|]. split; [exact R|]. split.
  - set (y := cnt (ms_sel (ts_mux s')) _ _ _) in *. destruct (Z.eq_dec y 1) as [Y|Y]; [destruct (E Y) as [E1 E2]; destruct (G E1); [|contradiction]|]; lia.
  - intros Hg. specialize (G' Hg). left. lia.
Qed.

Definition fresh (s : fm_st) (n : Z) : bool := negb (ms_frame s && (ms_port s =? n)).
Definition gate (s : tx_state) (n : Z) : bool := if n =? 1 then ts_cpl s else if n =? 2 then ts_np s else ts_p s.
Lemma framed_app k : forall a b f, t_framed k f (a ++ b) -> exists g, t_framed k g b /\ (forall x t, a = t ++ [x] -> g = fb_eop x) /\ (a = [] -> g = f).
Proof.
  induction a as [|y a IH]; intros b f H.
  - exists f. split; [exact H|]. split; [intros x [|z t] E; discriminate E|reflexivity].
  - cbn [app t_framed] in H. destruct H as (_ & _ & H). destruct (IH _ _ H) as (g & H1 & H2 & H3). exists g. split; [exact H1|]. split; [|discriminate].
    intros x [|z t] E; injection E as E1 E2; [rewrite H3 by exact E2; congruence|apply (H2 x t E2)].
Qed.

Lemma kinds k1 k2 ft : 0 <= ft < 256 -> (k1 = posted \/ k1 = nonposted \/ k1 = completion) -> (k2 = posted \/ k2 = nonposted \/ k2 = completion) -> k1 ft = true -> k2 ft = true -> k1 = k2.
Proof.
  intros R H1 H2 E1 E2. pose proof (types_ok ft R) as T. destruct H1 as [->|[->| ->]], H2 as [->|[->| ->]]; try reflexivity; destruct (tlp_fc_type ft); destruct T as (T1 & T2 & T3); congruence.
Qed.
(** A port whose kind is k. *)
Lemma gate_kind s n : 0 <= n < 4 -> (t_kind n = posted /\ gate s n = ts_p s) \/ (t_kind n = nonposted /\ gate s n = ts_np s) \/ (t_kind n = completion /\ gate s n = ts_cpl s).
Proof. intros H. unfold t_kind, gate. destruct (n =? 1); [right; right; split; reflexivity|]. destruct (n =? 2); [right; left; split; reflexivity|left; split; reflexivity]. Qed.
Lemma kind_ne : posted 0x40 = true /\ nonposted 0x40 = false /\ completion 0x40 = false /\ posted 0 = false /\ nonposted 0 = true /\ completion 0 = false.
Proof. repeat split; vm_compute; reflexivity. Qed.

Record TX (f : fi_param) (s : tx_state) (qd qc qo : Z -> list fbeat) (oq : list fbeat) : Prop := mkTX {
  x_gi : GI (tx_mp f) (ts_mux s) qd qc qo oq; x_port : 0 <= ms_port (ts_mux s) < 4;
  x_p : CC s (tc_ph (ts_c s)) (ts_p s) (fc_ph (ms_fc (ts_mux s))) posted;
  x_np : CC s (tc_nph (ts_c s)) (ts_np s) (fc_nph (ms_fc (ts_mux s))) nonposted;
  x_cpl : CC s (tc_cplh (ts_c s)) (ts_cpl s) (fc_cplh (ms_fc (ts_mux s))) completion }.

Lemma tx_cov f s qd qc qo oq : TX f s qd qc qo oq -> t_covered s.
Proof.
  intros [_ _ (_ & _ & P & _) (_ & _ & N & _) (_ & _ & C & _)]. unfold t_covered. cbv zeta.
  pose proof (cnt_range (ms_sel (ts_mux s)) (fb_sop (fm_b (ts_mux s))) posted (fb_hdr (fm_b (ts_mux s)))).
  pose proof (cnt_range (ms_sel (ts_mux s)) (fb_sop (fm_b (ts_mux s))) nonposted (fb_hdr (fm_b (ts_mux s)))).
  pose proof (cnt_range (ms_sel (ts_mux s)) (fb_sop (fm_b (ts_mux s))) completion (fb_hdr (fm_b (ts_mux s)))). lia.
Qed.

Definition WF (f : fi_param) (s : tx_state) (qc qo : Z -> list fbeat) (l : list tx_in) : Prop :=
  forall n, 0 <= n < 4 -> t_framed (t_kind n) (fresh (ts_mux s) n) (pend (ms_c (ts_mux s) n) (qc n) ++ qo n ++ flat_map (m_taken n) (fm_trace (tx_mp f) (ts_mux s) (mins f s l))).
Lemma tx_inv f i t s qd qc qo oq : fp_ok f -> t_running i -> TX f s qd qc qo oq -> WF f s qc qo (i :: t) ->
  exists qd' qc' qo' oq', TX f (tx_step f s i) qd' qc' qo' oq' /\ WF f (tx_step f s i) qc' qo' t /\
    opend (ms_out (ts_mux s)) oq ++ (if ms_sel (ts_mux s) then [fm_b (ts_mux s)] else []) = m_given (tx_min s i, ts_mux s) ++ opend (ms_out (ts_mux (tx_step f s i))) oq' /\
    fc_ph (ms_fc (ts_mux (tx_step f s i))) = cnt (ms_sel (ts_mux s)) (fb_sop (fm_b (ts_mux s))) posted (fb_hdr (fm_b (ts_mux s))) /\
    fc_nph (ms_fc (ts_mux (tx_step f s i))) = cnt (ms_sel (ts_mux s)) (fb_sop (fm_b (ts_mux s))) nonposted (fb_hdr (fm_b (ts_mux s))) /\
    fc_cplh (ms_fc (ts_mux (tx_step f s i))) = cnt (ms_sel (ts_mux s)) (fb_sop (fm_b (ts_mux s))) completion (fb_hdr (fm_b (ts_mux s))).
Proof.
  intros Hp Hi X W.
  destruct X as [G PO XP XN XC]. set (m := ts_mux s) in *. set (mi := tx_min s i). set (k := fst (fm_arb (tx_mp f) m mi)).
  assert (Hmi : m_running mi) by exact Hi. destruct (gi_step (tx_mp f) m mi qd qc qo oq (mp_ok_tx f Hp) Hmi G) as (oq' & G' & A & B & _). cbv zeta in *.
  pose proof (sel_v _ _ _ _ _ _ G) as SV.
  set (m' := fm_step (tx_mp f) m mi) in *. assert (EM : ts_mux (tx_step f s i) = m') by reflexivity.
  assert (EFr : ms_frame m' = if fm_go (tx_mp f) m mi then negb (fb_eop (fs_ob (ms_c m k))) else ms_frame m) by (unfold m', fm_step; rewrite Hmi; reflexivity).
  assert (EPo : ms_port m' = if fm_go (tx_mp f) m mi then k else ms_port m) by (unfold m', fm_step; rewrite Hmi; reflexivity).
  assert (ESe : ms_sel m' = fm_go (tx_mp f) m mi) by (unfold m', fm_step; rewrite Hmi; reflexivity).
  assert (EFc : ms_fc m' = fc_step 1 false (fb_hdr (fm_b m)) (if fm_v m then 1 else 0) (if fb_sop (fm_b m) then 1 else 0) true) by (unfold m', fm_step; rewrite Hmi; reflexivity).
  assert (KR : 0 <= k < 4) by (apply (arb_range (tx_mp f)); [cbn; lia|exact PO]).
  assert (B1 : fm_go (tx_mp f) m mi = true -> fm_b m' = fs_ob (ms_c m k)).
  { intros EG. unfold apend, evs in A. rewrite ESe, EG in A. cbn [map snd] in A. rewrite app_assoc in A. apply app_inj_tail in A. symmetry. apply A. }
  (* what is in the FIFOs *)
  assert (Q : forall n, pend (ms_c m n) (qc n) ++ qo n ++ m_taken n (mi, m) = of_port n (evs (tx_mp f) m mi) ++ pend (ms_c m' n) (q_c (tx_mp f) m mi qc qo n) ++ q_o m mi qo n).
  { intros n. specialize (B n). rewrite m_taken_eq. unfold q_o, nopen. unfold news in B. destruct (mi_valid mi n && df_ready (ms_d m n) (ms_c m n)); cbn [andb] in *.
    - destruct (fb_eop (mi_b mi n)); [rewrite app_nil_r; exact B|]. rewrite app_nil_r in B. rewrite B, <- !app_assoc. reflexivity.
    - rewrite app_nil_r in B. rewrite app_nil_r, B, <- app_assoc. reflexivity. }
  assert (ST : fm_go (tx_mp f) m mi = true -> fb_sop (fs_ob (ms_c m k)) = negb (ms_frame m) /\ (ms_frame m = false -> t_kind k (psel (fb_hdr (fs_ob (ms_c m k))) 120 8) = true)).
  { intros EG. specialize (W k KR). unfold mins in W. cbn [tx_trace map fm_trace flat_map fst snd] in W. fold m mi in W. rewrite !app_assoc, <- (app_assoc _ (qo k) (m_taken k (mi, m))), Q in W. unfold evs, of_port in W. fold k in W. rewrite EG in W. cbn [filter fst] in W. rewrite Z.eqb_refl in W. cbn [map snd app t_framed] in W.
    destruct W as (W1 & W2 & _). assert (F : fresh m k = negb (ms_frame m)).
    { unfold fresh. destruct (ms_frame m) eqn:F; [|reflexivity]. unfold k. rewrite (frame_port _ _ _ F), Z.eqb_refl. reflexivity. }
    rewrite F in *. split; [exact W1|]. intros F0. apply W2. rewrite F0. reflexivity. }
  assert (GT : fm_go (tx_mp f) m mi = true -> ms_frame m = false -> gate s k = true).
  { intros EG F. unfold fm_go, fm_arb in EG. rewrite F in EG. apply andb_prop in EG. destruct EG as [EG _]. apply andb_prop in EG. destruct EG as [EG _].
    destruct (scan_first (tx_mp f) m mi ltac:(cbn; lia) (Z.to_nat (mp_n (tx_mp f) - 1)) _ (start_range (tx_mp f) _ ltac:(cbn; lia) PO)) as (j & _ & K2 & K3 & _).
    rewrite EG, <- K2 in K3. unfold k, fm_arb. rewrite F. symmetry in K3. unfold fm_can in K3. apply andb_prop in K3. destruct K3 as [K3 _]. apply negb_true_iff in K3. change (mi_pause mi) with (tx_pause s) in K3. unfold tx_pause in K3. apply negb_false_iff in K3. exact K3. }
  assert (C1 : forall kd, (kd = posted \/ kd = nonposted \/ kd = completion) -> cnt (ms_sel m') (fb_sop (fm_b m')) kd (fb_hdr (fm_b m')) = 1 -> kd = t_kind k /\ gate s k = true /\ ~ none s).
  { intros kd Hk. unfold cnt. rewrite ESe. destruct (fm_go (tx_mp f) m mi) eqn:EG; [|discriminate]. rewrite (B1 eq_refl). destruct (ST eq_refl) as [S1 S2]. rewrite S1. destruct (ms_frame m) eqn:F; [discriminate|]. cbn [negb andb].
    destruct (kd (psel (fb_hdr (fs_ob (ms_c m k))) 120 8)) eqn:EK; [|discriminate]. intros _. split; [|split; [apply GT; reflexivity|]]; cycle 1.
    { intros N. pose proof (read_ov _ _ _ _ (go_read _ _ _ EG)) as OV. fold k in OV. unfold m in OV. rewrite N in OV. discriminate. }
    apply (kinds _ _ (psel (fb_hdr (fs_ob (ms_c m k))) 120 8)); [apply (psel_range _ 120 8); lia|exact Hk| |exact EK|apply S2; reflexivity].
    destruct (gate_kind s k KR) as [[-> _]|[[-> _]|[-> _]]]; auto. }
  pose proof (fc_one (fb_hdr (fm_b m)) (fm_v m) (fb_sop (fm_b m))) as (F1 & F2 & F3). cbv zeta in *. rewrite <- EFc in F1, F2, F3. rewrite SV in F1, F2, F3.
  destruct kind_ne as (Z1 & Z2 & Z3 & Z4 & Z5 & Z6).
  exists (q_d (tx_mp f) m mi qd qo), (q_c (tx_mp f) m mi qc qo), (q_o m mi qo), oq'. split; [|split; [|split; [|split; [exact F1|split; [exact F2|exact F3]]]]]; cycle 2.
  { unfold apend, evs in A. rewrite ESe in A. rewrite EM. destruct (fm_go (tx_mp f) m mi).
    - cbn [map snd] in A. rewrite app_assoc in A. apply app_inj_tail in A. apply A.
    - cbn [map] in A. rewrite !app_nil_r in A. exact A. }
  - constructor.
    + exact G'.
    + rewrite EM, EPo. destruct (fm_go (tx_mp f) m mi); [exact KR|exact PO].
    + rewrite EM, F1. unfold tx_step at 2 3. cbn [ts_c ts_p]. unfold tx_crd_step. cbn [tc_ph]. rewrite Hi. apply (cc_step s (tx_step f s i) _ (ts_p s)); [exact XP| |].
      * rewrite andb_true_iff, !Z.gtb_lt. lia.
      * rewrite EM. intros E. destruct (C1 posted ltac:(auto) E) as (E1 & E2 & E3). split; [|exact E3]. destruct (gate_kind s k KR) as [[K1 K2]|[[K1 K2]|[K1 K2]]]; rewrite K1 in E1; [congruence| |]; rewrite E1 in *; congruence.
    + rewrite EM, F2. unfold tx_step at 2 3. cbn [ts_c ts_np]. unfold tx_crd_step. cbn [tc_nph]. rewrite Hi. apply (cc_step s (tx_step f s i) _ (ts_np s)); [exact XN| |].
      * rewrite Z.gtb_lt. lia.
      * rewrite EM. intros E. destruct (C1 nonposted ltac:(auto) E) as (E1 & E2 & E3). split; [|exact E3]. destruct (gate_kind s k KR) as [[K1 K2]|[[K1 K2]|[K1 K2]]]; rewrite K1 in E1; [|congruence|]; rewrite E1 in *; congruence.
    + rewrite EM, F3. unfold tx_step at 2 3. cbn [ts_c ts_cpl]. unfold tx_crd_step. cbn [tc_cplh]. rewrite Hi. apply (cc_step s (tx_step f s i) _ (ts_cpl s)); [exact XC| |].
      * rewrite andb_true_iff, !Z.gtb_lt. lia.
      * rewrite EM. intros E. destruct (C1 completion ltac:(auto) E) as (E1 & E2 & E3). split; [|exact E3]. destruct (gate_kind s k KR) as [[K1 K2]|[[K1 K2]|[K1 K2]]]; rewrite K1 in E1; [| |congruence]; rewrite E1 in *; congruence.
  - intros n Hn. specialize (W n Hn). unfold mins in W. cbn [tx_trace map fm_trace flat_map fst snd] in W. fold m mi in W. rewrite !app_assoc, <- (app_assoc _ (qo n) (m_taken n (mi, m))), Q, <- !app_assoc in W.
    change (fm_step (tx_mp f) m mi) with (ts_mux (tx_step f s i)) in W. fold (mins f (tx_step f s i) t) in W. rewrite EM in *. unfold fresh. rewrite EFr, EPo.
    destruct (framed_app _ _ _ _ W) as (g & W1 & W2 & W3). unfold evs, of_port in W2, W3. fold k in W2, W3. destruct (fm_go (tx_mp f) m mi) eqn:EG.
    + cbn [filter fst] in W2, W3. destruct (Z.eqb_spec k n) as [E|E].
      * rewrite andb_true_r, negb_involutive. rewrite <- (W2 (fs_ob (ms_c m k)) [] eq_refl). exact W1.
      * rewrite andb_false_r. specialize (W3 eq_refl). rewrite W3 in W1. unfold fresh in W1. replace (ms_frame m && (ms_port m =? n)) with false in W1; [exact W1|].
        destruct (ms_frame m) eqn:F; [|reflexivity]. cbn [andb]. symmetry. apply Z.eqb_neq. rewrite <- (frame_port (tx_mp f) m mi F). exact E.
    + specialize (W3 eq_refl). rewrite W3 in W1. exact W1.
Qed.

Lemma cov_all f : fp_ok f -> forall l s qd qc qo oq, TX f s qd qc qo oq -> Forall t_running l -> WF f s qc qo l -> t_covered (tx_run f s l).
Proof.
  intros Hp. induction l as [|i t IH]; intros s qd qc qo oq X Hl W; [eapply tx_cov, X|]. inversion Hl as [|? ? Hi Ht]; subst. cbn [tx_run fold_left]. change (fold_left (tx_step f) t (tx_step f s i)) with (tx_run f (tx_step f s i) t).
  destruct (tx_inv f i t s qd qc qo oq Hp Hi X W) as (qd' & qc' & qo' & oq' & X' & W' & _). apply (IH _ _ _ _ _ X' Ht W').
Qed.

Lemma framed_strip k : forall l b, t_framed k b (map strip l) -> t_framed k b l.
Proof. induction l as [|x t IH]; intros b H; [exact I|]. cbn [map t_framed] in *. destruct H as (H1 & H2 & H3). split; [exact H1|]. split; [exact H2|apply IH, H3]. Qed.

Lemma tx_start f s i l : fp_ok f -> ti_rst i = true -> Forall t_running l -> (forall n, 0 <= n < 4 -> t_framed (t_kind n) true (flat_map (t_taken n) (tx_trace f (tx_step f s i) l))) ->
  TX f (tx_step f s i) (fun _ => []) (fun _ => []) (fun _ => []) [] /\ WF f (tx_step f s i) (fun _ => []) (fun _ => []) l.
Proof.
  intros Hp Hr Hl W. set (s0 := tx_step f s i) in *. pose proof (gi_reset (tx_mp f) (ts_mux s) (tx_min s i) (mp_ok_tx f Hp) Hr) as G. change (fm_step (tx_mp f) (ts_mux s) (tx_min s i)) with (ts_mux s0) in G.
  assert (E : ms_frame (ts_mux s0) = false /\ ms_port (ts_mux s0) = 0 /\ ms_sel (ts_mux s0) = false /\ ms_fc (ts_mux s0) = fc0 /\ tc_ph (ts_c s0) = pt0 /\ tc_nph (ts_c s0) = pt0 /\ tc_cplh (ts_c s0) = pt0).
  { unfold s0, tx_step. cbn [ts_mux ts_c]. unfold fm_step, tx_crd_step, pt_step. cbn [tx_min mi_rst pi_rst]. rewrite Hr. repeat split. }
  destruct E as (E1 & E2 & E3 & E4 & E5 & E6 & E7).
  split.
  - assert (NN : none s0) by (intros n; unfold s0, tx_step; cbn [ts_mux]; unfold fm_step; cbn [tx_min mi_rst]; rewrite Hr; cbv zeta; cbn [ms_c]; rewrite tab_eq; reflexivity).
    assert (C0 : forall g k, CC s0 pt0 g 0 k).
    { intros g k. unfold CC. split; [unfold PB; cbn; lia|]. split; [lia|]. split; [|intros _; right; exact NN]. rewrite E3. cbn. lia. }
    constructor; [exact G|rewrite E2; lia| | |]; rewrite E4, ?E5, ?E6, ?E7; apply C0.
  - intros n Hn. unfold fresh. rewrite E1. cbn [andb negb]. assert (P0 : pend (ms_c (ts_mux s0) n) [] = []) by (apply (reset_pend (tx_mp f) (ts_mux s) (tx_min s i) n Hr)). rewrite P0. cbn [app].
    apply framed_strip. specialize (W n Hn). rewrite mux_of. revert W. generalize (tx_trace f s0 l). intros tr W. replace (map strip (flat_map (m_taken n) (map (fun e => (tx_min (snd e) (fst e), ts_mux (snd e))) tr))) with (flat_map (t_taken n) tr); [exact W|].
    clear. induction tr as [|e t IH]; [reflexivity|]. cbn [flat_map map]. rewrite map_app, <- taken_strip, IH. reflexivity.
Qed.

Lemma tx_covered f s i l : fp_ok f -> ti_rst i = true -> Forall t_running l -> (forall n, 0 <= n < 4 -> t_framed (t_kind n) true (flat_map (t_taken n) (tx_trace f (tx_step f s i) l))) ->
  t_covered (tx_run f (tx_step f s i) l).
Proof. intros Hp Hr Hl W. destruct (tx_start f s i l Hp Hr Hl W) as [X W0]. apply (cov_all f Hp l _ _ _ _ _ X Hl W0). Qed.
