From Verif Require Import PyBase RtlModel RtlFcModel RtlFcSpec RtlFcProofs RtlFifoModel RtlFifoSpec RtlFifoProofs RtlFmuxModel RtlFmuxSpec RtlFmuxProofs RtlFmuxProofs2 RtlFmuxProofs3 RtlPtTxModel RtlPtTxSpec RtlPtTxProofs RtlPtTxProofs2.

Definition cls_c (j : Z) (c : tx_crd) : pt_state := if j =? 0 then tc_ph c else if j =? 1 then tc_nph c else tc_cplh c.
Definition cls_n (j : Z) (c : fc_counts) : Z := if j =? 0 then fc_ph c else if j =? 1 then fc_nph c else fc_cplh c.
Lemma cls_step f s i j : j = 0 \/ j = 1 \/ j = 2 -> cls_c j (ts_c (tx_step f s i)) = pt_step 12 j (cls_c j (ts_c s)) (mkPtIn (ti_rst i) (ti_lim i mod 2 ^ 12) (ti_idx i) (cls_n j (ms_fc (ts_mux s)))).
Proof. intros [->|[->| ->]]; reflexivity. Qed.
Lemma cls_ok f s qd qc qo oq j : TX f s qd qc qo oq -> PB (cls_c j (ts_c s)) /\ 0 <= cls_n j (ms_fc (ts_mux s)) <= pt_av (cls_c j (ts_c s)).
Proof.
  intros [_ _ (P1 & P2 & P3 & _) (N1 & N2 & N3 & _) (C1 & C2 & C3 & _)]. unfold cls_c, cls_n.
  pose proof (cnt_range (ms_sel (ts_mux s)) (fb_sop (fm_b (ts_mux s))) posted (fb_hdr (fm_b (ts_mux s)))).
  pose proof (cnt_range (ms_sel (ts_mux s)) (fb_sop (fm_b (ts_mux s))) nonposted (fb_hdr (fm_b (ts_mux s)))).
  pose proof (cnt_range (ms_sel (ts_mux s)) (fb_sop (fm_b (ts_mux s))) completion (fb_hdr (fm_b (ts_mux s)))).
  destruct (j =? 0); [split; [exact P1|lia]|]. destruct (j =? 1); [split; [exact N1|lia]|split; [exact C1|lia]].
Qed.
(** A counter never gains more than its increment. *)
Lemma pt_upper index s lim idx dec : PB s -> 0 <= dec <= pt_av s -> pt_av (pt_step 12 index s (mkPtIn false lim idx dec)) <= pt_av s - dec + pt_inc s.
Proof.
  intros ((A1 & A2) & B & C) D. unfold pt_step. cbn [pi_rst pi_limit pi_idx pi_dec]. cbv zeta. cbn [pt_av]. set (v := pt_av s - dec + pt_inc s).
  assert (V : 0 <= v < 2 ^ (12 + 1)) by (unfold v; change (2 ^ (12 + 1)) with 8192; change (2 ^ 12) with 4096 in *; lia).
  assert (V0 : (v <? 0) = false) by (apply Z.ltb_ge; lia). rewrite V0. rewrite (Z.mod_small v (2 ^ (12 + 1))) by lia. rewrite Z.gtb_ltb. destruct (Z.ltb_spec (pt_cap s) v); [lia|]. apply Z.mod_le; lia.
Qed.
Lemma heads_app j a b : t_heads j (a ++ b) = t_heads j a + t_heads j b.
Proof. unfold t_heads. rewrite filter_app, app_length. lia. Qed.
Lemma heads_pos j a : 0 <= t_heads j a.
Proof. unfold t_heads. lia. Qed.
Lemma heads_strip j : forall l, t_heads j (map strip l) = t_heads j l.
Proof. unfold t_heads. induction l as [|b t IH]; [reflexivity|]. cbn [map filter]. change (fb_sop (strip b)) with (fb_sop b). change (fb_hdr (strip b)) with (fb_hdr b). destruct (fb_sop b && _); cbn [length]; lia. Qed.
Lemma last_cons (A : Type) (l : list A) : forall x d, last (x :: l) d = last l x.
Proof. induction l as [|y l IH]; intros x d; [reflexivity|]. change (last (x :: y :: l) d) with (last (y :: l) d). rewrite !IH. reflexivity. Qed.

Lemma budget f j : fp_ok f -> j = 0 \/ j = 1 \/ j = 2 -> forall l al s qd qc qo oq a u g, TX f s qd qc qo oq -> Forall t_running l -> WF f s qc qo l ->
  let c := cls_c j (ts_c s) in pt_limit c = a mod 2 ^ 12 -> pt_av c + pt_inc c + u <= a ->
  (pt_inc c <> 0 -> match l, al with i2 :: _, a2 :: _ => ti_idx i2 = j /\ a2 = a | _, _ => True end) ->
  g + t_heads j (opend (ms_out (ts_mux s)) oq) = u + cls_n j (ms_fc (ts_mux s)) ->
  t_shown j a l al -> t_twice j a l al -> g + t_heads j (flat_map m_given (fm_trace (tx_mp f) (ts_mux s) (mins f s l))) <= last al a.
Proof.
  intros Hp Hj. induction l as [|i t IH]; intros al s qd qc qo oq a u g X Hl W c HL HB HI HG HS HT; pose proof (cls_ok f s qd qc qo oq j X) as (PC & NC); fold c in PC, NC.
  - destruct al; [|destruct HS]. cbn [mins tx_trace map fm_trace flat_map last]. pose proof (heads_pos j (opend (ms_out (ts_mux s)) oq)). assert (t_heads j [] = 0) by reflexivity. destruct PC as (_ & _ & PC). unfold mins. cbn [tx_trace map fm_trace flat_map]. lia.
  - inversion Hl as [|? ? Hi Ht]; subst. destruct al as [|a' al]; [destruct HS|]. cbn [t_shown t_twice] in HS, HT. destruct HS as (HR & HA & HS). destruct HT as (HW & HT).
    destruct (tx_inv f i t s qd qc qo oq Hp Hi X W) as (qd' & qc' & qo' & oq' & X' & W' & E & F1 & F2 & F3).
    rewrite last_cons. unfold mins. cbn [tx_trace map fm_trace flat_map fst snd]. change (fm_step (tx_mp f) (ts_mux s) (tx_min s i)) with (ts_mux (tx_step f s i)). fold (mins f (tx_step f s i) t).
    rewrite heads_app, Z.add_assoc. pose proof (cls_step f s i j Hj) as EC. rewrite Hi in EC. fold c in EC.
    set (n := cls_n j (ms_fc (ts_mux s))) in *. assert (EN : cls_n j (ms_fc (ts_mux (tx_step f s i))) = t_heads j (if ms_sel (ts_mux s) then [fm_b (ts_mux s)] else [])).
    { unfold cls_n, t_heads, t_class. unfold cnt in *. destruct (ms_sel (ts_mux s)).
      - cbn [filter andb] in *. destruct (fb_sop (fm_b (ts_mux s))); cbn [andb] in *.
        + destruct (j =? 0); [|destruct (j =? 1)]; rewrite ?F1, ?F2, ?F3; match goal with |- context [if ?b then _ else _] => destruct b end; reflexivity.
        + destruct (j =? 0); [|destruct (j =? 1)]; rewrite ?F1, ?F2, ?F3; reflexivity.
      - destruct (j =? 0); [|destruct (j =? 1)]; rewrite ?F1, ?F2, ?F3; reflexivity. }
    assert (LI : pt_limit (cls_c j (ts_c (tx_step f s i))) = a' mod 2 ^ 12 /\ pt_inc (cls_c j (ts_c (tx_step f s i))) = a' - a).
    { rewrite EC. unfold pt_step. cbn [pi_rst pi_limit pi_idx pi_dec]. cbv zeta. cbn [pt_limit pt_inc]. destruct (ti_idx i =? j) eqn:EI.
      - split; [exact HA|]. rewrite HA, HL, <- Zminus_mod. apply Z.mod_small. lia.
      - subst a'. split; [exact HL|]. destruct (Z.eq_dec (pt_inc c) 0) as [Z0|Z0]; [lia|]. destruct (HI Z0) as [Z1 _]. apply Z.eqb_neq in EI. contradiction. }
    destruct LI as [LI1 LI2]. pose proof (pt_upper j c (ti_lim i mod 2 ^ 12) (ti_idx i) n PC NC) as UP. rewrite <- EC in UP.
    apply (IH al (tx_step f s i) qd' qc' qo' oq' a' (u + n)); [exact X'|exact Ht|exact W'|exact LI1| | | |exact HS|exact HT].
    + rewrite LI2. lia.
    + rewrite LI2. intros HN. apply HW. lia.
    + rewrite EN. apply (f_equal (t_heads j)) in E. rewrite !heads_app in E. lia.
Qed.

Lemma tx_budget f s i l al j : fp_ok f -> ti_rst i = true -> Forall t_running l -> (forall n, 0 <= n < 4 -> t_framed (t_kind n) true (flat_map (t_taken n) (tx_trace f (tx_step f s i) l))) ->
  j = 0 \/ j = 1 \/ j = 2 -> t_shown j 0 l al -> t_twice j 0 l al -> t_heads j (flat_map t_sent (tx_trace f (tx_step f s i) l)) <= last al 0.
Proof.
  intros Hp Hr Hl W Hj HS HT. set (s0 := tx_step f s i) in *. destruct (tx_start f s i l Hp Hr Hl W) as [X W0]. fold s0 in X, W0.
  pose proof (sent_all f l s0 Hl) as E. assert (E0 : osent (ts_out s0) = []) by (unfold s0, tx_step; rewrite Hr; reflexivity). rewrite E0 in E. cbn [app] in E. apply (f_equal (t_heads j)) in E. rewrite heads_app, heads_strip in E.
  pose proof (heads_pos j (osent (ts_out (tx_run f s0 l)))).
  assert (C0 : cls_c j (ts_c s0) = pt0) by (unfold s0; rewrite (cls_step f s i j Hj), Hr; reflexivity).
  assert (N0 : cls_n j (ms_fc (ts_mux s0)) = 0 /\ opend (ms_out (ts_mux s0)) [] = []).
  { unfold s0, tx_step. cbn [ts_mux]. unfold fm_step. cbn [tx_min mi_rst]. rewrite Hr. cbv zeta. cbn [ms_fc ms_out]. split; [destruct Hj as [->|[->| ->]]; reflexivity|reflexivity]. }
  destruct N0 as [N0 O0].
  pose proof (budget f j Hp Hj l al s0 _ _ _ _ 0 0 0 X Hl W0) as B. cbv zeta in B. rewrite C0, N0, O0 in B. specialize (B eq_refl ltac:(cbn; lia) ltac:(intros HN; destruct (HN eq_refl)) eq_refl HS HT). lia.
Qed.
