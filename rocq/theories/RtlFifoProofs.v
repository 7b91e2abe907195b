From Verif Require Import PyBase RtlFifoModel RtlFifoSpec.

Definition lz (A : Type) (l : list A) : Z := Z.of_nat (length l).
Arguments lz {A} l.
Lemma lz_app (A : Type) (a b : list A) : lz (a ++ b) = lz a + lz b.
Proof. unfold lz. rewrite app_length. lia. Qed.
Lemma lz_pos (A : Type) (a : list A) : 0 <= lz a.
Proof. unfold lz. lia. Qed.

Lemma fp_m_eq p : fp_ok p -> fp_m p = 2 * 2 ^ fp_aw p.
Proof. intros [H _]. unfold fp_m. rewrite Z.pow_add_r by lia. lia. Qed.

(** The memory from the read pointer on has qc (complete TLPs), then qo. *)
Record Inv (p : fi_param) (s : fi_st) (qc qo : list fbeat) : Prop := mkInv {
  i_rd : 0 <= fs_rd s < fp_m p;
  i_wr : fs_wr s = (fs_rd s + lz qc) mod fp_m p;
  i_wrc : fs_wrc s = (fs_rd s + lz (qc ++ qo)) mod fp_m p;
  i_wa : fs_wa s = fs_wrc s mod 2 ^ fp_aw p;
  i_ra : fs_ra s = fs_rd s mod 2 ^ fp_aw p;
  i_mem : forall k x, nth_error (qc ++ qo) k = Some x -> fs_mem s ((fs_rd s + Z.of_nat k) mod 2 ^ fp_aw p) = x;
  i_len : lz (qc ++ qo) <= fp_d p - 1;
  i_nf : fs_full s = false -> lz (qc ++ qo) <= fp_d p - 2;
  i_f : fs_full s = true -> fp_d p - 2 <= lz (qc ++ qo) + (if fs_rv s then 1 else 0) + (if fs_ov s then 1 else 0);
  i_wm : fs_wmk s = false -> lz (qc ++ qo) <= Z.max 0 (fp_wm p);
  i_wf : fs_wmk s = false -> fp_wm p <= fp_d p - 2 -> fs_full s = false }.

Definition pend (s : fi_st) (qc : list fbeat) : list fbeat := (if fs_ov s then [fs_ob s] else []) ++ (if fs_rv s then [fs_rb s] else []) ++ qc.

Lemma reset_inv p s i : fp_ok p -> fi_rst i = true -> Inv p (fi_step p s i) [] [] /\ pend (fi_step p s i) [] = [].
Proof.
  intros Hp H. unfold fi_step. rewrite H. cbv zeta. pose proof (fp_m_eq p Hp). destruct Hp as (Ha & Hd). assert (0 < 2 ^ fp_aw p) by (apply Z.pow_pos_nonneg; lia).
  split; [|reflexivity]. constructor; cbn [fs_mem fs_wr fs_wrc fs_rd fs_wa fs_ra fs_rv fs_rb fs_ov fs_ob fs_full fs_half fs_wmk app]; unfold lz; cbn [length]; try lia; try discriminate.
  all: try (rewrite Z.mod_small; lia). intros [|k] x Hx; discriminate Hx.
Qed.

Lemma count_ok p s qc qo : fp_ok p -> Inv p s qc qo -> fi_count p s = lz (qc ++ qo).
Proof.
  intros Hp I. pose proof (fp_m_eq p Hp) as E. destruct Hp as (Ha & Hd). destruct I. assert (0 < 2 ^ fp_aw p) by (apply Z.pow_pos_nonneg; lia). unfold fi_count. rewrite i_wrc0.
  rewrite Zminus_mod_idemp_l. replace (fs_rd s + lz (qc ++ qo) - fs_rd s) with (lz (qc ++ qo)) by lia. apply Z.mod_small. pose proof (lz_pos _ (qc ++ qo)). lia.
Qed.
Lemma empty_ok p s qc qo : fp_ok p -> Inv p s qc qo -> (fs_wr s =? fs_rd s) = match qc with [] => true | _ => false end.
Proof.
  intros Hp I. pose proof (fp_m_eq p Hp) as E. destruct Hp as (Ha & Hd). destruct I. assert (0 < 2 ^ fp_aw p) by (apply Z.pow_pos_nonneg; lia).
  rewrite i_wr0. rewrite lz_app in i_len0. pose proof (lz_pos _ qc). pose proof (lz_pos _ qo).
  destruct qc as [|b t].
  - cbn. rewrite Z.add_0_r, Z.mod_small by lia. apply Z.eqb_refl.
  - apply Z.eqb_neq. assert (0 < lz (b :: t)) by (unfold lz; cbn [length]; lia).
    destruct (Z_lt_ge_dec (fs_rd s + lz (b :: t)) (fp_m p)) as [L|L]; [rewrite Z.mod_small by lia; lia|].
    replace (fs_rd s + lz (b :: t)) with (fs_rd s + lz (b :: t) - fp_m p + 1 * fp_m p) by lia. rewrite Z.mod_add by lia. rewrite Z.mod_small by lia. lia.
Qed.
Lemma mod_lift p x : fp_ok p -> (x mod fp_m p) mod 2 ^ fp_aw p = x mod 2 ^ fp_aw p.
Proof.
  intros Hp. rewrite (fp_m_eq p Hp). destruct Hp as (Ha & Hd). assert (0 < 2 ^ fp_aw p) by (apply Z.pow_pos_nonneg; lia).
  rewrite (Z.mul_comm 2). rewrite Z.rem_mul_r by lia. rewrite (Z.mul_comm (2 ^ fp_aw p)), Z.mod_add by lia. apply Z.mod_mod. lia.
Qed.
Lemma mod_neq A x y : 0 < A -> x < y < x + A -> x mod A <> y mod A.
Proof.
  intros HA H E.
  assert (D : (y - x) mod A = 0) by (rewrite Zminus_mod, E, Z.sub_diag; apply Z.mod_0_l; lia).
  rewrite Z.mod_small in D by lia. lia.
Qed.

(** What is in the memory after a clock. *)
Definition nqc (s : fi_st) (i : fi_in) (qc qo : list fbeat) : list fbeat :=
  (if fi_ren s i then tl qc else qc) ++ (if fi_take s i && fb_eop (fi_b i) then qo ++ [fi_b i] else []).
Definition nqo (s : fi_st) (i : fi_in) (qo : list fbeat) : list fbeat :=
  if fi_take s i then if fb_eop (fi_b i) then [] else qo ++ [fi_b i] else qo.

Lemma ren_cons p s i qc qo : fp_ok p -> Inv p s qc qo -> fi_ren s i = true -> exists b t, qc = b :: t.
Proof. intros Hp I H. unfold fi_ren in H. rewrite (empty_ok p s qc qo Hp I) in H. destruct qc as [|b t]; [rewrite andb_false_r in H; discriminate|]. eauto. Qed.

Lemma nq_app s i qc qo : (fi_ren s i = true -> qc <> []) ->
  nqc s i qc qo ++ nqo s i qo = (if fi_ren s i then tl (qc ++ qo) else qc ++ qo) ++ (if fi_take s i then [fi_b i] else []).
Proof.
  intros H. unfold nqc, nqo. assert (E : (if fi_ren s i then tl (qc ++ qo) else qc ++ qo) = (if fi_ren s i then tl qc else qc) ++ qo).
  { destruct (fi_ren s i); [|reflexivity]. destruct qc; [destruct (H eq_refl eq_refl)|reflexivity]. }
  rewrite E. destruct (fi_take s i); cbn [andb]; [destruct (fb_eop (fi_b i))|]; rewrite ?app_nil_r, <- ?app_assoc; reflexivity.
Qed.

Lemma nth_tl (A : Type) (l : list A) k : nth_error (tl l) k = nth_error l (S k).
Proof. destruct l; [destruct k; reflexivity|reflexivity]. Qed.

Lemma step_inv p s i qc qo : fp_ok p -> Inv p s qc qo -> running i -> Inv p (fi_step p s i) (nqc s i qc qo) (nqo s i qo).
Proof.
  intros Hp I Hr. pose proof (count_ok p s qc qo Hp I) as HC. pose proof (fp_m_eq p Hp) as HM.
  assert (HR : fi_ren s i = true -> qc <> []). { intros H. destruct (ren_cons p s i qc qo Hp I H) as (b & t & ->). discriminate. }
  pose proof (nq_app s i qc qo HR) as HN. pose proof (mod_lift p) as HL.
  assert (HA : 0 < 2 ^ fp_aw p) by (destruct Hp; apply Z.pow_pos_nonneg; lia).
  pose proof (lz_pos _ qc) as Lc. pose proof (lz_pos _ qo) as Lo. pose proof (lz_app _ qc qo) as Lq.
  set (q := qc ++ qo) in *.
  assert (LT : fi_ren s i = true -> lz (tl q) = lz q - 1 /\ lz (tl qc) = lz qc - 1).
  { intros H. destruct (ren_cons p s i qc qo Hp I H) as (b & t & E). unfold q. rewrite E. unfold lz. cbn [app tl length]. lia. }
  assert (LN : lz (nqc s i qc qo ++ nqo s i qo) = lz q - (if fi_ren s i then 1 else 0) + (if fi_take s i then 1 else 0)).
  { rewrite HN, lz_app. destruct (fi_ren s i); [destruct (LT eq_refl) as [E _]; rewrite E|]; destruct (fi_take s i); unfold lz; cbn [length]; lia. }
  assert (ERD : forall x, (fi_rd p s i + x) mod fp_m p = (fs_rd s + (if fi_ren s i then 1 else 0) + x) mod fp_m p).
  { intros x. unfold fi_rd. destruct (fi_ren s i); [rewrite Zplus_mod_idemp_l; reflexivity|f_equal; lia]. }
  assert (EWR : fi_wrc p s i = (fi_rd p s i + lz (nqc s i qc qo ++ nqo s i qo)) mod fp_m p).
  { rewrite ERD, LN. unfold fi_wrc. rewrite (i_wrc _ _ _ _ I). fold q. destruct (fi_take s i).
    - rewrite Zplus_mod_idemp_l. f_equal. destruct (fi_ren s i); lia.
    - f_equal. destruct (fi_ren s i); lia. }
  assert (TK : fi_take s i = true -> lz q <= fp_d p - 2).
  { intros H. apply (i_nf _ _ _ _ I). unfold fi_take in H. destruct (fs_full s); [discriminate|reflexivity]. }
  pose proof (i_len _ _ _ _ I) as IL. fold q in IL.
  assert (EIN : forall x, (fi_rd p s i + x) mod 2 ^ fp_aw p = (fs_rd s + (if fi_ren s i then 1 else 0) + x) mod 2 ^ fp_aw p).
  { intros x. rewrite <- (HL (fi_rd p s i + x)), ERD, HL by exact Hp. reflexivity. }
  unfold fi_step. rewrite Hr. cbv zeta.
  constructor; cbn [fs_mem fs_wr fs_wrc fs_rd fs_wa fs_ra fs_rv fs_rb fs_ov fs_ob fs_full fs_half fs_wmk].
  - unfold fi_rd. destruct (fi_ren s i); [apply Z.mod_pos_bound; lia|apply (i_rd _ _ _ _ I)].
  - rewrite ERD. destruct (fi_take s i && fb_eop (fi_b i)) eqn:ET.
    + rewrite EWR, ERD. f_equal. f_equal. unfold nqo. apply andb_prop in ET. destruct ET as [-> ->]. rewrite app_nil_r. reflexivity.
    + rewrite (i_wr _ _ _ _ I). f_equal. unfold nqc. rewrite ET, app_nil_r. destruct (fi_ren s i); [destruct (LT eq_refl) as [_ E]; rewrite E|]; lia.
  - exact EWR.
  - unfold fi_wrc. destruct (fi_take s i); [reflexivity|apply (i_wa _ _ _ _ I)].
  - unfold fi_rd. destruct (fi_ren s i); [reflexivity|apply (i_ra _ _ _ _ I)].
  - intros k x Hx. rewrite HN in Hx. rewrite EIN. unfold fi_mem.
    assert (OLD : forall k, nth_error (if fi_ren s i then tl q else q) k = nth_error q ((if fi_ren s i then 1 else 0) + k)).
    { intros j. destruct (fi_ren s i); [apply nth_tl|reflexivity]. }
    replace (fs_rd s + (if fi_ren s i then 1 else 0) + Z.of_nat k) with (fs_rd s + Z.of_nat ((if fi_ren s i then 1 else 0) + k)) by (destruct (fi_ren s i); lia).
    assert (KQ : forall k y, nth_error q k = Some y -> Z.of_nat k < lz q). { intros j y Hy. assert (j < length q)%nat by (apply nth_error_Some; congruence). unfold lz. lia. }
    destruct (fi_take s i) eqn:ET.
    + specialize (TK eq_refl). rewrite (i_wa _ _ _ _ I), (i_wrc _ _ _ _ I), HL by exact Hp. fold q.
      destruct (Nat.lt_ge_cases k (length (if fi_ren s i then tl q else q))) as [Hk|Hk].
      * rewrite nth_error_app1 in Hx by exact Hk. rewrite OLD in Hx. pose proof (KQ _ _ Hx) as HK.
        destruct (Z.eqb_spec ((fs_rd s + Z.of_nat ((if fi_ren s i then 1 else 0) + k)) mod 2 ^ fp_aw p) ((fs_rd s + lz q) mod 2 ^ fp_aw p)) as [E|E].
        -- exfalso. revert E. apply mod_neq; [exact HA|]. destruct Hp. lia.
        -- apply (i_mem _ _ _ _ I). exact Hx.
      * rewrite nth_error_app2 in Hx by exact Hk.
        assert (k = length (if fi_ren s i then tl q else q)).
        { destruct (k - length (if fi_ren s i then tl q else q))%nat as [|j] eqn:EK; [lia|]. cbn in Hx. destruct j; discriminate Hx. }
        rewrite H, Nat.sub_diag in Hx. cbn in Hx. injection Hx as <-.
        assert (EL : Z.of_nat ((if fi_ren s i then 1 else 0) + k) = lz q).
        { rewrite H. destruct (fi_ren s i); [destruct (LT eq_refl) as [E _]; unfold lz in *; lia|reflexivity]. }
        rewrite EL, Z.eqb_refl. reflexivity.
    + rewrite app_nil_r, OLD in Hx. apply (i_mem _ _ _ _ I). exact Hx.
  - rewrite LN. destruct (fi_take s i); [specialize (TK eq_refl)|]; destruct (fi_ren s i); lia.
  - rewrite HC. intros H. rewrite Z.geb_leb in H. apply Z.leb_gt in H. rewrite LN. destruct (fi_take s i), (fi_ren s i); lia.
  - rewrite HC. intros H. rewrite Z.geb_leb in H. apply Z.leb_le in H. rewrite LN.
    pose proof (empty_ok p s qc qo Hp I) as HE. fold q in H. unfold fi_ren, fi_go in *.
    destruct (fs_rv s), (fs_ov s), (fi_read i), (fs_wr s =? fs_rd s); cbn [negb orb andb] in *; destruct (fi_take s i); lia.
  - rewrite HC. intros H. rewrite Z.geb_leb in H. apply Z.leb_gt in H. rewrite LN. destruct (fi_take s i), (fi_ren s i); lia.
  - rewrite HC. intros H Hw. rewrite Z.geb_leb in *. apply Z.leb_gt in H. apply Z.leb_gt. lia.
Qed.

Lemma step_pend p s i qc qo : fp_ok p -> Inv p s qc qo -> running i ->
  pend s qc ++ (if fi_take s i && fb_eop (fi_b i) then qo ++ [fi_b i] else []) = given (i, s) ++ pend (fi_step p s i) (nqc s i qc qo).
Proof.
  intros Hp I Hr. pose proof (empty_ok p s qc qo Hp I) as HE.
  assert (HB : fi_ren s i = true -> exists t, qc = fs_mem s (fs_ra s) :: t).
  { intros H. destruct (ren_cons p s i qc qo Hp I H) as (b & t & E). exists t. rewrite E. f_equal. symmetry. rewrite (i_ra _ _ _ _ I).
    rewrite <- (i_mem _ _ _ _ I 0%nat b); [f_equal; f_equal; lia|]. rewrite E. reflexivity. }
  unfold pend, given, nqc, fi_step. rewrite Hr. cbv zeta. cbn [fst snd fs_rv fs_rb fs_ov fs_ob].
  remember (if fi_take s i && fb_eop (fi_b i) then qo ++ [fi_b i] else []) as nw.
  destruct (fi_ren s i) eqn:ER.
  - destruct (HB eq_refl) as (t & E). rewrite HE. rewrite E. cbn [tl negb]. unfold fi_ren, fi_go in *.
    destruct (fs_rv s), (fs_ov s), (fi_read i); cbn [negb orb andb app] in *; try discriminate ER; rewrite <- ?app_assoc; reflexivity.
  - unfold fi_ren, fi_go in *. rewrite HE in *.
    destruct qc as [|b t]; destruct (fs_rv s), (fs_ov s), (fi_read i); cbn [negb orb andb app] in *; try discriminate ER; rewrite <- ?app_assoc; reflexivity.
Qed.

Lemma trace_ok p : fp_ok p -> forall l s qc qo, Inv p s qc qo -> Forall running l ->
  exists qc', let qo' := open_of qo (flat_map taken (fi_trace p s l)) in
    Inv p (fi_run p s l) qc' qo' /\ pend s qc ++ whole qo (flat_map taken (fi_trace p s l)) = flat_map given (fi_trace p s l) ++ pend (fi_run p s l) qc'.
Proof.
  intros Hp. induction l as [|i t IH]; intros s qc qo I Hl.
  - exists qc. cbn. rewrite app_nil_r. split; [exact I|reflexivity].
  - inversion Hl as [|? ? Hi Ht]; subst. cbn [fi_trace flat_map fi_run fold_left]. fold (fi_run p (fi_step p s i) t).
    destruct (IH (fi_step p s i) _ _ (step_inv p s i qc qo Hp I Hi) Ht) as (qc' & I' & E). exists qc'. cbv zeta in *.
    assert (ET : taken (i, s) = if fi_take s i then [fi_b i] else []).
    { unfold taken, ready, fi_take. cbn [fst snd]. destruct (fs_full s), (fi_valid i); reflexivity. }
    pose proof (step_pend p s i qc qo Hp I Hi) as SP. rewrite ET. unfold nqo in *. destruct (fi_take s i) eqn:TK.
    + cbn [app open_of whole andb] in *. destruct (fb_eop (fi_b i)).
      * split; [exact I'|]. rewrite app_assoc, SP, <- !app_assoc. f_equal. exact E.
      * split; [exact I'|]. rewrite app_nil_r in SP. rewrite SP, <- !app_assoc. f_equal. exact E.
    + cbn [app andb] in *. split; [exact I'|]. rewrite app_nil_r in SP. rewrite SP, <- !app_assoc. f_equal. exact E.
Qed.

Lemma pend_len p s qc qo : Inv p s qc qo -> lz (pend s qc) <= fp_d p + 1.
Proof.
  intros I. pose proof (i_len _ _ _ _ I) as H. rewrite lz_app in H. pose proof (lz_pos _ qo). unfold pend. rewrite !lz_app.
  destruct (fs_ov s), (fs_rv s); unfold lz in *; cbn [length]; lia.
Qed.

Lemma fifo_ok p s i l : fp_ok p -> fi_rst i = true -> Forall running l ->
  let tr := fi_trace p (fi_step p s i) l in
  exists rest, whole [] (flat_map taken tr) = flat_map given tr ++ rest /\ Z.of_nat (length rest) <= fp_d p + 1.
Proof.
  intros Hp Hr Hl. destruct (reset_inv p s i Hp Hr) as (I & E0). destruct (trace_ok p Hp l _ _ _ I Hl) as (qc' & I' & E). cbv zeta in *. rewrite E0 in E.
  eexists. split; [exact E|]. apply (pend_len _ _ _ _ I').
Qed.

(** Draining. *)
Definition weight (s : fi_st) (qc : list fbeat) : Z :=
  lz (pend s qc) + (if fs_rv s then if fs_ov s then 0 else 1 else match qc with [] => 0 | _ => if fs_ov s then 1 else 2 end).
Lemma drain_step p s i qc qo : fp_ok p -> Inv p s qc qo -> draining i -> nqo s i qo = qo /\ weight (fi_step p s i) (nqc s i qc qo) <= Z.max 0 (weight s qc - 1).
Proof.
  intros Hp I (Hr & Hv & Hd). pose proof (empty_ok p s qc qo Hp I) as HE.
  assert (TK : fi_take s i = false) by (unfold fi_take; rewrite Hv; apply andb_false_r).
  split; [unfold nqo; rewrite TK; reflexivity|].
  unfold weight, nqc, pend, fi_step. rewrite Hr, TK. cbn [andb]. cbv zeta. cbn [fs_rv fs_rb fs_ov fs_ob]. rewrite app_nil_r.
  unfold fi_ren, fi_go. rewrite HE, Hd, !orb_true_r. cbn [andb]. rewrite !lz_app. pose proof (lz_pos _ qc).
  destruct qc as [|b [|b2 t]], (fs_rv s), (fs_ov s); cbn [negb tl]; unfold lz; cbn [length]; lia.
Qed.
Lemma weight_nonneg s qc : 0 <= weight s qc.
Proof. unfold weight. pose proof (lz_pos _ (pend s qc)). destruct (fs_rv s), (fs_ov s), qc; lia. Qed.
Lemma weight_zero s qc : weight s qc = 0 -> pend s qc = [].
Proof. unfold weight. pose proof (lz_pos _ (pend s qc)). intros H0. assert (lz (pend s qc) = 0) by (destruct (fs_rv s), (fs_ov s), qc; lia). destruct (pend s qc); [reflexivity|]. unfold lz in *. cbn [length] in *. lia. Qed.
Lemma drain_run p : fp_ok p -> forall l s qc qo, Inv p s qc qo -> Forall draining l ->
  exists qc', Inv p (fi_run p s l) qc' qo /\ weight (fi_run p s l) qc' <= Z.max 0 (weight s qc - lz l).
Proof.
  intros Hp. induction l as [|i t IH]; intros s qc qo I Hl.
  - exists qc. split; [exact I|]. unfold lz. cbn [length fi_run fold_left]. lia.
  - inversion Hl as [|? ? Hi Ht]; subst. destruct (drain_step p s i qc qo Hp I Hi) as (E & W).
    pose proof (step_inv p s i qc qo Hp I (proj1 Hi)) as I'. rewrite E in I'. destruct (IH _ _ _ I' Ht) as (qc' & I2 & W2). exists qc'.
    cbn [fi_run fold_left]. fold (fi_run p (fi_step p s i) t). split; [exact I2|]. unfold lz in *. cbn [length]. lia.
Qed.
Lemma running_of l : Forall draining l -> Forall running l.
Proof. apply Forall_impl. intros i (H & _). exact H. Qed.
Lemma trace_app p : forall l m s, fi_trace p s (l ++ m) = fi_trace p s l ++ fi_trace p (fi_run p s l) m.
Proof. induction l as [|i t IH]; intros m s; [reflexivity|]. cbn [app fi_trace fi_run fold_left]. rewrite IH. reflexivity. Qed.
Lemma run_app p l m s : fi_run p s (l ++ m) = fi_run p (fi_run p s l) m.
Proof. apply fold_left_app. Qed.
Lemma drain_taken p : forall l s, Forall draining l -> flat_map taken (fi_trace p s l) = [].
Proof. induction l as [|i t IH]; intros s H; [reflexivity|]. inversion H as [|? ? (_ & Hv & _) Ht]; subst. cbn [fi_trace flat_map]. unfold taken at 1. cbn [fst]. rewrite Hv. cbn [andb app]. apply IH, Ht. Qed.

Lemma weight_le p s qc qo : fp_ok p -> Inv p s qc qo -> weight s qc <= fp_d p + 2.
Proof.
  intros Hp I. pose proof (pend_len p s qc qo I) as H. pose proof (i_len _ _ _ _ I) as H2. rewrite lz_app in H2. pose proof (lz_pos _ qo). destruct Hp as (_ & Hd).
  unfold weight, pend in *. rewrite !lz_app in *. destruct (fs_rv s), (fs_ov s), qc; unfold lz in *; cbn [length] in *; lia.
Qed.
Lemma fifo_drain p s i l d : fp_ok p -> fi_rst i = true -> Forall running l -> Forall draining d -> fp_d p + 2 <= Z.of_nat (length d) ->
  let tr := fi_trace p (fi_step p s i) (l ++ d) in
  flat_map given tr = whole [] (flat_map taken (fi_trace p (fi_step p s i) l)).
Proof.
  intros Hp Hr Hl Hd HL. destruct (reset_inv p s i Hp Hr) as (I & E0). cbv zeta.
  destruct (trace_ok p Hp l _ _ _ I Hl) as (qc1 & I1 & E1). cbv zeta in *. rewrite E0 in E1. cbn [app] in E1.
  destruct (trace_ok p Hp d _ _ _ I1 (running_of d Hd)) as (qc2 & I2 & E2). cbv zeta in *. rewrite (drain_taken p d _ Hd) in E2. cbn [whole] in E2. rewrite app_nil_r in E2.
  rewrite trace_app, flat_map_app, E1. f_equal.
  destruct (drain_run p Hp d _ _ _ I1 Hd) as (qc3 & I3 & W3). pose proof (weight_le p _ _ _ Hp I1). pose proof (weight_nonneg (fi_run p (fi_run p (fi_step p s i) l) d) qc3).
  assert (weight (fi_run p (fi_run p (fi_step p s i) l) d) qc3 = 0) by (unfold lz in *; lia). pose proof (weight_zero _ _ H1) as P3.
  assert (P2 : pend (fi_run p (fi_run p (fi_step p s i) l) d) qc2 = []).
  { set (x := fi_run p (fi_run p (fi_step p s i) l) d) in *. unfold pend in *. apply app_eq_nil in P3. destruct P3 as (P3a & P3). apply app_eq_nil in P3. destruct P3 as (P3b & P3).
    rewrite P3a, P3b. pose proof (empty_ok p x _ _ Hp I2) as A. pose proof (empty_ok p x _ _ Hp I3) as B. rewrite P3 in B. rewrite B in A. destruct qc2; [reflexivity|discriminate A]. }
  rewrite P2, app_nil_r in E2. symmetry. exact E2.
Qed.

(** After draining the input is ready unless the open TLP fills the FIFO. *)
Lemma fifo_ready p s i l d : fp_ok p -> fi_rst i = true -> Forall running l -> Forall draining d -> fp_d p + 3 <= Z.of_nat (length d) ->
  ready (fi_run p (fi_step p s i) (l ++ d)) = (Z.of_nat (length (open_of [] (flat_map taken (fi_trace p (fi_step p s i) l)))) <? fp_d p - 2).
Proof.
  intros Hp Hr Hl Hd HL. destruct (reset_inv p s i Hp Hr) as (I & E0).
  destruct (trace_ok p Hp l _ _ _ I Hl) as (qc1 & I1 & _). cbv zeta in *. rewrite run_app.
  destruct (exists_last (l := d)) as (d0 & x & ->). { intros ->. cbn in HL. destruct Hp. lia. }
  apply Forall_app in Hd. destruct Hd as (Hd & Hx). inversion Hx as [|? ? Hxx _]; subst. rewrite run_app. rewrite app_length in HL. cbn [length] in HL.
  destruct (drain_run p Hp d0 _ _ _ I1 Hd) as (qc3 & I3 & W3). pose proof (weight_le p _ _ _ Hp I1). pose proof (weight_nonneg (fi_run p (fi_run p (fi_step p s i) l) d0) qc3).
  assert (Z3 : weight (fi_run p (fi_run p (fi_step p s i) l) d0) qc3 = 0) by (unfold lz in *; lia). apply weight_zero in Z3.
  assert (Q3 : qc3 = []). { unfold pend in Z3. apply app_eq_nil in Z3. destruct Z3 as (_ & Z3). apply app_eq_nil in Z3. apply Z3. }
  subst qc3. pose proof (count_ok p _ _ _ Hp I3) as HC. cbn [app] in HC.
  unfold fi_run at 1. cbn [fold_left]. unfold ready, fi_step at 1. destruct Hxx as (-> & _). cbv zeta. cbn [fs_full]. rewrite HC. unfold lz.
  rewrite Z.geb_leb, Z.leb_antisym. rewrite negb_involutive. reflexivity.
Qed.

(** Not ready only when full. *)
Lemma fifo_full p s i l : fp_ok p -> fi_rst i = true -> Forall running l ->
  let tr := fi_trace p (fi_step p s i) l in
  ready (fi_run p (fi_step p s i) l) = false -> fp_d p - 2 <= Z.of_nat (length (flat_map taken tr)) - Z.of_nat (length (flat_map given tr)).
Proof.
  intros Hp Hr Hl tr Hf. unfold tr in *. destruct (reset_inv p s i Hp Hr) as (I & E0).
  destruct (trace_ok p Hp l _ _ _ I Hl) as (qc1 & I1 & E). cbv zeta in *. rewrite E0 in E. cbn [app] in E.
  assert (F : fs_full (fi_run p (fi_step p s i) l) = true) by (unfold ready in Hf; destruct (fs_full _); [reflexivity|discriminate]).
  pose proof (i_f _ _ _ _ I1 F) as B. rewrite lz_app in B.
  assert (W : forall m o, lz o + lz m = lz (whole o m) + lz (open_of o m)).
  { induction m as [|b t IH]; intros o; cbn [whole open_of]; [unfold lz; cbn [length]; lia|].
    assert (E1 : lz (o ++ [b]) = lz o + 1) by (rewrite lz_app; reflexivity). assert (E2 : lz (b :: t) = 1 + lz t) by (unfold lz; cbn [length]; lia).
    destruct (fb_eop b).
    - specialize (IH []). rewrite lz_app. change (lz (@nil fbeat)) with 0 in IH. lia.
    - specialize (IH (o ++ [b])). lia. }
  specialize (W (flat_map taken (fi_trace p (fi_step p s i) l)) []). rewrite E, lz_app in W. change (lz (@nil fbeat)) with 0 in W.
  unfold pend in W. rewrite !lz_app in W.
  assert (V : forall b x, lz (if b : bool then [x] else @nil fbeat) = if b then 1 else 0) by (intros [] ?; reflexivity). rewrite !V in W. unfold lz in *. lia.
Qed.

(** The watermark leaves room. *)
Lemma room p : fp_ok p -> forall l s qc qo n, Inv p s qc qo -> Forall running l -> ready s = true -> lz (qc ++ qo) <= n -> n + lz l <= fp_d p - 1 ->
  Forall (fun e => ready (snd e) = true) (fi_trace p s l).
Proof.
  intros Hp. induction l as [|i t IH]; intros s qc qo n I Hl Hrd Hn HL; [constructor|].
  inversion Hl as [|? ? Hi Ht]; subst. cbn [fi_trace]. constructor; [exact Hrd|].
  assert (ELz : lz (i :: t) = 1 + lz t) by (unfold lz; cbn [length]; lia). pose proof (lz_pos _ t) as Pt.
  destruct t as [|i2 t2]; [constructor|]. assert (1 <= lz (i2 :: t2)) by (unfold lz; cbn [length]; lia).
  apply (IH _ _ _ (n + 1) (step_inv p s i qc qo Hp I Hi) Ht).
  - unfold ready, fi_step. rewrite Hi. cbv zeta. cbn [fs_full]. rewrite (count_ok p s qc qo Hp I), Z.geb_leb. apply negb_true_iff, Z.leb_gt. lia.
  - rewrite nq_app. 2:{ intros H0. destruct (ren_cons p s i qc qo Hp I H0) as (b & u & ->). discriminate. }
    rewrite lz_app. assert (lz (if fi_ren s i then tl (qc ++ qo) else qc ++ qo) <= lz (qc ++ qo)).
    { destruct (fi_ren s i); [|lia]. destruct (qc ++ qo); unfold lz; cbn [tl length]; lia. }
    destruct (fi_take s i); unfold lz in *; cbn [length] in *; lia.
  - lia.
Qed.
Lemma fifo_room p s i l m : fp_ok p -> 0 <= fp_wm p -> fi_rst i = true -> Forall running l -> Forall running m ->
  fs_wmk (fi_run p (fi_step p s i) l) = false -> fp_wm p + Z.of_nat (length m) <= fp_d p - 1 ->
  Forall (fun e => ready (snd e) = true) (fi_trace p (fi_run p (fi_step p s i) l) m).
Proof.
  intros Hp Hw Hr Hl Hm Hk HL. destruct (reset_inv p s i Hp Hr) as (I & _). destruct (trace_ok p Hp l _ _ _ I Hl) as (qc1 & I1 & _). cbv zeta in *.
  destruct m as [|x m]; [constructor|]. cbn [length] in HL.
  apply (room p Hp (x :: m) _ _ _ (fp_wm p) I1 Hm).
  - unfold ready. rewrite (i_wf _ _ _ _ I1 Hk) by lia. reflexivity.
  - pose proof (i_wm _ _ _ _ I1 Hk). lia.
  - unfold lz. cbn [length]. lia.
Qed.
