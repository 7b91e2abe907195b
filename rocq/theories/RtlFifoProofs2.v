From Verif Require Import PyBase RtlFifoModel RtlFifoSpec RtlFifoProofs.

(** A TLP is not interrupted at the output: what is there of it is there to its end. *)
Definition ends (q : list fbeat) : Prop := q = [] \/ exists a b, q = a ++ [b] /\ fb_eop b = true.
Record Inv2 (s : fi_st) (qc : list fbeat) : Prop := mkInv2 {
  j_o : fs_ov s = true -> fb_eop (fs_ob s) = false -> fs_rv s = true;
  j_r : fs_rv s = true -> fb_eop (fs_rb s) = false -> qc <> [];
  j_q : ends qc }.

Lemma reset_inv2 p s i : fi_rst i = true -> Inv2 (fi_step p s i) [].
Proof. intros H. unfold fi_step. rewrite H. cbv zeta. constructor; cbn; [discriminate|discriminate|left; reflexivity]. Qed.

Lemma ends_tl b t : ends (b :: t) -> ends t.
Proof. intros [H|(a & c & H & E)]; [discriminate|]. destruct a as [|x a]; cbn in H; injection H as <- ->; [left; reflexivity|]. right. exists a, c. split; [reflexivity|exact E]. Qed.
Lemma ends_app a b : ends a -> ends b -> ends (a ++ b).
Proof.
  intros Ha [->|(c & d & -> & E)]; [rewrite app_nil_r; exact Ha|]. right. exists (a ++ c), d. split; [apply app_assoc|exact E].
Qed.
Lemma ends_head b t : ends (b :: t) -> fb_eop b = false -> t <> [].
Proof. intros [H|(a & c & H & E)] Hb ->; [discriminate|]. destruct a as [|x [|y a]]; cbn in H; try discriminate. injection H as <-. congruence. Qed.

Lemma step_inv2 p s i qc qo : fp_ok p -> Inv p s qc qo -> Inv2 s qc -> running i -> Inv2 (fi_step p s i) (nqc s i qc qo).
Proof.
  intros Hp I [Jo Jr Jq] Hr. pose proof (empty_ok p s qc qo Hp I) as HE.
  assert (HB : fi_ren s i = true -> exists t, qc = fs_mem s (fs_ra s) :: t).
  { intros H. destruct (ren_cons p s i qc qo Hp I H) as (b & t & E). exists t. rewrite E. f_equal. symmetry. rewrite (i_ra _ _ _ _ I).
    rewrite <- (i_mem _ _ _ _ I 0%nat b); [f_equal; f_equal; lia|]. rewrite E. reflexivity. }
  assert (EN : ends (nqc s i qc qo)).
  { unfold nqc. apply ends_app.
    - destruct (fi_ren s i) eqn:ER; [|exact Jq]. destruct (HB eq_refl) as (t & ->). cbn [tl]. exact (ends_tl _ _ Jq).
    - destruct (fi_take s i && fb_eop (fi_b i)) eqn:ET; [|left; reflexivity]. apply andb_prop in ET. right. exists qo, (fi_b i). split; [reflexivity|apply ET]. }
  assert (SUP : forall q, (if fi_ren s i then tl qc else qc) = q -> q <> [] -> nqc s i qc qo <> []).
  { intros q E Hq Hc. unfold nqc in Hc. apply app_eq_nil in Hc. destruct Hc as (Hc & _). congruence. }
  constructor; [| |exact EN].
  - unfold fi_step. rewrite Hr. cbv zeta. cbn [fs_ov fs_ob fs_rv]. rewrite HE. destruct (fi_go s i) eqn:EG.
    + rewrite orb_true_r. intros H1 H2. specialize (Jr H1 H2). destruct qc; [congruence|reflexivity].
    + rewrite orb_false_r. intros H1 H2. rewrite (Jo H1 H2). reflexivity.
  - unfold fi_step at 1 2. rewrite Hr. cbv zeta. cbn [fs_rb fs_rv]. destruct (fi_ren s i) eqn:ER.
    + intros _ H2. destruct (HB eq_refl) as (t & E). apply (SUP t); [rewrite E; reflexivity|]. rewrite E in Jq. exact (ends_head _ _ Jq H2).
    + intros H1 H2. apply (SUP qc eq_refl). unfold fi_ren in ER. rewrite HE in *. destruct (negb (fs_rv s) || fi_go s i).
      * destruct qc; [discriminate H1|discriminate].
      * exact (Jr H1 H2).
Qed.

Lemma run_inv2 p : fp_ok p -> forall l s qc qo, Inv p s qc qo -> Inv2 s qc -> Forall running l -> exists qc' qo', Inv p (fi_run p s l) qc' qo' /\ Inv2 (fi_run p s l) qc'.
Proof.
  intros Hp. induction l as [|i t IH]; intros s qc qo I J Hl; [exists qc, qo; split; assumption|].
  inversion Hl as [|? ? Hi Ht]; subst. exact (IH _ _ _ (step_inv p s i qc qo Hp I Hi) (step_inv2 p s i qc qo Hp I J Hi) Ht).
Qed.

Lemma fifo_no_gap p s i l j : fp_ok p -> fi_rst i = true -> Forall running l -> running j ->
  let t := fi_run p (fi_step p s i) l in
  fs_ov t = true -> fb_eop (fs_ob t) = false -> fs_ov (fi_step p t j) = true.
Proof.
  intros Hp Hr Hl Hj t H1 H2. destruct (reset_inv p s i Hp Hr) as (I & _). destruct (run_inv2 p Hp l _ _ _ I (reset_inv2 p s i Hr) Hl) as (qc & qo & I' & J').
  fold t in I', J'. pose proof (j_o _ _ J' H1 H2) as H3. unfold fi_step. rewrite Hj. cbv zeta. cbn [fs_ov]. rewrite H1, H3. destruct (fi_go t j); reflexivity.
Qed.
Lemma fifo_kept p s j : running j -> fs_ov s = true -> fi_read j = false -> fs_ov (fi_step p s j) = true /\ fs_ob (fi_step p s j) = fs_ob s.
Proof. intros Hj H1 H2. unfold fi_step, fi_go. rewrite Hj, H1, H2. cbv zeta. split; reflexivity. Qed.

(** A TLP that does not fit. *)
Definition stuck (p : fi_param) (s : fi_st) : Prop :=
  fs_full s = true /\ fs_wr s = fs_rd s /\ fs_rv s = false /\ fs_ov s = false /\ (fi_count p s >=? fp_d p - 2) = true.
Lemma stuck_step p s i : stuck p s -> running i -> stuck p (fi_step p s i) /\ taken (i, s) = [] /\ given (i, s) = [].
Proof.
  intros (Hf & Hw & Hv & Ho & Hc) Hr. unfold stuck, taken, given, ready. cbn [fst snd].
  assert (T : fi_take s i = false) by (unfold fi_take; rewrite Hf; reflexivity).
  assert (R : fi_ren s i = false) by (unfold fi_ren; rewrite Hw, Z.eqb_refl; apply andb_false_r).
  unfold fi_step. rewrite Hr. cbv zeta. unfold fi_count at 2. cbn [fs_full fs_wr fs_rd fs_rv fs_ov fs_wrc]. unfold fi_wrc, fi_rd, fi_go. rewrite T, R, Hf, Hw, Hv, Ho, Z.eqb_refl. cbn [andb orb negb].
  fold (fi_count p s). rewrite andb_false_r. repeat split; assumption.
Qed.
Lemma stuck_run p : forall l s, stuck p s -> Forall running l -> flat_map taken (fi_trace p s l) = [] /\ flat_map given (fi_trace p s l) = [] /\ ready (fi_run p s l) = false.
Proof.
  induction l as [|i t IH]; intros s Hs Hl; [destruct Hs as (H & _); cbn; unfold ready; rewrite H; auto|].
  inversion Hl as [|? ? Hi Ht]; subst. destruct (stuck_step p s i Hs Hi) as (Hs' & Et & Eg). destruct (IH _ Hs' Ht) as (A & B & C).
  cbn [fi_trace flat_map]. rewrite Et, Eg, A, B. repeat split. exact C.
Qed.
