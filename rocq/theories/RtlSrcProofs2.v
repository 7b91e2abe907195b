(** Conclusions about the AXI stream source, runs with a RAM, and counterexamples. *)
From Verif Require Import PyBase RtlModel RtlRamModel RtlDemuxModel RtlRamDemuxModel RtlSrcModel RtlSrcSpec RtlSrcProofs.

Lemma src_follows_ok p mem l : src_ok p -> src_wide p -> src_follows p mem (fun _ => []) sm0 (src_trace p src0 l).
Proof.
  intros [e1 [e2 [e3 [H1 [H2 [H3 [H4 [H5 [H6 [H7 [H8 [H9 H10]]]]]]]]]]]] W. eapply (follows_inv p e1 e2 e3); try eassumption; try lia. eapply inv0; try eassumption; lia.
Qed.
Lemma src_progress_ok p mem l1 l2 i (tr1 := src_trace p src0 l1) (tr2 := src_trace p (src_run p src0 l1) l2) (s := src_run p src0 (l1 ++ l2)) (e := src_event p s i) : src_ok p -> src_wide p ->
  src_assume p mem (fun _ => []) (tr1 ++ tr2) -> src_quiet tr2 ->
  (cl_segs p + 4) * beats_due p (snd (src_after p tr1)) + 1 <= good_clocks p (fst (src_after p tr1)) tr2 ->
  src_done p (snd (src_after p (tr1 ++ tr2))) (fst (src_after p (tr1 ++ tr2))) e /\
  (si_rst i = false -> si_enable i = true -> se_ready e && si_valid i = false -> forall i', se_ready (src_event p (src_step p s i) i') = true).
Proof.
  intros [e1 [e2 [e3 [H1 [H2 [H3 [H4 [H5 [H6 [H7 [H8 [H9 H10]]]]]]]]]]]] W A Q G. eapply (progress_geo p e1 e2 e3); try eassumption; lia.
Qed.
Lemma src_kept_ok p s i i' : src_kept (src_event p s i) (src_event p (src_step p s i) i').
Proof.
  intros NR. cbn [src_event se_in] in NR. split.
  - cbn [src_event se_tvalid se_beat se_in]. intros V T. cbn [src_step ss_out]. unfold src_out_step. rewrite NR, V, T. cbn [negb orb andb]. rewrite Bool.andb_false_r. cbn [so_valid so_beat orb]. split; reflexivity.
  - intros n N. cbn [src_event se_cvalid se_caddr se_in]. unfold bit. intros V C. cbn [src_step ss_rd]. unfold src_rd_step. rewrite NR. cbn [sr_cvalid sr_caddr].
    assert (CV : Z.testbit (Z.land (sr_cvalid (ss_rd s)) (Z.lnot (si_cready i))) n = true) by (rewrite Z.land_spec, Z.lnot_spec, V, C by lia; reflexivity).
    destruct (src_issue s i) eqn:IS; [|split; [exact CV | reflexivity]]. rewrite Z.lor_spec, CV. split; [reflexivity|]. unfold src_issue in IS. apply andb_true_iff in IS. destruct IS as [_ IS]. apply Z.eqb_eq in IS.
    apply (f_equal (fun z => Z.testbit z n)) in IS. rewrite Z.land_spec, CV, Z.bits_0 in IS. cbn [andb] in IS. rewrite IS. reflexivity.
Qed.
Lemma trace_next p l : forall s a e e' b, src_trace p s l = a ++ e :: e' :: b -> exists s' i i', e = src_event p s' i /\ e' = src_event p (src_step p s' i) i'.
Proof.
  induction l as [|i l IH]; intros s a e e' b H; [destruct a; discriminate|]. cbn [src_trace] in H. destruct a as [|x a].
  - cbn [app] in H. injection H as <- H. destruct l as [|i' l]; [discriminate|]. cbn [src_trace] in H. injection H as <- _. eauto.
  - cbn [app] in H. injection H as _ H. eapply IH. exact H.
Qed.
Lemma src_kept_all p s l a e e' b : src_trace p s l = a ++ e :: e' :: b -> src_kept e e'.
Proof. intros H. apply trace_next in H. destruct H as [s' [i [i' [-> ->]]]]. apply src_kept_ok. Qed.

(** * A RAM for runs *)
Definition segs_of (p : cl_param) : list Z := map Z.of_nat (seq 0 (Z.to_nat (cl_segs p))).
Definition words_of (p : cl_param) : list Z := map Z.of_nat (seq 0 (Z.to_nat (cl_be p))).
Definition sum (l : list Z) : Z := fold_right Z.add 0 l.
Definition ram_valid (p : cl_param) (q : ram_q) : Z := sum (map (fun n => match q n with [] => 0 | _ => 2 ^ n end) (segs_of p)).
Definition ram_data (p : cl_param) (mem : Z -> Z) (q : ram_q) : Z :=
  sum (map (fun n => match q n with [] => 0 | A :: _ => sum (map (fun l => mem (seg_word p n A l) * 2 ^ ((n * cl_be p + l) * cl_ws p)) (words_of p)) end) (segs_of p)).
(** A run with a RAM that always takes commands and answers at once; descriptor offered or not, beat taken or not. *)
Fixpoint src_drive (p : cl_param) (mem : Z -> Z) (q : ram_q) (s : src_state) (ctl : list (option cl_desc * bool)) : list src_in :=
  match ctl with
  | [] => []
  | (d, t) :: r =>
      let i := mkSi false (match d with Some d => d | None => mkDe 0 0 (mkMe 0 0 0 0) end) (match d with Some _ => true | None => false end) t (Z.ones (cl_segs p)) (ram_data p mem q) (ram_valid p q) true in
      i :: src_drive p mem (ram_next q (src_event p s i)) (src_step p s i) r
  end.
Definition answersb (p : cl_param) (mem : Z -> Z) (q : ram_q) (e : src_ev) : bool :=
  forallb (fun s => negb (bit (si_rvalid (se_in e)) s) || match q s with [] => false | A :: _ => forallb (fun l => psel (si_rdata (se_in e)) ((s * cl_be p + l) * cl_ws p) (cl_ws p) =? mem (seg_word p s A l)) (words_of p) end) (segs_of p).
Lemma range_in n k : 0 <= k < n -> In k (map Z.of_nat (seq 0 (Z.to_nat n))).
Proof. intros H. apply in_map_iff. exists (Z.to_nat k). split; [lia|]. apply in_seq. lia. Qed.
Lemma answersb_ok p mem q e : answersb p mem q e = true -> ram_answers p mem q e.
Proof.
  intros H s S V. unfold answersb in H. rewrite forallb_forall in H. specialize (H s (range_in _ _ S)). rewrite V in H. cbn [negb orb] in H. destruct (q s) as [|A r]; [discriminate|]. exists A, r. split; [reflexivity|].
  intros l L. rewrite forallb_forall in H. apply Z.eqb_eq. apply (H l (range_in _ _ L)).
Qed.
Definition descb (p : cl_param) (d : cl_desc) : bool := (0 <=? de_addr d) && (de_addr d <? 2 ^ cl_aw p) && (1 <=? de_len d) && (de_len d <? 2 ^ cl_lw p).
Fixpoint assumeb (p : cl_param) (mem : Z -> Z) (q : ram_q) (tr : list src_ev) : bool :=
  match tr with
  | [] => true
  | e :: r => answersb p mem q e && (negb (se_ready e && si_valid (se_in e)) || descb p (si_desc (se_in e))) && assumeb p mem (ram_next q e) r
  end.
Lemma assumeb_ok p mem tr : forall q, assumeb p mem q tr = true -> src_assume p mem q tr.
Proof.
  induction tr as [|e tr IH]; intros q H; [exact I|]. cbn [assumeb] in H. apply andb_true_iff in H. destruct H as [H H2]. apply andb_true_iff in H. destruct H as [H0 H1]. split; [now apply answersb_ok|]. split; [|now apply IH].
  intros T. rewrite T in H1. cbn [negb orb] in H1. unfold descb in H1. unfold desc_ok. lia.
Qed.
Fixpoint answers_all (p : cl_param) (mem : Z -> Z) (q : ram_q) (tr : list src_ev) : bool :=
  match tr with [] => true | e :: r => answersb p mem q e && answers_all p mem (ram_next q e) r end.
Fixpoint ram_all (p : cl_param) (mem : Z -> Z) (q : ram_q) (tr : list src_ev) : Prop :=
  match tr with [] => True | e :: r => ram_answers p mem q e /\ ram_all p mem (ram_next q e) r end.
Lemma answers_all_ok p mem tr : forall q, answers_all p mem q tr = true -> ram_all p mem q tr.
Proof. induction tr as [|e tr IH]; intros q H; [exact I|]. cbn [answers_all] in H. apply andb_true_iff in H. destruct H as [H H2]. split; [now apply answersb_ok | now apply IH]. Qed.

Lemma follows_at p mem a e b : forall q m, src_follows p mem q m (a ++ e :: b) -> src_assume p mem q (a ++ e :: b) ->
  let '(q', m') := fold_left (fun '(q, m) e => (ram_next q e, src_next p m e)) a (q, m) in src_shows p mem q' m' e.
Proof.
  induction a as [|x a IH]; intros q m F A.
  - cbn [app src_follows src_assume fold_left] in *. destruct A as [A1 [A2 _]]. apply F; assumption.
  - cbn [app src_follows src_assume fold_left] in *. destruct A as [A1 [A2 A3]]. apply IH; [apply F; assumption | exact A3].
Qed.

Definition meta0 : cl_meta := mkMe 7 1 2 3.
(** Four words of eight bits, in two segments of two, beats of one word. *)
Definition src_p1 : cl_param := mkCl 8 2 2 8 1 true 8 true true true true.
Definition src_l1 : list src_in := src_drive src_p1 (fun a => a) (fun _ => []) src0 ([(None, true); (Some (mkDe 0 2 meta0), true)] ++ repeat (None, true) 7).
Lemma one_word_assume : src_assume src_p1 (fun a => a) (fun _ => []) (src_trace src_p1 src0 src_l1).
Proof. apply assumeb_ok. vm_compute. reflexivity. Qed.
Lemma one_word_wrong : ~ src_follows src_p1 (fun a => a) (fun _ => []) sm0 (src_trace src_p1 src0 src_l1).
Proof.
  intros F. pose proof one_word_assume as A. set (tr := src_trace src_p1 src0 src_l1) in *.
  assert (E : exists e, nth_error tr 7 = Some e /\ se_tvalid e = true /\ bt_data (se_beat e) = 0) by (eexists; split; [vm_compute; reflexivity | split; vm_compute; reflexivity]). destruct E as [e [E [V DT]]].
  apply nth_error_split in E. destruct E as [a [b [E L]]]. assert (M : snd (src_after src_p1 a) = mkSm [mkDe 0 2 meta0] 1 []).
  { replace a with (firstn 7 tr); [vm_compute; reflexivity|]. rewrite E, <- L. rewrite firstn_app, Nat.sub_diag, firstn_all. cbn [firstn]. apply app_nil_r. }
  rewrite E in F, A. pose proof (follows_at _ _ _ _ _ _ _ F A) as S. change (fold_left (fun '(q, m) e => (ram_next q e, src_next src_p1 m e)) a (fun _ => [], sm0)) with (src_after src_p1 a) in S. destruct (src_after src_p1 a) as [q m]. cbn [snd] in M. subst m.
  destruct S as [S _]. destruct (S V) as [d [r [Q [B _]]]]. cbn [sm_q] in Q. injection Q as <- <-. specialize (B 0 ltac:(vm_compute; split; congruence) ltac:(vm_compute; reflexivity)). rewrite DT in B. vm_compute in B. discriminate.
Qed.
(** Beats of two words, a block of no words. *)
Definition src_p2 : cl_param := mkCl 8 2 2 8 2 true 4 true true true true.
Definition src_zero : list (option cl_desc * bool) := [(None, true); (Some (mkDe 0 0 meta0), true)] ++ repeat (None, true) 25.
Definition src_l2 : list src_in := src_drive src_p2 (fun a => a) (fun _ => []) src0 src_zero.
(** A run for the examples: blocks of 3 and 2 words, at 2 and at 9. *)
Definition src_demo1 : list (option cl_desc * bool) := [(None, true); (Some (mkDe 2 3 meta0), true)] ++ repeat (None, true) 3 ++ [(Some (mkDe 9 2 (mkMe 8 4 5 6)), false); (None, false); (None, true)].
Definition src_demo2 : list (option cl_desc * bool) := repeat (None, true) 30.
Definition src_run1 : list src_in := src_drive src_p2 (fun a => a + 100) (fun _ => []) src0 src_demo1.
Definition src_run2 : list src_in := skipn (length src_demo1) (src_drive src_p2 (fun a => a + 100) (fun _ => []) src0 (src_demo1 ++ src_demo2)).
