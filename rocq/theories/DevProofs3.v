(** Lemmas for requester forwarding, function numbering, status outputs, TLP check. *)
From Verif Require Import PyBase BitLemmas TlpModel TlpProofs BarModel BarSpec BarProofs RouteModel UsModel UsProofs DevModel DevSpec DevProofs.
From Coq Require Import ZifyBool ZifyNat.
Ltac Zify.zify_post_hook ::= Z.div_mod_to_equations.

Lemma contiguous_master fs n f : contiguous fs -> 0 <= n -> nth_error fs (Z.to_nat n) = Some f -> master_on fs n = fn_bme f.
Proof.
  intros HC Hn HN. unfold master_on. destruct (fn_bme f) eqn:E.
  - apply existsb_exists. exists f. split; [now apply nth_error_In in HN|]. rewrite (HC _ _ HN), E, andb_true_r. lia.
  - destruct (existsb _ fs) eqn:E2; [|reflexivity]. exfalso. apply existsb_exists in E2. destruct E2 as (g & Hg & HG). apply andb_prop in HG. destruct HG as (G1 & G2).
    apply In_nth_error in Hg. destruct Hg as (k & Hg). pose proof (HC _ _ Hg) as Hk. assert (k = Z.to_nat n) by lia. subst k. congruence.
Qed.

Lemma rq_forward_ok d u : contiguous (dv_fns d) -> rq_fit d u -> rq_forward d u = Ok (if rq_sent d u then Some (rq_tlp d u, u_seq_num u) else None).
Proof.
  intros HC HF. unfold rq_forward, rq_sent. destruct (u_discontinue u) eqn:ED; [reflexivity|]. destruct (HF ED) as (HR & HK). cbn [negb andb].
  set (t := if u_requester_id_enable u then u_tlp u else _).
  assert (HT : id_function (t_requester_id t) = id_function (t_requester_id (u_tlp u))) by (unfold t; destruct (u_requester_id_enable u); reflexivity).
  rewrite HT. unfold py_index. destruct (Z.ltb_spec (id_function (t_requester_id (u_tlp u))) 0); [lia|].
  destruct (nth_error (dv_fns d) (Z.to_nat (id_function (t_requester_id (u_tlp u))))) as [f|] eqn:EN.
  - cbn [bind]. rewrite (contiguous_master _ _ f HC (proj1 HR) EN). destruct (fn_bme f); [|reflexivity].
    change (tlp_copy t) with (rq_tlp d u). rewrite HK. reflexivity.
  - apply nth_error_None in EN. unfold zlen in HR. lia.
Qed.

Lemma rq_loop_ok d : contiguous (dv_fns d) -> forall l sq, Forall (rq_fit d) l ->
  rq_loop d l sq = Ok (map (rq_tlp d) (filter (rq_sent d) l), sq ++ map u_seq_num (filter (rq_sent d) l)).
Proof.
  intros HC. induction l as [|u l IH]; intros sq HF; cbn [rq_loop]; [cbn; now rewrite app_nil_r|]. inversion HF as [|? ? Hu HF']; subst.
  rewrite (rq_forward_ok d u HC Hu). cbn [bind filter]. destruct (rq_sent d u); rewrite (IH _ HF'); [|reflexivity]. cbn [bind map]. rewrite <- app_assoc. reflexivity.
Qed.

Lemma rq_run_ok d : contiguous (dv_fns d) -> forall ls sq, Forall (rq_fit d) (concat ls) -> exists shown left,
  rq_run d sq ls = Ok (map (rq_tlp d) (filter (rq_sent d) (concat ls)), shown, left) /\
  shown ++ left = sq ++ map u_seq_num (filter (rq_sent d) (concat ls)) /\ (length shown <= length ls)%nat.
Proof.
  intros HC. induction ls as [|l ls IH]; intros sq HF; cbn [rq_run].
  - exists [], sq. cbn. rewrite app_nil_r. repeat split. lia.
  - cbn [concat] in *. apply Forall_app in HF. destruct HF as (HF1 & HF2). unfold rq_step. rewrite (rq_loop_ok d HC l sq HF1). cbn [bind].
    destruct (sq ++ map u_seq_num (filter (rq_sent d) l)) as [|n r] eqn:E; cbn [bind].
    + destruct (IH [] HF2) as (shown & left & -> & H1 & H2). cbn [bind]. exists shown, left. split; [|split; [|cbn [length]; lia]].
      * cbn [app]. rewrite filter_app, map_app. reflexivity.
      * rewrite filter_app, map_app, app_assoc, E. assumption.
    + destruct (IH r HF2) as (shown & left & -> & H1 & H2). cbn [bind]. exists (n :: shown), left. split; [|split; [|cbn [length]; lia]].
      * cbn [app]. rewrite filter_app, map_app. reflexivity.
      * rewrite filter_app, map_app, app_assoc, E. cbn [app]. now rewrite H1.
Qed.

Lemma rq_idle d : forall n sq, rq_run d sq (repeat [] n) = Ok ([], firstn n sq, skipn n sq).
Proof.
  induction n as [|n IH]; intros sq; [reflexivity|]. cbn [repeat rq_run]. unfold rq_step. cbn [rq_loop bind]. destruct sq as [|x sq]; cbn [bind]; rewrite IH; cbn [bind app].
  - rewrite firstn_nil, skipn_nil. reflexivity.
  - reflexivity.
Qed.

(** Function numbering. *)
Lemma increasing_inv x l : increasing (x :: l) -> increasing l /\ Forall (fun y => x < y) l.
Proof.
  revert x. induction l as [|y l IH]; intros x H; [split; [exact I|constructor]|]. cbn [increasing] in H. destruct H as (H1 & H2).
  split; [exact H2|]. constructor; [assumption|]. destruct (IH y H2) as (_ & H3). eapply Forall_impl; [|exact H3]. cbn. intros; lia.
Qed.
Lemma increasing_cons x l : increasing l -> Forall (fun y => x < y) l -> increasing (x :: l).
Proof. intros H1 H2. destruct l as [|y l]; [exact I|]. inversion H2; subst. split; assumption. Qed.

Lemma insert_in f g l : In g (insert_fn f l) <-> g = f \/ In g l.
Proof.
  induction l as [|h l IH]; cbn [insert_fn In]; [split; intros [H|H]; auto|]. destruct (fn_num f <? fn_num h); cbn [In]; [split; intros [H|H]; auto|].
  rewrite IH. split; intros H; intuition auto.
Qed.
Lemma insert_len f l : length (insert_fn f l) = S (length l).
Proof. induction l as [|h l IH]; [reflexivity|]. cbn [insert_fn]. destruct (fn_num f <? fn_num h); cbn [length]; [reflexivity|]. now rewrite IH. Qed.

Lemma insert_increasing f l : increasing (map fn_num l) -> ~ In (fn_num f) (map fn_num l) -> increasing (map fn_num (insert_fn f l)).
Proof.
  induction l as [|h l IH]; intros H HN; [exact I|]. cbn [insert_fn map] in *. apply increasing_inv in H. destruct H as (H1 & H2). cbn [In] in HN.
  destruct (Z.ltb_spec (fn_num f) (fn_num h)).
  - apply increasing_cons; [cbn [map]; apply increasing_cons; assumption|]. constructor; [assumption|]. eapply Forall_impl; [|exact H2]. cbn. intros; lia.
  - cbn [map]. apply increasing_cons; [apply IH; tauto|]. apply Forall_forall. intros y Hy. apply in_map_iff in Hy. destruct Hy as (g & <- & Hg).
    apply insert_in in Hg. destruct Hg as [->|Hg].
    + assert (fn_num h <> fn_num f) by tauto. lia.
    + rewrite Forall_forall in H2. apply H2. apply in_map. assumption.
Qed.

Lemma insert_last f l : Forall (fun y => y < fn_num f) (map fn_num l) -> insert_fn f l = l ++ [f].
Proof.
  induction l as [|h l IH]; intros H; [reflexivity|]. cbn [map] in H. inversion H; subst. cbn [insert_fn app]. destruct (Z.ltb_spec (fn_num f) (fn_num h)); [lia|].
  now rewrite IH.
Qed.

Lemma sort_sorted_aux : forall l acc, increasing (map fn_num (acc ++ l)) -> fold_left (fun acc f => insert_fn f acc) l acc = acc ++ l.
Proof.
  induction l as [|f l IH]; intros acc H; cbn [fold_left]; [now rewrite app_nil_r|].
  rewrite insert_last.
  - rewrite IH; rewrite <- app_assoc; [reflexivity|exact H].
  - clear IH. induction acc as [|g acc IH]; [constructor|]. cbn [app map] in *. apply increasing_inv in H. destruct H as (H1 & H2). constructor; [|apply IH; assumption].
    rewrite Forall_forall in H2. apply H2. rewrite map_app. apply in_or_app. right. left. reflexivity.
Qed.
Lemma sort_sorted l : increasing (map fn_num l) -> sort_fns l = l.
Proof. intros H. unfold sort_fns. rewrite sort_sorted_aux; [reflexivity|exact H]. Qed.
Lemma sort_snoc l f : increasing (map fn_num l) -> sort_fns (l ++ [f]) = insert_fn f l.
Proof. intros H. unfold sort_fns. rewrite fold_left_app. cbn [fold_left]. f_equal. apply (sort_sorted l H). Qed.

Lemma first_gap_ok : forall l x, increasing (map fn_num l) -> Forall (fun y => x <= y) (map fn_num l) ->
  match first_gap x l with
  | Some g => x <= g < x + zlen l /\ ~ In g (map fn_num l) /\ (forall m, x <= m < g -> In m (map fn_num l))
  | None => forall m, x <= m < x + zlen l <-> In m (map fn_num l)
  end.
Proof.
  induction l as [|f l IH]; intros x HI HF; cbn [first_gap map].
  - intros m. cbn. split; [intros; unfold zlen in *; cbn in *; lia|intros []].
  - cbn [map] in HI, HF. apply increasing_inv in HI. destruct HI as (H1 & H2). inversion HF as [|? ? H3 H4]; subst. destruct (Z.eqb_spec (fn_num f) x) as [E|E].
    + assert (HF' : Forall (fun y => x + 1 <= y) (map fn_num l)) by (eapply Forall_impl; [|exact H2]; cbn; intros; lia).
      specialize (IH (x + 1) H1 HF'). assert (HZ : zlen (f :: l) = zlen l + 1) by (unfold zlen; cbn [length]; lia). destruct (first_gap (x + 1) l) as [g|].
      * destruct IH as (I1 & I2 & I3). split; [lia|]. split.
        -- cbn [In]. intros [H|H]; [lia|contradiction].
        -- intros m Hm. cbn [In]. destruct (Z.eq_dec m x); [left; lia|right; apply I3; lia].
      * intros m. cbn [In]. specialize (IH m). destruct (Z.eq_dec m x); [split; [left; lia|intros; unfold zlen in *; lia]|]. split.
        -- intros Hm. right. apply IH. lia.
        -- intros [H|H]; [lia|]. apply IH in H. lia.
    + split; [unfold zlen; cbn [length]; lia|]. split; [|intros; lia]. cbn [In]. intros [H|H]; [lia|]. rewrite Forall_forall in H2. specialize (H2 _ H). lia.
Qed.

Lemma next_free_ok l : increasing (map fn_num l) -> Forall (fun y => 0 <= y < 8) (map fn_num l) ->
  match next_free l with
  | Some n => smallest_free n (map fn_num l) /\ n < 8
  | None => forall m, 0 <= m < 8 -> In m (map fn_num l)
  end.
Proof.
  intros HI HF. assert (HF0 : Forall (fun y => 0 <= y) (map fn_num l)) by (eapply Forall_impl; [|exact HF]; cbn; intros; lia).
  pose proof (first_gap_ok l 0 HI HF0) as HG. unfold next_free. destruct l as [|f l]; [split; [split; [lia|split; [intros []|intros; lia]]|lia]|].
  assert (HL : forall m, 0 <= m < zlen (f :: l) -> In m (map fn_num (f :: l)) \/ zlen (f :: l) <= 8 \/ True) by auto.
  destruct (first_gap 0 (f :: l)) as [g|].
  - destruct HG as (H1 & H2 & H3). split; [split; [lia|split; [assumption|intros; apply H3; lia]]|].
    (* all numbers below g are used and the used ones are < 8, one of them is >= g *)
    destruct (Z.lt_ge_cases g 8) as [Hg|Hg]; [assumption|exfalso].
    (* the list contains 0..g-1 and has more than g elements below 8 *)
    assert (HX : In 8 (map fn_num (f :: l)) \/ g = 8) by (destruct (Z.eq_dec g 8); [right; assumption|left; apply H3; lia]).
    destruct HX as [HX|HX]; [rewrite Forall_forall in HF; specialize (HF _ HX); lia|].
    (* g = 8: 0..7 used, length > 8, increasing: pigeonhole *)
    assert (HLen : (length (map fn_num (f :: l)) <= 8)%nat).
    { apply (NoDup_incl_length (l := map fn_num (f :: l)) (l' := map Z.of_nat (seq 0 8))).
      - clear -HI. induction (map fn_num (f :: l)) as [|x r IH]; [constructor|]. apply increasing_inv in HI. destruct HI as (H1 & H2). constructor; [|apply IH; assumption].
        intros H. rewrite Forall_forall in H2. specialize (H2 _ H). lia.
      - intros y Hy. rewrite Forall_forall in HF. specialize (HF _ Hy). apply in_map_iff. exists (Z.to_nat y). split; [lia|]. apply in_seq. lia. }
    rewrite map_length in HLen. unfold zlen in H1. lia.
  - destruct (Z.ltb_spec (zlen (f :: l)) 8).
    + split; [split; [unfold zlen; lia|split]|lia].
      * intros H0. apply HG in H0. lia.
      * intros m Hm. apply HG. lia.
    + intros m Hm. apply HG. lia.
Qed.

Definition fns_ok (l : list fn) : Prop :=
  increasing (map fn_num l) /\ Forall (fun y => 0 <= y < 8) (map fn_num l) /\ (1 < zlen l -> Forall (fun f => Z.testbit (fn_hdr f) 7 = true) l).

Lemma multi_bit f : Z.testbit (fn_hdr (set_multi f)) 7 = true.
Proof. unfold set_multi. cbn [fn_hdr]. rewrite Z.lor_spec. change (Z.testbit 0x80 7) with true. apply orb_true_r. Qed.

Lemma map_multi l : map fn_num (map set_multi l) = map fn_num l.
Proof. rewrite map_map. reflexivity. Qed.

Lemma add_ok l f : fns_ok l -> 0 <= fn_num f < 8 -> ~ In (fn_num f) (map fn_num l) ->
  exists l', add_function l f = Ok l' /\ fns_ok l' /\ (forall n, In n (map fn_num l') <-> n = fn_num f \/ In n (map fn_num l)) /\ length l' = S (length l).
Proof.
  intros (H1 & H2 & H3) Hf HN. unfold add_function.
  destruct (existsb (fun g => fn_num g =? fn_num f) l) eqn:E.
  { exfalso. apply existsb_exists in E. destruct E as (g & Hg & HE). apply HN. replace (fn_num f) with (fn_num g) by lia. apply in_map. assumption. }
  rewrite (sort_snoc l f H1). set (l1 := insert_fn f l).
  assert (HL : length l1 = S (length l)) by apply insert_len.
  assert (HI : increasing (map fn_num l1)) by (apply insert_increasing; assumption).
  assert (HM : forall n, In n (map fn_num l1) <-> n = fn_num f \/ In n (map fn_num l)).
  { intros n. rewrite !in_map_iff. split.
    - intros (g & <- & Hg). apply insert_in in Hg. destruct Hg as [->|Hg]; [left; reflexivity|right; exists g; split; [reflexivity|assumption]].
    - intros [->|(g & <- & Hg)]; eexists; (split; [reflexivity|]); apply insert_in; auto. }
  assert (HF : Forall (fun y => 0 <= y < 8) (map fn_num l1)).
  { apply Forall_forall. intros y Hy. apply HM in Hy. destruct Hy as [->|Hy]; [assumption|]. rewrite Forall_forall in H2. auto. }
  eexists. split; [reflexivity|]. destruct (Z.gtb_spec (zlen l1) 1).
  - split; [split; [|split]|split].
    + rewrite map_multi. assumption.
    + rewrite map_multi. assumption.
    + intros _. apply Forall_forall. intros g Hg. apply in_map_iff in Hg. destruct Hg as (g' & <- & _). apply multi_bit.
    + rewrite map_multi. assumption.
    + now rewrite map_length.
  - split; [split; [assumption|split; [assumption|intros; lia]]|]. split; assumption.
Qed.

Lemma add_dup l f : In (fn_num f) (map fn_num l) -> add_function l f = Err (PyException 2959).
Proof.
  intros H. unfold add_function. replace (existsb _ l) with true; [reflexivity|]. symmetry. apply existsb_exists. apply in_map_iff in H. destruct H as (g & E & Hg).
  exists g. split; [assumption|lia].
Qed.

Lemma append_ok l f : fns_ok l -> match append_function l f with
  | Ok l' => exists n, smallest_free n (map fn_num l) /\ n < 8 /\ fns_ok l' /\ (forall m, In m (map fn_num l') <-> m = n \/ In m (map fn_num l)) /\ length l' = S (length l)
  | Err _ => forall m, 0 <= m < 8 -> In m (map fn_num l)
  end.
Proof.
  intros H. pose proof H as (H1 & H2 & H3). unfold append_function. rewrite (sort_sorted l H1). pose proof (next_free_ok l H1 H2) as HN. destruct (next_free l) as [n|]; [|exact HN].
  destruct HN as (HN & Hn). pose proof HN as (N1 & N2 & N3). destruct (add_ok l (set_fn_num n f) H) as (l' & -> & A1 & A2 & A3); [cbn; lia|exact N2|].
  exists n. repeat split; try assumption; try apply A1; try (apply A2).
Qed.

Lemma fn_ops_ok : forall os l l', fns_ok l -> Forall op_valid os -> fn_ops l os = Ok l' -> fns_ok l' /\ length l' = (length l + length os)%nat.
Proof.
  induction os as [|o os IH]; intros l l' HL HV H; cbn [fn_ops] in H; [injection H as <-; split; [assumption|cbn; lia]|].
  inversion HV as [|? ? Ho HV']; subst. destruct o as [f|f]; cbn [fn_op_step op_valid] in *.
  - destruct (in_dec Z.eq_dec (fn_num f) (map fn_num l)) as [HI|HI]; [rewrite (add_dup l f HI) in H; discriminate|].
    destruct (add_ok l f HL Ho HI) as (l1 & E & A1 & A2 & A3). rewrite E in H. cbn [bind] in H. destruct (IH _ _ A1 HV' H) as (B1 & B2). split; [assumption|]. cbn [length]. lia.
  - pose proof (append_ok l f HL) as HA. destruct (append_function l f) as [l1|e]; [|discriminate]. destruct HA as (n & _ & _ & A1 & _ & A3). cbn [bind] in H.
    destruct (IH _ _ A1 HV' H) as (B1 & B2). split; [assumption|]. cbn [length]. lia.
Qed.

Lemma fn_nodup l : increasing (map fn_num l) -> NoDup (map fn_num l).
Proof.
  induction (map fn_num l) as [|x r IH]; intros HI; [constructor|]. apply increasing_inv in HI. destruct HI as (H1 & H2). constructor; [|apply IH; assumption].
  intros H. rewrite Forall_forall in H2. specialize (H2 _ H). lia.
Qed.

(** Status outputs. *)
Definition b2z (b : bool) : Z := if b then 1 else 0.
Lemma status_ok fns : fns <> [] ->
  cfg_function_status fns = Ok (per_fn 4 (fun f => (if fn_bme f then 7 else 0) + (if fn_int_dis f then 8 else 0)) fns) /\
  cfg_msi_enable fns = Ok (per_fn 1 (fun f => if fn_msi_en f then 1 else 0) fns) /\
  cfg_mmenable fns = Ok (per_fn 3 (fun f => fn_mme f mod 8) fns) /\
  cfg_msix_enable fns = Ok (per_fn 1 (fun f => if fn_msix_en f then 1 else 0) fns) /\
  cfg_msix_mask fns = Ok (per_fn 1 (fun f => if fn_msix_mask f then 1 else 0) fns).
Proof.
  intros HN. destruct fns as [|f0 [|f1 r]]; [congruence| |].
  - unfold cfg_function_status, cfg_msi_enable, cfg_mmenable, cfg_msix_enable, cfg_msix_mask. change (py_index [f0] 0) with (@Ok fn f0). cbn [bind per_fn].
    repeat split; try (destruct (fn_bme f0), (fn_int_dis f0); reflexivity). f_equal. change 7 with (Z.ones 3). rewrite Z.land_ones by lia. reflexivity.
  - unfold cfg_function_status, cfg_msi_enable, cfg_mmenable, cfg_msix_enable, cfg_msix_mask. change (py_index (f0 :: f1 :: r) 0) with (@Ok fn f0). cbn [bind per_fn].
    repeat split.
    + destruct (fn_bme f0), (fn_int_dis f0), (fn_bme f1), (fn_int_dis f1); reflexivity.
    + destruct (fn_msi_en f0), (fn_msi_en f1); reflexivity.
    + f_equal. change 7 with (Z.ones 3). rewrite !Z.land_ones by lia. rewrite lor_add_disjoint by (try apply Z.mod_pos_bound; lia). change (2^3) with 8. lia.
    + destruct (fn_msix_en f0), (fn_msix_en f1); reflexivity.
    + destruct (fn_msix_mask f0), (fn_msix_mask f1); reflexivity.
Qed.

(** TLP check. *)
Lemma ft_in_iff a l : ft_in a l = true <-> In a l.
Proof.
  unfold ft_in. rewrite existsb_exists. split.
  - intros (x & Hx & HE). unfold ft_eqb in HE. destruct a as [a1 a2], x as [x1 x2]. cbn in HE. replace (a1, a2) with (x1, x2); [assumption|]. f_equal; lia.
  - intros H. exists a. split; [assumption|]. unfold ft_eqb. lia.
Qed.

Lemma tlp_check_ok t : tlp_check t = true <-> sound_tlp t.
Proof.
  unfold tlp_check, sound_tlp, has_payload, memory_request, io_request, completion_with_data.
  assert (E0 : ((t_fmt t =? FMT_3DW_DATA) || (t_fmt t =? FMT_4DW_DATA)) = true <-> (t_fmt t = 2 \/ t_fmt t = 3)) by (unfold FMT_3DW_DATA, FMT_4DW_DATA; lia).
  assert (E1 : ft_in (t_fmt_type t) [TLP_MEM_READ; TLP_MEM_READ_64; TLP_MEM_READ_LOCKED; TLP_MEM_READ_LOCKED_64; TLP_MEM_WRITE; TLP_MEM_WRITE_64] = true <->
     ((0 <= t_fmt t <= 3 /\ t_type t = 0) \/ (0 <= t_fmt t <= 1 /\ t_type t = 1))).
  { unfold ft_in, ft_eqb, t_fmt_type, TLP_MEM_READ, TLP_MEM_READ_64, TLP_MEM_READ_LOCKED, TLP_MEM_READ_LOCKED_64, TLP_MEM_WRITE, TLP_MEM_WRITE_64. cbn [existsb fst snd]. lia. }
  assert (E2 : ft_in (t_fmt_type t) [TLP_IO_READ; TLP_IO_WRITE] = true <-> ((t_fmt t = 0 \/ t_fmt t = 2) /\ t_type t = 2)).
  { unfold ft_in, ft_eqb, t_fmt_type, TLP_IO_READ, TLP_IO_WRITE. cbn [existsb fst snd]. lia. }
  assert (E3 : ft_in (t_fmt_type t) [TLP_CPL_DATA] = true <-> (t_fmt t = 2 /\ t_type t = 10)).
  { unfold ft_in, ft_eqb, t_fmt_type, TLP_CPL_DATA. cbn [existsb fst snd]. lia. }
  assert (E4 : Z.land (t_address t) 0xfff = t_address t mod 4096) by (apply (Z.land_ones _ 12); lia).
  assert (E5 : Z.land (t_lower_address t) 3 = t_lower_address t mod 4) by (apply (Z.land_ones _ 2); lia).
  rewrite E4, E5. clear E4 E5.
  set (c0 := (t_fmt t =? FMT_3DW_DATA) || (t_fmt t =? FMT_4DW_DATA)) in *. set (c1 := ft_in _ [TLP_MEM_READ; _; _; _; _; _]) in *.
  set (c2 := ft_in _ [TLP_IO_READ; _]) in *. set (c3 := ft_in _ [TLP_CPL_DATA]) in *. clearbody c0 c1 c2 c3.
  rewrite <- E0, <- E1, <- E2, <- E3. clear E0 E1 E2 E3.
  generalize (t_address t mod 4096) (t_lower_address t mod 4) (t_length t) (zlen (t_data t)) (t_last_be t) (t_byte_count t). intros a b l z e n.
  destruct c0, c1, c2, c3; rewrite ?andb_true_iff; lia.
Qed.
