(** Proofs for C101, C102. *)
From Verif Require Import PyBase RtlModel RtlRamModel RtlCfgModel RtlCfgSpec.

(** * Invariant *)
Record uinv (p : uc_param) (m : uc_mon) (s : uc_state) : Prop := mkUinv {
  ui_w : us_write s = false;
  ui_k : us_cnt s = um_k m; ui_kr : 0 <= um_k m < uc_f p;
  ui_f : us_fn s = fnum p (um_k m);
  ui_o : forall f, us_ext s f = psel (um_tab m f) 8 1 /\ us_mrrs s f = psel (um_tab m f) 12 3 /\ us_mps s f = psel (um_tab m f) 5 3;
  ui_p : (us_read s = false /\ 0 <= um_n m <= 255 /\ us_delay s = 255 - um_n m /\ um_v m = None /\ (um_n m >= 1 -> us_done s = false)) \/
         (us_read s = true /\ um_n m = 256 /\ us_delay s = 0 /\ us_addr s = uc_addr p /\ um_v m = if us_done s then Some (us_data s) else None) }.

Lemma uinv0 p : uc_ok p -> uinv p um0 uc0.
Proof.
  intros O. unfold uc_ok in O. constructor; cbn; unfold uc_f, fnum; try lia; auto.
  - destruct (Z.ltb_spec 0 (uc_pf p)); lia.
  - left. repeat split; auto; lia.
Qed.
Lemma uinv_rst p s : uc_ok p -> uinv p um0 (mkUs (fun _ => 0) (fun _ => 0) (fun _ => 0) 0 0 false false s false 255 0).
Proof. intros O. destruct (uinv0 p O). constructor; auto. Qed.

Lemma next_func p s k : uc_ok p -> us_cnt s = k -> 0 <= k < uc_f p -> us_fn s = fnum p k ->
  fst (uc_next_func p s) = (k + 1) mod uc_f p /\ snd (uc_next_func p s) = fnum p ((k + 1) mod uc_f p).
Proof.
  intros O K R F. unfold uc_ok in O. unfold uc_next_func, uc_f in *. rewrite K, F. unfold fnum.
  destruct (Z.eqb_spec k (uc_pf p + uc_vf p - 1)) as [E|E].
  - rewrite E. replace (uc_pf p + uc_vf p - 1 + 1) with (uc_pf p + uc_vf p) by lia. rewrite Z.mod_same by lia. cbn [fst snd]. split; [reflexivity|]. destruct (Z.ltb_spec 0 (uc_pf p)); lia.
  - rewrite (Z.mod_small (k + 1) (uc_pf p + uc_vf p)) by lia. rewrite (Z.mod_small (k + 1) 256) by lia.
    destruct (Z.eqb_spec k (uc_pf p - 1)) as [E2|E2]; cbn [fst snd]; (split; [reflexivity|]).
    + rewrite Z.mod_small by lia. destruct (Z.ltb_spec (k + 1) (uc_pf p)); lia.
    + destruct (Z.ltb_spec k (uc_pf p)), (Z.ltb_spec (k + 1) (uc_pf p)); rewrite Z.mod_small; lia.
Qed.

Lemma uinv_step p m s i : uc_ok p -> uinv p m s -> asked (uc_event s i) -> uinv p (um_next p m (uc_event s i)) (uc_step p s i).
Proof.
  intros O [W K KR F OU P] A. unfold um_next, uc_step. cbn [uv_in uc_event uv_read].
  destruct (ui_rst i); [now apply uinv_rst|].
  unfold uc_next. unfold asked in A. cbn [uc_event uv_in uv_read] in A.
  destruct P as [[R [N [D [V DN]]]]|[R [N [D [AD V]]]]].
  - rewrite R in *. rewrite W. assert (DF : ui_done i = false) by (destruct (ui_done i); [discriminate (A eq_refl) | reflexivity]).
    destruct (us_delay s >? 0) eqn:G; [|destruct (us_done s) eqn:DS].
    + constructor; cbn [us_write us_cnt us_fn us_ext us_mrrs us_mps us_read us_delay us_done us_addr us_data um_k um_v um_n um_tab andb negb]; auto. left. repeat split; auto; try lia.
    + exfalso. assert (um_n m >= 1) by lia. discriminate (DN H).
    + constructor; cbn [us_write us_cnt us_fn us_ext us_mrrs us_mps us_read us_delay us_done us_addr us_data um_k um_v um_n um_tab andb negb]; auto. right. repeat split; auto; try lia. now rewrite DF.
  - rewrite R in *. rewrite W. replace (us_delay s >? 0) with false by lia.
    destruct (us_done s) eqn:DS; rewrite V.
    + destruct (next_func p s (um_k m) O K KR F) as [X Y].
      constructor; cbn [us_write us_cnt us_fn us_ext us_mrrs us_mps us_read us_delay us_done us_addr us_data um_k um_v um_n um_tab andb negb].
      * reflexivity.
      * exact X.
      * apply Z.mod_pos_bound. unfold uc_f in *. lia.
      * exact Y.
      * intros f. unfold upd. rewrite K. destruct (OU f) as [A1 [A2 A3]]. destruct (f =? um_k m); auto.
      * left. repeat split; auto; lia.
    + constructor; cbn [us_write us_cnt us_fn us_ext us_mrrs us_mps us_read us_delay us_done us_addr us_data um_k um_v um_n um_tab andb negb]; auto.
      right. repeat split; auto.
Qed.

Lemma addr_val p : uc_ok p -> uc_addr p = (uc_cap p + 8) / 4.
Proof.
  intros O. unfold uc_ok in O. unfold uc_addr. rewrite Z.shiftr_div_pow2 by lia. change (2 ^ 2) with 4. apply Z.mod_small.
  split; [apply Z.div_pos; lia | apply Z.div_lt_upper_bound; lia].
Qed.

Lemma uinv_shows p m s i : uc_ok p -> uinv p m s -> uc_shows p m (uc_event s i).
Proof.
  intros O [W K KR F OU P]. unfold uc_shows. cbn [uc_event uv_write uv_read uv_addr uv_fn uv_ext uv_mrrs uv_mps]. split; [exact W|]. split; [|split].
  - destruct P as [[R [N _]]|[R [N _]]]; rewrite R; split; intros; try lia; discriminate.
  - intros R'. destruct P as [[R _]|[R [N [D [AD _]]]]]; [congruence|]. rewrite AD, addr_val by exact O. auto.
  - intros f _. apply OU.
Qed.

Lemma uc_follows_gen p l : uc_ok p -> forall m s, uinv p m s -> uc_follows p m (uc_trace p s l).
Proof.
  intros O. induction l as [|i r IH]; intros m s I; cbn; [exact Logic.I|]. intros A. split; [now apply uinv_shows|]. apply IH. now apply uinv_step.
Qed.
Lemma uc_follows_ok p l : uc_ok p -> uc_follows p um0 (uc_trace p uc0 l).
Proof. intros O. apply uc_follows_gen; [exact O | now apply uinv0]. Qed.

(** * Progress *)
Definition upos (m : uc_mon) : Z := 258 * um_reads m + match um_v m with Some _ => 257 | None => um_n m end.

Lemma uc_count_gen p l : uc_ok p -> forall m s, uinv p m s -> Forall asked (uc_trace p s l) -> Forall (fun e => ui_rst (uv_in e) = false) (uc_trace p s l) ->
  let m' := fold_left (um_next p) (uc_trace p s l) m in
  upos m' = upos m + uc_goods p m (uc_trace p s l) /\ (um_v m' = None -> 0 <= um_n m' <= 256) /\ (um_k m = um_reads m mod uc_f p -> um_k m' = um_reads m' mod uc_f p).
Proof.
  intros O. induction l as [|i r IH]; intros m s I A Q; cbn [uc_trace fold_left uc_goods] in *.
  - split; [lia|]. split; [|auto]. intros V. destruct I as [_ _ _ _ _ P]. destruct P as [[_ [N _]]|[_ [N _]]]; lia.
  - inversion A as [|? ? A1 A2]; subst. inversion Q as [|? ? Q1 Q2]; subst.
    pose proof (uinv_step p m s i O I A1) as I'. destruct (IH _ _ I' A2 Q2) as [U [V K]].
    assert (ST : upos (um_next p m (uc_event s i)) = upos m + uc_good m (uc_event s i) /\ (um_k m = um_reads m mod uc_f p -> um_k (um_next p m (uc_event s i)) = um_reads (um_next p m (uc_event s i)) mod uc_f p)).
    { unfold um_next. rewrite Q1. unfold uc_good. cbn [uc_event uv_read uv_in].
      destruct I as [_ _ KR _ _ P]. destruct P as [[R [N [_ [VN _]]]]|[R [N [_ [_ VN]]]]]; rewrite R; cbn [andb].
      - unfold upos. cbn [um_reads um_v um_n um_k]. rewrite VN. split; [lia | auto].
      - destruct (um_v m) eqn:VM; cbn [andb].
        + rewrite andb_false_r. unfold upos. cbn [um_reads um_v um_n um_k]. rewrite VM. split; [lia|]. intros E. fold (uc_f p). rewrite E. rewrite Z.add_mod_idemp_l; [reflexivity|]. lia.
        + rewrite andb_true_r. unfold upos. cbn [um_reads um_v um_n um_k]. rewrite VM. split; [destruct (ui_done i); cbn [negb]; lia | auto]. }
    destruct ST as [S1 S2]. cbn zeta in *. split; [lia|]. split; [exact V|]. intros E. apply K, S2, E.
Qed.

Lemma uc_count_ok p l : uc_ok p -> Forall asked (uc_trace p uc0 l) -> Forall (fun e => ui_rst (uv_in e) = false) (uc_trace p uc0 l) ->
  let tr := uc_trace p uc0 l in um_reads (um_after p tr) = uc_goods p um0 tr / 258 /\ um_k (um_after p tr) = um_reads (um_after p tr) mod (uc_pf p + uc_vf p).
Proof.
  intros O A Q tr. destruct (uc_count_gen p l O um0 uc0 (uinv0 p O) A Q) as [U [V K]]. fold tr in U, V, K. unfold um_after. set (m' := fold_left (um_next p) tr um0) in *.
  split; [|apply K; reflexivity]. unfold upos at 2 in U. cbn [um0 um_reads um_v um_n] in U. replace (uc_goods p um0 tr) with (upos m') by lia. unfold upos.
  apply Z.div_unique with (r := match um_v m' with Some _ => 257 | None => um_n m' end); [|lia]. left. destruct (um_v m'); [lia|]. specialize (V eq_refl). lia.
Qed.

(** * Witnesses *)
Definition uc_p1 : uc_param := mkUc 2 2 64 192.
(** The core answers one clock after the read is seen, with the answer also given in the next clock. *)
Definition uc_wait : list uc_in := repeat (mkUi false 0 false) 257.
Definition uc_one (v : Z) : list uc_in := uc_wait ++ [mkUi false v true; mkUi false 9 true].
Definition uc_l1 : list uc_in := uc_one 20784 ++ uc_one 288 ++ uc_one 8192 ++ uc_one 64 ++ uc_wait.
(** A core that answers although it is not asked, in the last clock before the read. *)
Definition uc_l2 : list uc_in := repeat (mkUi false 0 false) 254 ++ [mkUi false 256 true; mkUi false 0 false; mkUi false 0 false].
