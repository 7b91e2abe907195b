(** Proofs about the user-side interfaces of the UltraScale and UltraScale+ cores. *)
From Verif Require Import PyBase BitLemmas TlpModel SplitSpec UsModel UsStreamModel DevModel DevSpec DevProofs3 CfgModel MsiModel MsiProofs UspModel UspSpec.
From Coq Require Import ZifyBool ZifyNat.

(** Sequence numbers. *)
Lemma usp_rq_run_ok d : contiguous (dv_fns d) -> forall ls sq, Forall (rq_fit d) (concat ls) -> exists shown left,
  usp_rq_run d sq ls = Ok (map (rq_tlp d) (filter (rq_sent d) (concat ls)), shown, left) /\
  concat (map seqs shown) ++ left = sq ++ map u_seq_num (filter (rq_sent d) (concat ls)) /\
  length shown = length ls /\ Forall slots_ok shown.
Proof.
  intros HC. induction ls as [|l ls IH]; intros sq HF; cbn [usp_rq_run].
  - exists [], sq. cbn. rewrite app_nil_r. repeat split. constructor.
  - cbn [concat] in *. apply Forall_app in HF. destruct HF as (HF1 & HF2). unfold usp_rq_step. rewrite (rq_loop_ok d HC l sq HF1). cbn [bind].
    destruct (sq ++ map u_seq_num (filter (rq_sent d) l)) as [|a [|b r]] eqn:E; cbn [bind].
    + destruct (IH [] HF2) as (shown & left & -> & H1 & H2 & H3). cbn [bind]. exists ((None, None) :: shown), left.
      split; [rewrite filter_app, map_app; reflexivity|]. split; [rewrite filter_app, map_app, app_assoc, E; assumption|].
      split; [cbn [length]; lia|]. constructor; [intros _; reflexivity|assumption].
    + destruct (IH [] HF2) as (shown & left & -> & H1 & H2 & H3). cbn [bind]. exists ((Some a, None) :: shown), left.
      split; [rewrite filter_app, map_app; reflexivity|]. split; [rewrite filter_app, map_app, app_assoc, E; cbn [map concat seqs app] in *; now rewrite H1|].
      split; [cbn [length]; lia|]. constructor; [intros H; discriminate H|assumption].
    + destruct (IH r HF2) as (shown & left & -> & H1 & H2 & H3). cbn [bind]. exists ((Some a, Some b) :: shown), left.
      split; [rewrite filter_app, map_app; reflexivity|]. split; [rewrite filter_app, map_app, app_assoc, E; cbn [map concat seqs app] in *; now rewrite H1|].
      split; [cbn [length]; lia|]. constructor; [intros H; discriminate H|assumption].
Qed.

Lemma usp_idle d : forall n sq, (length sq <= 2 * n)%nat -> exists shown,
  usp_rq_run d sq (repeat [] n) = Ok ([], shown, []) /\ concat (map seqs shown) = sq.
Proof.
  induction n as [|n IH]; intros sq H.
  - destruct sq; [|cbn in H; lia]. exists []. split; reflexivity.
  - cbn [repeat usp_rq_run]. unfold usp_rq_step. cbn [rq_loop bind]. destruct sq as [|a [|b r]]; cbn [bind].
    + destruct (IH [] ltac:(cbn; lia)) as (sh & -> & HS). cbn [bind]. eexists. split; [reflexivity|]. exact HS.
    + destruct (IH [] ltac:(cbn; lia)) as (sh & -> & HS). cbn [bind]. eexists. split; [reflexivity|]. cbn [map concat seqs app]. now rewrite HS.
    + destruct (IH r ltac:(cbn [length] in H; lia)) as (sh & -> & HS). cbn [bind]. eexists. split; [reflexivity|]. cbn [map concat seqs app]. now rewrite HS.
Qed.

(** Status outputs: fields of a vector. *)
Definition fs_val (f : fn) : Z := (if fn_bme f then 7 else 0) + (if fn_int_dis f then 8 else 0).
Lemma fs_val_range f : 0 <= fs_val f < 16.
Proof. unfold fs_val. destruct (fn_bme f), (fn_int_dis f); lia. Qed.

Lemma lor_field st v w k : 0 <= w -> 0 <= k -> 0 <= st < 2 ^ (w * k) -> 0 <= v -> Z.lor st (Z.shiftl v (w * k)) = st + v * 2 ^ (w * k).
Proof. intros Hw Hk Hs Hv. rewrite lor_add_disjoint by nia. lia. Qed.

Fixpoint pack_fields {A} (w : Z) (f : A -> Z) (l : list A) : Z :=
  match l with [] => 0 | x :: r => f x + 2 ^ w * pack_fields w f r end.
Lemma pack_fields_range {A} w (f : A -> Z) : 0 <= w -> (forall x, 0 <= f x < 2 ^ w) -> forall l, 0 <= pack_fields w f l < 2 ^ (w * zlen l).
Proof.
  intros Hw Hf. induction l as [|x l IH]; cbn [pack_fields]; [unfold zlen; cbn [length]; rewrite Z.mul_0_r; cbn; lia|].
  specialize (Hf x). unfold zlen in *. cbn [length]. rewrite Nat2Z.inj_succ, Z.mul_succ_r, Z.add_comm, Z.pow_add_r by nia. nia.
Qed.
Lemma pack_fields_field {A} w (f : A -> Z) : 0 <= w -> (forall x, 0 <= f x < 2 ^ w) -> forall k l,
  field w (Z.of_nat k) (pack_fields w f l) = shows f l k.
Proof.
  intros Hw Hf. assert (HP : 0 < 2 ^ w) by (apply Z.pow_pos_nonneg; lia).
  induction k as [|k IH]; intros l; unfold field, shows.
  - rewrite Z.mul_0_r, Z.pow_0_r, Z.div_1_r. destruct l as [|x l]; cbn [pack_fields nth_error]; [apply Z.mod_0_l; lia|].
    rewrite Z.add_comm, Z.mul_comm, Z.add_comm, Z_mod_plus_full. apply Z.mod_small, Hf.
  - destruct l as [|x l]; cbn [pack_fields nth_error]; [rewrite Z.div_0_l; [apply Z.mod_0_l; lia|apply Z.pow_nonzero; nia]|].
    replace (w * Z.of_nat (S k)) with (w + w * Z.of_nat k) by lia. rewrite Z.pow_add_r by nia.
    rewrite <- Z.div_div by (try apply Z.pow_nonzero; try apply Z.pow_pos_nonneg; nia).
    replace ((f x + 2 ^ w * pack_fields w f l) / 2 ^ w) with (pack_fields w f l).
    + apply IH.
    + rewrite (Z.mul_comm (2 ^ w)), Z.div_add by lia. rewrite Z.div_small by apply Hf. lia.
Qed.

Lemma usp_fstatus_ok : forall fns k st, 0 <= k -> 0 <= st < 2 ^ (4 * k) ->
  usp_fstatus k st fns = st + 2 ^ (4 * k) * pack_fields 4 fs_val fns.
Proof.
  induction fns as [|f fns IH]; intros k st Hk Hst; cbn [usp_fstatus pack_fields]; [lia|].
  assert (HP : 0 < 2 ^ (4 * k)) by (apply Z.pow_pos_nonneg; lia).
  replace (k * 4) with (4 * k) by lia.
  assert (E : (if fn_int_dis f then Z.lor (if fn_bme f then Z.lor st (Z.shiftl 7 (4 * k)) else st) (Z.shiftl 8 (4 * k))
               else if fn_bme f then Z.lor st (Z.shiftl 7 (4 * k)) else st) = st + fs_val f * 2 ^ (4 * k)).
  { unfold fs_val. destruct (fn_bme f), (fn_int_dis f).
    - rewrite <- Z.lor_assoc, <- Z.shiftl_lor. change (Z.lor 7 8) with 15. rewrite lor_field by lia. lia.
    - rewrite lor_field by lia. lia.
    - rewrite lor_field by lia. lia.
    - lia. }
  rewrite E. pose proof (fs_val_range f).
  assert (E2 : 2 ^ (4 * (k + 1)) = 16 * 2 ^ (4 * k)) by (replace (4 * (k + 1)) with (4 + 4 * k) by lia; rewrite Z.pow_add_r by lia; reflexivity).
  rewrite IH by (try lia; rewrite E2; nia). rewrite E2. change (2 ^ 4) with 16. lia.
Qed.
Definition rcb_val (f : fn) : Z := if fn_rcb f then 1 else 0.
Lemma usp_rcb_ok : forall fns k st, 0 <= k -> 0 <= st < 2 ^ k -> usp_rcb k st fns = st + 2 ^ k * pack_fields 1 rcb_val fns.
Proof.
  induction fns as [|f fns IH]; intros k st Hk Hst; cbn [usp_rcb pack_fields]; [lia|].
  assert (HP : 0 < 2 ^ k) by (apply Z.pow_pos_nonneg; lia).
  assert (E : (if fn_rcb f then Z.lor st (Z.shiftl 1 k) else st) = st + rcb_val f * 2 ^ k).
  { unfold rcb_val. destruct (fn_rcb f); [|lia]. rewrite lor_add_disjoint by lia. lia. }
  rewrite E. assert (0 <= rcb_val f <= 1) by (unfold rcb_val; destruct (fn_rcb f); lia).
  assert (E2 : 2 ^ (k + 1) = 2 * 2 ^ k) by (rewrite Z.pow_add_r by lia; lia).
  rewrite IH by (try lia; rewrite E2; nia). rewrite E2. change (2 ^ 1) with 2. lia.
Qed.

Lemma usp_status fns : zlen fns <= 4 -> exists a b, usp_function_status fns = Ok a /\ usp_rcb_status fns = Ok b /\
  (forall k, (k < 4)%nat -> field 4 (Z.of_nat k) a = shows (fun f => (if fn_bme f then 7 else 0) + (if fn_int_dis f then 8 else 0)) fns k) /\
  (forall k, (k < 4)%nat -> field 1 (Z.of_nat k) b = shows (fun f => if fn_rcb f then 1 else 0) fns k).
Proof.
  intros HL. exists (pack_fields 4 fs_val fns), (pack_fields 1 rcb_val fns).
  assert (R1 : forall x, 0 <= rcb_val x < 2 ^ 1) by (intros x; unfold rcb_val; destruct (fn_rcb x); lia).
  pose proof (pack_fields_range 4 fs_val ltac:(lia) fs_val_range fns) as A. pose proof (pack_fields_range 1 rcb_val ltac:(lia) R1 fns) as B.
  assert (HZ : 0 <= zlen fns) by (unfold zlen; lia).
  assert (2 ^ (4 * zlen fns) <= 2 ^ 16) by (apply Z.pow_le_mono_r; lia). assert (2 ^ (1 * zlen fns) <= 2 ^ 4) by (apply Z.pow_le_mono_r; lia).
  unfold usp_function_status, usp_rcb_status. rewrite usp_fstatus_ok, usp_rcb_ok by (cbn; lia). rewrite !Z.mul_0_r, !Z.pow_0_r, !Z.mul_1_l, !Z.add_0_l.
  unfold sig. replace ((0 <=? pack_fields 4 fs_val fns) && (pack_fields 4 fs_val fns <? 2 ^ 16)) with true by lia.
  replace ((0 <=? pack_fields 1 rcb_val fns) && (pack_fields 1 rcb_val fns <? 2 ^ 4)) with true by lia.
  repeat split; intros k _.
  - apply (pack_fields_field 4 fs_val); [lia|exact fs_val_range].
  - apply (pack_fields_field 1 rcb_val); [lia|exact R1].
Qed.

Lemma link_status : (forall j, 0 <= j <= 4 -> usp_negotiated_width (2 ^ j) = Ok j) /\ (forall g, 1 <= g <= 4 -> usp_current_speed g = Ok (g - 1)) /\
  (forall m, 0 <= m <= 3 -> usp_max_payload m = Ok m) /\ (forall m, 0 <= m <= 5 -> usp_max_read_req m = Ok m) /\
  (forall w, 0 <= w <= 8 -> us_negotiated_width w = Ok w) /\ (forall g, 1 <= g <= 3 -> us_current_speed g = Ok (2 ^ (g - 1))).
Proof.
  split; [|split; [|split; [|split; [|split]]]]; intros x H.
  - assert (C : x = 0 \/ x = 1 \/ x = 2 \/ x = 3 \/ x = 4) by lia. destruct C as [-> | [-> | [-> | [-> | ->]]]]; reflexivity.
  - assert (C : x = 1 \/ x = 2 \/ x = 3 \/ x = 4) by lia. destruct C as [-> | [-> | [-> | ->]]]; reflexivity.
  - assert (C : x = 0 \/ x = 1 \/ x = 2 \/ x = 3) by lia. destruct C as [-> | [-> | [-> | ->]]]; reflexivity.
  - unfold usp_max_read_req, sig. replace ((0 <=? x) && (x <? 2 ^ 3)) with true by lia. reflexivity.
  - unfold us_negotiated_width, sig. replace ((0 <=? x) && (x <? 2 ^ 4)) with true by lia. reflexivity.
  - assert (C : x = 1 \/ x = 2 \/ x = 3) by lia. destruct C as [-> | [-> | ->]]; reflexivity.
Qed.

(** Interrupt requests. *)
Lemma int_bits_one k : 0 <= k < 32 -> int_bits (2 ^ k) = [k].
Proof.
  intros H. assert (In k (map Z.of_nat (seq 0 32))) as HI by (apply in_map_iff; exists (Z.to_nat k); split; [lia|apply in_seq; lia]).
  cbn in HI. repeat (destruct HI as [<- | HI]; [vm_compute; reflexivity|]). destruct HI.
Qed.
Lemma int_bits_in n i : In i (int_bits n) <-> 0 <= i < 32 /\ Z.testbit n i = true.
Proof.
  unfold int_bits. rewrite filter_In, in_map_iff. split.
  - intros ((j & <- & HJ) & HB). apply in_seq in HJ. split; [lia|].
    change 1 with (Z.ones 1) in HB. rewrite Z.land_ones in HB by lia. change (2 ^ 1) with 2 in HB.
    rewrite Z.testbit_eqb by lia. rewrite Z.shiftr_div_pow2 in HB by lia. lia.
  - intros (HI & HT). split; [exists (Z.to_nat i); split; [lia|apply in_seq; lia]|].
    change 1 with (Z.ones 1). rewrite Z.land_ones by lia. change (2 ^ 1) with 2. rewrite Z.shiftr_div_pow2 by lia. rewrite Z.testbit_eqb in HT by lia. lia.
Qed.

Lemma py_index_nth {A} (l : list A) i (d : A) : 0 <= i < zlen l -> py_index l i = Ok (nth (Z.to_nat i) l d).
Proof.
  intros H. unfold py_index. replace (i <? 0) with false by lia. unfold zlen in H.
  rewrite (nth_error_nth' l d) by lia. reflexivity.
Qed.

Lemma msi_request_ok fs i k f : ii_int i = 2 ^ k -> 0 <= k < 32 -> 0 <= ii_fn i -> nth_error fs (Z.to_nat (ii_fn i)) = Some f -> 0 <= if_mps f ->
  msi_able (if_attrs f) k -> exists t, msi_request fs i = Ok ([t], true) /\
    dword_msg f (ii_attr i) (if_attrs f A_msi_message_address) (msi_value (if_attrs f) k) t.
Proof.
  intros HI Hk Hf HN Hm (H1 & H2 & H3 & H4 & H5 & H6 & H7). unfold msi_request. rewrite HI, int_bits_one by assumption.
  assert (0 < 2 ^ k) by (apply Z.pow_pos_nonneg; lia). replace (2 ^ k =? 0) with false by lia.
  assert (ii_fn i < zlen fs). { assert (Z.to_nat (ii_fn i) < length fs)%nat by (apply nth_error_Some; rewrite HN; discriminate). unfold zlen. lia. }
  replace (ii_fn i <? zlen fs) with true by lia. unfold py_index. replace (ii_fn i <? 0) with false by lia. rewrite HN. cbn [bind].
  destruct (msi_issue (if_attrs f) (if_id f) (if_mps f) k (ii_attr i) 0 Hm H1 H2 ltac:(lia) H4 H5 H6 H7) as (t & -> & T1 & T2 & T3 & T4 & T5 & _ & T6 & T7 & T8).
  cbn [bind]. exists t. split; [reflexivity|]. unfold dword_msg, msi_value. repeat split; try assumption; try apply T6; apply T7.
Qed.

Lemma int_bits_two n k j : Z.testbit n k = true -> Z.testbit n j = true -> k <> j -> 0 <= k < 32 -> 0 <= j < 32 -> forall b, int_bits n <> [b].
Proof.
  intros H1 H2 HN Hk Hj b HB. assert (A1 : In k [b]) by (rewrite <- HB; apply int_bits_in; auto). assert (A2 : In j [b]) by (rewrite <- HB; apply int_bits_in; auto).
  cbn [In] in A1, A2. clear HB. lia.
Qed.
Lemma msi_request_none fs i : ii_int i = 0 \/ zlen fs <= ii_fn i \/
    (exists k j, 0 <= k < 32 /\ 0 <= j < 32 /\ k <> j /\ Z.testbit (ii_int i) k = true /\ Z.testbit (ii_int i) j = true) ->
  msi_request fs i = Ok ([], false).
Proof.
  intros H. unfold msi_request. destruct (ii_int i =? 0) eqn:E; [reflexivity|]. destruct H as [H | [H | (k & j & Hk & Hj & HN & H1 & H2)]]; [lia| |].
  - destruct (int_bits (ii_int i)) as [|b [|]]; try reflexivity. replace (ii_fn i <? zlen fs) with false by lia. reflexivity.
  - pose proof (int_bits_two _ _ _ H1 H2 HN Hk Hj) as HB. destruct (int_bits (ii_int i)) as [|b [|]]; try reflexivity. exfalso. apply (HB b). reflexivity.
Qed.
Lemma msix_request_ok fs i f : ii_msix i = true -> 0 <= ii_fn i -> nth_error fs (Z.to_nat (ii_fn i)) = Some f -> 0 <= if_mps f ->
  if_attrs f A_msix_enable <> 0 -> if_attrs f A_bus_master_enable <> 0 -> ii_addr i mod 4 = 0 -> 0 <= ii_data i < 2 ^ 32 ->
  exists t, msix_request fs i = Ok ([t], true) /\ dword_msg f (ii_attr i) (ii_addr i) (ii_data i) t.
Proof.
  intros HX Hf HN Hm H1 H2 H3 H4. unfold msix_request. rewrite HX.
  assert (ii_fn i < zlen fs). { assert (Z.to_nat (ii_fn i) < length fs)%nat by (apply nth_error_Some; rewrite HN; discriminate). unfold zlen. lia. }
  replace (ii_fn i <? zlen fs) with true by lia. cbn [andb]. unfold py_index. replace (ii_fn i <? 0) with false by lia. rewrite HN. cbn [bind].
  unfold issue_msix_interrupt. replace (if_attrs f A_msix_enable =? 0) with false by lia. unfold pack_u32. replace ((0 <=? ii_data i) && (ii_data i <? 2 ^ 32)) with true by lia. cbn [bind].
  replace (negb (if_attrs f A_bus_master_enable =? 0)) with true by lia.
  destruct (dword_write (if_id f) (if_mps f) (ii_addr i) (ii_data i) (ii_attr i) 0 Hm H3 H4) as (t & -> & T1 & T2 & T3 & T4 & T5 & _ & T6 & T7 & T8).
  cbn [bind]. exists t. split; [reflexivity|]. unfold dword_msg. repeat split; try assumption; try apply T6; apply T7.
Qed.
Lemma msix_request_none fs i : ii_msix i = false \/ zlen fs <= ii_fn i -> msix_request fs i = Ok ([], false).
Proof. intros H. unfold msix_request. replace (ii_msix i && (ii_fn i <? zlen fs)) with false by lia. reflexivity. Qed.

(** Pending bits and mask bits. *)
Lemma list_upd_split {A} (x : A) : forall n l, (n < length l)%nat -> list_upd n x l = firstn n l ++ x :: skipn (S n) l.
Proof.
  induction n as [|n IH]; intros [|y l] H; cbn [length] in H; try lia; cbn [list_upd firstn skipn app]; [reflexivity|].
  rewrite IH by lia. reflexivity.
Qed.
Lemma list_upd_nth {A} (x : A) : forall n l k, nth_error (list_upd n x l) k = if (k =? n)%nat then match nth_error l k with Some _ => Some x | None => None end else nth_error l k.
Proof.
  induction n as [|n IH]; intros [|y l] [|k]; cbn [list_upd nth_error Nat.eqb]; try reflexivity; [now destruct (k =? n)%nat|]. apply IH.
Qed.

(** Configuration management. *)
Section mgmt.
  Context {R : Type} (rd : R -> Z -> result Z) (wr : R -> Z -> Z -> Z -> result R) (rd' : R -> Z -> Z) (wr' : R -> Z -> Z -> Z -> R) (d : R).
  Hypothesis Hrd : forall f reg, 0 <= reg < 1024 -> rd f reg = Ok (rd' f reg) /\ 0 <= rd' f reg < 2 ^ 32.
  Hypothesis Hwr : forall f reg data be, 0 <= reg < 1024 -> wr f reg data be = Ok (wr' f reg data be).
  Variable step : list R -> mgmt_st -> mgmt_in -> result (list R * mgmt_st).
  Variable drive : access -> mgmt_in.
  Hypothesis Hdone : forall fs v i, step fs (mkMgmtSt true v) i = Ok (fs, mkMgmtSt false v).
  Hypothesis Hacc : forall fs v a, acc_ok fs a -> acc_fn a < 128 -> step fs (mkMgmtSt false v) (drive a) =
    let! (fs', v') := mgmt_access rd wr fs (acc_fn a) (match a with ARead _ r | AWrite _ r _ _ => r end)
       (match a with ARead _ _ => false | _ => true end) (match a with AWrite _ _ x _ => x | _ => 0 end) (match a with AWrite _ _ _ x => x | _ => 0 end) v in
    Ok (fs', mkMgmtSt true v').
  Hypothesis Hidle : forall fs v, step fs (mkMgmtSt false v) (mkMgmt 0 0 false false 0 0) = Ok (fs, mkMgmtSt false v).

  Lemma user_wait_ok : forall n fs v, user_wait step (mkMgmt 0 0 false false 0 0) n fs (mkMgmtSt false v) = Ok (fs, mkMgmtSt false v).
  Proof. induction n as [|n IH]; intros fs v; [reflexivity|]. cbn [user_wait]. rewrite Hidle. cbn [bind]. apply IH. Qed.

  Lemma user_hold_ok fs v a : acc_ok fs a -> acc_fn a < 128 -> exists v',
    user_hold step drive 2 a fs (mkMgmtSt false v) = Ok (fst (acc_do rd' wr' d fs a), mkMgmtSt false v', snd (acc_do rd' wr' d fs a)).
  Proof.
    intros HA HL. cbn [user_hold]. rewrite (Hacc fs v a HA HL). destruct a as [f reg | f reg data be]; cbn [acc_ok acc_fn] in *; destruct HA as (HF & HR); unfold mgmt_access;
      rewrite (py_index_nth fs f d HF); cbn [bind].
    - destruct (Hrd (nth (Z.to_nat f) fs d) reg HR) as (-> & HV). cbn [bind]. unfold sig.
      set (x := rd' _ _) in *. replace ((0 <=? x) && (x <? 2 ^ 32)) with true by lia. cbn [bind mg_done]. rewrite Hdone. cbn [bind mg_rdata mg_done].
      exists x. reflexivity.
    - rewrite (Hwr _ _ _ _ HR). cbn [bind mg_done]. rewrite Hdone. cbn [bind mg_rdata mg_done]. exists v. cbn [acc_do fst snd].
      rewrite list_upd_split by (unfold zlen in HF; lia). reflexivity.
  Qed.

  Lemma acc_do_len fs a : acc_ok fs a -> zlen (fst (acc_do rd' wr' d fs a)) = zlen fs.
  Proof.
    clear. intros H. destruct a as [f reg | f reg data be]; [reflexivity|]. cbn [acc_do fst acc_ok] in *. unfold zlen in *. rewrite app_length. cbn [length]. rewrite firstn_length, skipn_length. lia.
  Qed.

  Lemma user_run_ok : forall l fs v, Forall (fun p => acc_ok fs (snd p) /\ acc_fn (snd p) < 128) l -> exists v',
    user_run step drive (mkMgmt 0 0 false false 0 0) l fs (mkMgmtSt false v) =
      Ok (fst (acc_run rd' wr' d fs (map snd l)), mkMgmtSt false v', snd (acc_run rd' wr' d fs (map snd l))).
  Proof.
    induction l as [|[n a] l IH]; intros fs v HF; [exists v; reflexivity|]. inversion HF as [|? ? (HA & HL) HF']; subst. cbn [snd] in *.
    cbn [user_run]. rewrite user_wait_ok. cbn [bind]. destruct (user_hold_ok fs v a HA HL) as (v1 & ->). cbn [bind map snd acc_run].
    destruct (acc_do rd' wr' d fs a) as (fs1, x) eqn:E. cbn [fst snd].
    pose proof (acc_do_len fs a HA) as HZ. rewrite E in HZ. cbn [fst] in HZ.
    destruct (IH fs1 v1) as (v2 & ->). { eapply Forall_impl; [|exact HF']. intros (n', b) (HB1 & HB2). cbn [snd] in *. split; [|assumption]. destruct b; cbn [acc_ok] in *; lia. }
    cbn [bind]. destruct (acc_run rd' wr' d fs1 (map snd l)) as (fs2, vs). exists v2. reflexivity.
  Qed.
End mgmt.

Lemma us_mgmt_acc {R} rd wr (fs : list R) v a : acc_ok fs a -> acc_fn a < 128 -> us_mgmt_step rd wr fs (mkMgmtSt false v) (us_drive a) =
    let! (fs', v') := mgmt_access rd wr fs (acc_fn a) (match a with ARead _ r | AWrite _ r _ _ => r end)
       (match a with ARead _ _ => false | _ => true end) (match a with AWrite _ _ x _ => x | _ => 0 end) (match a with AWrite _ _ _ x => x | _ => 0 end) v in
    Ok (fs', mkMgmtSt true v').
Proof.
  intros HA HL. assert (HB : forall f reg, 0 <= f < 128 -> 0 <= reg < 1024 ->
    (Z.land (f * 1024 + reg) (Z.shiftl 1 18) =? 0) = true /\ Z.land (Z.shiftr (f * 1024 + reg) 10) 0x7f = f /\ Z.land (f * 1024 + reg) 0x3ff = reg).
  { intros f reg Hf Hr. change 0x7f with (Z.ones 7). change 0x3ff with (Z.ones 10). rewrite !Z.land_ones by lia. rewrite Z.shiftr_div_pow2 by lia.
    change (2 ^ 10) with 1024. change (2 ^ 7) with 128. repeat split; try lia. apply Z.eqb_eq. apply Z.bits_inj'. intros n Hn. rewrite Z.land_spec, Z.bits_0, Z.shiftl_1_l, Z.pow2_bits_eqb by lia.
    destruct (18 =? n) eqn:E; [|apply andb_false_r]. assert (n = 18) as -> by lia. rewrite Z.testbit_eqb by lia. change (2 ^ 18) with 262144. replace ((f * 1024 + reg) / 262144) with 0 by lia. reflexivity. }
  destruct a as [f reg | f reg data be]; cbn [acc_ok acc_fn] in *; destruct HA as (HF & HR); unfold us_mgmt_step, us_drive; cbn [mg_done mi_read mi_write mi_addr mi_data mi_be mg_rdata orb];
    destruct (HB f reg ltac:(lia) HR) as (-> & -> & ->); cbn [negb]; reflexivity.
Qed.
