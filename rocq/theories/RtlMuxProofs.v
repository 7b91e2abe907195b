(** Proofs about the arbitrating multiplexers (C85, C86): safety. *)
From Verif Require Import PyBase BitLemmas BarProofs RtlModel RtlSpec RtlProofs RtlProofs2 RtlMuxModel RtlMuxSpec.

Lemma nz_bit v i : 0 <= i -> negb (bsel v i =? 0) = Z.testbit v i.
Proof. intros. rewrite bsel_testbit by assumption. destruct (Z.testbit v i); reflexivity. Qed.

Section mux.
Context {S M : Type}.
Notation ev := (mux_ev S M).
Implicit Types (tr : list ev) (mv : list (@beat S)) (s : mux_state S M) (i : mux_in S).

Lemma acc_snoc q tr e : accepted q (tr ++ [e]) = acc_step q (accepted q tr) e.
Proof. unfold accepted. now rewrite fold_left_app. Qed.
Lemma del_snoc tr e : delivered (tr ++ [e]) = del_step (delivered tr) e.
Proof. unfold delivered. now rewrite fold_left_app. Qed.
Lemma from_app q (a b : list (@beat S)) : from q (a ++ b) = from q a ++ from q b.
Proof. unfold from. now rewrite filter_app, map_app. Qed.

(* ---------- output datapath ---------- *)
Definition content (k : skid M) : list M := (if sk_valid k then [sk_data k] else []) ++ (if sk_tvalid k then [sk_tdata k] else []).
Definition skid_inv (k : skid M) : Prop := (sk_ready k = true -> sk_tvalid k = false) /\ (sk_tvalid k = true -> sk_valid k = true).

Lemma skid_ok k ready vint d : skid_inv k -> (vint = true -> sk_ready k = true) ->
  skid_inv (skid_step k false ready vint d) /\
  content k ++ (if vint then [d] else []) = (if sk_valid k && ready then [sk_data k] else []) ++ content (skid_step k false ready vint d) /\
  sk_ready (skid_step k false ready vint d) = ready || (negb (sk_tvalid k) && negb (sk_valid k)) /\
  (sk_valid k = true -> ready = false -> sk_valid (skid_step k false ready vint d) = true /\ sk_data (skid_step k false ready vint d) = sk_data k).
Proof.
  intros [I1 I2] V. unfold skid_inv, content, skid_step. destruct k as [v dd t td r]. cbn [sk_valid sk_data sk_tvalid sk_tdata sk_ready] in *.
  destruct r.
  - rewrite (I1 eq_refl). destruct ready, v, vint; cbn; repeat split; auto; discriminate.
  - destruct vint; [now specialize (V eq_refl)|]. destruct t; [rewrite (I2 eq_refl)|destruct v]; destruct ready; cbn; repeat split; auto; discriminate.
Qed.
Lemma skid_reset k ready vint d : skid_inv (skid_step k true ready vint d) /\ content (skid_step k true ready vint d) = [].
Proof.
  unfold skid_step, skid_inv, content. destruct (sk_ready k); [destruct (ready || negb (sk_valid k))|destruct ready]; cbn; repeat split; auto; discriminate.
Qed.

(* ---------- control ---------- *)
Variable n : Z.
Variables rr lsb use_last : bool.
Variable route : Z -> bool -> S -> M.
Variable out : M -> M.
Hypothesis Hn : 2 <= n.
Notation step := (mux_step n rr lsb use_last route).
Notation event := (mux_event n out).
Notation prm := (mux_arb n rr lsb).

Lemma grant_bit s j : arb_inv prm (mx_arb s) -> 0 <= j -> Z.testbit (as_grant (mx_arb s)) j = as_valid (mx_arb s) && (as_enc (mx_arb s) =? j).
Proof.
  intros [H _] Hj. destruct (as_valid (mx_arb s)).
  - destruct H as [H1 ->]. cbn [andb]. now rewrite Z.pow2_bits_eqb by lia.
  - destruct H as [_ ->]. now rewrite Z.bits_0.
Qed.
Lemma enc_range s : arb_inv prm (mx_arb s) -> 0 <= as_enc (mx_arb s) < n.
Proof. intros [H _]. destruct (as_valid (mx_arb s)); [apply H|]. destruct H as [-> _]. lia. Qed.
Lemma grant_vec s : arb_inv prm (mx_arb s) -> vec n (as_grant (mx_arb s)).
Proof.
  intros [H _]. destruct (as_valid (mx_arb s)).
  - destruct H as [H1 ->]. cbn [ap_ports mux_arb] in H1. split; [apply Z.pow_nonneg; lia|]. apply Z.pow_lt_mono_r; lia.
  - destruct H as [_ ->]. unfold vec. pose proof (Z.pow_pos_nonneg 2 n). lia.
Qed.
Lemma ones_bit j : 0 <= j < n -> Z.testbit (2 ^ n - 1) j = true.
Proof. intros. replace (2 ^ n - 1) with (Z.ones n) by (rewrite Z.ones_equiv; lia). apply Z.ones_spec_low. lia. Qed.

Lemma vec_land_r a b : vec n a -> vec n (Z.land a b).
Proof. intros H. unfold vec in *. apply (bits_range _ n); [lia|]. intros j Hj. rewrite Z.land_spec, (testbit_high a n) by lia. reflexivity. Qed.
Lemma vec_lor2 a b : vec n a -> vec n b -> vec n (Z.lor a b).
Proof. intros H1 H2. unfold vec in *. apply (bits_range _ n); [lia|]. intros j Hj. rewrite Z.lor_spec, (testbit_high a n), (testbit_high b n) by lia. reflexivity. Qed.

Lemma ready_bit s j : arb_inv prm (mx_arb s) -> 0 <= j < n ->
  Z.testbit (mux_ready n s) j = negb (Z.testbit (mx_valid s) j) || (sk_ready (mx_skid s) && (as_valid (mx_arb s) && (as_enc (mx_arb s) =? j))).
Proof.
  intros A Hj. unfold mux_ready. rewrite Z.lor_spec, Z.land_spec, Z.lnot_spec, ones_bit, andb_true_r by lia. destruct (sk_ready (mx_skid s)); [rewrite grant_bit by (assumption || lia)|rewrite Z.bits_0]; reflexivity.
Qed.
Lemma valid_bit s i j : 0 <= j -> mi_rst i = false ->
  Z.testbit (mx_valid (step s i)) j = if Z.testbit (mux_ready n s) j then Z.testbit (mi_valid i) j else Z.testbit (mx_valid s) j.
Proof.
  intros Hj HR. cbn [mx_valid mux_step]. rewrite HR, Z.lor_spec, !Z.land_spec, Z.lnot_spec by assumption.
  destruct (Z.testbit (mux_ready n s) j), (Z.testbit (mx_valid s) j), (Z.testbit (mi_valid i) j); reflexivity.
Qed.
Lemma last_bit s i j : 0 <= j -> Z.testbit (mx_last (step s i)) j = if Z.testbit (mux_ready n s) j then Z.testbit (mi_last i) j else Z.testbit (mx_last s) j.
Proof.
  intros Hj. cbn [mx_last mux_step]. rewrite Z.lor_spec, !Z.land_spec, Z.lnot_spec by assumption.
  destruct (Z.testbit (mux_ready n s) j), (Z.testbit (mx_last s) j), (Z.testbit (mi_last i) j); reflexivity.
Qed.
Lemma data_at s i j : 0 <= j -> mx_data (step s i) j = if Z.testbit (mux_ready n s) j then mi_data i j else mx_data s j.
Proof. intros Hj. cbn [mx_data mux_step]. now rewrite nz_bit. Qed.

Definition cur s : @beat S := let e := as_enc (mx_arb s) in (e, (Z.testbit (mx_last s) e, mx_data s e)).
Lemma vint_eq s : arb_inv prm (mx_arb s) -> mux_vint s = Z.testbit (mx_valid s) (as_enc (mx_arb s)) && sk_ready (mx_skid s) && as_valid (mx_arb s).
Proof. intros A. pose proof (enc_range s A). unfold mux_vint. now rewrite nz_bit by lia. Qed.
Lemma ack_bit s : arb_inv prm (mx_arb s) -> as_valid (mx_arb s) = true -> Z.testbit (mux_ack n use_last s) (as_enc (mx_arb s)) = mux_vint s && ends use_last (cur s).
Proof.
  intros A V. pose proof (enc_range s A). rewrite vint_eq by assumption. rewrite V. unfold mux_ack, ends, cur. cbn [fst snd]. rewrite !Z.land_spec, grant_bit by (assumption || lia). rewrite V, Z.eqb_refl. cbn [andb].
  rewrite andb_true_r. destruct (sk_ready (mx_skid s)); [rewrite ones_bit by lia|rewrite Z.bits_0, !andb_false_r; reflexivity]. rewrite andb_true_r. f_equal. destruct use_last; [reflexivity|apply ones_bit; lia].
Qed.

(** The arbiter in one step: it keeps its grant until a frame ends, and then grants only ports whose register will be full. *)
Definition frees s : bool := negb (as_valid (mx_arb s)) || (mux_vint s && ends use_last (cur s)).
Lemma arb_facts s i : arb_inv prm (mx_arb s) -> vec n (mx_valid s) -> mux_in_ok n i -> mi_rst i = false ->
  let ai := mkArbIn false (mux_request s i) (mux_ack n use_last s) in
  arb_in_ok prm ai /\ arb_hold prm (mx_arb s) ai = negb (frees s) /\
  (frees s = false -> mx_arb (step s i) = mx_arb s) /\
  (frees s = true -> as_valid (mx_arb (step s i)) = true -> Z.testbit (mux_request s i) (as_enc (mx_arb (step s i))) = true).
Proof.
  intros A V [I1 I2] HR ai. assert (OK : arb_ok prm) by exact Hn. pose proof (grant_vec s A) as G.
  assert (IO : arb_in_ok prm ai).
  { split; cbn [ai_req ai_ack ai ap_ports mux_arb].
    - unfold mux_request. apply vec_lor2; apply vec_land_r; assumption.
    - unfold mux_ack. repeat apply vec_land_r. assumption. }
  assert (H : arb_hold prm (mx_arb s) ai = negb (frees s)).
  { rewrite hold_iff by (assumption || reflexivity). unfold frees, released. cbn [ap_block mux_arb andb ai_rst ai orb ap_block_ack ai_ack]. destruct (as_valid (mx_arb s)) eqn:EV; [|reflexivity]. cbn [andb negb orb].
    now rewrite ack_bit. }
  assert (E : mx_arb (step s i) = arb_step prm (mx_arb s) ai) by (cbn [mx_arb mux_step]; now rewrite HR).
  split; [assumption|]. split; [assumption|]. rewrite E. split.
  - intros F. unfold arb_step. cbn [ai_rst ai]. unfold arb_next. fold ai. rewrite H, F. cbn [negb]. destruct (mx_arb s); reflexivity.
  - intros F EV. apply (arb_new prm (mx_arb s) ai OK IO A); [|assumption]. rewrite <- hold_iff by (assumption || reflexivity). now rewrite H, F.
Qed.
Lemma req_bit s i j : arb_inv prm (mx_arb s) -> 0 <= j ->
  Z.testbit (mux_request s i) j = if as_valid (mx_arb s) && (as_enc (mx_arb s) =? j) then Z.testbit (mi_valid i) j else Z.testbit (mx_valid s) j.
Proof.
  intros A Hj. unfold mux_request. rewrite Z.lor_spec, !Z.land_spec, Z.lnot_spec, grant_bit by assumption.
  destruct (as_valid (mx_arb s) && _), (Z.testbit (mx_valid s) j), (Z.testbit (mi_valid i) j); reflexivity.
Qed.
Lemma arb_step_ok s i : arb_inv prm (mx_arb s) -> vec n (mx_valid s) -> mux_in_ok n i -> arb_inv prm (mx_arb (step s i)).
Proof.
  intros A V I. destruct (mi_rst i) eqn:ER.
  - cbn [mx_arb mux_step]. rewrite ER. apply arb_inv0. exact Hn.
  - destruct (arb_facts s i A V I ER) as (IO & _). cbn [mx_arb mux_step]. rewrite ER. apply arb_step_inv; [exact Hn|assumption|assumption].
Qed.
(** A new grant goes to a port whose register is full. *)
Lemma new_full s i : arb_inv prm (mx_arb s) -> vec n (mx_valid s) -> mux_in_ok n i -> mi_rst i = false -> frees s = true -> as_valid (mx_arb (step s i)) = true ->
  Z.testbit (mx_valid (step s i)) (as_enc (mx_arb (step s i))) = true.
Proof.
  intros A V I HR F EV. destruct (arb_facts s i A V I HR) as (_ & _ & _ & H). specialize (H F EV). pose proof (enc_range _ (arb_step_ok s i A V I)) as R.
  rewrite req_bit in H by (assumption || lia). rewrite valid_bit, ready_bit by (assumption || lia). unfold frees in F. rewrite vint_eq in F by assumption.
  destruct (as_valid (mx_arb s)); cbn [negb orb andb] in *; [|now rewrite andb_false_r, orb_false_r, H].
  destruct (Z.eqb_spec (as_enc (mx_arb s)) (as_enc (mx_arb (step s i)))) as [E|E]; [|now rewrite andb_false_r, orb_false_r, H].
  apply andb_true_iff in F. destruct F as [F _]. rewrite andb_true_r in F. apply andb_true_iff in F. destruct F as [_ ->]. now rewrite orb_true_r.
Qed.

(* ---------- the invariant ---------- *)
Definition shown (x : @beat S) : M := out (route (fst x) (fst (snd x)) (snd (snd x))).
Record inv s tr mv : Prop := {
  v_arb : arb_inv prm (mx_arb s);
  v_valid : vec n (mx_valid s);
  v_skid : skid_inv (mx_skid s);
  v_out : map shown mv = delivered tr ++ map out (content (mx_skid s));
  v_in : forall q, 0 <= q < n -> accepted q tr = from q mv ++ (if Z.testbit (mx_valid s) q then [(Z.testbit (mx_last s) q, mx_data s q)] else []);
  v_range : Forall (fun x => 0 <= fst x < n) mv;
  v_frames : whole_frames use_last mv;
  v_open : forall a x, mv = a ++ [x] -> ends use_last x = false -> as_valid (mx_arb s) = true /\ as_enc (mx_arb s) = fst x;
  v_mid : as_valid (mx_arb s) = true -> Z.testbit (mx_valid s) (as_enc (mx_arb s)) = false -> exists a x, mv = a ++ [x] /\ ends use_last x = false }.

Definition moved s i mv : list (@beat S) := if mi_rst i then [] else if mux_vint s then mv ++ [cur s] else mv.

Lemma inv0 ds dm : inv (mux0 ds dm) [] [].
Proof.
  split; cbn; try discriminate; try (intros [|? ?] ? E; discriminate).
  - apply arb_inv0. exact Hn.
  - unfold vec. pose proof (Z.pow_pos_nonneg 2 n). lia.
  - split; discriminate.
  - reflexivity.
  - intros q _. now rewrite Z.bits_0.
  - constructor.
Qed.

Lemma frames_snoc mv x : whole_frames use_last mv -> (forall a y, mv = a ++ [y] -> ends use_last y = false -> fst x = fst y) -> whole_frames use_last (mv ++ [x]).
Proof.
  intros W H a y z b E L. destruct b as [|w b] using rev_ind.
  - replace (a ++ [y; z]) with ((a ++ [y]) ++ [z]) in E by (now rewrite <- app_assoc). apply app_inj_tail in E. destruct E as [E <-]. now apply (H a).
  - replace (a ++ y :: z :: b ++ [w]) with ((a ++ y :: z :: b) ++ [w]) in E by (now rewrite <- app_assoc). apply app_inj_tail in E. destruct E as [E _]. now apply (W a y z b).
Qed.

Lemma inv_step s tr mv i : inv s tr mv -> mux_in_ok n i -> inv (step s i) (tr ++ [event s i]) (moved s i mv).
Proof.
  intros I IO. pose proof (v_arb _ _ _ I) as A. pose proof (v_valid _ _ _ I) as V. pose proof (enc_range s A) as ER. pose proof (arb_step_ok s i A V IO) as A'. pose proof (enc_range _ A') as ER'. unfold moved. destruct (mi_rst i) eqn:HR.
  { destruct (skid_reset (mx_skid s) (mi_ready i) (mux_vint s) (route (as_enc (mx_arb s)) (negb (bsel (mx_last s) (as_enc (mx_arb s)) =? 0)) (mx_data s (as_enc (mx_arb s))))) as [K1 K2].
    split; [assumption| | | | | | | |]; try (intros [|? ?] ? E; discriminate).
    - cbn [mx_valid mux_step]. rewrite HR. unfold vec. pose proof (Z.pow_pos_nonneg 2 n). lia.
    - cbn [mx_skid mux_step]. now rewrite HR.
    - rewrite del_snoc. unfold del_step. cbn [mv_rst mux_event]. rewrite HR. cbn [mx_skid mux_step]. rewrite HR, K2. reflexivity.
    - intros q _. rewrite acc_snoc. unfold acc_step. cbn [mv_rst mux_event mx_valid mux_step]. rewrite HR, Z.bits_0. reflexivity.
    - constructor.
    - cbn [mx_arb mux_step]. rewrite HR. discriminate. }
  assert (VR : mux_vint s = true -> sk_ready (mx_skid s) = true) by (rewrite vint_eq by assumption; intros H; apply andb_true_iff in H; destruct H as [H _]; apply andb_true_iff in H; apply H).
  destruct (arb_facts s i A V IO HR) as (_ & _ & HK & HF).
  assert (KD : forall q, 0 <= q < n -> Z.testbit (mux_ready n s) q = true -> Z.testbit (mx_valid s) q = true -> mux_vint s = true /\ as_enc (mx_arb s) = q).
  { intros q Hq E1 E2. rewrite ready_bit, E2 in E1 by assumption. cbn [negb orb] in E1. apply andb_true_iff in E1. destruct E1 as [E1 E3]. apply andb_true_iff in E3. destruct E3 as [E3 E4]. apply Z.eqb_eq in E4.
    split; [|assumption]. rewrite vint_eq by assumption. now rewrite E4, E2, E1, E3. }
  assert (VQ : mux_vint s = true -> Z.testbit (mux_ready n s) (as_enc (mx_arb s)) = true /\ Z.testbit (mx_valid s) (as_enc (mx_arb s)) = true /\ as_valid (mx_arb s) = true).
  { intros H. rewrite vint_eq in H by assumption. apply andb_true_iff in H. destruct H as [H H3]. apply andb_true_iff in H. destruct H as [H1 H2]. rewrite ready_bit, H1, H2, H3, Z.eqb_refl by assumption. auto. }
  set (mv' := if mux_vint s then mv ++ [cur s] else mv). split; [assumption| | | | | | | |].
  - unfold vec. apply (bits_range _ n); [lia|]. intros j Hj. rewrite valid_bit by (assumption || lia). destruct IO as [I1 _]. unfold vec in *. rewrite (testbit_high (mi_valid i) n), (testbit_high (mx_valid s) n) by lia. now destruct (Z.testbit (mux_ready n s) j).
  - cbn [mx_skid mux_step]. rewrite HR. apply skid_ok; [apply I|assumption].
  - rewrite del_snoc. unfold del_step. cbn [mv_rst mux_event mv_ovalid mv_oready mv_odata]. rewrite HR. cbn [mx_skid mux_step]. rewrite HR, nz_bit by lia.
    pose proof (skid_ok (mx_skid s) (mi_ready i) (mux_vint s) (route (as_enc (mx_arb s)) (Z.testbit (mx_last s) (as_enc (mx_arb s))) (mx_data s (as_enc (mx_arb s)))) (v_skid _ _ _ I) VR) as (_ & K & _).
    apply (f_equal (map out)) in K. rewrite !map_app in K.
    transitivity (map shown mv ++ map out (if mux_vint s then [route (as_enc (mx_arb s)) (Z.testbit (mx_last s) (as_enc (mx_arb s))) (mx_data s (as_enc (mx_arb s)))] else [])).
    + unfold mv'. destruct (mux_vint s); [now rewrite map_app|now rewrite app_nil_r].
    + rewrite (v_out _ _ _ I), <- app_assoc, K. destruct (sk_valid (mx_skid s) && mi_ready i); cbn [map app]; [now rewrite <- app_assoc|reflexivity].
  - intros q Hq. rewrite acc_snoc. unfold acc_step. cbn [mv_rst mux_event mv_valid mv_ready mv_last mv_data]. rewrite HR, valid_bit, last_bit, data_at by (assumption || lia).
    rewrite (v_in _ _ _ I q Hq).
    assert (FM : from q mv' = from q mv ++ (if mux_vint s && (as_enc (mx_arb s) =? q) then [(Z.testbit (mx_last s) q, mx_data s q)] else [])).
    { unfold mv'. destruct (mux_vint s); cbn [andb]; [|now rewrite app_nil_r]. rewrite from_app. f_equal. unfold from, cur. cbn [filter fst]. destruct (Z.eqb_spec (as_enc (mx_arb s)) q) as [E|]; [|reflexivity]. cbn [map snd]. now rewrite E. }
    rewrite FM, <- app_assoc. destruct (Z.testbit (mux_ready n s) q) eqn:RQ.
    + rewrite andb_true_r. destruct (Z.testbit (mx_valid s) q) eqn:VB.
      * destruct (KD q Hq RQ VB) as [K1 K2]. rewrite K1, K2, Z.eqb_refl. cbn [andb]. destruct (Z.testbit (mi_valid i) q); [rewrite ?app_nil_r, <- ?app_assoc; reflexivity|rewrite ?app_nil_r, <- ?app_assoc; reflexivity].
      * replace (mux_vint s && (as_enc (mx_arb s) =? q)) with false.
        { destruct (Z.testbit (mi_valid i) q); [rewrite ?app_nil_r, <- ?app_assoc; reflexivity|rewrite ?app_nil_r, <- ?app_assoc; reflexivity]. }
        symmetry. apply andb_false_iff. destruct (mux_vint s) eqn:EV; [right|left; reflexivity]. apply Z.eqb_neq. intros E. destruct (VQ eq_refl) as (_ & C & _). rewrite E in C. congruence.
    + rewrite andb_false_r. replace (mux_vint s && (as_enc (mx_arb s) =? q)) with false; [rewrite ?app_nil_r, <- ?app_assoc; reflexivity|].
      symmetry. apply andb_false_iff. destruct (mux_vint s) eqn:EV; [right|left; reflexivity]. apply Z.eqb_neq. intros E. destruct (VQ eq_refl) as (C & _). rewrite E in C. congruence.
  - unfold mv'. destruct (mux_vint s); [|apply I]. apply Forall_app. split; [apply I|]. constructor; [assumption|constructor].
  - unfold mv'. destruct (mux_vint s); [|apply I]. apply frames_snoc; [apply I|]. intros a y E L. destruct (v_open _ _ _ I a y E L) as [_ C]. exact C.
  - unfold mv'. intros a x E L. destruct (mux_vint s) eqn:EV.
    + apply app_inj_tail in E. destruct E as [_ E]. destruct (VQ eq_refl) as (_ & _ & C). rewrite HK.
      * split; [assumption|]. rewrite <- E. reflexivity.
      * unfold frees. rewrite C, EV, E, L. reflexivity.
    + destruct (v_open _ _ _ I a x E L) as [C1 C2]. rewrite HK; [auto|]. unfold frees. rewrite C1, EV. reflexivity.
  - intros EV EM. destruct (frees s) eqn:F; [rewrite (new_full s i) in EM by assumption; discriminate|]. rewrite (HK eq_refl) in *. rewrite valid_bit, ready_bit in EM by (assumption || lia). unfold frees in F. rewrite EV in *. cbn [negb orb] in F. rewrite Z.eqb_refl, !andb_true_r in EM.
    unfold mv'. destruct (mux_vint s) eqn:EI.
    + exists mv, (cur s). split; [reflexivity|]. exact F.
    + rewrite vint_eq, EV, andb_true_r in EI by assumption. destruct (Z.testbit (mx_valid s) (as_enc (mx_arb s))) eqn:EB; cbn [negb orb andb] in *; [rewrite EI in EM; discriminate|]. now apply (v_mid _ _ _ I).
Qed.

Lemma trace_app l1 l2 s : mux_trace n rr lsb use_last route out s (l1 ++ l2) = mux_trace n rr lsb use_last route out s l1 ++ mux_trace n rr lsb use_last route out (fold_left step l1 s) l2.
Proof. revert s. induction l1 as [|i l1 IH]; intros s; [reflexivity|]. cbn [app mux_trace fold_left]. now rewrite IH. Qed.
Lemma inv_run l : forall s tr mv, inv s tr mv -> Forall (mux_in_ok n) l -> exists mv', inv (fold_left step l s) (tr ++ mux_trace n rr lsb use_last route out s l) mv'.
Proof.
  induction l as [|i l IH]; intros s tr mv I F; [exists mv; cbn [mux_trace fold_left]; now rewrite app_nil_r|]. inversion F; subst. cbn [mux_trace fold_left].
  destruct (IH (step s i) (tr ++ [event s i]) _ (inv_step s tr mv i I ltac:(assumption)) ltac:(assumption)) as [mv' I']. exists mv'. now rewrite <- app_assoc in I'.
Qed.

Lemma filter_len {A} (f : A -> bool) l : (length (filter f l) <= length l)%nat.
Proof. induction l as [|x l IH]; cbn; [lia|]. destruct (f x); cbn; lia. Qed.
Lemma content_len k : (length (content k) <= 2)%nat.
Proof. unfold content. destruct (sk_valid k), (sk_tvalid k); cbn; lia. Qed.

(** From the invariant to the specification: the moved beats, less those in the output registers. *)
Lemma inv_merged s tr mv : inv s tr mv -> exists a b, mv = a ++ b /\ merged n use_last (fun q l d => out (route q l d)) tr a /\ (length b <= 2)%nat.
Proof.
  intros I. pose proof (v_out _ _ _ I) as E. set (k := length (delivered tr)). exists (firstn k mv), (skipn k mv). split; [symmetry; apply firstn_skipn|].
  assert (D : map shown (firstn k mv) = delivered tr) by (rewrite <- firstn_map, E; unfold k; rewrite firstn_app, firstn_all, Nat.sub_diag; cbn [firstn]; apply app_nil_r).
  assert (L : (length (skipn k mv) <= 2)%nat).
  { apply (f_equal (@length M)) in E. rewrite map_length, app_length, map_length in E. fold k in E. pose proof (content_len (mx_skid s)). rewrite skipn_length. lia. }
  split; [|assumption]. split.
  - pose proof (v_range _ _ _ I) as R. rewrite <- (firstn_skipn k mv) in R. apply Forall_app in R. apply R.
  - symmetry. exact D.
  - intros q Hq. exists (from q (skipn k mv) ++ (if Z.testbit (mx_valid s) q then [(Z.testbit (mx_last s) q, mx_data s q)] else [])). rewrite app_assoc, <- from_app, firstn_skipn. split; [now apply I|].
    rewrite app_length. unfold from. rewrite map_length. pose proof (filter_len (fun x : @beat S => fst x =? q) (skipn k mv)) as FL. unfold beat in *. destruct (Z.testbit (mx_valid s) q); cbn [length]; lia.
  - intros a x y b EQ. apply (v_frames _ _ _ I a x y (b ++ skipn k mv)). rewrite <- (firstn_skipn k mv) at 1. rewrite EQ, <- app_assoc. reflexivity.
Qed.

Lemma mux_merged ds dm l : Forall (mux_in_ok n) l -> exists src, merged n use_last (fun q l d => out (route q l d)) (mux_trace n rr lsb use_last route out (mux0 ds dm) l) src.
Proof.
  intros F. destruct (inv_run l _ _ _ (inv0 ds dm) F) as [mv I]. destruct (inv_merged _ _ _ I) as (a & b & _ & H & _). now exists a.
Qed.

Lemma mux_stable ds dm l : Forall (mux_in_ok n) l -> stable (mux_trace n rr lsb use_last route out (mux0 ds dm) l).
Proof.
  intros F. assert (G : forall l s tr mv, inv s tr mv -> Forall (mux_in_ok n) l -> stable (mux_trace n rr lsb use_last route out s l)).
  { clear l F. induction l as [|i l IH]; intros s tr mv I F a e1 e2 b E R V O; [destruct a; discriminate|]. inversion F as [|? ? Fi Fl]; subst. cbn [mux_trace] in E.
    destruct a as [|e0 a].
    - injection E as E1 E. subst e1. destruct l as [|i2 l]; [discriminate|]. cbn [mux_trace] in E. injection E as E2 _. subst e2. cbn [mv_rst mv_ovalid mv_oready mv_odata mux_event] in *.
      pose proof (v_arb _ _ _ I) as A. assert (VR : mux_vint s = true -> sk_ready (mx_skid s) = true) by (rewrite vint_eq by assumption; intros H; apply andb_true_iff in H; destruct H as [H _]; apply andb_true_iff in H; apply H).
      cbn [mx_skid mux_step]. rewrite R. destruct (skid_ok (mx_skid s) (mi_ready i) (mux_vint s) (route (as_enc (mx_arb s)) (negb (bsel (mx_last s) (as_enc (mx_arb s)) =? 0)) (mx_data s (as_enc (mx_arb s)))) (v_skid _ _ _ I) VR) as (_ & _ & _ & K).
      destruct (K V O) as [-> ->]. auto.
    - injection E as _ E. apply (IH _ _ _ (inv_step s tr mv i I Fi) Fl a e1 e2 b E R V O). }
  apply (G l _ _ _ (inv0 ds dm) F).
Qed.
End mux.
