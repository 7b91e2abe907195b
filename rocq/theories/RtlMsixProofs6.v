(** The AXI lite interface of the MSI-X module: the invariant (C94). *)
From Verif Require Import PyBase RtlModel RtlProofs RtlFcProofs RtlRamModel RtlMsixModel RtlMsixSpec RtlMsixProofs RtlMsixProofs3 RtlMsixProofs5.

Definition omatch (o : option Z) (x : Z) : Prop := match o with Some r => x = r | None => True end.
Definition held_data (p : mx_param) (a : mx_axil) : Z := psel (if ax_tblv a then ax_tblrd a else ax_pbard a) (if mx_dw p <? 64 then ax_shift a * mx_dw p else 0) (mx_dw p).
Definition expected (p : mx_param) (mem pba : Z -> Z) (a : Z) : option Z :=
  if in_table p a then Some (read_bytes p mem a) else if pba_bytes p a then Some (read_bytes p (byte_of pba) a) else None.
Record axr (p : mx_param) (pi : mx_in) (s : mx_state) (m : ax_mon) : Prop := {
  xr_wide : ax_wide p pi;
  xr_w : ax_wready (ms_axil s) = ax_awready (ms_axil s);
  xr_one : ax_awready (ms_axil s) && ax_arready (ms_axil s) = false;
  xr_mem : forall b, 0 <= b < 2 ^ (mx_w p + 4) -> byte_of (ms_tbl s) b = (if ax_awready (ms_axil s) && in_table p (mi_awaddr pi) then write_bytes p (am_mem m) (mi_awaddr pi) (mi_wdata pi) (mi_wstrb pi) else am_mem m) b;
  xr_b : am_writes m = (if ax_bvalid (ms_axil s) && negb (ax_awready (ms_axil s)) then 1 else 0)%nat;
  xr_b1 : ax_awready (ms_axil s) = true -> ax_bvalid (ms_axil s) = true;
  xr_v : ax_tblv (ms_axil s) && ax_pbav (ms_axil s) = false;
  xr_ar : ax_arready (ms_axil s) = true -> ax_tblv (ms_axil s) || ax_pbav (ms_axil s) = true /\ omatch (expected p (am_mem m) (am_pba m) (mi_araddr pi)) (held_data p (ms_axil s));
  xr_rv : ax_tblv (ms_axil s) || ax_pbav (ms_axil s) = true -> ax_arready (ms_axil s) = false -> ax_rvalid (ms_axil s) = true;
  xr_q : exists e0 e1, am_reads m = (if ax_rvalid (ms_axil s) then [e0] else []) ++ (if (ax_tblv (ms_axil s) || ax_pbav (ms_axil s)) && negb (ax_arready (ms_axil s)) then [e1] else [])
    /\ omatch e0 (ax_rdata (ms_axil s)) /\ ((ax_tblv (ms_axil s) || ax_pbav (ms_axil s)) && negb (ax_arready (ms_axil s)) = true -> omatch e1 (held_data p (ms_axil s))) }.
Definition cont (s : mx_state) (pi i : mx_in) : Prop :=
  (ax_awready (ms_axil s) = true -> mi_awvalid i = true /\ mi_wvalid i = true /\ mi_awaddr i = mi_awaddr pi /\ mi_wdata i = mi_wdata pi /\ mi_wstrb i = mi_wstrb pi)
  /\ (ax_arready (ms_axil s) = true -> mi_arvalid i = true /\ mi_araddr i = mi_araddr pi).

Lemma read_ext p m m' a : ax_ok p -> 0 <= a -> (forall b, 0 <= b < 2 ^ (mx_w p + 4) -> m b = m' b) -> read_bytes p m a = read_bytes p m' a.
Proof.
  intros Hp Ha H. destruct (first_split p a Hp Ha) as (F1 & F2 & F3 & F4 & F5 & F6). unfold read_bytes.
  assert (Hin : forall j, In j (map Z.of_nat (seq 0 (Z.to_nat (mx_dw p / 8)))) -> 0 <= j < mx_sw p).
  { intros j Hj. apply in_map_iff in Hj. destruct Hj as (k & <- & Hk). apply in_seq in Hk. unfold mx_sw in *. lia. }
  revert Hin. induction (map Z.of_nat (seq 0 (Z.to_nat (mx_dw p / 8)))) as [|j l IH]; intros Hin; [reflexivity|]. cbn [fold_right]. rewrite IH by (intros k Hk; apply Hin; right; exact Hk).
  f_equal. f_equal. apply H. rewrite F1. specialize (Hin j (or_introl eq_refl)).
  assert (Hw : 1 <= mx_w p) by apply Hp.
  replace (2 ^ (mx_w p + 4)) with (8 * 2 ^ (mx_w p + 1)) by (change 8 with (2 ^ 3); rewrite <- Z.pow_add_r by lia; f_equal; lia). lia.
Qed.
Lemma write_ext p m m' a d st b : m b = m' b -> write_bytes p m a d st b = write_bytes p m' a d st b.
Proof. intros H. unfold write_bytes. cbv zeta. rewrite H. reflexivity. Qed.
Lemma pba_range p a : ax_ok p -> 0 <= a -> pba_bytes p a = (ax_index p a <? 2 ^ mx_pbw p).
Proof.
  intros Hp Ha. destruct (first_split p a Hp Ha) as (F1 & F2 & F3 & F4 & F5 & F6). unfold pba_bytes. rewrite F1.
  replace (Z.max 0 (mx_w p - 6)) with (mx_pbw p) by (unfold mx_pbw; destruct (Z.ltb_spec 6 (mx_w p)); lia).
  destruct (Z.ltb_spec (8 * ax_index p a + ax_word p a * mx_sw p) (8 * 2 ^ mx_pbw p)), (Z.ltb_spec (ax_index p a) (2 ^ mx_pbw p)); lia.
Qed.
Lemma write_read a i : ax_write a i = true -> ax_read a i = false.
Proof. unfold ax_read. intros ->. reflexivity. Qed.
Lemma write_elig a i : ax_write a i = true -> mi_awvalid i = true /\ mi_wvalid i = true /\ ax_awready a = false /\ ax_wready a = false /\ (ax_bvalid a = false \/ mi_bready i = true).
Proof.
  unfold ax_write, ax_weligible. destruct (mi_awvalid i), (mi_wvalid i), (ax_bvalid a), (mi_bready i), (ax_awready a), (ax_wready a); cbn; intros H; try discriminate; repeat split; auto.
Qed.
Lemma read_elig a i : ax_read a i = true -> mi_arvalid i = true /\ ax_arready a = false /\ (ax_tblv a || ax_pbav a = true -> ax_move a i = true).
Proof.
  unfold ax_read, ax_religible, ax_move. destruct (ax_write a i), (mi_arvalid i), (ax_arready a), (ax_tblv a || ax_pbav a), (ax_rvalid a), (mi_rready i); cbn; intros H; try discriminate; repeat split; auto.
Qed.

Lemma axr_shows p pi s m i : ax_ok p -> axr p pi s m -> cont s pi i -> am_shows p m (mx_event s i).
Proof.
  intros Hp [A0 A1 A2 A3 A4 A5 A6 A7 A8 (e0 & e1 & Q & Q0 & Q1)] [C1 C2]. unfold am_shows, aw_taken, ar_taken. cbn [mx_event mv_in mv_awready mv_arready mv_wready mv_bvalid mv_rvalid mv_rdata mv_tbl].
  assert (Haw : mi_awvalid i && ax_awready (ms_axil s) = ax_awready (ms_axil s)) by (destruct (ax_awready (ms_axil s)); [destruct C1 as [-> _]; reflexivity|apply andb_false_r]).
  assert (Har : mi_arvalid i && ax_arready (ms_axil s) = ax_arready (ms_axil s)) by (destruct (ax_arready (ms_axil s)); [destruct C2 as [-> _]; reflexivity|apply andb_false_r]).
  rewrite Haw, Har. split; [intros E; apply (C1 E)|]. split; [intros E; apply (C2 E)|]. split; [exact A1|]. split; [intros E; apply (C1 E)|]. split; [exact A2|].
  split. { rewrite A4. destruct (ax_awready (ms_axil s)); [rewrite (A5 eq_refl); reflexivity|]. destruct (ax_bvalid (ms_axil s)); reflexivity. }
  split. { rewrite Q. destruct (ax_rvalid (ms_axil s)); [reflexivity|]. destruct (ax_tblv (ms_axil s) || ax_pbav (ms_axil s)); [|reflexivity]. destruct (ax_arready (ms_axil s)); [reflexivity|]. specialize (A8 eq_refl eq_refl). discriminate. }
  split. { intros r q E. rewrite Q in E. destruct (ax_rvalid (ms_axil s)); cbn [app] in E.
    - injection E as -> _. exact Q0.
    - destruct (ax_tblv (ms_axil s) || ax_pbav (ms_axil s)); [|discriminate]. destruct (ax_arready (ms_axil s)); [discriminate|]. specialize (A8 eq_refl eq_refl). discriminate. }
  split. { rewrite Q, app_length. destruct (ax_rvalid (ms_axil s)), ((ax_tblv (ms_axil s) || ax_pbav (ms_axil s)) && negb (ax_arready (ms_axil s))); cbn; lia. }
  intros b Hb. rewrite (A3 b Hb). unfold am_next, aw_taken. cbn [am_mem mx_event mv_in mv_awready]. rewrite Haw. destruct (ax_awready (ms_axil s)); [|reflexivity]. destruct (C1 eq_refl) as (_ & _ & -> & -> & ->). reflexivity.
Qed.
Lemma axr_step p pi s m i : ax_ok p -> ax_wide p i -> mi_rst i = false -> axr p pi s m -> cont s pi i -> axr p i (mx_step p s i) (am_next p m (mx_event s i)).
Proof.
  intros Hp Hwi Hr H HC. pose proof (axr_shows p pi s m i Hp H HC) as (_ & _ & _ & _ & _ & _ & _ & _ & _ & Hmem).
  destruct H as [A0 A1 A2 A3 A4 A5 A6 A7 A8 (e0 & e1 & Q & Q0 & Q1)]. destruct HC as [C1 C2].
  assert (Haw : mi_awvalid i && ax_awready (ms_axil s) = ax_awready (ms_axil s)) by (destruct (ax_awready (ms_axil s)); [destruct C1 as [-> _]; reflexivity|apply andb_false_r]).
  assert (Har : mi_arvalid i && ax_arready (ms_axil s) = ax_arready (ms_axil s)) by (destruct (ax_arready (ms_axil s)); [destruct C2 as [-> _]; reflexivity|apply andb_false_r]).
  set (a := ms_axil s) in *. set (m' := am_next p m (mx_event s i)) in *.
  pose proof Hwi as (W1 & W2 & W3).
  assert (Hst : ms_axil (mx_step p s i) = axil_step p a (ms_tbl s) (ms_pba s) i) by reflexivity.
  assert (E_aw : ax_awready (ms_axil (mx_step p s i)) = ax_write a i) by (rewrite Hst; unfold axil_step; cbn [ax_awready]; rewrite Hr; reflexivity).
  assert (E_w : ax_wready (ms_axil (mx_step p s i)) = ax_write a i) by (rewrite Hst; unfold axil_step; cbn [ax_wready]; rewrite Hr; reflexivity).
  assert (E_ar : ax_arready (ms_axil (mx_step p s i)) = ax_read a i) by (rewrite Hst; unfold axil_step; cbn [ax_arready]; rewrite Hr; reflexivity).
  assert (E_b : ax_bvalid (ms_axil (mx_step p s i)) = ax_write a i || (ax_bvalid a && negb (mi_bready i))) by (rewrite Hst; unfold axil_step; cbn [ax_bvalid]; rewrite Hr; reflexivity).
  assert (E_rv : ax_rvalid (ms_axil (mx_step p s i)) = ax_move a i || (ax_rvalid a && negb (mi_rready i))) by (rewrite Hst; unfold axil_step; cbn [ax_rvalid]; rewrite Hr; reflexivity).
  assert (E_rd : ax_rdata (ms_axil (mx_step p s i)) = if ax_move a i then held_data p a else ax_rdata a) by (rewrite Hst; reflexivity).
  assert (E_t : ax_tblv (ms_axil (mx_step p s i)) = (ax_read a i && negb (ax_top p (mi_araddr i))) || (ax_tblv a && negb (ax_move a i))) by (rewrite Hst; unfold axil_step; cbn [ax_tblv]; rewrite Hr; reflexivity).
  assert (E_p : ax_pbav (ms_axil (mx_step p s i)) = (ax_read a i && negb (negb (ax_top p (mi_araddr i)))) || (ax_pbav a && negb (ax_move a i))) by (rewrite Hst; unfold axil_step; cbn [ax_pbav]; rewrite Hr; reflexivity).
  assert (Hread : ax_read a i = true -> omatch (expected p (am_mem m') (am_pba m') (mi_araddr i)) (held_data p (ms_axil (mx_step p s i)))).
  { intros Er. destruct (read_elig a i Er) as (R1 & R2 & R3).
    assert (Hmv : (ax_tblv a && negb (ax_move a i)) = false). { destruct (ax_tblv a); [|reflexivity]. rewrite R3 by reflexivity. reflexivity. }
    unfold held_data. rewrite E_t, Hmv, Er, orb_false_r. cbn [andb]. rewrite top_table by assumption. rewrite negb_involutive.
    rewrite Hst. unfold axil_step. cbn [ax_shift ax_tblrd ax_pbard]. rewrite Er. cbn [andb]. rewrite top_table by assumption. rewrite negb_involutive. unfold expected.
    destruct (in_table p (mi_araddr i)); cbn [omatch negb].
    - rewrite (read_ext p _ (byte_of (ms_tbl s))) by (try assumption; try lia; intros b Hb; symmetry; apply (Hmem b Hb)). symmetry. apply read_psel; [assumption|lia].
    - rewrite pba_range by (try assumption; lia). unfold pba_get. destruct (_ <? _); [|exact I]. cbn [omatch]. symmetry. apply (read_psel p (ms_pba s)); [assumption|lia]. }
  constructor; try assumption.
  - rewrite E_aw, E_w. reflexivity.
  - rewrite E_aw, E_ar. destruct (ax_write a i) eqn:Ew; [|reflexivity]. rewrite (write_read a i Ew). reflexivity.
  - intros b Hb. rewrite E_aw. unfold mx_step. cbn [ms_tbl]. fold a. rewrite top_table by assumption. rewrite negb_involutive. specialize (Hmem b Hb). cbn [mx_event mv_tbl] in Hmem.
    destruct (ax_write a i && in_table p (mi_awaddr i)) eqn:Ew; [|exact Hmem].
    cbv zeta. rewrite write_merge; try assumption; try lia. apply write_ext. exact Hmem.
  - rewrite E_aw, E_b. unfold m', am_next, aw_taken. cbn [am_writes mx_event mv_in mv_awready mv_bvalid]. fold a. rewrite Haw, A4. destruct (ax_write a i) eqn:Ew.
    + destruct (write_elig a i Ew) as (_ & _ & Ea & _ & Eb). rewrite Ea. cbn [negb andb orb]. destruct Eb as [-> | ->]; [reflexivity|]. destruct (ax_bvalid a); reflexivity.
    + cbn [negb orb andb]. destruct (ax_awready a); [rewrite (A5 eq_refl)|]; destruct (ax_bvalid a); destruct (mi_bready i); reflexivity.
  - rewrite E_aw, E_b. intros ->. reflexivity.
  - rewrite E_t, E_p. destruct (ax_read a i) eqn:Er.
    + destruct (read_elig a i Er) as (R1 & R2 & R3). destruct (ax_tblv a), (ax_pbav a); cbn [orb] in R3; try rewrite R3 by reflexivity; destruct (ax_top p (mi_araddr i)); try reflexivity; discriminate.
    + cbn [andb orb]. destruct (ax_tblv a), (ax_pbav a), (ax_move a i); try reflexivity; discriminate.
  - rewrite E_ar. intros Er. split; [|apply Hread; exact Er]. rewrite E_t, E_p, Er. destruct (ax_top p (mi_araddr i)); cbn; rewrite ?orb_true_r; reflexivity.
  - rewrite E_ar, E_t, E_p, E_rv. intros Ev Er. rewrite Er in Ev. cbn [andb orb] in Ev. unfold ax_move in *. destruct (ax_tblv a || ax_pbav a) eqn:Etp; cbn [andb] in *.
    + destruct (ax_rvalid a) eqn:Ev2; cbn [negb orb andb] in *; [|reflexivity]. destruct (mi_rready i); reflexivity.
    + apply orb_false_elim in Etp. destruct Etp as [E1 E2]. rewrite E1, E2 in Ev. discriminate.
  - rewrite E_ar. unfold m', am_next, ar_taken. cbn [am_reads mx_event mv_in mv_arready mv_rvalid]. fold a. rewrite Har.
    assert (Hpv : (ax_tblv (ms_axil (mx_step p s i)) || ax_pbav (ms_axil (mx_step p s i))) && negb (ax_read a i) = (ax_tblv a || ax_pbav a) && negb (ax_move a i) && negb (ax_read a i)).
    { rewrite E_t, E_p. destruct (ax_read a i); [rewrite !andb_false_r; reflexivity|]. cbn [andb orb negb]. rewrite !andb_true_r. destruct (ax_tblv a), (ax_pbav a), (ax_move a i); reflexivity. }
    rewrite Hpv, E_rv, E_rd.
    assert (Hhd : (ax_tblv a || ax_pbav a) && negb (ax_move a i) && negb (ax_read a i) = true -> held_data p (ms_axil (mx_step p s i)) = held_data p a).
    { intros E. apply andb_prop in E. destruct E as [E Er]. apply andb_prop in E. destruct E as [E Em]. apply negb_true_iff in Er. apply negb_true_iff in Em. unfold held_data. rewrite E_t, Er, Em. cbn [andb orb negb]. rewrite andb_true_r.
      rewrite Hst. unfold axil_step. cbn [ax_shift ax_tblrd ax_pbard]. rewrite Er. reflexivity. }
    change (if in_table p (mi_araddr i) then Some (read_bytes p (am_mem m) (mi_araddr i)) else if pba_bytes p (mi_araddr i) then Some (read_bytes p (byte_of (am_pba m)) (mi_araddr i)) else None) with (expected p (am_mem m) (am_pba m) (mi_araddr i)).
    destruct (ax_arready a) eqn:Ear.
    + destruct (A7 eq_refl) as [A7a A7b]. destruct (C2 eq_refl) as [_ C2b]. rewrite C2b. rewrite A7a in *. cbn [andb negb] in Q, Q1. rewrite app_nil_r in Q. rewrite Q.
      assert (Ern : ax_read a i = false). { destruct (ax_read a i) eqn:Er; [|reflexivity]. destruct (read_elig a i Er) as (_ & R2 & _). congruence. }
      rewrite Ern in *. unfold ax_move in *. rewrite A7a in *. cbn [andb negb] in *. destruct (ax_rvalid a); cbn [andb negb orb] in *.
      * destruct (mi_rready i); cbn [andb negb orb tl app] in *.
        -- exists (expected p (am_mem m) (am_pba m) (mi_araddr pi)), None. repeat split; auto; try discriminate.
        -- exists e0, (expected p (am_mem m) (am_pba m) (mi_araddr pi)). repeat split; auto. intros _. rewrite Hhd by reflexivity. exact A7b.
      * cbn [app]. exists (expected p (am_mem m) (am_pba m) (mi_araddr pi)), None. repeat split; auto; try discriminate.
    + cbn [negb andb] in *. rewrite andb_true_r in *. rewrite app_nil_r. rewrite Q. unfold ax_move in *. destruct (ax_tblv a || ax_pbav a) eqn:Etp; cbn [andb negb orb] in *.
      * specialize (A8 eq_refl eq_refl). rewrite A8 in *. cbn [andb negb orb app] in *. destruct (mi_rready i) eqn:Err; cbn [andb negb orb tl app] in *.
        -- exists e1, None. repeat split; auto; try discriminate.
        -- assert (Ern : ax_read a i = false). { destruct (ax_read a i) eqn:Er; [|reflexivity]. destruct (read_elig a i Er) as (_ & _ & R3). unfold ax_move in R3. rewrite Etp, A8, Err in R3. specialize (R3 eq_refl). cbn in R3. discriminate. }
           rewrite Ern in *. cbn [negb andb app] in *. exists e0, e1. repeat split; auto. intros _. rewrite Hhd by reflexivity. apply Q1. reflexivity.
      * destruct (ax_rvalid a); cbn [andb negb orb app] in *; [destruct (mi_rready i); cbn [andb negb orb tl app] in *|]; exists e0, None; repeat split; auto; try discriminate.
        all: exact I.
Qed.

Definition mi_idle0 : mx_in := mkMi false 0 false 0 0 false true 0 false true 0 false true 0 true false.
Lemma held_tail e tr : ax_held (e :: tr) -> ax_held tr.
Proof. intros H a e1 e2 b E. apply (H (e :: a) e1 e2 b). rewrite E. reflexivity. Qed.
Lemma cont_next p s pi m i j l : axr p pi s m -> mi_rst i = false -> ax_held (mx_trace p s (i :: j :: l)) -> cont (mx_step p s i) i j.
Proof.
  intros H Hr Hh. destruct (Hh [] _ _ _ eq_refl) as (H1 & H2 & H3). cbn [mx_event mv_in mv_awready mv_wready mv_arready] in *.
  assert (E_aw : ax_awready (ms_axil (mx_step p s i)) = ax_write (ms_axil s) i) by (unfold mx_step, axil_step; cbn [ms_axil ax_awready]; rewrite Hr; reflexivity).
  assert (E_ar : ax_arready (ms_axil (mx_step p s i)) = ax_read (ms_axil s) i) by (unfold mx_step, axil_step; cbn [ms_axil ax_arready]; rewrite Hr; reflexivity).
  split.
  - rewrite E_aw. intros Ew. destruct (write_elig _ _ Ew) as (W1 & W2 & W3 & W4 & _). destruct (H1 W1 W3) as [? ?]. destruct (H2 W2 W4) as (? & ? & ?). auto.
  - rewrite E_ar. intros Er. destruct (read_elig _ _ Er) as (R1 & R2 & _). auto.
Qed.
Lemma checks_all p l : ax_ok p -> forall s pi m, (forall i, In i l -> ax_wide p i /\ mi_rst i = false) -> axr p pi s m -> (forall i r, l = i :: r -> cont s pi i) -> ax_held (mx_trace p s l) -> am_checks p m (mx_trace p s l).
Proof.
  intros Hp. induction l as [|i l IH]; intros s pi m Hl H HC Hh; [exact I|]. cbn [mx_trace am_checks]. specialize (HC i l eq_refl). split; [apply (axr_shows p pi s m i Hp H HC)|].
  destruct (Hl i (or_introl eq_refl)) as [Hw Hr]. apply (IH _ i).
  - intros j Hj. apply Hl. right. exact Hj.
  - apply (axr_step p pi); auto.
  - intros j r ->. apply (cont_next p s pi m i j r H Hr). exact Hh.
  - apply (held_tail _ _ Hh).
Qed.
Lemma fresh_regs p s : ax_fresh p s -> ax_awready (ms_axil s) = false /\ ax_wready (ms_axil s) = false /\ ax_bvalid (ms_axil s) = false /\ ax_arready (ms_axil s) = false /\ ax_rvalid (ms_axil s) = false
  /\ ax_tblv (ms_axil s) = false /\ ax_pbav (ms_axil s) = false.
Proof.
  intros [->|(h & r & -> & Hr)]; [repeat split|]. unfold mx_run. rewrite fold_left_app. cbn [fold_left]. unfold mx_step, axil_step. cbn [ms_axil]. rewrite Hr. cbn. repeat split.
Qed.
Lemma memory_ok p s l : ax_ok p -> ax_fresh p s -> (forall i, In i l -> ax_wide p i /\ mi_rst i = false) -> ax_held (mx_trace p s l) ->
  am_checks p (mkAm (byte_of (ms_tbl s)) [] 0 (ms_pba s)) (mx_trace p s l).
Proof.
  intros Hp Hf Hl Hh. destruct (fresh_regs p s Hf) as (F1 & F2 & F3 & F4 & F5 & F6 & F7). apply (checks_all p l Hp s (mi_idle0) _); auto.
  - constructor; rewrite ?F1, ?F2, ?F3, ?F4, ?F5, ?F6, ?F7; cbn; auto; try discriminate.
    + destruct Hp as (Hw & Haw & Hd). unfold ax_wide. cbn. assert (0 < 2 ^ mx_aw p) by (apply Z.pow_pos_nonneg; lia). assert (0 < 2 ^ (mx_dw p / 8)) by (apply Z.pow_pos_nonneg; [lia|]; destruct Hd as [Hd|[Hd|[Hd|Hd]]]; rewrite Hd; discriminate). lia.
    + exists None, None. repeat split.
  - intros i r _. split; congruence.
Qed.

(** Answers are kept; requests are served. *)
Lemma trace_split p : forall l s a b, mx_trace p s l = a ++ b -> exists l1 l2, l = l1 ++ l2 /\ a = mx_trace p s l1 /\ b = mx_trace p (mx_run p s l1) l2.
Proof.
  induction l as [|i l IH]; intros s a b H.
  - cbn in H. symmetry in H. apply app_eq_nil in H. destruct H as [-> ->]. exists [], []. auto.
  - destruct a as [|e a]; [exists [], (i :: l); auto|]. cbn [mx_trace app] in H. injection H as <- H. destruct (IH _ _ _ H) as (l1 & l2 & -> & -> & ->). exists (i :: l1), l2. auto.
Qed.
Lemma kept_ok p l s : r_kept_ax (mx_trace p s l).
Proof.
  intros a e1 e2 b E Hr Hv Hn. destruct (trace_split p l s a (e1 :: e2 :: b) E) as (l1 & l2 & _ & _ & E2). set (t := mx_run p s l1) in *. clearbody t.
  destruct l2 as [|i [|j l2]]; try discriminate. cbn [mx_trace] in E2. injection E2 as -> -> _. cbn [mx_event mv_in mv_rvalid mv_rdata] in *. unfold mx_step, axil_step. cbn [ms_axil ax_rvalid ax_rdata]. rewrite Hr.
  assert (Hm : ax_move (ms_axil t) i = false) by (unfold ax_move; rewrite Hv, Hn; apply andb_false_r). rewrite Hm, Hv, Hn. split; reflexivity.
Qed.
Lemma wready_step p s i : ax_wready (ms_axil (mx_step p s i)) = ax_awready (ms_axil (mx_step p s i)).
Proof. unfold mx_step, axil_step. cbn [ms_axil ax_wready ax_awready]. reflexivity. Qed.
Lemma wready_run p l : forall s, ax_wready (ms_axil s) = ax_awready (ms_axil s) -> ax_wready (ms_axil (mx_run p s l)) = ax_awready (ms_axil (mx_run p s l)).
Proof. induction l as [|i l IH]; intros s H; [exact H|]. apply (IH (mx_step p s i)). apply wready_step. Qed.
Lemma step_flags p s i : mi_rst i = false -> let a := ms_axil s in let a' := ms_axil (mx_step p s i) in
  ax_awready a' = ax_write a i /\ ax_wready a' = ax_write a i /\ ax_arready a' = ax_read a i /\ ax_last a' = (if ax_write a i then false else if ax_read a i then true else ax_last a).
Proof. intros Hr. unfold mx_step, axil_step. cbn [ms_axil ax_awready ax_wready ax_arready ax_last]. rewrite Hr. auto. Qed.
Lemma aw_ok p l : aw_served (mx_trace p mx0 l).
Proof.
  intros a e1 e2 e3 b E H. destruct (trace_split p l mx0 a _ E) as (l1 & l2 & _ & _ & E2). pose proof (wready_run p l1 mx0 eq_refl) as Hw. set (t := mx_run p mx0 l1) in *. clearbody t.
  destruct l2 as [|i [|j [|k l2]]]; try discriminate. cbn [mx_trace] in E2. injection E2 as -> -> -> _.
  destruct (H _ (or_introl eq_refl)) as (I1 & I2 & I3 & I4 & I5). destruct (H _ (or_intror (or_introl eq_refl))) as (J1 & J2 & J3 & J4 & J5). cbn [mx_event mv_in] in *.
  destruct (ax_awready (ms_axil t)) eqn:E0; [exists (mx_event t i); split; [left; reflexivity|exact E0]|].
  pose proof (step_flags p t i I1) as (S1 & S2 & S3 & S4). pose proof (step_flags p (mx_step p t i) j J1) as (T1 & T2 & T3 & T4).
  destruct (ax_write (ms_axil t) i) eqn:W1; [exists (mx_event (mx_step p t i) j); split; [right; left; reflexivity|exact S1]|].
  exists (mx_event (mx_step p (mx_step p t i) j) k). split; [right; right; left; reflexivity|]. cbn [mx_event mv_awready]. rewrite T1.
  assert (El : ax_weligible (ms_axil t) i = true) by (unfold ax_weligible; rewrite I2, I3, I4, Hw, E0, orb_true_r; reflexivity).
  assert (Rd : ax_read (ms_axil t) i = true).
  { unfold ax_read. rewrite W1. unfold ax_write in W1. rewrite El in W1. destruct (ax_religible (ms_axil t) i); [reflexivity|discriminate]. }
  unfold ax_write. unfold ax_weligible. rewrite J2, J3, J4, S1, S2, orb_true_r. cbn [andb negb]. unfold ax_religible. rewrite S3, Rd. cbn [negb]. rewrite andb_false_r. reflexivity.
Qed.
Lemma ar_ok p l : ar_served (mx_trace p mx0 l).
Proof.
  intros a e1 e2 e3 b E H. destruct (trace_split p l mx0 a _ E) as (l1 & l2 & _ & _ & E2). set (t := mx_run p mx0 l1) in *. clearbody t.
  destruct l2 as [|i [|j [|k l2]]]; try discriminate. cbn [mx_trace] in E2. injection E2 as -> -> -> _.
  destruct (H _ (or_introl eq_refl)) as (I1 & I2 & I4 & I5). destruct (H _ (or_intror (or_introl eq_refl))) as (J1 & J2 & J4 & J5). cbn [mx_event mv_in] in *.
  destruct (ax_arready (ms_axil t)) eqn:E0; [exists (mx_event t i); split; [left; reflexivity|exact E0]|].
  pose proof (step_flags p t i I1) as (S1 & S2 & S3 & S4). pose proof (step_flags p (mx_step p t i) j J1) as (T1 & T2 & T3 & T4).
  destruct (ax_read (ms_axil t) i) eqn:R1; [exists (mx_event (mx_step p t i) j); split; [right; left; reflexivity|exact S3]|].
  exists (mx_event (mx_step p (mx_step p t i) j) k). split; [right; right; left; reflexivity|]. cbn [mx_event mv_arready]. rewrite T3.
  assert (El : ax_religible (ms_axil t) i = true) by (unfold ax_religible; rewrite I2, I5, E0, orb_true_r; reflexivity).
  assert (Wr : ax_write (ms_axil t) i = true) by (unfold ax_read in R1; rewrite El in R1; destruct (ax_write (ms_axil t) i); [reflexivity|discriminate]).
  unfold ax_read, ax_write. unfold ax_weligible. rewrite S1, S2, Wr. cbn [negb andb]. rewrite !andb_false_r. cbn [andb negb]. unfold ax_religible. rewrite J2, J5, S3, orb_true_r. reflexivity.
Qed.
Lemma tlp_kept_ok p l s : tlp_kept (mx_trace p s l).
Proof.
  intros a e1 e2 b m E Hr Hn Hm. destruct (trace_split p l s a (e1 :: e2 :: b) E) as (l1 & l2 & _ & _ & E2). set (t := mx_run p s l1) in *. clearbody t.
  destruct l2 as [|i [|j l2]]; try discriminate. cbn [mx_trace] in E2. injection E2 as -> -> _. unfold offered in *. cbn [mx_event mv_in mv_txvalid mv_txhdr mv_txdata] in *.
  destruct (co_txvalid (ms_core t)) eqn:Ev; [|discriminate]. rewrite step_core by exact Hr. cbv zeta. cbn [co_txvalid co_txhdr co_txdata].
  assert (Hd : do_tx (core_next p (ms_core t) i) = None).
  { unfold core_next. cbv zeta. destruct (co_st (ms_core t)); try reflexivity.
    - destruct (mi_valid i && co_ready (ms_core t)); [reflexivity|]. destruct (negb (mi_valid i) && co_enable (ms_core t) && negb (co_mask (ms_core t))); [|reflexivity]. destruct (_ =? 1); reflexivity.
    - destruct (co_enable (ms_core t) && negb (co_mask (ms_core t)) && negb (bsel (co_tblrd (ms_core t)) 32 =? 1)); reflexivity.
    - rewrite Ev, Hn. reflexivity. }
  rewrite Hd, Ev, Hn. exact Hm.
Qed.

(** Deciding that requests are held. *)
Definition keepb (e1 e2 : mx_ev) : bool :=
  (negb (mi_awvalid (mv_in e1)) || mv_awready e1 || (mi_awvalid (mv_in e2) && (mi_awaddr (mv_in e2) =? mi_awaddr (mv_in e1))))
  && (negb (mi_wvalid (mv_in e1)) || mv_wready e1 || (mi_wvalid (mv_in e2) && (mi_wdata (mv_in e2) =? mi_wdata (mv_in e1)) && (mi_wstrb (mv_in e2) =? mi_wstrb (mv_in e1))))
  && (negb (mi_arvalid (mv_in e1)) || mv_arready e1 || (mi_arvalid (mv_in e2) && (mi_araddr (mv_in e2) =? mi_araddr (mv_in e1)))).
Fixpoint heldb (tr : list mx_ev) : bool := match tr with e1 :: ((e2 :: _) as r) => keepb e1 e2 && heldb r | _ => true end.
Lemma heldb_ok tr : heldb tr = true -> ax_held tr.
Proof.
  intros H a e1 e2 b ->. induction a as [|e a IH].
  - cbn [app heldb] in H. apply andb_prop in H. destruct H as [H _]. unfold keepb in H. apply andb_prop in H. destruct H as [H H3]. apply andb_prop in H. destruct H as [H1 H2]. repeat split; intros.
    all: repeat match goal with E : _ = true |- _ => rewrite E in * | E : _ = false |- _ => rewrite E in * end; cbn in *; repeat match goal with E : _ && _ = true |- _ => apply andb_prop in E; destruct E end; try assumption; apply Z.eqb_eq; assumption.
  - apply IH. destruct a as [|e' a]; cbn [app heldb] in *; apply andb_prop in H; apply H.
Qed.
