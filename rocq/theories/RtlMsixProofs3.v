(** Delivery by the MSI-X module (C96). *)
From Verif Require Import PyBase RtlModel RtlProofs RtlFcProofs RtlRamModel RtlMsixModel RtlMsixSpec RtlMsixProofs RtlMsixProofs2.

Definition openv (v : Z) (n : mon) : Prop := Z.testbit (n_pend n) v = true \/ exists j, n_job n = Some j /\ j_vec j = v.
Definition dist (p : mx_param) (v idx : Z) : Z := (v - idx) mod 2 ^ mx_w p.
Definition mu (p : mx_param) (v : Z) (c : mx_core) : Z :=
  let D := 2 ^ mx_w p in let d := dist p v (co_index c) in let on := co_enable c && negb (co_mask c) in
  match co_st c with
  | Idle => (if negb (Z.testbit (co_pbard c) (co_index c mod 64)) && (co_index c =? v) then 5 * D + 5 else 5 * d + 4) + (if on then 0 else 1)
  | ReadTbl1 => 5 * d + 3
  | ReadTbl2 => if on && negb (Z.testbit (co_tblrd c) 32) then 5 * d + 2 else 5 * D + 7
  | SendTlp => 5 * d + 1
  end.
Lemma dist_range p v x : mx_ok p -> 0 <= dist p v x < 2 ^ mx_w p.
Proof. intros Hp. unfold mx_ok in Hp. apply Z.mod_pos_bound. apply Z.pow_pos_nonneg; lia. Qed.
Lemma mu_bound p v c : mx_ok p -> 0 < mu p v c <= 5 * 2 ^ mx_w p + 7.
Proof.
  intros Hp. pose proof (dist_range p v (co_index c) Hp) as H. unfold mu. cbv zeta. destruct (co_st c); [| |destruct (_ && _)|]; try lia.
  destruct (negb _ && _), (_ && _); lia.
Qed.
Lemma dist_small p v x : 0 <= v < 2 ^ mx_w p -> 0 <= x < 2 ^ mx_w p -> dist p v x = if x <=? v then v - x else v - x + 2 ^ mx_w p.
Proof.
  intros Hv Hx. unfold dist. destruct (Z.leb_spec x v); [apply Z.mod_small; lia|]. rewrite <- (Z.mod_add _ 1) by lia. rewrite Z.mul_1_l. apply Z.mod_small. lia.
Qed.
Lemma dist_succ p v x : mx_ok p -> 0 <= v < 2 ^ mx_w p -> 0 <= x < 2 ^ mx_w p -> x <> v -> dist p v ((x + 1) mod 2 ^ mx_w p) = dist p v x - 1.
Proof.
  intros Hp Hv Hx Hne. assert (0 <= (x + 1) mod 2 ^ mx_w p < 2 ^ mx_w p) by (apply Z.mod_pos_bound; lia). rewrite !dist_small by assumption.
  destruct (Z_lt_le_dec (x + 1) (2 ^ mx_w p)).
  - rewrite (Z.mod_small (x + 1)) by lia. destruct (Z.leb_spec x v), (Z.leb_spec (x + 1) v); lia.
  - replace (x + 1) with (2 ^ mx_w p) by lia. rewrite Z.mod_same by lia. destruct (Z.leb_spec x v), (Z.leb_spec 0 v); lia.
Qed.
Lemma grp_mask W x : 7 <= W -> 0 <= x < 2 ^ W -> Z.land x (Z.shiftl (Z.ones W) 6 mod 2 ^ Z.max W 7) = 64 * (x / 64).
Proof.
  intros HW Hx. replace (64 * (x / 64)) with (Z.shiftl (Z.shiftr x 6) 6) by (rewrite Z.shiftl_mul_pow2, Z.shiftr_div_pow2 by lia; change (2 ^ 6) with 64; lia).
  apply Z.bits_inj'. intros i Hi. rewrite Z.land_spec, Z.shiftl_spec by lia. rewrite Z.max_l by lia.
  destruct (Z_lt_le_dec i W) as [Hl|Hl].
  - rewrite Z.mod_pow2_bits_low by lia. rewrite Z.shiftl_spec by lia. destruct (Z_lt_le_dec i 6).
    + rewrite !(Z.testbit_neg_r _ (i - 6)) by lia. apply andb_false_r.
    + rewrite Z.shiftr_spec by lia. rewrite Z.ones_spec_low by lia. rewrite andb_true_r. f_equal. lia.
  - rewrite Z.mod_pow2_bits_high by lia. rewrite andb_false_r. symmetry. destruct (Z_lt_le_dec i 6); [apply Z.testbit_neg_r; lia|]. rewrite Z.shiftr_spec by lia. replace (i - 6 + 6) with i by lia.
    rewrite <- (Z.mod_small x (2 ^ W)) by lia. apply Z.mod_pow2_bits_high. lia.
Qed.
Lemma dist_skip p v x : mx_ok p -> 0 <= v < 32 -> v < 2 ^ mx_w p -> 0 <= x < 2 ^ mx_w p -> x / 64 <> 0 ->
  dist p v ((Z.land x (Z.shiftl (Z.ones (mx_w p)) 6 mod 2 ^ Z.max (mx_w p) 7) + 64) mod 2 ^ mx_w p) < dist p v x.
Proof.
  intros Hp Hv Hvw Hx Hg. unfold mx_ok in Hp. assert (Hx64 : 64 <= x). { destruct (Z_lt_le_dec x 64); [|lia]. exfalso. apply Hg. apply Z.div_small. lia. }
  assert (HW : 7 <= mx_w p). { destruct (Z_lt_le_dec (mx_w p) 7); [|lia]. assert (2 ^ mx_w p <= 2 ^ 6) by (apply Z.pow_le_mono_r; lia). change (2 ^ 6) with 64 in *. lia. }
  rewrite grp_mask by assumption. set (y := 64 * (x / 64) + 64).
  assert (Hy : x < y <= 2 ^ mx_w p).
  { unfold y. pose proof (Z.div_mod x 64 ltac:(lia)). pose proof (Z.mod_pos_bound x 64 ltac:(lia)). split; [lia|].
    assert (E : 2 ^ mx_w p = 64 * 2 ^ (mx_w p - 6)) by (change 64 with (2 ^ 6); rewrite <- Z.pow_add_r by lia; f_equal; lia).
    assert (x / 64 < 2 ^ (mx_w p - 6)) by (apply Z.div_lt_upper_bound; lia). lia. }
  assert (0 <= y mod 2 ^ mx_w p < 2 ^ mx_w p) by (apply Z.mod_pos_bound; lia). rewrite !dist_small by lia.
  destruct (Z.eq_dec y (2 ^ mx_w p)) as [->|].
  - rewrite Z.mod_same by lia. destruct (Z.leb_spec x v), (Z.leb_spec 0 v); lia.
  - rewrite (Z.mod_small y) by lia. destruct (Z.leb_spec x v), (Z.leb_spec y v); lia.
Qed.

Lemma step_core p s i : mi_rst i = false -> ms_core (mx_step p s i) =
  let d := core_next p (ms_core s) i in let c := ms_core s in
  mkCo (do_st d) (do_index d) (do_addr d) (do_data d) (do_vmask d) (do_ready d)
    (match do_tx d with Some (_, x) => x | None => co_txdata c end) (match do_tx d with Some (h, _) => h | None => co_txhdr c end)
    (match do_tx d with Some _ => true | None => co_txvalid c && negb (mi_ready i) end) (mi_enable i) (mi_mask i)
    (match do_tbl d with Some a => ms_tbl s a | None => co_tblrd c end)
    (match do_pba_wr d, do_pba_rd d with None, Some a => pba_get p (ms_pba s) a | _, _ => co_pbard c end).
Proof. intros Hr. unfold mx_step, core_step. cbn [ms_core]. rewrite Hr. reflexivity. Qed.

Lemma mu_step p n s i v : mx_ok p -> mx_wide p i -> mx_low i -> mrel p n s -> lively i -> (forall u, entry_masked (ms_tbl s) u = false) -> lowv p v -> openv v n ->
  let n' := next (mx_force p) n (mx_event s i) (act_of (ms_core s) i) in let s' := mx_step p s i in
  ~ openv v n' \/ mu p v (ms_core s') < mu p v (ms_core s) \/ (mi_ready i = false /\ mu p v (ms_core s') = mu p v (ms_core s)).
Proof.
  intros Hp Hw Hl H (Lr & Lv & Le & Lm) Hma Hv Ho n' s'. pose proof H as [H1 H2 H3 H4 H5 H6 H7 H8]. unfold core_rel in H8.
  assert (Hv2 := low_idx _ _ Hv). destruct Hv as [Hv Hvw]. destruct (mod64 v Hv) as (V1 & V2 & _).
  set (c := ms_core s) in *. assert (Hon' : mi_enable i && negb (mi_mask i) = true) by (rewrite Le, Lm; reflexivity).
  unfold s'. rewrite step_core by exact Lr. cbv zeta. fold c. destruct (co_st c) eqn:Est.
  - destruct H8 as (Hj & Hb & Hz). right. left.
    assert (Hpv : Z.testbit (n_pend n) v = true) by (destruct Ho as [Ho|(j & E & _)]; [exact Ho|congruence]).
    unfold mu at 2. rewrite Est. cbv zeta. destruct (co_enable c && negb (co_mask c)) eqn:Eon.
    2:{ assert (Hn : core_next p c i = mkDo Idle (co_index c) (co_addr c) (co_data c) (co_vmask c) true None None None None) by (unfold core_next; rewrite Est, Lv; cbn [andb negb]; rewrite Eon; reflexivity).
        rewrite Hn. unfold mu. cbn [co_st do_st co_index do_index co_pbard do_pba_wr do_pba_rd co_enable co_mask]. cbv zeta. rewrite Hon'. lia. }
    destruct (Z.testbit (co_pbard c) (co_index c mod 64)) eqn:Et.
    + assert (Hn : core_next p c i = mkDo ReadTbl1 (co_index c) (co_addr c) (co_data c) (co_vmask c) false None (Some (co_index c * 2)) (Some (pba_addr p (co_index c / 2 ^ 6))) None).
      { unfold core_next. rewrite Est, Lv. cbn [andb negb]. rewrite Eon. rewrite land63 by lia. rewrite bsel_eqb by (apply Z.mod_pos_bound; lia). rewrite Et. reflexivity. }
      rewrite Hn. unfold mu. cbn [co_st do_st co_index do_index negb andb]. cbv zeta. lia.
    + set (x := (if negb (co_pbard c =? 0) then co_index c + 1 else Z.land (co_index c) (Z.shiftl (Z.ones (mx_w p)) 6 mod 2 ^ Z.max (mx_w p) 7) + 64) mod 2 ^ mx_w p).
      assert (Hx : 0 <= x < 2 ^ mx_w p) by (apply Z.mod_pos_bound; lia).
      assert (Hn : core_next p c i = mkDo Idle x (co_addr c) (co_data c) (co_vmask c) true None None (Some (pba_addr p (x / 2 ^ 6))) None).
      { unfold core_next. rewrite Est, Lv. cbn [andb negb]. rewrite Eon. rewrite land63 by lia. rewrite bsel_eqb by (apply Z.mod_pos_bound; lia). rewrite Et. reflexivity. }
      rewrite Hn. unfold mu. cbn [co_st do_st co_index do_index co_pbard do_pba_wr do_pba_rd co_enable co_mask negb andb]. cbv zeta. rewrite Hon'. rewrite (read_grp p n s x H Hx).
      assert (Hfresh : negb (Z.testbit (grp (n_pend n) x) (x mod 64)) && (x =? v) = false).
      { destruct (Z.eqb_spec x v) as [->|]; [|apply andb_false_r]. unfold grp. rewrite V1, V2. cbn [Z.eqb]. rewrite Hpv. reflexivity. }
      rewrite Hfresh. pose proof (dist_range p v x Hp) as Hd. destruct (Z.eqb_spec (co_index c) v) as [E|E]; [lia|].
      assert (Hd2 : dist p v x < dist p v (co_index c)).
      { unfold x. destruct (Z.eqb_spec (co_pbard c) 0) as [E0|E0]; cbn [negb].
        - apply dist_skip; auto. intros Eg. destruct (Hz Eg E0) as [Q|Q]; [rewrite Q, Z.bits_0 in Hpv; discriminate|].
          rewrite Q in Hpv. rewrite Z.pow2_bits_false in Hpv by lia. discriminate.
        - rewrite dist_succ by auto. lia. }
      lia.
  - right. left.
    assert (Hn : core_next p c i = mkDo ReadTbl2 (co_index c) (psel (co_tblrd c) 2 62 * 4) (co_data c) (co_vmask c) false None (Some (co_index c * 2 + 1)) None None) by (unfold core_next; rewrite Est; reflexivity).
    rewrite Hn. unfold mu. rewrite Est. cbn [co_st do_st co_index do_index do_tbl co_tblrd co_enable co_mask]. cbv zeta. rewrite Hon'.
    specialize (Hma (co_index c)). unfold entry_masked in Hma. rewrite (Z.mul_comm 2) in Hma. rewrite Hma. cbn [negb andb]. lia.
  - destruct H8 as (j & Hj & Ha & Hjv & Hlo & Hr & Hpb & Had & Hja & Hda & Hmk). destruct (mod64 (co_index c) (proj1 Hlo)) as (M1 & M2 & M3 & M4). right. left.
    unfold mu at 2. rewrite Est. cbv zeta. destruct (co_enable c && negb (co_mask c) && negb (Z.testbit (co_tblrd c) 32)) eqn:Ee.
    + assert (Hn : core_next p c i = mkDo SendTlp (co_index c) (co_addr c) (psel (co_tblrd c) 0 32) (Z.testbit (co_tblrd c) 32) false None None None None).
      { unfold core_next. rewrite Est. rewrite bsel_eqb by lia. cbv zeta. rewrite Ee. reflexivity. }
      rewrite Hn. unfold mu. cbn [co_st do_st co_index do_index]. cbv zeta. lia.
    + assert (Hn : exists w, core_next p c i = mkDo Idle (co_index c) (co_addr c) (psel (co_tblrd c) 0 32) (Z.testbit (co_tblrd c) 32) true None None None (Some w)).
      { unfold core_next. rewrite Est. rewrite bsel_eqb by lia. cbv zeta. rewrite Ee. eexists. reflexivity. }
      destruct Hn as [w Hn]. rewrite Hn. unfold mu. cbn [co_st do_st co_index do_index co_pbard do_pba_wr do_pba_rd co_enable co_mask]. cbv zeta. rewrite Hon'.
      pose proof (dist_range p v (co_index c) Hp). destruct (negb _ && _); lia.
  - destruct H8 as (j & Hj & Ha & Hjv & Hlo & Hr & Hpb & Had & Hja & Hda). destruct (mod64 (co_index c) (proj1 Hlo)) as (M1 & M2 & M3 & M4).
    unfold mu at 2 4. rewrite Est. cbv zeta. destruct (negb (co_txvalid c) || mi_ready i) eqn:Ee.
    + assert (Hn : exists w t, core_next p c i = mkDo Idle ((co_index c + 1) mod 2 ^ mx_w p) (co_addr c) (co_data c) (co_vmask c) true t None None (Some w)).
      { unfold core_next. rewrite Est. rewrite Ee. do 2 eexists. reflexivity. }
      destruct Hn as (w & t & Hn). rewrite Hn. unfold mu. cbn [co_st do_st co_index do_index co_pbard do_pba_wr do_pba_rd co_enable co_mask]. cbv zeta. rewrite Hon'.
      destruct (Z.eq_dec (co_index c) v) as [E|E].
      * left. unfold n', act_of. fold c. rewrite Est, Ee. unfold next. cbn [mx_event mv_in]. unfold openv. cbn [n_pend n_job]. rewrite Lr. rewrite E. rewrite Z.clearbit_eq.
        intros [Q|(j' & Q & _)]; discriminate.
      * right. left. assert (Hpv : Z.testbit (n_pend n) v = true) by (destruct Ho as [Ho|(j' & E' & Q)]; [exact Ho|congruence]).
        assert (Hlt : 0 <= (co_index c + 1) mod 2 ^ mx_w p <= 32).
        { split; [apply Z.mod_pos_bound; lia|]. transitivity (co_index c + 1); [apply Z.mod_le; lia|]. destruct Hlo. lia. }
        rewrite (dist_succ p v (co_index c)) by auto. set (x := (co_index c + 1) mod 2 ^ mx_w p) in *. clearbody x. rewrite (Z.mod_small x 64) by lia. rewrite Hpb.
        destruct (Z.eqb_spec x v) as [->|]; [rewrite Hpv; cbn [negb andb]; lia|rewrite andb_false_r; lia].
    + right. right. apply orb_false_elim in Ee. destruct Ee as [Ee Er]. split; [exact Er|].
      assert (Hn : core_next p c i = mkDo SendTlp (co_index c) (co_addr c) (co_data c) (co_vmask c) false None None None None) by (unfold core_next; rewrite Est, Ee, Er; reflexivity).
      rewrite Hn. reflexivity.
Qed.

Lemma trace_app p : forall a s b, mx_trace p s (a ++ b) = mx_trace p s a ++ mx_trace p (mx_run p s a) b.
Proof. induction a as [|i a IH]; intros s b; [reflexivity|]. cbn. rewrite IH. reflexivity. Qed.
Lemma trace_len p : forall l s, length (mx_trace p s l) = length l.
Proof. induction l as [|i l IH]; intros s; [reflexivity|]. cbn. rewrite IH. reflexivity. Qed.
Lemma acts_len p : forall l s, length (acts_of p s l) = length l.
Proof. induction l as [|i l IH]; intros s; [reflexivity|]. cbn. rewrite IH. reflexivity. Qed.
Definition goes (p : mx_param) (n : mon) (s : mx_state) (l : list mx_in) : mon := after (mx_force p) n (mx_trace p s l) (acts_of p s l).
Lemma goes_cons p n s i l : goes p n s (i :: l) = goes p (next (mx_force p) n (mx_event s i) (act_of (ms_core s) i)) (mx_step p s i) l.
Proof. reflexivity. Qed.
Lemma goes_app p : forall a n s b, goes p n s (a ++ b) = goes p (goes p n s a) (mx_run p s a) b.
Proof. induction a as [|i a IH]; intros n s b; [reflexivity|]. cbn [app]. rewrite !goes_cons, IH. reflexivity. Qed.
Lemma goes_rel p l : mx_ok p -> forall n s, (forall i, In i l -> mx_wide p i /\ mx_low i) -> mrel p n s -> mrel p (goes p n s l) (mx_run p s l).
Proof.
  intros Hp. induction l as [|i l IH]; intros n s Hl H; [exact H|]. rewrite goes_cons. cbn [mx_run fold_left]. apply IH; [intros; apply Hl; right; assumption|].
  destruct (Hl i (or_introl eq_refl)). apply rel_step; auto.
Qed.

Lemma closes p v : mx_ok p -> lowv p v -> forall l n s, (forall i, In i l -> mx_wide p i /\ mx_low i) -> mrel p n s -> (forall i, In i l -> lively i) ->
  (forall e u, In e (mx_trace p s l) -> entry_masked (mv_tbl e) u = false) -> mu p v (ms_core s) < Z.of_nat (readies l) ->
  exists l1 x l2, l = l1 ++ x :: l2 /\ ~ openv v (goes p n s l1).
Proof.
  intros Hp Hv. induction l as [|i l IH]; intros n s Hl H Hlv Hm Hmu. { pose proof (mu_bound p v (ms_core s) Hp). cbn in Hmu. lia. }
  assert (Hd : openv v n \/ ~ openv v n).
  { unfold openv. destruct (Z.testbit (n_pend n) v); [left; left; reflexivity|]. destruct (n_job n) as [j|].
    - destruct (Z.eq_dec (j_vec j) v); [left; right; exists j; auto|right; intros [Q|(j' & Q & Q')]; congruence].
    - right. intros [Q|(j' & Q & Q')]; congruence. }
  destruct Hd as [Hd|Hd]; [|exists [], i, l; split; [reflexivity|exact Hd]].
  destruct (Hl i (or_introl eq_refl)) as [Hwi Hli].
  pose proof (rel_step p n s i Hp Hwi Hli H) as Hr.
  assert (Hrec : mu p v (ms_core (mx_step p s i)) < Z.of_nat (readies l) -> exists l1 x l2, i :: l = l1 ++ x :: l2 /\ ~ openv v (goes p n s l1)).
  { intros Q. destruct (IH _ _ (fun j Hj => Hl j (or_intror Hj)) Hr (fun j Hj => Hlv j (or_intror Hj)) (fun e u He => Hm e u (or_intror He)) Q) as (l1 & x & l2 & -> & Q2).
    exists (i :: l1), x, l2. split; [reflexivity|]. rewrite goes_cons. exact Q2. }
  assert (Hma : forall u, entry_masked (ms_tbl s) u = false) by (intros u; apply (Hm (mx_event s i) u); left; reflexivity).
  assert (Hc : Z.of_nat (readies (i :: l)) <= Z.of_nat (readies l) + 1 /\ (mi_ready i = false -> readies (i :: l) = readies l)).
  { unfold readies. cbn [filter]. destruct (mi_ready i); cbn [length]; split; try discriminate; lia. }
  destruct (mu_step p n s i v Hp Hwi Hli H (Hlv i (or_introl eq_refl)) Hma Hv Hd) as [Q|[Q|[Q1 Q2]]].
  - destruct l as [|k l].
    + (* the last clock *) exfalso. pose proof (mu_bound p v (ms_core s) Hp) as Hb. destruct Hc as [Hc _]. change (readies []) with 0%nat in Hc. assert (mu p v (ms_core s) = 0) by lia. lia.
    + exists [i], k, l. split; [reflexivity|]. exact Q.
  - apply Hrec. lia.
  - apply Hrec. rewrite Q2. destruct Hc as [_ Hc]. rewrite <- (Hc Q1). exact Hmu.
Qed.

Lemma goes_follows p l n s : mx_ok p -> (forall i, In i l -> mx_wide p i /\ mx_low i) -> mrel p n s -> follows (mx_force p) n (mx_trace p s l) (acts_of p s l).
Proof. intros. apply rel_follows; auto. Qed.
Lemma low_trace p l : forall s, (forall i, In i l -> mx_wide p i /\ mx_low i) -> low_tr (mx_trace p s l).
Proof.
  induction l as [|i l IH]; intros s Hl e He v Hv; [destruct He|]. destruct He as [<-|He].
  - unfold accepted in Hv. cbn [mx_event mv_in mv_ready] in Hv. destruct (mi_valid i) eqn:E; [|discriminate]. destruct (Hl i (or_introl eq_refl)) as [[_ Hw] Hlo].
    destruct (co_ready _); [|discriminate]. injection Hv as <-. specialize (Hw E). specialize (Hlo E). lia.
  - apply (IH (mx_step p s i)) with (e := e); auto. intros x Hx. apply Hl. right. exact Hx.
Qed.
Lemma start_act p s i v n : mrel p n s -> accepted (mx_event s i) = Some v -> n_job n = None /\ act_of (ms_core s) i = Start v.
Proof.
  intros H Hv. pose proof (rel_shows p n s i H) as (_ & _ & _ & Hrd). pose proof (rel_legal p n s i H) as Hl.
  assert (Hnj : n_job n = None). { apply Hrd. unfold accepted in Hv. destruct (mi_valid _), (mv_ready _); try discriminate. reflexivity. }
  split; [exact Hnj|]. destruct (act_of (ms_core s) i) as [|w|w|w]; cbn [legal] in Hl.
  - destruct Hl as [E _]. congruence.
  - destruct Hl as [_ [E|(E & _)]]; [congruence|]. unfold accepted in Hv. rewrite E in Hv. discriminate.
  - destruct Hl as (j & E & _). congruence.
  - destruct Hl as (j & E & _). congruence.
Qed.

Lemma delivers_ok p : mx_ok p -> delivers p (Z.to_nat (5 * 2 ^ mx_w p + 8)).
Proof.
  intros Hp a i b l v Hall s Hacc Hrst Hlv Hma Hb tr.
  assert (Hsub : forall x, In x a \/ x = i \/ In x b \/ In x l -> mx_wide p x /\ mx_low x).
  { intros x Hx. apply Hall. apply in_or_app. cbn. rewrite in_app_iff. destruct Hx as [Hx|[->|[Hx|Hx]]]; auto. }
  set (n := goes p mon0 mx0 a).
  assert (Hrel : mrel p n s) by (apply goes_rel; auto using mrel0).
  destruct (start_act p s i v n Hrel Hacc) as [Hnj Hact].
  assert (Hlv2 : lowv p v).
  { unfold accepted in Hacc. cbn [mx_event mv_in mv_ready] in Hacc. destruct (mi_valid i) eqn:E; [|discriminate]. destruct (co_ready _); [|discriminate]. injection Hacc as <-.
    destruct (Hsub i) as [[_ Hw] Hlo]; [auto|]. specialize (Hw E). specialize (Hlo E). split; lia. }
  set (n1 := goes p n s (i :: b)). set (s1 := mx_run p s (i :: b)).
  assert (Hib : forall x, In x (i :: b) -> mx_wide p x /\ mx_low x) by (intros x [->|Hx]; apply Hsub; auto).
  assert (Hrel1 : mrel p n1 s1) by (apply goes_rel; auto).
  destruct (closes p v Hp Hlv2 l n1 s1) as (l1 & x & l2 & -> & Hcl); auto.
  { pose proof (mu_bound p v (ms_core s1) Hp). assert (Z.of_nat (Z.to_nat (5 * 2 ^ mx_w p + 8)) = 5 * 2 ^ mx_w p + 8) by lia. lia. }
  assert (Hpre : forall y, In y (i :: b ++ l1) -> mx_wide p y /\ mx_low y).
  { intros y [<-|Hy]; [apply Hsub; auto|]. apply Hsub. rewrite in_app_iff in *. destruct Hy; auto. }
  (* up to [l1] *)
  assert (Hsafe : safe (mx_force p) (mx_trace p s (i :: b ++ l1)) v (goes p n s (i :: b ++ l1))).
  { cbn [mx_trace]. rewrite goes_cons. rewrite Hact. change (mx_event s i :: mx_trace p (mx_step p s i) (b ++ l1)) with ([mx_event s i] ++ mx_trace p (mx_step p s i) (b ++ l1)).
    assert (Hla : low_tr (mx_trace p mx0 a)) by (apply low_trace; auto).
    assert (Hso : sound (mx_force p) (mx_trace p mx0 a) n) by (apply sound_all; [exact Hla|apply rel_follows; auto using mrel0]).
    pose proof (rel_legal p n s i Hrel) as Hleg. rewrite Hact in Hleg.
    assert (Hlow2 : low_tr (mx_trace p mx0 a ++ [mx_event s i] ++ mx_trace p (mx_step p s i) (b ++ l1))).
    { change ([mx_event s i] ++ mx_trace p (mx_step p s i) (b ++ l1)) with (mx_trace p s (i :: b ++ l1)). unfold s. rewrite <- trace_app. apply low_trace. intros y Hy. apply in_app_or in Hy. destruct Hy; auto. }
    apply (safe_all (mx_force p) (mx_trace p mx0 a) v); auto; try discriminate.
    - destruct Hlv2. lia.
    - apply sound_step; auto; [|apply (rel_shows p n s i Hrel)]. intros e He. apply Hlow2. rewrite !in_app_iff in *. tauto.
    - apply (job_since_step (mx_force p) [] v n (mx_event s i) (Start v)); [|exact Hleg]. intros j Hj. congruence.
    - right. left. unfold next. cbn [n_job mx_event mv_in]. rewrite (Hrst i (or_introl eq_refl)). eexists. split; reflexivity.
    - apply rel_follows; auto; [intros y Hy; apply Hpre; right; exact Hy|]. rewrite <- Hact. destruct (Hsub i) as [Q1 Q2]; [auto|]. apply rel_step; auto.
    - assert (Htr : forall ll ss e, In e (mx_trace p ss ll) -> In (mv_in e) ll).
      { induction ll as [|k ll IHl]; intros ss e He; [destruct He|]. destruct He as [<-|He]; [left; reflexivity|right; apply (IHl _ _ He)]. }
      intros e He. apply Htr in He. apply Hrst. right. rewrite !in_app_iff in *. tauto. }
  assert (Hn1 : goes p n s (i :: b ++ l1) = goes p n1 s1 l1) by (change (i :: b ++ l1) with ((i :: b) ++ l1); rewrite goes_app; reflexivity).
  assert (Hrel2 : mrel p (goes p n s (i :: b ++ l1)) (mx_run p s (i :: b ++ l1))) by (apply goes_rel; auto).
  assert (Htr : tr = mx_trace p s (i :: b ++ l1) ++ mx_trace p (mx_run p s (i :: b ++ l1)) (x :: l2)).
  { unfold tr. rewrite <- trace_app. f_equal. cbn [app]. rewrite <- app_assoc. reflexivity. }
  assert (Htl : tl tr = tl (mx_trace p s (i :: b ++ l1)) ++ mx_trace p (mx_run p s (i :: b ++ l1)) (x :: l2)) by (rewrite Htr; reflexivity).
  rewrite Hn1 in *. destruct Hsafe as [Q|[Q|(m & Hm & Q)]]; [exfalso; apply Hcl; left; exact Q|exfalso; apply Hcl; right; exact Q|].
  assert (Hmsg : message (mx_force p) tr v m).
  { destruct Hm as (e1 & e2 & e3 & M1 & M2 & M3 & M4). exists e1, e2, e3. rewrite Htr. repeat split; try (apply in_or_app; left; assumption); apply M4. }
  destruct Q as [Q|(y & Hy & Hym)].
  - exists (mx_event (mx_run p s (i :: b ++ l1)) x), m. split; [rewrite Htl; apply in_or_app; right; left; reflexivity|]. split; [|exact Hmsg].
    pose proof (rel_shows _ _ _ x Hrel2) as (_ & _ & Ho & _). rewrite Ho. exact Q.
  - exists y, m. split; [rewrite Htl; apply in_or_app; left; exact Hy|]. split; [exact Hym|exact Hmsg].
Qed.
