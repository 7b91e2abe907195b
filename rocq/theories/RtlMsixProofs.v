(** Proofs about the MSI-X module: the state machine follows the specification (C95). *)
From Verif Require Import PyBase RtlModel RtlProofs RtlFcProofs RtlRamModel RtlMsixModel RtlMsixSpec.

Lemma land63 x : 0 <= x -> Z.land x 63 = x mod 64.
Proof. intros. change 63 with (Z.ones 6). rewrite Z.land_ones by lia. reflexivity. Qed.
Lemma low_div x k : 0 <= x < 2 ^ k -> x / 2 ^ k = 0.
Proof. intros. apply Z.div_small. lia. Qed.
Lemma pba_addr0 p : pba_addr p 0 = 0.
Proof. unfold pba_addr. apply Z.mod_0_l. apply Z.pow_nonzero; [lia|]. unfold mx_pbw. destruct (6 <? mx_w p) eqn:E; [apply Z.ltb_lt in E|]; destruct (_ =? 0); lia. Qed.
Lemma pbw_nn p : 0 <= mx_pbw p.
Proof. unfold mx_pbw. destruct (6 <? mx_w p) eqn:E; [apply Z.ltb_lt in E|]; lia. Qed.
Lemma pba_get0 p m : pba_get p m 0 = m 0.
Proof. unfold pba_get. assert (0 < 2 ^ mx_pbw p) by (apply Z.pow_pos_nonneg; [lia|apply pbw_nn]). destruct (Z.ltb_spec 0 (2 ^ mx_pbw p)); [reflexivity|lia]. Qed.
Lemma pba_put0 p m x : pba_put p m 0 x = upd m 0 x.
Proof. unfold pba_put. assert (0 < 2 ^ mx_pbw p) by (apply Z.pow_pos_nonneg; [lia|apply pbw_nn]). destruct (Z.ltb_spec 0 (2 ^ mx_pbw p)); [reflexivity|lia]. Qed.
Lemma pba_addr_grp p x : 0 <= x < 2 ^ mx_w p -> pba_addr p (x / 2 ^ 6) = x / 64.
Proof.
  intros H. change (2 ^ 6) with 64. unfold pba_addr. apply Z.mod_small. split; [apply Z.div_pos; lia|].
  apply Z.div_lt_upper_bound; [lia|]. unfold mx_pbw. destruct (6 <? mx_w p) eqn:E; [apply Z.ltb_lt in E|apply Z.ltb_ge in E].
  - destruct (Z.eqb_spec (mx_w p - 6) 0); [lia|]. change 64 with (2 ^ 6). rewrite <- Z.pow_add_r by lia. replace (6 + (mx_w p - 6)) with (mx_w p) by lia. lia.
  - cbn [Z.eqb]. assert (2 ^ mx_w p <= 2 ^ 6) by (apply Z.pow_le_mono_r; lia). change (2 ^ 6) with 64 in *. lia.
Qed.

(** Headers. *)
Lemma psel_mul4 a : 0 <= a < 2 ^ 64 -> psel a 2 62 * 4 = a - a mod 4.
Proof.
  intros H. unfold psel. change (2 ^ 2) with 4. rewrite Z.mod_small. { pose proof (Z.div_mod a 4). lia. }
  split; [apply Z.div_pos; lia|]. apply Z.div_lt_upper_bound; lia.
Qed.
Lemma hdr_msg p addr rid : 0 <= addr < 2 ^ 64 -> 0 <= rid < 2 ^ 16 -> mx_hdr p (psel addr 2 62 * 4) rid = msg_hdr (mx_force p) rid addr.
Proof.
  intros Ha Hr. rewrite (psel_mul4 addr Ha). unfold mx_hdr, msg_hdr. set (a := addr - addr mod 4).
  assert (Hq : a = 4 * (addr / 4)) by (unfold a; pose proof (Z.div_mod addr 4); lia).
  assert (Hb : 0 <= addr / 4 < 2 ^ 62). { split; [apply Z.div_pos; lia|]. apply Z.div_lt_upper_bound; lia. }
  assert (Hp : psel a 2 62 = addr / 4). { unfold psel. rewrite Hq. change (2 ^ 2) with 4. rewrite (Z.mul_comm 4), Z.div_mul by lia. apply Z.mod_small. exact Hb. }
  assert (Hp16 : psel rid 0 16 = rid). { unfold psel. change (2 ^ 0) with 1. rewrite Z.div_1_r. apply Z.mod_small. exact Hr. }
  rewrite Hp, Hp16. clearbody a. set (q := addr / 4) in *. clearbody q.
  assert (Hc : negb (q / 2 ^ 30 =? 0) = (2 ^ 32 <=? a)).
  { destruct (Z.eqb_spec (q / 2 ^ 30) 0) as [E|E]; cbn [negb]; symmetry.
    - apply Z.leb_gt. apply Z.div_small_iff in E; [|lia]. lia.
    - apply Z.leb_le. destruct (Z_lt_le_dec q (2 ^ 30)); [|lia]. exfalso. apply E. apply Z.div_small. lia. }
  rewrite Hc. rewrite orb_comm. destruct (mx_force p || (2 ^ 32 <=? a)) eqn:Eb.
  - unfold words. cbn [fold_left]. pose proof (Z.div_mod a (2 ^ 32)). lia.
  - apply orb_false_elim in Eb. destruct Eb as [_ Eb]. apply Z.leb_gt in Eb. unfold words. cbn [fold_left].
    assert (psel q 0 30 = q). { unfold psel. change (2 ^ 0) with 1. rewrite Z.div_1_r. apply Z.mod_small. lia. } lia.
Qed.

(** The table holds 64 bit words. *)
Lemma merge_range p old ad d s : 0 <= ax_merge p old ad d s < 2 ^ 64.
Proof.
  unfold ax_merge. cbn [fold_right].
  assert (H : forall k (b : bool) x y a z, 0 <= (if b then psel x a 8 else psel y z 8) * 2 ^ (8 * k) /\ (0 <= k -> (if b then psel x a 8 else psel y z 8) * 2 ^ (8 * k) <= 255 * 2 ^ (8 * k))).
  { intros. assert (0 <= (if b then psel x a 8 else psel y z 8) < 256) by (destruct b; apply RtlFcProofs.psel_range; lia).
    assert (0 <= 2 ^ (8 * k)) by (apply Z.pow_nonneg; lia). split; [apply Z.mul_nonneg_nonneg; lia|intros; apply Z.mul_le_mono_nonneg_r; lia]. }
  set (be := _ mod 2 ^ 8). clearbody be.
  pose proof (H 0 (Z.testbit be 0) d old (8 * (0 mod mx_sw p)) (8 * 0)). pose proof (H 1 (Z.testbit be 1) d old (8 * (1 mod mx_sw p)) (8 * 1)).
  pose proof (H 2 (Z.testbit be 2) d old (8 * (2 mod mx_sw p)) (8 * 2)). pose proof (H 3 (Z.testbit be 3) d old (8 * (3 mod mx_sw p)) (8 * 3)).
  pose proof (H 4 (Z.testbit be 4) d old (8 * (4 mod mx_sw p)) (8 * 4)). pose proof (H 5 (Z.testbit be 5) d old (8 * (5 mod mx_sw p)) (8 * 5)).
  pose proof (H 6 (Z.testbit be 6) d old (8 * (6 mod mx_sw p)) (8 * 6)). pose proof (H 7 (Z.testbit be 7) d old (8 * (7 mod mx_sw p)) (8 * 7)).
  clear H.
  repeat match goal with |- context [(if ?b then psel ?x ?a 8 else psel ?y ?z 8) * 2 ^ ?k] => let t := fresh "t" in set (t := (if b then psel x a 8 else psel y z 8) * 2 ^ k) in *; clearbody t end.
  change (2 ^ (8 * 0)) with 1 in *. change (2 ^ (8 * 1)) with (2 ^ 8) in *. change (2 ^ (8 * 2)) with (2 ^ 16) in *. change (2 ^ (8 * 3)) with (2 ^ 24) in *. change (2 ^ (8 * 4)) with (2 ^ 32) in *.
  change (2 ^ (8 * 5)) with (2 ^ 40) in *. change (2 ^ (8 * 6)) with (2 ^ 48) in *. change (2 ^ (8 * 7)) with (2 ^ 56) in *. lia.
Qed.
Definition tbl_ok (s : mx_state) : Prop := forall k, 0 <= ms_tbl s k < 2 ^ 64.
Lemma tbl_ok_step p s i : tbl_ok s -> tbl_ok (mx_step p s i).
Proof.
  intros H k. unfold mx_step. cbn [ms_tbl]. cbv zeta. destruct (_ && _); [|apply H]. unfold upd. destruct (k =? _); [apply merge_range|apply H].
Qed.

(** A vector that may be requested. *)
Definition lowv (p : mx_param) (v : Z) : Prop := 0 <= v < 32 /\ v < 2 ^ mx_w p.
Definition pend_ok (p : mx_param) (x : Z) : Prop := 0 <= x /\ forall v, Z.testbit x v = true -> lowv p v.
Definition grp (pend idx : Z) : Z := if idx / 64 =? 0 then pend else 0.

Definition core_rel (p : mx_param) (n : mon) (c : mx_core) : Prop :=
  match co_st c with
  | Idle => n_job n = None
      /\ (Z.testbit (co_pbard c) (co_index c mod 64) = true -> Z.testbit (n_pend n) (co_index c) = true)
      /\ (co_index c / 64 = 0 -> co_pbard c = 0 -> n_pend n = 0 \/ n_pend n = 2 ^ co_index c)
  | ReadTbl1 => exists j, n_job n = Some j /\ j_age j = 1%nat /\ j_vec j = co_index c /\ lowv p (co_index c) /\ co_ready c = false /\ co_pbard c = n_pend n
      /\ co_tblrd c = j_addr j /\ 0 <= j_addr j < 2 ^ 64
  | ReadTbl2 => exists j, n_job n = Some j /\ j_age j = 2%nat /\ j_vec j = co_index c /\ lowv p (co_index c) /\ co_ready c = false /\ co_pbard c = n_pend n
      /\ co_addr c = psel (j_addr j) 2 62 * 4 /\ 0 <= j_addr j < 2 ^ 64 /\ psel (co_tblrd c) 0 32 = j_data j /\ Z.testbit (co_tblrd c) 32 = j_masked j
  | SendTlp => exists j, n_job n = Some j /\ j_age j = 3%nat /\ j_vec j = co_index c /\ lowv p (co_index c) /\ co_ready c = false /\ co_pbard c = n_pend n
      /\ co_addr c = psel (j_addr j) 2 62 * 4 /\ 0 <= j_addr j < 2 ^ 64 /\ co_data c = j_data j
  end.
Record mrel (p : mx_param) (n : mon) (s : mx_state) : Prop := {
  mr_tbl : tbl_ok s;
  mr_pend : pend_ok p (n_pend n);
  mr_pba : ms_pba s 0 = n_pend n;
  mr_pba1 : forall k, 0 < k -> ms_pba s k = 0;
  mr_on : n_on n = co_enable (ms_core s) && negb (co_mask (ms_core s));
  mr_out : n_out n = if co_txvalid (ms_core s) then Some (co_txhdr (ms_core s), co_txdata (ms_core s)) else None;
  mr_idx : 0 <= co_index (ms_core s) < 2 ^ mx_w p;
  mr_core : core_rel p n (ms_core s) }.

Lemma mrel0 p : mx_ok p -> mrel p mon0 mx0.
Proof.
  intros Hp. unfold mx_ok in Hp. constructor; cbn; try reflexivity; auto; try lia.
  all: try (intros k; cbn; lia).
  all: try (split; [lia|]; intros v; rewrite Z.bits_0; discriminate).
  all: try (split; [lia|]; apply Z.pow_pos_nonneg; lia).
Qed.

(** What the state machine does, as an action. *)
Definition act_of (c : mx_core) (i : mx_in) : act :=
  match co_st c with
  | Idle => if mi_valid i && co_ready c then Start (mi_index i)
            else if negb (mi_valid i) && co_enable c && negb (co_mask c) && Z.testbit (co_pbard c) (co_index c mod 64) then Start (co_index c) else Wait
  | ReadTbl1 => Wait
  | ReadTbl2 => if co_enable c && negb (co_mask c) && negb (Z.testbit (co_tblrd c) 32) then Wait else Store (co_index c)
  | SendTlp => if negb (co_txvalid c) || mi_ready i then Send (co_index c) else Wait
  end.

Lemma bsel_eqb x i : 0 <= i -> (bsel x i =? 1) = Z.testbit x i.
Proof. intros. rewrite bsel_testbit by assumption. destruct (Z.testbit x i); reflexivity. Qed.
Lemma mod64 v : 0 <= v < 32 -> v mod 64 = v /\ v / 64 = 0 /\ v / 2 ^ 5 = 0 /\ v / 2 ^ 6 = 0.
Proof. intros. change (2 ^ 5) with 32. change (2 ^ 6) with 64. rewrite (Z.mod_small v 64) by lia. repeat split; apply Z.div_small; lia. Qed.
Lemma rel_shows p n s i : mrel p n s -> shows n (mx_event s i).
Proof.
  intros [H1 H2 H3 H4 H5 H6 H7 H8]. unfold shows, mx_event, offered. cbn. repeat split; auto.
  intros Hr. unfold core_rel in H8. destruct (co_st (ms_core s)); try (destruct H8 as (j & _ & _ & _ & _ & E & _); congruence). apply H8.
Qed.
Lemma rel_legal p n s i : mrel p n s -> legal n (mx_event s i) (act_of (ms_core s) i).
Proof.
  intros [H1 H2 H3 H4 H5 H6 H7 H8]. unfold core_rel in H8. unfold act_of, legal, accepted. cbn [mx_event mv_in mv_ready].
  destruct (co_st (ms_core s)).
  - destruct H8 as (Hj & Hb & _). destruct (mi_valid i && co_ready (ms_core s)) eqn:Ev.
    + split; [exact Hj|left; reflexivity].
    + destruct (negb (mi_valid i) && co_enable (ms_core s) && negb (co_mask (ms_core s)) && Z.testbit (co_pbard (ms_core s)) (co_index (ms_core s) mod 64)) eqn:Ec.
      * apply andb_prop in Ec. destruct Ec as [Ec Et]. apply andb_prop in Ec. destruct Ec as [Ec Em]. apply andb_prop in Ec. destruct Ec as [Ec Ee].
        split; [exact Hj|right]. rewrite H5, Ee, Em. repeat split; [destruct (mi_valid i); [discriminate|reflexivity]|auto].
      * rewrite Hj. auto.
  - destruct H8 as (j & Hj & Ha & _ & _ & Hr & _). rewrite Hr, andb_false_r, Hj. auto.
  - destruct H8 as (j & Hj & Ha & Hv & Hl & Hr & Hp & Had & _ & _ & Hm). rewrite H5, Hm. destruct (co_enable (ms_core s) && negb (co_mask (ms_core s)) && negb (j_masked j)) eqn:Ee.
    + apply andb_prop in Ee. destruct Ee as [Ee Em]. rewrite Hr, andb_false_r, Hj. split; [reflexivity|]. right. left. repeat split; auto. destruct (j_masked j); [discriminate|reflexivity].
    + exists j. repeat split; auto. apply andb_false_elim in Ee. destruct Ee as [Ee|Ee]; [left; exact Ee|right; destruct (j_masked j); [reflexivity|discriminate]].
  - destruct H8 as (j & Hj & Ha & Hv & Hl & Hr & _). rewrite H6. destruct (negb (co_txvalid (ms_core s)) || mi_ready i) eqn:Ee.
    + exists j. repeat split; auto. destruct (co_txvalid (ms_core s)); [right; exact Ee|left; reflexivity].
    + rewrite Hr, andb_false_r, Hj. split; [reflexivity|]. right. right. apply orb_false_elim in Ee. destruct Ee as [Ee Er]. destruct (co_txvalid (ms_core s)); [|discriminate]. repeat split; auto; discriminate.
Qed.

Lemma setbit_pend p x v : pend_ok p x -> lowv p v -> pend_ok p (Z.setbit x v).
Proof.
  intros [H0 H] Hv. destruct Hv as [Hv Hw]. split. { unfold Z.setbit. apply Z.lor_nonneg. split; [assumption|]. apply Z.shiftl_nonneg. lia. }
  intros u Hu. apply Z.setbit_iff in Hu; [|lia]. destruct Hu as [<-|Hu]; [split; assumption|apply H; exact Hu].
Qed.
Lemma clearbit_pend p x v : pend_ok p x -> 0 <= v -> pend_ok p (Z.clearbit x v).
Proof.
  intros [H0 H] Hv. split. { unfold Z.clearbit. apply Z.ldiff_nonneg. left. assumption. }
  intros u Hu. apply Z.clearbit_iff in Hu. destruct Hu as [Hu _]; apply H; exact Hu.
Qed.
Lemma lor_pow x v : 0 <= v -> Z.lor x (2 ^ v) = Z.setbit x v.
Proof. intros. rewrite Z.setbit_spec'. reflexivity. Qed.
Lemma land_pow x v : 0 <= v -> Z.land x (Z.lnot (2 ^ v)) = Z.clearbit x v.
Proof. intros. rewrite Z.clearbit_spec'. rewrite Z.ldiff_land. reflexivity. Qed.

Lemma read_grp p n s idx : mrel p n s -> 0 <= idx < 2 ^ mx_w p -> pba_get p (ms_pba s) (pba_addr p (idx / 2 ^ 6)) = grp (n_pend n) idx.
Proof.
  intros H Hi. rewrite (pba_addr_grp p idx Hi). unfold grp. destruct (Z.eqb_spec (idx / 64) 0) as [->|E].
  - rewrite pba_get0. apply (mr_pba p n s H).
  - unfold pba_get. destruct (_ <? _); [|reflexivity]. apply (mr_pba1 p n s H). assert (0 <= idx / 64) by (apply Z.div_pos; lia). lia.
Qed.
Lemma grp_idle pend idx : 0 <= idx ->
  (Z.testbit (grp pend idx) (idx mod 64) = true -> Z.testbit pend idx = true) /\ (idx / 64 = 0 -> grp pend idx = 0 -> pend = 0 \/ pend = 2 ^ idx).
Proof.
  intros Hi. unfold grp. destruct (Z.eqb_spec (idx / 64) 0) as [E|E].
  - assert (idx mod 64 = idx) as -> by (pose proof (Z.div_mod idx 64); lia). auto.
  - rewrite Z.bits_0. split; [discriminate|lia].
Qed.
Lemma low_idx p v : lowv p v -> 0 <= v < 2 ^ mx_w p.
Proof. unfold lowv. lia. Qed.

(** The part of the step that does not depend on the state. *)
Lemma rel_common p n s i a (b : bool) : mrel p n s -> mx_ok p ->
  do_tx (core_next p (ms_core s) i) = (if b then Some (mx_hdr p (co_addr (ms_core s)) (mi_rid i), co_data (ms_core s)) else None) ->
  (b = true -> exists v j, a = Send v /\ n_job n = Some j /\ msg_hdr (mx_force p) (mi_rid i) (j_addr j) = mx_hdr p (co_addr (ms_core s)) (mi_rid i) /\ j_data j = co_data (ms_core s)) ->
  (b = false -> forall v, a <> Send v) ->
  let n' := next (mx_force p) n (mx_event s i) a in let s' := mx_step p s i in
  pend_ok p (n_pend n') -> ms_pba s' 0 = n_pend n' -> (forall k, 0 < k -> ms_pba s' k = 0) -> 0 <= co_index (ms_core s') < 2 ^ mx_w p -> core_rel p n' (ms_core s') -> mrel p n' s'.
Proof.
  intros H Hp Htx Hb1 Hb2 n' s' P1 P2 P3 P4 P5. constructor; auto.
  - apply tbl_ok_step. apply (mr_tbl p n s H).
  - unfold n', s', next, mx_step, mx_event, on_at. cbn [n_out mv_in ms_core core_step]. unfold core_step. cbn [co_txvalid co_txhdr co_txdata]. rewrite Htx.
    destruct (mi_rst i); [reflexivity|]. destruct b.
    + destruct (Hb1 eq_refl) as (v & j & -> & -> & -> & ->). reflexivity.
    + assert (E : forall A (x : Z -> A) y, match a with Send v => x v | _ => y end = y) by (intros; destruct a; try reflexivity; exfalso; eapply Hb2; reflexivity).
      transitivity (if mi_ready i then None else n_out n). { destruct a; try reflexivity. exfalso. eapply Hb2; reflexivity. }
      rewrite (mr_out p n s H). destruct (co_txvalid (ms_core s)), (mi_ready i); reflexivity.
Qed.

Ltac common H Hp a0 b0 := match goal with |- mrel ?p (next _ ?n (mx_event ?s ?i) _) _ => apply (rel_common p n s i a0 b0 H Hp) end.
Lemma core_reset p n c : core_rel p n c -> n_job n = None -> co_st c = Idle -> core_rel p n c.
Proof. auto. Qed.

Lemma rel_step p n s i : mx_ok p -> mx_wide p i -> mx_low i -> mrel p n s -> mrel p (next (mx_force p) n (mx_event s i) (act_of (ms_core s) i)) (mx_step p s i).
Proof.
  intros Hp [Hrid Hix] Hlow H. pose proof H as [H1 H2 H3 H4 H5 H6 H7 H8]. unfold mx_ok in Hp. unfold core_rel in H8.
  set (c := ms_core s) in *. assert (Hc : c = ms_core s) by reflexivity.
  assert (H2W : 0 < 2 ^ mx_w p) by (apply Z.pow_pos_nonneg; lia).
  destruct (co_st c) eqn:Est.
  - destruct H8 as (Hj & Hb & Hz).
    unfold act_of. rewrite Est. destruct (mi_valid i && co_ready c) eqn:Ev.
    + (* request *)
      assert (Hlo : lowv p (mi_index i)). { apply andb_prop in Ev. destruct Ev as [Ev _]. specialize (Hix Ev). specialize (Hlow Ev). split; lia. }
      assert (Hn : core_next p c i = mkDo ReadTbl1 (mi_index i) (co_addr c) (co_data c) (co_vmask c) false None (Some (mi_index i * 2)) (Some (pba_addr p (mi_index i / 2 ^ 6))) None) by (unfold core_next; rewrite Est, Ev; reflexivity).
      assert (Hrd := read_grp p n s (mi_index i) H (low_idx _ _ Hlo)). destruct (mod64 (mi_index i) (proj1 Hlo)) as (M1 & M2 & M3 & M4).
      unfold grp in Hrd. rewrite M2 in Hrd. cbn [Z.eqb] in Hrd.
      common H Hp (Start (mi_index i)) false; fold c; try rewrite Hn; cbn [do_tx]; auto; try discriminate.
      * unfold mx_step. cbn [ms_pba]. fold c. rewrite Hn. cbn [do_pba_wr]. rewrite H3. reflexivity.
      * unfold mx_step. cbn [ms_pba]. fold c. rewrite Hn. exact H4.
      * unfold mx_step. cbn [ms_core]. fold c. unfold core_step. rewrite Hn. cbn. apply low_idx. exact Hlo.
      * unfold mx_step. cbn [ms_core]. fold c. unfold core_step. rewrite Hn. cbn [do_st do_index do_addr do_data do_vmask do_ready do_tx do_tbl do_pba_rd do_pba_wr].
        rewrite Hrd. unfold core_rel, next. cbn [co_st co_index co_addr co_data co_ready co_tblrd co_pbard n_job n_pend mv_in mx_event mv_tbl]. destruct (mi_rst i).
        { split; [reflexivity|]. rewrite M1. split; auto. }
        eexists. split; [reflexivity|]. cbn [j_age j_vec j_addr]. unfold entry_addr. rewrite (Z.mul_comm 2). repeat split; auto; try apply Hlo; apply H1.
    + destruct (negb (mi_valid i) && co_enable c && negb (co_mask c)) eqn:Eo; cbn [andb].
      2:{ (* nothing *)
        assert (Hn : core_next p c i = mkDo Idle (co_index c) (co_addr c) (co_data c) (co_vmask c) true None None None None) by (unfold core_next; rewrite Est, Ev, Eo; reflexivity).
        common H Hp Wait false; fold c; try rewrite Hn; cbn [do_tx]; auto; try discriminate.
        - unfold mx_step. cbn [ms_pba]. fold c. rewrite Hn. cbn [do_pba_wr]. rewrite H3. reflexivity.
        - unfold mx_step. cbn [ms_pba]. fold c. rewrite Hn. exact H4.
        - unfold mx_step. cbn [ms_core]. fold c. unfold core_step. rewrite Hn. exact H7.
        - unfold mx_step. cbn [ms_core]. fold c. unfold core_step. rewrite Hn. cbn [do_st do_index do_addr do_data do_vmask do_ready do_tx do_tbl do_pba_rd do_pba_wr].
          unfold core_rel, next. cbn [co_st co_index co_addr co_data co_ready co_tblrd co_pbard n_job n_pend mv_in mx_event mv_tbl]. rewrite Hj.
          destruct (mi_rst i); split; auto. }
      destruct (Z.testbit (co_pbard c) (co_index c mod 64)) eqn:Et.
      * (* pending *)
        assert (Hlo : lowv p (co_index c)) by (apply H2; apply Hb; reflexivity).
        assert (Hn : core_next p c i = mkDo ReadTbl1 (co_index c) (co_addr c) (co_data c) (co_vmask c) false None (Some (co_index c * 2)) (Some (pba_addr p (co_index c / 2 ^ 6))) None).
        { unfold core_next. rewrite Est, Ev, Eo. rewrite land63 by lia. rewrite bsel_eqb by (apply Z.mod_pos_bound; lia). rewrite Et. reflexivity. }
        assert (Hrd := read_grp p n s (co_index c) H (low_idx _ _ Hlo)). destruct (mod64 (co_index c) (proj1 Hlo)) as (M1 & M2 & M3 & M4).
        unfold grp in Hrd. rewrite M2 in Hrd. cbn [Z.eqb] in Hrd.
        common H Hp (Start (co_index c)) false; fold c; try rewrite Hn; cbn [do_tx]; auto; try discriminate.
        -- unfold mx_step. cbn [ms_pba]. fold c. rewrite Hn. cbn [do_pba_wr]. rewrite H3. reflexivity.
        -- unfold mx_step. cbn [ms_pba]. fold c. rewrite Hn. exact H4.
        -- unfold mx_step. cbn [ms_core]. fold c. unfold core_step. rewrite Hn. cbn. exact H7.
        -- unfold mx_step. cbn [ms_core]. fold c. unfold core_step. rewrite Hn. cbn [do_st do_index do_addr do_data do_vmask do_ready do_tx do_tbl do_pba_rd do_pba_wr].
           rewrite Hrd. unfold core_rel, next. cbn [co_st co_index co_addr co_data co_ready co_tblrd co_pbard n_job n_pend mv_in mx_event mv_tbl]. destruct (mi_rst i).
           { split; [reflexivity|]. rewrite M1. split; auto. }
           eexists. split; [reflexivity|]. cbn [j_age j_vec j_addr]. unfold entry_addr. rewrite (Z.mul_comm 2). repeat split; auto; try apply Hlo; apply H1.
      * (* move on *)
        set (x := (if negb (co_pbard c =? 0) then co_index c + 1 else Z.land (co_index c) (Z.shiftl (Z.ones (mx_w p)) 6 mod 2 ^ Z.max (mx_w p) 7) + 64) mod 2 ^ mx_w p).
        assert (Hx : 0 <= x < 2 ^ mx_w p) by (apply Z.mod_pos_bound; lia).
        assert (Hn : core_next p c i = mkDo Idle x (co_addr c) (co_data c) (co_vmask c) true None None (Some (pba_addr p (x / 2 ^ 6))) None).
        { unfold core_next. rewrite Est, Ev, Eo. rewrite land63 by lia. rewrite bsel_eqb by (apply Z.mod_pos_bound; lia). rewrite Et. reflexivity. }
        clearbody x. assert (Hrd := read_grp p n s x H Hx).
        common H Hp Wait false; fold c; try rewrite Hn; cbn [do_tx]; auto; try discriminate.
        -- unfold mx_step. cbn [ms_pba]. fold c. rewrite Hn. cbn [do_pba_wr]. rewrite H3. reflexivity.
        -- unfold mx_step. cbn [ms_pba]. fold c. rewrite Hn. exact H4.
        -- unfold mx_step. cbn [ms_core]. fold c. unfold core_step. rewrite Hn. exact Hx.
        -- unfold mx_step. cbn [ms_core]. fold c. unfold core_step. rewrite Hn. cbn [do_st do_index do_addr do_data do_vmask do_ready do_tx do_tbl do_pba_rd do_pba_wr].
           rewrite Hrd. unfold core_rel, next. cbn [co_st co_index co_addr co_data co_ready co_tblrd co_pbard n_job n_pend mv_in mx_event mv_tbl]. rewrite Hj.
           destruct (mi_rst i); split; auto; apply grp_idle; lia.
  - (* table, first word *)
    destruct H8 as (j & Hj & Ha & Hv & Hlo & Hr & Hpb & Htb & Hja). destruct (mod64 (co_index c) (proj1 Hlo)) as (M1 & M2 & M3 & M4).
    unfold act_of. rewrite Est.
    assert (Hn : core_next p c i = mkDo ReadTbl2 (co_index c) (psel (co_tblrd c) 2 62 * 4) (co_data c) (co_vmask c) false None (Some (co_index c * 2 + 1)) None None) by (unfold core_next; rewrite Est; reflexivity).
    common H Hp Wait false; fold c; try rewrite Hn; cbn [do_tx]; auto; try discriminate.
    + unfold mx_step. cbn [ms_pba]. fold c. rewrite Hn. cbn [do_pba_wr]. rewrite H3. reflexivity.
    + unfold mx_step. cbn [ms_pba]. fold c. rewrite Hn. exact H4.
    + unfold mx_step. cbn [ms_core]. fold c. unfold core_step. rewrite Hn. exact H7.
    + unfold mx_step. cbn [ms_core]. fold c. unfold core_step. rewrite Hn. cbn [do_st do_index do_addr do_data do_vmask do_ready do_tx do_tbl do_pba_rd do_pba_wr].
      unfold core_rel, next. cbn [co_st co_index co_addr co_data co_ready co_tblrd co_pbard n_job n_pend mv_in mx_event mv_tbl]. rewrite Hj. destruct j as [v ag ad da ma]. cbn [j_age j_vec j_addr j_data j_masked] in *. subst ag v.
      destruct (mi_rst i). { split; [reflexivity|]. rewrite M1, Hpb. split; auto. }
      eexists. split; [reflexivity|]. cbn [j_age j_vec j_addr j_data j_masked]. rewrite Htb. unfold entry_data, entry_masked, psel. rewrite (Z.mul_comm 2). change (2 ^ 0) with 1. rewrite Z.div_1_r.
      repeat split; auto; try apply Hlo; try apply Hja.
  - (* table, second word *)
    destruct H8 as (j & Hj & Ha & Hv & Hlo & Hr & Hpb & Had & Hja & Hda & Hma). destruct (mod64 (co_index c) (proj1 Hlo)) as (M1 & M2 & M3 & M4).
    unfold act_of. rewrite Est. destruct (co_enable c && negb (co_mask c) && negb (Z.testbit (co_tblrd c) 32)) eqn:Ee.
    + assert (Hn : core_next p c i = mkDo SendTlp (co_index c) (co_addr c) (psel (co_tblrd c) 0 32) (Z.testbit (co_tblrd c) 32) false None None None None).
      { unfold core_next. rewrite Est. rewrite bsel_eqb by lia. cbv zeta. rewrite Ee. reflexivity. }
      common H Hp Wait false; fold c; try rewrite Hn; cbn [do_tx]; auto; try discriminate.
      * unfold mx_step. cbn [ms_pba]. fold c. rewrite Hn. cbn [do_pba_wr]. rewrite H3. reflexivity.
      * unfold mx_step. cbn [ms_pba]. fold c. rewrite Hn. exact H4.
      * unfold mx_step. cbn [ms_core]. fold c. unfold core_step. rewrite Hn. exact H7.
      * unfold mx_step. cbn [ms_core]. fold c. unfold core_step. rewrite Hn. cbn [do_st do_index do_addr do_data do_vmask do_ready do_tx do_tbl do_pba_rd do_pba_wr].
        unfold core_rel, next. cbn [co_st co_index co_addr co_data co_ready co_tblrd co_pbard n_job n_pend mv_in mx_event mv_tbl]. rewrite Hj. destruct j as [v ag ad da ma]. cbn [j_age j_vec j_addr j_data j_masked] in *. subst ag v.
        destruct (mi_rst i). { split; [reflexivity|]. rewrite M1, Hpb. split; auto. }
        eexists. split; [reflexivity|]. cbn [j_age j_vec j_addr j_data j_masked]. repeat split; auto; try apply Hlo; try apply Hja.
    + assert (Hn : core_next p c i = mkDo Idle (co_index c) (co_addr c) (psel (co_tblrd c) 0 32) (Z.testbit (co_tblrd c) 32) true None None None (Some (0, Z.setbit (n_pend n) (co_index c)))).
      { unfold core_next. rewrite Est. rewrite bsel_eqb by lia. cbv zeta. rewrite Ee. rewrite M3, pba_addr0. rewrite land63, M1 by lia. rewrite lor_pow by lia. rewrite Hpb. reflexivity. }
      common H Hp (Store (co_index c)) false; fold c; try rewrite Hn; cbn [do_tx]; auto; try discriminate.
      * cbn [next n_pend]. apply setbit_pend; auto.
      * unfold mx_step. cbn [ms_pba]. fold c. rewrite Hn. cbn [do_pba_wr]. rewrite pba_put0. reflexivity.
      * intros k Hk. unfold mx_step. cbn [ms_pba]. fold c. rewrite Hn. cbn [do_pba_wr]. rewrite pba_put0. unfold upd. destruct (Z.eqb_spec k 0); [lia|]. apply H4. exact Hk.
      * unfold mx_step. cbn [ms_core]. fold c. unfold core_step. rewrite Hn. exact H7.
      * unfold mx_step. cbn [ms_core]. fold c. unfold core_step. rewrite Hn. cbn [do_st do_index do_addr do_data do_vmask do_ready do_tx do_tbl do_pba_rd do_pba_wr].
        unfold core_rel, next. cbn [co_st co_index co_addr co_data co_ready co_tblrd co_pbard n_job n_pend mv_in mx_event mv_tbl].
        assert (E : forall A (x : A), (if mi_rst i then x else x) = x) by (intros; destruct (mi_rst i); reflexivity). rewrite !E. split; [reflexivity|].
        rewrite M1, Hpb. split; [intros; apply Z.setbit_iff; [lia|]; auto|]. intros _ Hz. right. rewrite Hz. unfold Z.setbit. rewrite Z.lor_0_l. rewrite Z.shiftl_1_l. reflexivity.
  - (* send *)
    destruct H8 as (j & Hj & Ha & Hv & Hlo & Hr & Hpb & Had & Hja & Hda). destruct (mod64 (co_index c) (proj1 Hlo)) as (M1 & M2 & M3 & M4).
    unfold act_of. rewrite Est. destruct (negb (co_txvalid c) || mi_ready i) eqn:Ee.
    + assert (Hn : core_next p c i = mkDo Idle ((co_index c + 1) mod 2 ^ mx_w p) (co_addr c) (co_data c) (co_vmask c) true (Some (mx_hdr p (co_addr c) (mi_rid i), co_data c)) None None (Some (0, Z.clearbit (n_pend n) (co_index c)))).
      { unfold core_next. rewrite Est. rewrite Ee. rewrite M3, pba_addr0. rewrite land63, M1 by lia. rewrite land_pow by lia. rewrite Hpb. reflexivity. }
      common H Hp (Send (co_index c)) true; fold c; try rewrite Hn; cbn [do_tx]; auto; try discriminate.
      * intros _. exists (co_index c), j. rewrite Had, Hda. rewrite hdr_msg by assumption. auto.
      * cbn [next n_pend]. apply clearbit_pend; auto; lia.
      * unfold mx_step. cbn [ms_pba]. fold c. rewrite Hn. cbn [do_pba_wr]. rewrite pba_put0. reflexivity.
      * intros k Hk. unfold mx_step. cbn [ms_pba]. fold c. rewrite Hn. cbn [do_pba_wr]. rewrite pba_put0. unfold upd. destruct (Z.eqb_spec k 0); [lia|]. apply H4. exact Hk.
      * unfold mx_step. cbn [ms_core]. fold c. unfold core_step. rewrite Hn. cbn [co_index do_index]. apply Z.mod_pos_bound. lia.
      * unfold mx_step. cbn [ms_core]. fold c. unfold core_step. rewrite Hn. cbn [do_st do_index do_addr do_data do_vmask do_ready do_tx do_tbl do_pba_rd do_pba_wr].
        unfold core_rel, next. cbn [co_st co_index co_addr co_data co_ready co_tblrd co_pbard n_job n_pend mv_in mx_event mv_tbl].
        assert (E : forall A (x : A), (if mi_rst i then x else x) = x) by (intros; destruct (mi_rst i); reflexivity). rewrite !E. split; [reflexivity|].
        assert (Hne : (co_index c + 1) mod 2 ^ mx_w p <> co_index c).
        { assert (2 <= 2 ^ mx_w p) by (change 2 with (2 ^ 1) at 1; apply Z.pow_le_mono_r; lia). destruct (Z_lt_le_dec (co_index c + 1) (2 ^ mx_w p)); [rewrite Z.mod_small by lia; lia|].
          replace (co_index c + 1) with (2 ^ mx_w p) by lia. rewrite Z.mod_same by lia. lia. }
        assert (Hlt : 0 <= (co_index c + 1) mod 2 ^ mx_w p <= 32).
        { split; [apply Z.mod_pos_bound; lia|]. transitivity (co_index c + 1); [apply Z.mod_le; lia|]. destruct Hlo. lia. }
        set (x := (co_index c + 1) mod 2 ^ mx_w p) in *. clearbody x. rewrite (Z.mod_small x 64) by lia. rewrite Hpb. split.
        -- intros Hb. apply Z.clearbit_iff. split; [exact Hb|lia].
        -- intros _ Hz. left. rewrite Hz. apply Z.ldiff_0_l.
    + assert (Hn : core_next p c i = mkDo SendTlp (co_index c) (co_addr c) (co_data c) (co_vmask c) false None None None None) by (unfold core_next; rewrite Est, Ee; reflexivity).
      common H Hp Wait false; fold c; try rewrite Hn; cbn [do_tx]; auto; try discriminate.
      * unfold mx_step. cbn [ms_pba]. fold c. rewrite Hn. cbn [do_pba_wr]. rewrite H3. reflexivity.
      * unfold mx_step. cbn [ms_pba]. fold c. rewrite Hn. exact H4.
      * unfold mx_step. cbn [ms_core]. fold c. unfold core_step. rewrite Hn. exact H7.
      * unfold mx_step. cbn [ms_core]. fold c. unfold core_step. rewrite Hn. cbn [do_st do_index do_addr do_data do_vmask do_ready do_tx do_tbl do_pba_rd do_pba_wr].
        unfold core_rel, next. cbn [co_st co_index co_addr co_data co_ready co_tblrd co_pbard n_job n_pend mv_in mx_event mv_tbl]. rewrite Hj. destruct j as [v ag ad da ma]. cbn [j_age j_vec j_addr j_data j_masked] in *. subst ag v.
        destruct (mi_rst i). { split; [reflexivity|]. rewrite M1, Hpb. split; auto. }
        eexists. split; [reflexivity|]. cbn [j_age j_vec j_addr j_data j_masked]. repeat split; auto; try apply Hlo; try apply Hja.
Qed.

Fixpoint acts_of (p : mx_param) (s : mx_state) (l : list mx_in) : list act :=
  match l with
  | [] => []
  | i :: r => act_of (ms_core s) i :: acts_of p (mx_step p s i) r
  end.
Lemma rel_follows p l : mx_ok p -> (forall i, In i l -> mx_wide p i /\ mx_low i) -> forall n s, mrel p n s -> follows (mx_force p) n (mx_trace p s l) (acts_of p s l).
Proof.
  intros Hp. induction l as [|i r IH]; intros Hl n s H; [exact I|]. cbn [mx_trace acts_of follows]. split; [apply (rel_shows p n s i H)|]. split; [apply (rel_legal p n s i H)|].
  apply IH; [intros x Hx; apply Hl; right; exact Hx|]. destruct (Hl i (or_introl eq_refl)). apply rel_step; auto.
Qed.
