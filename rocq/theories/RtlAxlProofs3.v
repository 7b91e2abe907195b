(** C141: write requests of the AXI lite master. *)
From Verif Require Import PyBase RtlModel RtlAxlModel RtlAxlSpec.
From Coq Require Import Lia.


(** after m operations of the request, with the beats B taken. *)
Definition winv (r : rreq) (c : Z) (B : list (list Z)) (m : Z) (s : al_state) : Prop :=
  let q := s_q s in
  1 <= m < rr_n r /\ rr_n r <= 1024 /\ q_addr q = 4 * (rr_a r + m) /\ q_op q = rr_n r - m /\ q_ch q = m mod 2 ^ c /\ q_lbe q = rr_lbe r /\ q_last q = (rr_n r - m =? 1) /\
  Z.of_nat (length B) = (m - 1) / 2 ^ c + 1 /\
  ((q_st q = AWrite1 /\ m mod 2 ^ c = 0) \/ (q_st q = AWrite2 /\ m mod 2 ^ c <> 0 /\ o_rdy (s_o s) = false /\ exists B0, B = B0 ++ [q_data q])).

Lemma div_step m c : 0 < c -> 1 <= m -> (m mod 2 ^ c = 0 -> m / 2 ^ c = (m - 1) / 2 ^ c + 1) /\ (m mod 2 ^ c <> 0 -> m / 2 ^ c = (m - 1) / 2 ^ c).
Proof.
  intros C M. assert (P : 2 <= 2 ^ c) by (change 2 with (2 ^ 1) at 1; apply Z.pow_le_mono_r; lia).
  remember (2 ^ c) as w. clear Heqw. pose proof (Z.div_mod m w ltac:(lia)) as E. pose proof (Z.mod_pos_bound m w ltac:(lia)) as R.
  split; intros H.
  - rewrite H in E. symmetry. replace ((m - 1) / w) with (m / w - 1); [lia|]. apply Z.div_unique with (w - 1); [lia|]. nia.
  - apply Z.div_unique with (m mod w - 1); [lia|]. lia.
Qed.

Lemma wop_app r c B D k : 0 < c -> 0 <= k -> k / 2 ^ c < Z.of_nat (length B) -> wop r c (B ++ D) k = wop r c B k.
Proof. intros C K L. unfold wop. rewrite app_nth1; [reflexivity|]. assert (0 <= k / 2 ^ c) by (apply Z.div_pos; [lia|apply Z.pow_pos_nonneg; lia]). lia. Qed.

Lemma wop_new r c B d m : 0 < c -> 1 <= m < rr_n r -> m / 2 ^ c = Z.of_nat (length B) ->
  wop r c (B ++ [d]) m = (4 * (rr_a r + m), nth (Z.to_nat (m mod 2 ^ c)) d 0, if rr_n r - m =? 1 then rr_lbe r else 15).
Proof.
  intros C M L. unfold wop. rewrite L, Nat2Z.id, app_nth2, Nat.sub_diag by lia. cbn [nth].
  destruct (m =? 0) eqn:E; [apply Z.eqb_eq in E; lia|]. rewrite Z.add_0_r. replace (m =? rr_n r - 1) with (rr_n r - m =? 1); [reflexivity|].
  destruct (Z.eqb_spec (rr_n r - m) 1), (Z.eqb_spec m (rr_n r - 1)); try reflexivity; lia.
Qed.

Lemma up_ok a m : 0 <= a -> 0 <= m -> a + m + 1 < 2 ^ 62 -> al_up (4 * (a + m)) = 4 * (a + (m + 1)).
Proof. intros A M L. unfold al_up. rewrite (Z.mul_comm 4 (a + m)), Z.div_mul by lia. rewrite Z.mod_small by lia. lia. Qed.

(** one clock in the write states. *)
Lemma wstep r f64 c B m s i : 0 < c -> 0 <= rr_a r -> rr_a r + rr_n r <= 2 ^ 62 -> winv r c B m s -> running i ->
  let t := al_step f64 c s i in let b := wbeat s i in
  (wop_of f64 c s i = [] /\ b = [] /\ winv r c B m t /\ wdone t = false) \/
  (wop_of f64 c s i = [wop r c (B ++ b) m] /\ Z.of_nat (length (B ++ b)) = m / 2 ^ c + 1 /\
    ((wdone t = true /\ m + 1 = rr_n r) \/ (wdone t = false /\ winv r c (B ++ b) (m + 1) t))).
Proof.
  intros C A0 AN W R. unfold winv in W. destruct W as (M & N & Wa & Wo & Wc & Wl & Wla & Wb & St).
  assert (P : 2 <= 2 ^ c) by (change 2 with (2 ^ 1) at 1; apply Z.pow_le_mono_r; lia).
  destruct (div_step m c C ltac:(lia)) as [D0 D1].
  pose proof (Z.mod_pos_bound m (2 ^ c) ltac:(lia)) as Rm.
  assert (NX : (m + 1) mod 2 ^ c = (m mod 2 ^ c + 1) mod 2 ^ c) by (symmetry; apply Zplus_mod_idemp_l).
  assert (DN : m + 1 - 1 = m) by lia.
  assert (O1 : (q_op (s_q s) - 1) mod 2 ^ 11 = rr_n r - (m + 1)) by (rewrite Wo, Z.mod_small; lia).
  assert (CH : forall x y : al_fsm, (if m mod 2 ^ c =? 2 ^ c - 1 then x else y) = if (m + 1) mod 2 ^ c =? 0 then x else y).
  { intros x y. rewrite NX. destruct (Z.eqb_spec (m mod 2 ^ c) (2 ^ c - 1)) as [E|E].
    - rewrite E. replace (2 ^ c - 1 + 1) with (2 ^ c) by lia. rewrite Z.mod_same by lia. reflexivity.
    - rewrite (Z.mod_small (m mod 2 ^ c + 1)) by lia. destruct (Z.eqb_spec (m mod 2 ^ c + 1) 0); [lia|reflexivity]. }
  cbv zeta. unfold wop_of, wbeat, al_entry, al_step. unfold running in R. rewrite R. unfold al_comb.
  destruct St as [(St & Z0) | (St & Z0 & Rd & B0 & EB)]; rewrite St; unfold al_wr.
  - destruct (o_rdy (s_o s) && ai_valid i) eqn:T.
    + right. cbn [snd al_went e_wr s_o o_addr o_wd o_ws al_write]. rewrite Wa, Wc, Wl, Wla.
      assert (L : m / 2 ^ c = Z.of_nat (length B)) by (rewrite Wb; apply D0; exact Z0).
      split; [rewrite (wop_new r c B (ai_data i) m C M L); reflexivity|]. split; [rewrite app_length; cbn [length]; lia|].
      destruct (Z.eqb_spec (rr_n r - m) 1) as [E|E]; [left; split; [reflexivity|lia]|right].
      rewrite CH. split; [unfold wdone; cbn [s_q q_st]; destruct ((m + 1) mod 2 ^ c =? 0); reflexivity|].
      unfold winv. cbn [s_q s_o q_st q_addr q_op q_ch q_lbe q_last q_data o_rdy al_write]. rewrite O1, NX, DN.
      repeat match goal with |- _ /\ _ => split end; try lia; try reflexivity.
      * apply up_ok; lia.
      * rewrite app_length; cbn [length]; lia.
      * destruct (Z.eqb_spec ((m mod 2 ^ c + 1) mod 2 ^ c) 0) as [F|F]; [left; split; [reflexivity|exact F]|right].
        split; [reflexivity|]. split; [exact F|]. split; [reflexivity|]. exists B. reflexivity.
    + left. split; [reflexivity|]. split; [reflexivity|]. split; [|unfold wdone; cbn [s_q]; rewrite St; reflexivity].
      unfold winv. cbn [s_q]. repeat match goal with |- _ /\ _ => split end; try assumption; try lia. left. split; assumption.
  - rewrite Rd. cbn [andb]. rewrite app_nil_r. destruct (al_wfree (s_o s) i) eqn:T.
    + right. cbn [snd al_went e_wr s_o o_addr o_wd o_ws al_write]. rewrite Wa, Wc, Wl, Wla.
      assert (L : m / 2 ^ c = Z.of_nat (length B0)) by (rewrite (D1 Z0); rewrite EB, app_length in Wb; cbn [length] in Wb; lia).
      split; [rewrite EB, (wop_new r c B0 _ m C M L); reflexivity|]. split; [rewrite Wb, (D1 Z0); reflexivity|].
      destruct (Z.eqb_spec (rr_n r - m) 1) as [E|E]; [left; split; [reflexivity|lia]|right].
      rewrite CH. split; [unfold wdone; cbn [s_q q_st]; destruct ((m + 1) mod 2 ^ c =? 0); reflexivity|].
      unfold winv. cbn [s_q s_o q_st q_addr q_op q_ch q_lbe q_last q_data o_rdy al_write]. rewrite O1, NX, DN.
      repeat match goal with |- _ /\ _ => split end; try lia; try reflexivity.
      * apply up_ok; lia.
      * destruct (Z.eqb_spec ((m mod 2 ^ c + 1) mod 2 ^ c) 0) as [F|F]; [left; split; [reflexivity|exact F]|right].
        split; [reflexivity|]. split; [exact F|]. split; [reflexivity|]. exists B0. exact EB.
    + left. split; [reflexivity|]. split; [reflexivity|]. split; [|unfold wdone; cbn [s_q]; rewrite St; reflexivity].
      unfold winv. cbn [s_q s_o o_rdy al_keep andb]. repeat match goal with |- _ /\ _ => split end; try assumption; try lia. right. repeat split; try assumption. exists B0. exact EB.
Qed.

Lemma wrun_ok r f64 c l : 0 < c -> 0 <= rr_a r -> rr_a r + rr_n r <= 2 ^ 62 -> forall s B m, winv r c B (Z.of_nat m) s -> Forall running l ->
  let x := wops f64 c s l in let es := fst (fst x) in let bs := snd (fst x) in let n := (m + length es)%nat in
  Z.of_nat n <= rr_n r /\ es = map (wop r c (B ++ bs)) (map Z.of_nat (seq m (length es))) /\ Z.of_nat (length (B ++ bs)) = (Z.of_nat n - 1) / 2 ^ c + 1 /\ (snd x = true <-> Z.of_nat n = rr_n r).
Proof.
  intros C A0 AN. induction l as [|i l IH]; intros s B m W F.
  { cbn. rewrite app_nil_r, Nat.add_0_r. unfold winv in W. destruct W as (M & N & _ & _ & _ & _ & _ & Wb & _). split; [lia|]. split; [reflexivity|]. split; [exact Wb|]. split; [discriminate|lia]. }
  inversion F as [|? ? Ri Fl]; subst. assert (M : 1 <= Z.of_nat m < rr_n r) by (unfold winv in W; tauto).
  cbn [wops]. destruct (wstep r f64 c B _ s i C A0 AN W Ri) as [(E1 & E2 & W' & D) | (E1 & E2 & [(D & L) | (D & W')])].
  - rewrite E1, E2, D. specialize (IH _ B m W' Fl). destruct (wops f64 c (al_step f64 c s i) l) as [[es bs] d]. cbn [fst snd app] in *. exact IH.
  - rewrite E1, D. cbn [fst snd length seq map]. split; [lia|]. split; [reflexivity|]. split; [rewrite E2; do 2 f_equal; lia|]. split; [lia|reflexivity].
  - rewrite E1, D. replace (Z.of_nat m + 1) with (Z.of_nat (S m)) in W' by lia. specialize (IH _ _ _ W' Fl).
    destruct (wops f64 c (al_step f64 c s i) l) as [[es bs] d]. cbn [fst snd app length] in *. destruct IH as (I1 & I2 & I3 & I4).
    rewrite <- app_assoc in *. replace (m + S (length es))%nat with (S m + length es)%nat by lia. split; [exact I1|]. split; [|split; [exact I3|exact I4]].
    cbn [seq map]. f_equal; [|exact I2]. rewrite (app_assoc B). symmetry. apply (wop_app r c (B ++ wbeat s i) bs); [exact C|lia|lia].
Qed.

Lemma write_done f64 c s i l : let r := rr_of f64 (ai_hdr i) in
  takes_write s i -> Forall running (i :: l) -> 0 < c -> rr_a r + rr_n r <= 2 ^ 62 ->
  let x := wops f64 c s (i :: l) in let es := fst (fst x) in let B := snd (fst x) in let m := Z.of_nat (length es) in
  1 <= m <= rr_n r /\ es = map (wop r c B) (map Z.of_nat (seq 0 (length es))) /\ Z.of_nat (length B) = (m - 1) / 2 ^ c + 1 /\ (snd x = true <-> m = rr_n r).
Proof.
  intros r T F C AN. inversion F as [|? ? Ri Fl]; subst. destruct T as (T1 & T2 & T3 & T4 & T5 & T6).
  assert (P : 2 <= 2 ^ c) by (change 2 with (2 ^ 1) at 1; apply Z.pow_le_mono_r; lia).
  assert (PS : forall h l w, 0 <= w -> 0 <= psel h l w < 2 ^ w) by (intros h lo w W; unfold psel; apply Z.mod_pos_bound, Z.pow_pos_nonneg; lia).
  assert (N : 1 <= rr_n r <= 1024 /\ h_len (ai_hdr i) = rr_n r).
  { unfold r, rr_of, h_len. cbn [rr_n]. pose proof (PS (ai_hdr i) 96 10 ltac:(lia)) as H. change (2 ^ 10) with 1024 in *. destruct (Z.eqb_spec (psel (ai_hdr i) 96 10) 0); lia. }
  destruct N as (N & HL).
  assert (A0 : 0 <= rr_a r) by (unfold r, rr_of, h_word; cbn [rr_a]; destruct (_ || _); apply PS; lia).
  assert (FB : 0 <= be_first (rr_fbe r) <= 3) by (unfold be_first; repeat match goal with |- context [if ?b then _ else _] => destruct b end; lia).
  assert (HW : h_word f64 (ai_hdr i) = rr_a r) by reflexivity.
  assert (LO : low_byte (rr_fbe r) = be_first (rr_fbe r)).
  { assert (Q : 0 <= rr_fbe r < 16) by (apply (PS (ai_hdr i) 64 4); lia). generalize Q. generalize (rr_fbe r). intros b Hb.
    assert (b = 0 \/ b = 1 \/ b = 2 \/ b = 3 \/ b = 4 \/ b = 5 \/ b = 6 \/ b = 7 \/ b = 8 \/ b = 9 \/ b = 10 \/ b = 11 \/ b = 12 \/ b = 13 \/ b = 14 \/ b = 15) as K by lia.
    repeat (destruct K as [-> | K]; [reflexivity|]). subst b. reflexivity. }
  assert (W0 : wop r c [ai_data i] 0 = (4 * rr_a r + be_first (rr_fbe r), nth 0 (ai_data i) 0, rr_fbe r)).
  { unfold wop. rewrite Z.div_0_l, Z.mod_0_l, LO by lia. cbn [Z.to_nat nth]. rewrite Z.eqb_refl, Z.add_0_r. reflexivity. }
  assert (C0 : al_comb f64 c s i = al_take_wr f64 (al_keep (s_o s) i (al_free (s_o s) i)) i (s_q s)).
  { unfold al_comb. rewrite T1. unfold al_idle. rewrite T2, T3, T4, T5, T6. reflexivity. }
  assert (E1 : wop_of f64 c s i = [wop r c [ai_data i] 0]).
  { rewrite W0. unfold wop_of, al_entry, al_step. unfold running in Ri. rewrite Ri, C0. unfold al_take_wr. cbn [snd al_went e_wr s_o al_write o_addr o_wd o_ws]. rewrite HW. reflexivity. }
  assert (E2 : wbeat s i = [ai_data i]) by (unfold wbeat; rewrite T2, T3; reflexivity).
  cbn [wops]. rewrite E1, E2. destruct (Z.eqb_spec (rr_n r) 1) as [L1|L1].
  - assert (D : wdone (al_step f64 c s i) = true).
    { unfold al_step. unfold running in Ri. rewrite Ri, C0. unfold al_take_wr, wdone. rewrite HL, L1. cbn [s_q q_st Z.eqb Pos.eqb]. destruct (ai_eop i); reflexivity. }
    rewrite D. cbn [fst snd length seq map Z.of_nat]. split; [lia|]. split; [reflexivity|]. split; [rewrite Z.div_0_l by lia; reflexivity|]. split; [intros _; lia|reflexivity].
  - assert (D : wdone (al_step f64 c s i) = false /\ winv r c [ai_data i] (Z.of_nat 1) (al_step f64 c s i)).
    { unfold al_step. unfold running in Ri. rewrite Ri, C0. unfold al_take_wr. rewrite HL, HW. destruct (Z.eqb_spec (rr_n r) 1) as [X|_]; [contradiction|].
      split; [reflexivity|]. unfold winv. cbn [s_q s_o q_st q_addr q_op q_ch q_lbe q_last q_data o_rdy al_write length]. change (Z.of_nat 1) with 1.
      rewrite (Z.mod_small 1) by lia. repeat match goal with |- _ /\ _ => split end; try lia; try reflexivity.
      - unfold al_up. change (psel (ai_hdr i) 64 4) with (rr_fbe r). replace ((4 * rr_a r + be_first (rr_fbe r)) / 4) with (rr_a r); [rewrite Z.mod_small; lia|]. apply Z.div_unique with (be_first (rr_fbe r)); lia.
      - right. split; [reflexivity|]. split; [lia|]. split; [reflexivity|]. exists []. reflexivity. }
    destruct D as (D & W). rewrite D. pose proof (wrun_ok r f64 c l C A0 AN _ _ _ W Fl) as H.
    destruct (wops f64 c (al_step f64 c s i) l) as [[es bs] d]. cbn [fst snd app length] in *. destruct H as (I1 & I2 & I3 & I4).
    split; [lia|]. split; [|split; [exact I3|exact I4]]. cbn [seq map]. rewrite <- I2. f_equal.
Qed.
