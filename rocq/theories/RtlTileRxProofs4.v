From Verif Require Import PyBase RtlModel RtlRamProofs2 RtlTileRxModel RtlTileRxSpec RtlTileRxProofs RtlTileRxProofs2.

(** ** P-Tile *)
Lemma part_psel v g w : part v g w = psel v (w * Z.of_nat g) w.
Proof. reflexivity. Qed.
Lemma flag v g : (bsel v (Z.of_nat g) =? 1) = (part v g 1 =? 1).
Proof. rewrite part_psel. unfold bsel. rewrite Z.mul_1_l. reflexivity. Qed.

Lemma enabled_n (W n : nat) : (n <= W)%nat -> filter (fun j => Z.testbit (2 ^ Z.of_nat n - 1) (Z.of_nat j)) (seq 0 W) = seq 0 n.
Proof.
  intros H. replace W with (n + (W - n))%nat by lia. rewrite seq_app, filter_app.
  assert (T : forall j, (j < n)%nat -> Z.testbit (2 ^ Z.of_nat n - 1) (Z.of_nat j) = true).
  { intros j Hj. replace (2 ^ Z.of_nat n - 1) with (Z.ones (Z.of_nat n)) by (rewrite Z.ones_equiv; lia). apply Z.ones_spec_low. lia. }
  assert (F : forall j, (n <= j)%nat -> Z.testbit (2 ^ Z.of_nat n - 1) (Z.of_nat j) = false).
  { intros j Hj. replace (2 ^ Z.of_nat n - 1) with (Z.ones (Z.of_nat n)) by (rewrite Z.ones_equiv; lia). apply Z.ones_spec_high. lia. }
  assert (A : forall m a, (a + m <= n)%nat -> filter (fun j => Z.testbit (2 ^ Z.of_nat n - 1) (Z.of_nat j)) (seq a m) = seq a m).
  { induction m as [|m IH]; intros a Ha; cbn [seq filter]; [reflexivity|]. rewrite T by lia. f_equal. apply IH. lia. }
  assert (B : forall m a, (n <= a)%nat -> filter (fun j => Z.testbit (2 ^ Z.of_nat n - 1) (Z.of_nat j)) (seq a m) = []).
  { induction m as [|m IH]; intros a Ha; cbn [seq filter]; [reflexivity|]. rewrite F by lia. apply IH. lia. }
  rewrite A by lia. rewrite B by lia. apply app_nil_r.
Qed.

Lemma ones_shift W e : 0 <= e <= W -> (2 ^ W - 1) / 2 ^ e = 2 ^ (W - e) - 1.
Proof.
  intros H. replace (2 ^ W - 1) with (2 ^ e - 1 + (2 ^ (W - e) - 1) * 2 ^ e).
  - rewrite Z.div_add by lia. rewrite Z.div_small by lia. lia.
  - rewrite Z.mul_sub_distr_r, <- Z.pow_add_r by lia. replace (W - e + e) with W by lia. lia.
Qed.

Definition lanes_of (p : pr_param) (i : pr_in) (g : nat) : Z :=
  let sop := part (pi_sop i) g 1 =? 1 in let eop := part (pi_eop i) g 1 =? 1 in
  if eop && (sop && negb (Z.testbit (part (pi_hdr i) g 128) 126)) then 0 else if eop then pp_w p - part (pi_empty i) g (pp_ew p) else pp_w p.
Lemma lanes_range p i g : pr_ok p -> 0 <= lanes_of p i g <= pp_w p.
Proof.
  intros (_ & He). unfold lanes_of. assert (0 < pp_w p) by (apply Z.pow_pos_nonneg; lia).
  assert (0 <= part (pi_empty i) g (pp_ew p) < pp_w p) by (apply Z.mod_pos_bound; assumption).
  destruct (_ && _); [lia|]. destruct (_ =? _); lia.
Qed.
Lemma bit126 v g : Z.testbit (part v g 128) 126 = negb (bsel v (128 * Z.of_nat g + 126) =? 0).
Proof.
  unfold part. rewrite Z.mod_pow2_bits_low by lia. rewrite Z.div_pow2_bits by lia. rewrite <- (bsel_bit v) by lia. rewrite (Z.add_comm 126).
  assert (0 <= bsel v (128 * Z.of_nat g + 126) < 2) by (apply (Z.mod_pos_bound _ (2 ^ 1)); lia).
  destruct (Z.eqb_spec (bsel v (128 * Z.of_nat g + 126)) 1), (Z.eqb_spec (bsel v (128 * Z.of_nat g + 126)) 0); try reflexivity; lia.
Qed.
Lemma strb_lanes p i g : pr_ok p -> pr_strb p i (Z.of_nat g) = 2 ^ lanes_of p i g - 1.
Proof.
  intros Hp. unfold pr_strb, lanes_of. rewrite !flag, bit126, negb_involutive.
  destruct (part (pi_eop i) g 1 =? 1) eqn:E1; cbn [andb]; [|reflexivity].
  destruct ((part (pi_sop i) g 1 =? 1) && (bsel (pi_hdr i) (128 * Z.of_nat g + 126) =? 0)); [reflexivity|].
  destruct Hp as (_ & He). apply ones_shift.
  assert (0 < pp_w p) by (apply Z.pow_pos_nonneg; lia).
  assert (0 <= psel (pi_empty i) (pp_ew p * Z.of_nat g) (pp_ew p) < pp_w p) by (apply Z.mod_pos_bound; assumption).
  change (psel (pi_empty i) (pp_ew p * Z.of_nat g) (pp_ew p)) with (part (pi_empty i) g (pp_ew p)) in *. lia.
Qed.

Lemma pbar_ok p i g : pr_bar p i (Z.of_nat g) = bar_of (pp_io p) (part (pi_bar i) g 3).
Proof. unfold pr_bar. change (psel (pi_bar i) (3 * Z.of_nat g) 3) with (part (pi_bar i) g 3). apply bar_ok. apply Z.mod_pos_bound. lia. Qed.

(** What a segment of the registers shows, with its function given. *)
Definition seg_item (p : pr_param) (gs : nat * pr_seg) : list psegi :=
  let s := snd gs in
  if ps_valid s then [mkPg (fst gs) (ps_sop s) (ps_eop s) (if ps_sop s then ps_hdr s else 0) (if ps_sop s then ps_bar s else 0) (if ps_sop s then ps_func s else 0) (ps_strb s)
                           (map (dwn (ps_data s)) (filter (fun j => Z.testbit (ps_strb s) (Z.of_nat j)) (seq 0 (Z.to_nat (pp_w p)))))] else [].
Definition pout (p : pr_param) (s : list pr_seg) : list psegi := flat_map (seg_item p) (combine (seq 0 (length s)) s).
Lemma pseen_out p b s : pseen p (b, s) = if b then pout p s else [].
Proof. reflexivity. Qed.

(** The functions come out right. *)
Definition func_ok (n : nat) (i : pr_in) : Prop := forall g, (g < n)%nat -> pr_func i (Z.of_nat g) = part (pi_func i) g 3.

Lemma seg_new p i g s : pr_ok p -> pi_fready i = true ->
  map nofunc (seg_item p (g, pr_seg_next p i (Z.of_nat g) s)) = map nofunc (pseg p i g) /\
  (pr_func i (Z.of_nat g) = part (pi_func i) g 3 -> seg_item p (g, pr_seg_next p i (Z.of_nat g) s) = pseg p i g).
Proof.
  intros Hp Hr. unfold pr_seg_next, pseg. rewrite Hr, !flag.
  destruct (part (pi_valid i) g 1 =? 1); [|split; reflexivity].
  pose proof (lanes_range p i g Hp) as HL. pose proof (strb_lanes p i g Hp) as HS.
  fold (lanes_of p i g). unfold seg_item. cbn [fst snd ps_valid ps_sop ps_eop ps_hdr ps_bar ps_func ps_strb ps_data].
  rewrite HS, pbar_ok.
  assert (HD : map (dwn (psel (pi_data i) (32 * pp_w p * Z.of_nat g) (32 * pp_w p))) (filter (fun j => Z.testbit (2 ^ lanes_of p i g - 1) (Z.of_nat j)) (seq 0 (Z.to_nat (pp_w p))))
    = firstn (Z.to_nat (lanes_of p i g)) (dwords (part (pi_data i) g (32 * pp_w p)) (Z.to_nat (pp_w p)))).
  { rewrite firstn_dwords by lia. pose proof (enabled_n (Z.to_nat (pp_w p)) (Z.to_nat (lanes_of p i g)) ltac:(lia)) as E. rewrite Z2Nat.id in E by lia. rewrite E. reflexivity. }
  change (psel (pi_hdr i) (128 * Z.of_nat g) 128) with (part (pi_hdr i) g 128).
  rewrite HD.
  destruct (part (pi_sop i) g 1 =? 1).
  - split; [reflexivity|]. intros E. rewrite E. reflexivity.
  - split; reflexivity.
Qed.

Lemma fm_pointwise (p : pr_param) (i : pr_in) (F : nat -> pr_seg -> pr_seg) (u : psegi -> psegi) : forall (s : list pr_seg) (a : nat),
  (forall g x, (a <= g < a + length s)%nat -> map u (seg_item p (g, F g x)) = map u (pseg p i g)) ->
  map u (flat_map (seg_item p) (combine (seq a (length s)) (map (fun gs => F (fst gs) (snd gs)) (combine (seq a (length s)) s)))) = map u (flat_map (pseg p i) (seq a (length s))).
Proof.
  induction s as [|x s IH]; intros a H; [reflexivity|]. cbn [length seq combine map flat_map fst snd]. rewrite !map_app. f_equal.
  - apply H. cbn [length]. lia.
  - apply IH. intros g y Hg. apply H. cbn [length]. lia.
Qed.

Lemma step_len p s i : length (pr_step p s i) = length s.
Proof. unfold pr_step. rewrite map_length, combine_length, seq_length. apply PeanoNat.Nat.min_id. Qed.
Lemma pout_step p s i (u : psegi -> psegi) : pr_ok p -> pi_rst i = false -> pi_fready i = true ->
  (forall g x, (g < length s)%nat -> map u (seg_item p (g, pr_seg_next p i (Z.of_nat g) x)) = map u (pseg p i g)) ->
  map u (pout p (pr_step p s i)) = map u (flat_map (pseg p i) (seq 0 (length s))).
Proof.
  intros Hp Hrst Hr H. unfold pout. rewrite step_len. unfold pr_step. rewrite Hrst. cbv zeta.
  apply (fm_pointwise p i (fun g x => pr_seg_next p i (Z.of_nat g) x) u s 0). intros g x Hg. apply H. lia.
Qed.
Lemma no_valid p i n : pi_valid i = 0 -> flat_map (pseg p i) (seq 0 n) = [].
Proof.
  intros H. assert (E : forall g, pseg p i g = []).
  { intros g. unfold pseg. rewrite H. unfold part. rewrite Z.div_0_l by (apply Z.pow_nonzero; lia). reflexivity. }
  generalize 0%nat. induction n as [|n IH]; intros a; cbn [seq flat_map]; [reflexivity|]. rewrite E. apply IH.
Qed.
Lemma step_hold p s i : pi_rst i = false -> pi_fready i = false -> pr_step p s i = s.
Proof.
  intros Hrst Hr. unfold pr_step. rewrite Hrst. unfold pr_seg_next. rewrite Hr. cbv zeta.
  generalize 0%nat. induction s as [|x s IH]; intros a; cbn [length seq combine map snd]; [reflexivity|]. f_equal. apply IH.
Qed.

Lemma ptrace_ok p n (u : psegi -> psegi) : pr_ok p -> n = Z.to_nat (pp_n p) -> forall ins s,
  length s = n -> Forall pstream ins ->
  (forall i g x, In i ins -> pi_fready i = true -> (g < n)%nat -> map u (seg_item p (g, pr_seg_next p i (Z.of_nat g) x)) = map u (pseg p i g)) ->
  map u (pout p s) ++ map u (flat_map (psegs p) ins) = map u (flat_map (pseen p) (pr_trace p s ins)) ++ map u (pout p (fold_left (pr_step p) ins s)).
Proof.
  intros Hp Hn. induction ins as [|i t IH]; intros s Hl Hst Hu.
  - cbn [flat_map pr_trace fold_left map app]. apply app_nil_r.
  - inversion Hst as [|? ? (Hrst & Hv) Ht]; subst. cbn [flat_map pr_trace fold_left]. rewrite pseen_out, !map_app.
    assert (Hl' : length (pr_step p s i) = Z.to_nat (pp_n p)) by (rewrite step_len; exact Hl).
    specialize (IH (pr_step p s i) Hl' Ht). rewrite <- app_assoc, <- IH by (intros; apply Hu; auto; right; assumption).
    destruct (pi_fready i) eqn:Hr.
    + f_equal. rewrite (pout_step p s i u Hp Hrst Hr).
      * unfold psegs. rewrite <- Hl. reflexivity.
      * intros g x Hg. apply Hu; [left; reflexivity|exact Hr|lia].
    + assert (Hz : pi_valid i = 0). { destruct (Z.eq_dec (pi_valid i) 0) as [E|E]; [exact E|]. specialize (Hv E). discriminate. }
      unfold psegs at 1. rewrite no_valid by exact Hz. rewrite (step_hold p s i Hrst Hr). reflexivity.
Qed.

Lemma reset_pout p s i : pi_rst i = true -> pout p (pr_step p s i) = [].
Proof.
  intros H. unfold pout. rewrite step_len. unfold pr_step. rewrite H. cbv zeta. generalize 0%nat.
  induction s as [|x s IH]; intros a; [reflexivity|]. cbn [length seq combine map flat_map]. unfold seg_item at 1. cbn [snd ps_valid app]. apply IH.
Qed.

Definition pquiet (i : pr_in) : Prop := pi_valid i = 0 /\ pi_fready i = true /\ pi_rst i = false.
Lemma pquiet_out p s i : pquiet i -> pout p (pr_step p s i) = [].
Proof.
  intros (Hv & Hr & Hrst). unfold pout. rewrite step_len. unfold pr_step. rewrite Hrst. cbv zeta. generalize 0%nat.
  induction s as [|x s IH]; intros a; [reflexivity|]. cbn [length seq combine map flat_map fst snd]. rewrite IH, app_nil_r.
  unfold pr_seg_next. rewrite Hr, flag, Hv. unfold part. rewrite Z.div_0_l by (apply Z.pow_nonzero; lia). reflexivity.
Qed.

Lemma ptile_rx_ok p s i ins : pr_ok p -> length s = Z.to_nat (pp_n p) -> pi_rst i = true -> Forall pstream ins ->
  exists rest, map nofunc (flat_map (psegs p) ins) = map nofunc (flat_map (pseen p) (pr_trace p (pr_step p s i) ins)) ++ rest.
Proof.
  intros Hp Hl Hr Hst. exists (map nofunc (pout p (fold_left (pr_step p) ins (pr_step p s i)))).
  rewrite <- (ptrace_ok p _ nofunc Hp eq_refl ins (pr_step p s i)); [rewrite reset_pout by exact Hr; reflexivity|rewrite step_len; exact Hl|exact Hst|].
  intros j g x _ Hj _. apply (seg_new p j g x Hp Hj).
Qed.

Lemma ptile_done_gen p s i ins q (u : psegi -> psegi) : pr_ok p -> length s = Z.to_nat (pp_n p) -> pi_rst i = true -> Forall pstream ins -> pquiet q ->
  (forall i g x, In i (ins ++ [q]) -> pi_fready i = true -> (g < Z.to_nat (pp_n p))%nat -> map u (seg_item p (g, pr_seg_next p i (Z.of_nat g) x)) = map u (pseg p i g)) ->
  map u (flat_map (pseen p) (pr_trace p (pr_step p s i) (ins ++ [q]))) = map u (flat_map (psegs p) ins).
Proof.
  intros Hp Hl Hr Hst Hq Hu.
  assert (Hst' : Forall pstream (ins ++ [q])).
  { apply Forall_app. split; [exact Hst|]. constructor; [|constructor]. destruct Hq as (A & B & C). split; [exact C|]. intros _. exact B. }
  pose proof (ptrace_ok p _ u Hp eq_refl (ins ++ [q]) (pr_step p s i) ltac:(rewrite step_len; exact Hl) Hst' Hu) as E.
  rewrite reset_pout in E by exact Hr. rewrite fold_left_app in E. cbn [fold_left] in E. rewrite pquiet_out in E by exact Hq. cbn [map app] in E. rewrite app_nil_r in E.
  rewrite <- E. rewrite flat_map_app, map_app. cbn [flat_map]. change (psegs p q) with (flat_map (pseg p q) (seq 0 (Z.to_nat (pp_n p)))). rewrite no_valid by apply Hq. cbn [map app]. rewrite app_nil_r. reflexivity.
Qed.
Lemma ptile_rx_done p s i ins q : pr_ok p -> length s = Z.to_nat (pp_n p) -> pi_rst i = true -> Forall pstream ins -> pquiet q ->
  map nofunc (flat_map (pseen p) (pr_trace p (pr_step p s i) (ins ++ [q]))) = map nofunc (flat_map (psegs p) ins).
Proof. intros Hp Hl Hr Hst Hq. apply ptile_done_gen; auto. intros j g x _ Hj _. apply (seg_new p j g x Hp Hj). Qed.

Lemma func_cases p i g : pi_func i = 0 \/ pp_n p = 1 /\ 0 <= pi_func i < 4 -> (g < Z.to_nat (pp_n p))%nat -> pr_func i (Z.of_nat g) = part (pi_func i) g 3.
Proof.
  intros [H|(Hn & H)] Hg.
  - unfold pr_func, part, psel. rewrite H, !Z.div_0_l by (apply Z.pow_nonzero; lia). reflexivity.
  - rewrite Hn in Hg. assert (g = 0%nat) by lia. subst g. unfold pr_func, part, psel.
    change (2 ^ (2 * Z.of_nat 0)) with 1. change (2 ^ (3 * Z.of_nat 0)) with 1. rewrite Z.div_1_r, !Z.mod_small by lia. reflexivity.
Qed.
Lemma ptile_rx_func p s i ins q : pr_ok p -> length s = Z.to_nat (pp_n p) -> pi_rst i = true -> Forall pstream ins -> pquiet q ->
  Forall (fun i => pi_func i = 0 \/ pp_n p = 1 /\ 0 <= pi_func i < 4) ins ->
  flat_map (pseen p) (pr_trace p (pr_step p s i) (ins ++ [q])) = flat_map (psegs p) ins.
Proof.
  intros Hp Hl Hr Hst Hq Hf. rewrite <- (map_id (flat_map (psegs p) ins)), <- (map_id (flat_map (pseen p) _)).
  apply ptile_done_gen; auto. intros j g x Hin Hj Hg. rewrite !map_id.
  apply in_app_or in Hin. destruct Hin as [Hin|[<-|[]]].
  - apply (seg_new p j g x Hp Hj). apply (func_cases p j g); [|exact Hg]. rewrite Forall_forall in Hf. apply Hf, Hin.
  - destruct Hq as (Hv & Hr' & _). unfold pseg, pr_seg_next, seg_item. rewrite Hr', flag, Hv. unfold part. rewrite !Z.div_0_l by (apply Z.pow_nonzero; lia). reflexivity.
Qed.
