(** Proofs about the credit accounting of the H-Tile transmit side (C137, C138). *)
From Verif Require Import PyBase RtlModel RtlFcModel RtlFcSpec RtlFcProofs RtlS10FcModel RtlS10FcSpec.

Lemma credits_range ft len : 0 <= len -> dwords len <= 512 -> 0 <= credits (ft, len) < 512.
Proof.
  intros H0 H. unfold credits. destruct (Z.testbit ft 6); [|lia]. unfold dwords in *. destruct (len =? 0); [lia|].
  split; [apply Z.div_pos; lia|apply Z.div_lt_upper_bound; lia].
Qed.
Definition tlp_of (e : bool * Z) : list (Z * Z) := if fst e then [(psel (snd e) 120 8, psel (snd e) 96 10)] else [].
Lemma cnt_ok v h : Forall (fun x => Z.testbit (fst x) 6 = true -> dwords (snd x) <= 512) (tlp_of (v, h)) -> cx_cnt false v h = counts_of (tlp_of (v, h)).
Proof.
  intros H. unfold cx_cnt, fc_step. destruct v; [|reflexivity]. cbn [tlp_of fst snd] in H |- *.
  assert (E : starts h 1 1 true 1 = [(psel h 120 8, psel h 96 10)]) by reflexivity.
  rewrite fc_next_ok by (rewrite E; exact H). rewrite E. inversion_clear H as [|? ? H1 _]. cbn [fst snd] in H1.
  pose proof (psel_range h 96 10 ltac:(lia)) as R. set (ft := psel h 120 8) in *. set (len := psel h 96 10) in *. clearbody ft len.
  assert (C : 0 <= credits (ft, len) < 512).
  { unfold credits. destruct (Z.testbit ft 6) eqn:T; [|lia]. specialize (H1 eq_refl). pose proof (credits_range ft len ltac:(lia) H1) as K. unfold credits in K. rewrite T in K. exact K. }
  unfold counts_of, fc_mod, count_of, data_of. cbn [filter fst fc_ph fc_pd fc_nph fc_npd fc_cplh fc_cpld].
  destruct (posted ft), (nonposted ft), (completion ft); cbn [map zsum fold_right]; f_equal;
    try (rewrite Z.add_0_r; apply Z.mod_small; assumption); reflexivity.
Qed.

Fixpoint evs (c : bool) (l : list cx_in) : list (bool * Z) := match l with [] => [] | i :: r => (c && cx_sop i, cx_hdr i) :: evs (cx_cons i) r end.
Definition lastc (c : bool) (l : list cx_in) : bool := fold_left (fun _ i => cx_cons i) l c.
Lemma left_evs : forall l c, c_left c l = map tlp_of (evs c l).
Proof. induction l; intros c; cbn; [reflexivity|]. rewrite IHl. reflexivity. Qed.
Lemma evs_app i : forall l c, evs c (l ++ [i]) = evs c l ++ [(lastc c l && cx_sop i, cx_hdr i)].
Proof. induction l; intros c; cbn; [reflexivity|]. rewrite IHl. reflexivity. Qed.
Lemma evs_len : forall l c, length (evs c l) = length l.
Proof. induction l; intros; cbn; [reflexivity|]. now rewrite IHl. Qed.
Lemma evs_first l : fst (nth 0 (evs false l) (false, 0)) = false.
Proof. destruct l; reflexivity. Qed.

(** The sums, field by field. *)
Definition six (P : (fc_counts -> Z) -> Z -> Prop) : Prop :=
  P fc_ph (2 ^ 8) /\ P fc_pd (2 ^ 12) /\ P fc_nph (2 ^ 8) /\ P fc_npd (2 ^ 12) /\ P fc_cplh (2 ^ 8) /\ P fc_cpld (2 ^ 12).
Lemma six_imp (P Q : (fc_counts -> Z) -> Z -> Prop) : (forall f m, (m = 2 ^ 8 \/ m = 2 ^ 12) -> P f m -> Q f m) -> six P -> six Q.
Proof. intros H (A & B & C & D & E & F). repeat split; apply H; auto. Qed.
Lemma six_acc c m o : six (fun f k => f (cx_acc c m o) = (f c + f m - f o) mod k).
Proof. repeat split. Qed.
Lemma counts_app l l' : six (fun f _ => f (counts_of (l ++ l')) = f (counts_of l) + f (counts_of l')).
Proof. repeat split; cbn [counts_of fc_ph fc_pd fc_nph fc_npd fc_cplh fc_cpld]; (apply count_app || apply data_app). Qed.
Lemma six_and P Q : six P -> six Q -> six (fun f m => P f m /\ Q f m).
Proof. intros (A & B & C & D & E & F) (A' & B' & C' & D' & E' & F'). repeat split; assumption. Qed.
Lemma counts_nil : six (fun f _ => f (counts_of []) = 0).
Proof. repeat split. Qed.
Lemma six_fc0 : six (fun f _ => f fc0 = 0).
Proof. repeat split. Qed.

Definition inv (l : list cx_in) (s : cx_state) : Prop :=
  let n := length l in let e := evs false l in
  cs_wr s = Z.of_nat n mod 32 /\ cs_rd s = Z.of_nat (n - 23) mod 32 /\ cs_cons s = lastc false l /\
  (forall j, (j < n)%nat -> (n <= j + 32)%nat -> (cs_mv s (Z.of_nat j mod 32), cs_mh s (Z.of_nat j mod 32)) = nth j e (false, 0)) /\
  (n = O -> cs_mv s 0 = false) /\
  cs_out s = counts_of (if (24 <=? n)%nat then tlp_of (nth (n - 24) e (false, 0)) else []) /\
  six (fun f m => f (cs_int s) = (c_sum f l - f (counts_of (c_old l))) mod m).

Lemma zsum_app a b : zsum (a ++ b) = zsum a + zsum b.
Proof. unfold zsum. induction a; cbn; [reflexivity|]. rewrite IHa. lia. Qed.
Lemma sum_app f l i : c_sum f (l ++ [i]) = c_sum f l + f (cx_mux i).
Proof. unfold c_sum. rewrite map_app, zsum_app. cbn. lia. Qed.
Lemma firstn_S {T : Type} (d : T) : forall n l, (n < length l)%nat -> firstn (S n) l = firstn n l ++ [nth n l d].
Proof. induction n; intros [|x l] H; cbn in *; try lia; [reflexivity|]. f_equal. apply IHn. lia. Qed.
Lemma old_app l i : c_old (l ++ [i]) = c_old l ++ (if (24 <=? length l)%nat then tlp_of (nth (length l - 24) (evs false l) (false, 0)) else []).
Proof.
  unfold c_old. rewrite !left_evs, evs_app, app_length. cbn [length]. destruct (Nat.leb_spec 24 (length l)).
  - replace (length l + 1 - 24)%nat with (S (length l - 24)) by lia. rewrite map_app, firstn_app, map_length, evs_len.
    replace (S (length l - 24) - length l)%nat with O by lia. rewrite firstn_O, app_nil_r.
    rewrite (firstn_S (tlp_of (false, 0))) by (rewrite map_length, evs_len; lia). rewrite map_nth, concat_app. cbn. now rewrite app_nil_r.
  - replace (length l + 1 - 24)%nat with O by lia. replace (length l - 24)%nat with O by lia. reflexivity.
Qed.
Lemma short_nth l j : c_short l -> (j < length l)%nat -> Forall (fun x => Z.testbit (fst x) 6 = true -> dwords (snd x) <= 512) (tlp_of (nth j (evs false l) (false, 0))).
Proof.
  unfold c_short. intros H Hj. rewrite left_evs in H. apply Forall_forall. intros x Hx. rewrite Forall_forall in H. apply H. apply in_concat.
  exists (tlp_of (nth j (evs false l) (false, 0))). split; [|assumption]. apply in_map. apply nth_In. now rewrite evs_len.
Qed.
Lemma short_app l i : c_short (l ++ [i]) -> c_short l.
Proof. unfold c_short. rewrite !left_evs, evs_app, map_app, concat_app. intros H. now apply Forall_app in H. Qed.
Lemma mod_acc a x y m : m <> 0 -> (a mod m + x - y) mod m = (a + x - y) mod m.
Proof. intros. replace (a mod m + x - y) with (a mod m + (x - y)) by lia. rewrite Zplus_mod_idemp_l. f_equal. lia. Qed.

Lemma inv_step l s i : c_short (l ++ [i]) -> cx_rst i = false -> inv l s -> inv (l ++ [i]) (cx_step s i).
Proof.
  intros Sh R (Hw & Hr & Hc & Hm & H0 & Ho & Hi). pose proof (short_app _ _ Sh) as Sl. set (n := length l) in *. set (e := evs false l) in *.
  assert (Le : length e = n) by apply evs_len.
  assert (Rd : cx_cnt false (cs_mv s (cs_rd s)) (cs_mh s (cs_rd s)) = counts_of (if (23 <=? n)%nat then tlp_of (nth (n - 23) e (false, 0)) else [])).
  { rewrite Hr. destruct (Nat.leb_spec 23 n).
    - specialize (Hm (n - 23)%nat ltac:(lia) ltac:(lia)). pose proof (short_nth l (n - 23) Sl ltac:(fold n; lia)) as Sn. fold e in Sn. rewrite <- Hm in Sn |- *.
      apply cnt_ok. exact Sn.
    - replace (n - 23)%nat with O by lia. change (Z.of_nat 0 mod 32) with 0.
      assert (V : cs_mv s 0 = false).
      { destruct (Nat.eq_dec n 0) as [E|E]; [now apply H0|]. specialize (Hm O ltac:(lia) ltac:(lia)). change (Z.of_nat 0 mod 32) with 0 in Hm.
        pose proof (evs_first l) as F. fold e in F. rewrite <- Hm in F. exact F. }
      rewrite V. reflexivity. }
  assert (Ln : length (l ++ [i]) = S n) by (rewrite app_length; cbn [length]; unfold n; lia).
  assert (Ee : evs false (l ++ [i]) = e ++ [(cs_cons s && cx_sop i, cx_hdr i)]) by (rewrite evs_app, Hc; reflexivity).
  unfold inv. rewrite Ln, Ee. unfold cx_step. rewrite R. cbn [cs_wr cs_rd cs_cons cs_mv cs_mh cs_out cs_int].
  split; [|split; [|split; [|split; [|split; [|split]]]]].
  - rewrite Hw, Nat2Z.inj_succ. rewrite Zplus_mod_idemp_l. reflexivity.
  - rewrite Hw, Hr. clear - n. destruct (Nat.le_gt_cases 23 n).
    + replace (S n - 23)%nat with (S (n - 23)) by lia. rewrite Nat2Z.inj_succ, Nat2Z.inj_sub by lia. change (Z.of_nat 23) with 23.
      destruct (Z.leb_spec 23 ((Z.of_nat n mod 32 - (Z.of_nat n - 23) mod 32) mod 2 ^ 32)) as [_|B].
      * rewrite Zplus_mod_idemp_l. reflexivity.
      * exfalso. change (2 ^ 32) with 4294967296 in B. Z.div_mod_to_equations. lia.
    + replace (S n - 23)%nat with O by lia. replace (n - 23)%nat with O by lia. change (Z.of_nat 0 mod 32) with 0. rewrite Z.sub_0_r.
      destruct (Z.leb_spec 23 ((Z.of_nat n mod 32) mod 2 ^ 32)) as [B|_]; [|reflexivity].
      exfalso. rewrite (Z.mod_small (Z.of_nat n) 32) in B by lia. rewrite Z.mod_small in B by lia. lia.
  - unfold lastc. rewrite fold_left_app. reflexivity.
  - intros j J1 J2. unfold cx_upd. rewrite Hw. destruct (Nat.eq_dec j n) as [->|N].
    + rewrite Z.eqb_refl. rewrite app_nth2 by lia. rewrite Le, Nat.sub_diag. reflexivity.
    + destruct (Z.eqb_spec (Z.of_nat j mod 32) (Z.of_nat n mod 32)) as [B|_].
      * exfalso. clear - B N J1 J2. Z.div_mod_to_equations. lia.
      * rewrite app_nth1 by lia. apply Hm; lia.
  - discriminate.
  - rewrite Rd. replace (24 <=? S n)%nat with (23 <=? n)%nat by reflexivity. destruct (Nat.leb_spec 23 n); [|reflexivity].
    replace (S n - 24)%nat with (n - 23)%nat by lia. rewrite app_nth1 by lia. reflexivity.
  - rewrite old_app. fold n e.
    set (x := if (24 <=? n)%nat then tlp_of (nth (n - 24) e (false, 0)) else []) in *.
    pose proof (six_and _ _ (six_and _ _ Hi (six_acc (cs_int s) (cx_mux i) (cs_out s))) (counts_app (c_old l) x)) as K.
    revert K. apply six_imp. intros f m Hm2 ((K1 & K2) & K3). rewrite K2, K1, K3, sum_app, Ho. rewrite mod_acc by (destruct Hm2; subst m; discriminate). f_equal. lia.
Qed.

Lemma inv_reset s r : c_reset r -> inv [] (cx_run s r).
Proof.
  intros (a & b & c & -> & Ra & Rb & Rc & Cb & Cc). unfold cx_run. cbn [fold_left]. set (s1 := cx_step s a).
  assert (W1 : cs_wr s1 = 0) by (unfold s1, cx_step; rewrite Ra; reflexivity). clearbody s1. set (s2 := cx_step s1 b).
  assert (W2 : cs_wr s2 = 0) by (unfold s2, cx_step; rewrite Rb; reflexivity). assert (C2 : cs_cons s2 = false) by exact Cb. clearbody s2.
  unfold inv, cx_step. rewrite Rc, C2, W2. cbn [cs_wr cs_rd cs_cons cs_mv cs_mh cs_out cs_int length].
  split; [reflexivity|]. split; [reflexivity|]. split; [exact Cc|]. split; [intros j J; inversion J|]. split; [reflexivity|]. split; [reflexivity|].
  repeat split.
Qed.
Lemma inv_run s r : c_reset r -> forall l, Forall c_running l -> c_short l -> inv l (cx_run s (r ++ l)).
Proof.
  intros Hr. induction l as [|i l IH] using rev_ind; intros Rn Sh; [rewrite app_nil_r; now apply inv_reset|].
  apply Forall_app in Rn. destruct Rn as [Rl Ri]. inversion_clear Ri as [|? ? R1 _]. rewrite app_assoc. unfold cx_run. rewrite fold_left_app. cbn [fold_left].
  apply inv_step; [assumption|exact R1|]. apply IH; [assumption|now apply short_app in Sh].
Qed.

Lemma account s r l : c_reset r -> Forall c_running l -> c_short l ->
  let t := counts_of (c_old l) in let c := cs_int (cx_run s (r ++ l)) in
  fc_ph c = (c_sum fc_ph l - fc_ph t) mod 2 ^ 8 /\ fc_pd c = (c_sum fc_pd l - fc_pd t) mod 2 ^ 12 /\
  fc_nph c = (c_sum fc_nph l - fc_nph t) mod 2 ^ 8 /\ fc_npd c = (c_sum fc_npd l - fc_npd t) mod 2 ^ 12 /\
  fc_cplh c = (c_sum fc_cplh l - fc_cplh t) mod 2 ^ 8 /\ fc_cpld c = (c_sum fc_cpld l - fc_cpld t) mod 2 ^ 12.
Proof. intros Hr Rn Sh. destruct (inv_run s r Hr l Rn Sh) as (_ & _ & _ & _ & _ & _ & H). exact H. Qed.

Lemma left_gt k a b : 0 <= k -> (k <? cx_left a b) = (b + k <? a).
Proof. intros. unfold cx_left. destruct (Z.ltb_spec b a); destruct (Z.ltb_spec (b + k) a); (apply Z.ltb_lt || apply Z.ltb_ge); lia. Qed.
Lemma gates s i j : cx_rst i = false -> 0 <= cx_mps i ->
  let t := cx_step (cx_step s i) j in let m := 2 * (8 * 2 ^ Z.min 5 (cx_mps i)) in
  cs_p t = (fc_ph (cs_int s) + 4 <? fc_ph (cx_cr i)) && (fc_pd (cs_int s) + m <? fc_pd (cx_cr i)) /\
  cs_np t = (fc_nph (cs_int s) + 4 <? fc_nph (cx_cr i)) /\
  cs_cpl t = (fc_cplh (cs_int s) + 4 <? fc_cplh (cx_cr i)) && (fc_cpld (cs_int s) + m <? fc_cpld (cx_cr i)).
Proof.
  intros R M. cbv zeta. unfold cx_step. cbn [cs_p cs_np cs_cpl cs_adj cs_mpf]. rewrite R. unfold cx_adj. cbn [fc_ph fc_pd fc_nph fc_npd fc_cplh fc_cpld].
  assert (E : 8 * 2 ^ (if 5 <? cx_mps i then 5 else cx_mps i) * 2 = 2 * (8 * 2 ^ Z.min 5 (cx_mps i))).
  { destruct (Z.ltb_spec 5 (cx_mps i)); [rewrite Z.min_l by lia|rewrite Z.min_r by lia]; lia. }
  rewrite E. assert (0 < 2 ^ Z.min 5 (cx_mps i)) by (apply Z.pow_pos_nonneg; lia). rewrite !left_gt by lia. auto.
Qed.

(** A closed gate stays closed. *)
Definition quiet (i : cx_in) : Prop := cx_rst i = false /\ cx_cons i = false /\ fc_ph (cx_mux i) = 0 /\ fc_ph (cx_cr i) <= 255.
Definition locked (s : cx_state) : Prop :=
  (forall k, 0 <= k < 32 -> cs_mv s k = false) /\ 0 <= cs_wr s < 32 /\ 0 <= cs_rd s < 32 /\ cs_cons s = false /\ fc_ph (cs_out s) = 0 /\ fc_ph (cs_int s) = 255 /\ fc_ph (cs_adj s) = 0 /\ cs_p s = false.
Lemma locked_step s i : quiet i -> locked s -> locked (cx_step s i).
Proof.
  intros (R & C & M & K) (Hm & Hw & Hr & Hc & Ho & Hi & Ha & Hp). unfold locked, cx_step. cbn [cs_mv cs_wr cs_rd cs_cons cs_out cs_int cs_adj cs_p]. rewrite R, C, Hc.
  pose proof (Z.mod_pos_bound (cs_wr s + 1) 32 ltac:(lia)). pose proof (Z.mod_pos_bound (cs_rd s + 1) 32 ltac:(lia)).
  split; [|split; [|split; [|split; [|split; [|split; [|split]]]]]].
  - intros k Hk. unfold cx_upd. cbn [andb]. destruct (k =? cs_wr s); [reflexivity|now apply Hm].
  - assumption.
  - destruct (23 <=? _); assumption.
  - reflexivity.
  - rewrite (Hm _ Hr). reflexivity.
  - unfold cx_acc. cbn [fc_ph]. rewrite Hi, M, Ho. reflexivity.
  - unfold cx_adj. cbn [fc_ph]. rewrite Hi. unfold cx_left. destruct (Z.ltb_spec 255 (fc_ph (cx_cr i))); [lia|reflexivity].
  - rewrite Ha. reflexivity.
Qed.
Lemma locked_run : forall l s, Forall quiet l -> locked s -> locked (cx_run s l).
Proof. induction l as [|i l IH]; intros s F H; [exact H|]. inversion_clear F. cbn. apply IH; [assumption|]. now apply locked_step. Qed.
Lemma all32 (f : Z -> bool) : forallb (fun k => negb (f (Z.of_nat k))) (seq 0 32) = true -> forall k, 0 <= k < 32 -> f k = false.
Proof.
  intros H k Hk. rewrite forallb_forall in H. specialize (H (Z.to_nat k)). rewrite Z2Nat.id in H by lia.
  assert (I : In (Z.to_nat k) (seq 0 32)) by (apply in_seq; lia). specialize (H I). now destruct (f k).
Qed.
Lemma safe s r l i j a (k : fc_counts) : c_reset r -> Forall c_running l -> c_short l -> cx_rst i = false -> 0 <= cx_mps i ->
  let o := counts_of (c_old l) in let t := cx_run s (r ++ l ++ [i; j]) in
  (0 <= fc_ph k -> 0 <= c_sum fc_ph l - fc_ph o < 256 -> fc_ph (cx_cr i) = fc_ph a - (fc_ph o + fc_ph k) -> cs_p t = true -> c_sum fc_ph l + 4 < fc_ph a) /\
  (0 <= fc_nph k -> 0 <= c_sum fc_nph l - fc_nph o < 256 -> fc_nph (cx_cr i) = fc_nph a - (fc_nph o + fc_nph k) -> cs_np t = true -> c_sum fc_nph l + 4 < fc_nph a) /\
  (0 <= fc_cplh k -> 0 <= c_sum fc_cplh l - fc_cplh o < 256 -> fc_cplh (cx_cr i) = fc_cplh a - (fc_cplh o + fc_cplh k) -> cs_cpl t = true -> c_sum fc_cplh l + 4 < fc_cplh a) /\
  (0 <= fc_pd k -> 0 <= c_sum fc_pd l - fc_pd o < 4096 -> fc_pd (cx_cr i) = fc_pd a - (fc_pd o + fc_pd k) -> cs_p t = true -> c_sum fc_pd l + 2 * (8 * 2 ^ Z.min 5 (cx_mps i)) < fc_pd a) /\
  (0 <= fc_cpld k -> 0 <= c_sum fc_cpld l - fc_cpld o < 4096 -> fc_cpld (cx_cr i) = fc_cpld a - (fc_cpld o + fc_cpld k) -> cs_cpl t = true -> c_sum fc_cpld l + 2 * (8 * 2 ^ Z.min 5 (cx_mps i)) < fc_cpld a).
Proof.
  intros Hr Rn Sh R M. cbv zeta. rewrite app_assoc. unfold cx_run. rewrite fold_left_app. fold (cx_run s (r ++ l)). cbn [fold_left].
  pose proof (account s r l Hr Rn Sh) as A. cbv zeta in A. destruct A as (A1 & A4 & A2 & _ & A3 & A5).
  pose proof (gates (cx_run s (r ++ l)) i j R M) as G. cbv zeta in G. destruct G as (G1 & G2 & G3). rewrite G1, G2, G3, A1, A2, A3, A4, A5. clear G1 G2 G3 A1 A2 A3 A4 A5.
  change (2 ^ 8) with 256. change (2 ^ 12) with 4096. set (m := 2 * (8 * 2 ^ Z.min 5 (cx_mps i))). clearbody m.
  split; [|split; [|split; [|split]]]; intros K B E H; try (apply andb_prop in H; (destruct H as [H _] + destruct H as [_ H])); apply Z.ltb_lt in H; rewrite Z.mod_small in H by exact B; lia.
Qed.
