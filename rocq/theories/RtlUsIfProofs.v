(** Lemmas on the adapters for UltraScale streams (C107, C108): lanes, strobes, headers. *)
From Verif Require Import PyBase RtlModel RtlFcProofs RtlRamProofs2 RtlAxmModel RtlAxmSpec RtlAxmProofs RtlUsIfModel RtlUsIfSpec.
From Coq Require Import Lia.

(** * Fields *)
Lemma cat_sub n l w v lo : nth_error l n = Some (w, v) -> forallb (fun x => 0 <=? fst x) l = true -> forall b, wsum (skipn (S n) l) = b -> forall hi, b <= lo -> lo <= hi -> hi < b + w -> 0 <= b ->
  fld (cat l) hi lo = psel v (lo - b) (hi - lo + 1).
Proof.
  intros N P b B hi B1 B2 B3 B0. pose proof (cat_nth n l w v N P) as C. rewrite B in C.
  rewrite fld_psel. replace lo with (b + (lo - b)) at 1 by lia. rewrite <- (RtlRamProofs2.psel_psel (cat l) b w (lo - b) (hi - lo + 1)) by lia. rewrite C.
  replace (v mod 2 ^ w) with (psel v 0 w) by (unfold psel; now rewrite Z.pow_0_r, Z.div_1_r).
  rewrite RtlRamProofs2.psel_psel by lia. reflexivity.
Qed.
Lemma lane_psel v j : lane v j = psel v (32 * j) 32.
Proof. reflexivity. Qed.
Lemma fld_lane v j hi lo : 0 <= j -> 0 <= lo -> lo <= hi -> hi < 32 -> fld (lane v j) hi lo = psel v (32 * j + lo) (hi - lo + 1).
Proof. intros. rewrite fld_psel, lane_psel. apply RtlRamProofs2.psel_psel; lia. Qed.
Lemma lane_range v j : 0 <= lane v j < 2 ^ 32.
Proof. apply Z.mod_pos_bound. lia. Qed.
Lemma psel_zero lo w : psel 0 lo w = 0.
Proof. unfold psel. now rewrite Zdiv_0_l, Zmod_0_l. Qed.

Lemma psel_small v w : 0 <= v < 2 ^ w -> psel v 0 w = v.
Proof. intros. unfold psel. rewrite Z.pow_0_r, Z.div_1_r. apply Z.mod_small. assumption. Qed.
Lemma meta_le_small m k : 0 <= k -> 0 <= m < 2 ^ k -> m = psel m 0 k.
Proof. intros. now rewrite psel_small. Qed.

Ltac cf n := match goal with |- context [fld (cat ?l) ?hi ?lo] => let b := eval lazy in (wsum (skipn (S n) l)) in rewrite (cat_sub n l _ _ lo eq_refl eq_refl b eq_refl hi) by lia end.
Ltac pp := repeat rewrite RtlRamProofs2.psel_psel by lia; rewrite ?fld_lane by lia; rewrite ?psel_zero; try reflexivity.

(** * Headers *)
Lemma cq_fmt d : let '(f, t) := cq_type (psel d 75 4) (psel d 64 11) (psel d 112 3) in 0 <= f < 8 /\ 0 <= t < 32 /\ rq_fmt_ok (psel d 75 4) (psel d 64 11) (psel d 112 3) f t.
Proof.
  pose proof (psel_range d 75 4 ltac:(lia)) as R. pose proof (psel_range d 112 3 ltac:(lia)) as R3. generalize dependent (psel d 75 4). generalize dependent (psel d 112 3). generalize (psel d 64 11).
  intros n r R3 t R. change (2 ^ 4) with 16 in R. change (2 ^ 3) with 8 in R3.
  assert (C : In t [0; 1; 2; 3; 4; 5; 6; 7; 8; 9; 10; 11; 12; 13; 14; 15]) by (cbn [In]; lia).
  unfold rq_fmt_ok, rq_kinds. cbn [In] in C.
  decompose [or] C; clear C; subst; try contradiction; cbn [cq_type Z.eqb Pos.eqb orb];
    try (split; [lia|]; split; [lia|]; left; cbn [In]; tauto);
    try (split; [lia|]; split; [lia|]; right; right; lia);
    (split; [destruct (n =? 0); lia|]; split; [lia|]; right; left; split; [lia|]; split; reflexivity).
Qed.
Lemma cq_meta_ok ds be d : dw ds 0 = lane d 0 -> dw ds 1 = lane d 1 -> dw ds 2 = lane d 2 -> dw ds 3 = lane d 3 -> rq_is ds be (cq_meta d be).
Proof.
  intros D0 D1 D2 D3. unfold rq_is, cq_meta. cbn zeta. rewrite D0, D1, D2, D3. pose proof (cq_fmt d) as F. destruct (cq_type _ _ _) as [f t]. destruct F as [F1 [F2 F3]]. cbn [ut_hdr ut_bar ut_func].
  unfold bsel. split; [match goal with |- context [cat ?l] => exact (cat_range l eq_refl) end|]. split.
  { cf 0%nat. cf 1%nat. rewrite !fld_lane by lia.
    change (psel f (125 - 125) (127 - 125 + 1)) with (psel f 0 3). change (psel t (120 - 120) (124 - 120 + 1)) with (psel t 0 5). rewrite !psel_small by lia. exact F3. }
  split; [cf 3%nat; pp|]. split; [cf 5%nat; pp|]. split; [cf 7%nat; pp|]. split; [cf 8%nat; pp|]. split; [cf 9%nat; pp|].
  split; [cf 2%nat; pp|]. split; [cf 4%nat; pp|]. split; [cf 6%nat; pp|]. split; [cf 10%nat; pp|]. split; [cf 11%nat; pp|].
  split; [cf 12%nat; rewrite fld_psel; pp|]. split; [cf 13%nat; rewrite fld_psel; pp|]. split; [cf 14%nat; rewrite lane_psel; pp|]. split; [cf 14%nat; pp|]. split; [cf 15%nat; pp|].
  split; pp.
Qed.
Lemma rc_codes_ok a e : In (a, e) rc_codes -> rc_err a = e.
Proof. unfold rc_codes. cbn [In]. intros C. decompose [or] C; clear C; try contradiction; match goal with Q : (_, _) = (_, _) |- _ => injection Q; intros; subst; reflexivity end. Qed.
Lemma rc_meta_ok ds d : dw ds 0 = lane d 0 -> dw ds 1 = lane d 1 -> dw ds 2 = lane d 2 -> cpl_is ds (rc_meta d).
Proof.
  intros D0 D1 D2. unfold cpl_is, rc_meta. cbn zeta. rewrite D0, D1, D2. cbn [ut_hdr ut_err].
  unfold bsel. split; [match goal with |- context [cat ?l] => exact (cat_range l eq_refl) end|]. split.
  { cf 0%nat. rewrite fld_lane by lia. change (32 * 1 + 0) with 32. change (10 - 0 + 1) with 11. destruct (psel d 32 11 =? 0); reflexivity. }
  split; [cf 1%nat; pp|]. split; [cf 2%nat; pp|]. split; [cf 4%nat; pp|]. split; [cf 6%nat; pp|]. split; [cf 9%nat; pp|]. split; [cf 8%nat; pp|]. split; [cf 11%nat; pp|].
  split; [cf 3%nat; pp|]. split; [cf 5%nat; pp|]. split; [cf 7%nat; pp|]. split; [cf 10%nat; pp|].
  split; [cf 12%nat; pp|]. split; [cf 13%nat; pp|]. split; [cf 14%nat; pp|]. split; [cf 15%nat; pp|]. split; [cf 16%nat; pp|]. split; [cf 17%nat; pp|]. split; [cf 18%nat; pp|]. split; [cf 19%nat; pp|].
  split; [cf 20%nat; pp|]. intros e I. rewrite fld_lane in I by lia. apply rc_codes_ok in I. exact I.
Qed.
Lemma meta_ok p ds be s i : (forall l, 0 <= l < HD p -> dw ds l = lane (ui_full p s i) l) -> us_ibe s = be -> meta_is p ds be (ui_meta_of p s i).
Proof.
  intros D <-. unfold meta_is, ui_meta_of, HD in *. destruct (up_rc p).
  - apply rc_meta_ok; apply D; lia.
  - apply cq_meta_ok; apply D; lia.
Qed.
Lemma meta_ext p ds ds' be m : (forall l, 0 <= l < HD p -> dw ds' l = dw ds l) -> meta_is p ds be m -> meta_is p ds' be m.
Proof.
  intros D. unfold meta_is, HD in *. destruct (up_rc p).
  - unfold cpl_is. cbn zeta. now rewrite !D by lia.
  - unfold rq_is. cbn zeta. now rewrite !D by lia.
Qed.

(** * Lists and lanes *)
Lemma zlen_nonneg ds : 0 <= zlen ds.
Proof. unfold zlen. lia. Qed.
Lemma zlen_app a b : zlen (a ++ b) = zlen a + zlen b.
Proof. unfold zlen. rewrite app_length. lia. Qed.
Lemma zlen_lanes v n : 0 <= n -> zlen (lanes v n) = n.
Proof. intros. unfold zlen, lanes. rewrite map_length, seq_length. lia. Qed.
Lemma dw_app1 a b l : 0 <= l < zlen a -> dw (a ++ b) l = dw a l.
Proof. intros. unfold dw, zlen in *. apply app_nth1. lia. Qed.
Lemma dw_app2 a b l : zlen a <= l -> dw (a ++ b) l = dw b (l - zlen a).
Proof. intros. unfold dw, zlen in *. rewrite app_nth2 by lia. f_equal. lia. Qed.
Lemma dw_lanes v n l : 0 <= l < n -> dw (lanes v n) l = lane v l.
Proof.
  intros. unfold dw, lanes. rewrite (nth_indep _ 0 (lane v (Z.of_nat 0))) by (rewrite map_length, seq_length; lia).
  rewrite (map_nth (fun j => lane v (Z.of_nat j))). rewrite seq_nth by lia. f_equal. lia.
Qed.
Lemma lane_sel v a w l : 0 <= a -> 0 <= l < w -> lane (psel v (32 * a) (32 * w)) l = lane v (a + l).
Proof. intros. rewrite !lane_psel. rewrite RtlRamProofs2.psel_psel by lia. f_equal. lia. Qed.
Lemma lane_mod v w l : 0 <= l < w -> lane (v mod 2 ^ (32 * w)) l = lane v l.
Proof. intros. replace (v mod 2 ^ (32 * w)) with (psel v (32 * 0) (32 * w)) by (unfold psel; now rewrite Z.mul_0_r, Z.pow_0_r, Z.div_1_r). apply lane_sel; lia. Qed.
Lemma W_pos p : up_ok p -> 2 <= WD p <= 16 /\ up_w p = WD p /\ up_k p = HD p /\ 3 <= HD p <= 4.
Proof.
  unfold up_ok, WD, up_w, up_k, HD. intros O. assert (C : up_lw p = 1 \/ up_lw p = 2 \/ up_lw p = 3 \/ up_lw p = 4) by lia.
  split; [destruct C as [-> |[-> |[-> | ->]]]; cbn; lia|]. split; [reflexivity|]. split; [reflexivity|]. destruct (up_rc p); lia.
Qed.
Lemma full_lo p s i l : up_ok p -> 0 <= us_id s < 2 ^ (32 * WD p) -> 0 <= l < WD p -> lane (ui_full p s i) l = lane (us_id s) l.
Proof.
  intros O R L. pose proof (W_pos p O) as [Wp [We _]]. unfold ui_full. rewrite We. set (H := ui_data i mod _). rewrite <- (lane_mod (H * _ + _) (WD p)) by lia.
  rewrite Z.add_comm, Z_mod_plus_full. rewrite Z.mod_small by lia. reflexivity.
Qed.
Lemma full_hi p s i l : up_ok p -> 0 <= us_id s < 2 ^ (32 * WD p) -> WD p <= l < 2 * WD p -> lane (ui_full p s i) l = lane (ui_data i) (l - WD p).
Proof.
  intros O R L. pose proof (W_pos p O) as [Wp [We _]]. rewrite <- (lane_mod (ui_data i) (WD p)) by lia. unfold ui_full. rewrite We. set (H := ui_data i mod _).
  unfold lane. replace (32 * l) with (32 * WD p + 32 * (l - WD p)) by lia. rewrite Z.pow_add_r by lia.
  assert (P1 : 0 < 2 ^ (32 * WD p)) by (apply Z.pow_pos_nonneg; lia). assert (P2 : 0 < 2 ^ (32 * (l - WD p))) by (apply Z.pow_pos_nonneg; lia).
  rewrite <- Z.div_div by lia. rewrite Z.div_add_l by lia. rewrite (Z.div_small (us_id s)) by lia. now rewrite Z.add_0_r.
Qed.

(** * Strobes *)
Lemma ones_psel a k w : 0 <= a -> 0 <= k -> 0 <= w -> psel (2 ^ a - 1) k w = 2 ^ (Z.max 0 (Z.min w (a - k))) - 1.
Proof.
  intros A K W. replace (2 ^ a - 1) with (Z.ones a) by (rewrite Z.ones_equiv; lia). set (m := Z.max 0 _). replace (2 ^ m - 1) with (Z.ones m) by (rewrite Z.ones_equiv; lia).
  apply Z.bits_inj'. intros n N. rewrite psel_bits by lia. rewrite !Z.testbit_ones by (try apply Z.le_max_l; lia).
  destruct (Z.ltb_spec n w), (Z.leb_spec 0 (k + n)), (Z.ltb_spec (k + n) a), (Z.leb_spec 0 n), (Z.ltb_spec n m); cbn [andb]; try reflexivity; lia.
Qed.
Lemma ones_div a k : 0 <= a -> 0 <= k -> (2 ^ a - 1) / 2 ^ k = 2 ^ (Z.max 0 (a - k)) - 1.
Proof.
  intros A K. assert (P : 0 < 2 ^ k) by (apply Z.pow_pos_nonneg; lia). destruct (Z.le_gt_cases a k) as [L|L].
  - rewrite Z.max_l by lia. change (2 ^ 0 - 1) with 0. apply Z.div_small. pose proof (Z.pow_le_mono_r 2 a k ltac:(lia) L). assert (0 < 2 ^ a) by (apply Z.pow_pos_nonneg; lia). lia.
  - rewrite Z.max_r by lia. replace a with ((a - k) + k) at 1 by lia. rewrite Z.pow_add_r by lia.
    replace (2 ^ (a - k) * 2 ^ k - 1) with (2 ^ k - 1 + (2 ^ (a - k) - 1) * 2 ^ k) by ring. rewrite Z.div_add by lia. rewrite (Z.div_small (2 ^ k - 1)) by lia. lia.
Qed.
Lemma seop_ok p i e : up_ok p -> 1 <= e <= WD p -> ui_strb p i = 2 ^ e - 1 -> ui_seop p i = if ui_last i then 2 ^ (e - 1) else 0.
Proof.
  intros O E S. unfold ui_seop. rewrite S. pose proof (W_pos p O) as [_ [-> _]].
  set (F := fun (w e : Z) (b : bool) => fold_left (fun a l => if Z.testbit (2 ^ e - 1) l then Z.b2z b * 2 ^ l else a) (map Z.of_nat (seq 0 (Z.to_nat w))) 0 =? (if b then 2 ^ (e - 1) else 0)).
  assert (T : forallb (fun w => forallb (fun e => implb (e <=? w) (F w e true && F w e false)) (map Z.of_nat (seq 1 16))) [2; 4; 8; 16] = true) by (vm_compute; reflexivity).
  rewrite forallb_forall in T. assert (Wi : In (WD p) [2; 4; 8; 16]).
  { clear - O. unfold WD. unfold up_ok in O. assert (C : up_lw p = 1 \/ up_lw p = 2 \/ up_lw p = 3 \/ up_lw p = 4) by lia. destruct C as [-> |[-> |[-> | ->]]]; cbn; tauto. }
  specialize (T _ Wi). rewrite forallb_forall in T. pose proof (W_pos p O) as [Wp _].
  assert (Ei : In e (map Z.of_nat (seq 1 16))). { apply in_map_iff. exists (Z.to_nat e). split; [lia|]. apply in_seq. lia. }
  specialize (T _ Ei). rewrite (proj2 (Z.leb_le _ _)) in T by lia. cbn [implb] in T. apply andb_prop in T. destruct T as [T1 T2]. unfold F in T1, T2.
  destruct (ui_last i); [apply Z.eqb_eq, T1 | apply Z.eqb_eq, T2].
Qed.
Lemma strb_ok p i e : up_ok p -> ui_valid i = true -> ui_keep i = 2 ^ e - 1 -> 1 <= e <= WD p -> ui_strb p i = 2 ^ e - 1.
Proof.
  intros O V K E. pose proof (W_pos p O) as [Wp [We _]]. unfold ui_strb. rewrite V, K, We. apply Z.mod_small. pose proof (Z.pow_le_mono_r 2 e (WD p) ltac:(lia) ltac:(lia)). assert (0 < 2 ^ e) by (apply Z.pow_pos_nonneg; lia). lia.
Qed.
Lemma sfull_ok p s i e : up_ok p -> ui_strb p i = 2 ^ e - 1 -> 1 <= e <= WD p -> us_is s = 2 ^ WD p - 1 -> ui_sfull p s i = 2 ^ (WD p + e) - 1.
Proof. intros O S E I. pose proof (W_pos p O) as [Wp [We _]]. unfold ui_sfull. rewrite S, I, We. rewrite Z.pow_add_r by lia. ring. Qed.
Lemma be_ok p i : up_ok p -> ui_be p i = user_be p (ui_user i).
Proof.
  intros O. pose proof (W_pos p O) as [Wp [We _]]. unfold ui_be, user_be. rewrite We. rewrite !fld_psel. destruct (Z.leb_spec 16 (WD p)), (Z.eqb_spec (WD p) 16); try lia.
  - change (11 - 8 + 1) with 4. change (3 - 0 + 1) with 4. lia.
  - reflexivity.
Qed.
