(** Lemmas on the TLP multiplexer (C92, C93): one clock. *)
From Verif Require Import PyBase RtlModel RtlProofs RtlFcProofs RtlMuxModel RtlMuxProofs RtlTlpMuxModel RtlRamDemuxSpec RtlRamDemuxProofs RtlTlpMuxSpec RtlTlpMuxProofs RtlTlpMuxProofs2.
From Coq Require Import Lia.

Lemma in_turn_last : forall p psv l x, in_turn p psv (l ++ [x]) -> in_turn p psv l /\ 0 <= fst x < tm_n p /\ snd x = cnt (fst x) l.
Proof.
  intros p psv l [q k] H. split; [|split].
  - intros a q' k' b ->. rewrite <- app_assoc in H. cbn in H. apply (H a q' k' (b ++ [(q, k)])). reflexivity.
  - now destruct (H l q k [] eq_refl).
  - now destruct (H l q k [] eq_refl) as (_ & ? & _).
Qed.
(** The segments of one port are used from the first on. *)
Lemma in_turn_port : forall p psv X q, in_turn p psv X -> filter (fun x => fst x =? q) X = map (fun k => (q, k)) (zrange 0 (cnt q X)).
Proof.
  intros p psv X q. induction X as [|[q' k] X IH] using rev_ind; intros H; [reflexivity|]. apply in_turn_last in H. destruct H as (H & _ & K). cbn [fst snd] in K. rewrite filter_app, cnt_app, cnt_one, IH by assumption. cbn [filter fst].
  destruct (Z.eqb_spec q' q) as [->|]; [|now rewrite Z.add_0_r, app_nil_r]. rewrite zrange_snoc by apply cnt_pos. rewrite map_app. cbn. now rewrite K.
Qed.
Lemma in_turn_valid : forall p psv X q k, in_turn p psv X -> 0 <= k < cnt q X -> V psv q k = true.
Proof.
  intros p psv X q k H K. assert (I : In (q, k) X). { assert (J : In (q, k) (filter (fun x => fst x =? q) X)). { rewrite (in_turn_port _ _ _ _ H). apply in_map. now apply zrange_in. } now apply filter_In in J. }
  apply in_split in I. destruct I as (a & b & ->). now destruct (H a q k b eq_refl) as (_ & _ & ?).
Qed.
Lemma nth_range : forall (A B : Type) (f : Z -> B) (h : A -> B) (X : list A), (forall g x, nth_error X g = Some x -> f (Z.of_nat g) = h x) -> map f (zrange 0 (Z.of_nat (length X))) = map h X.
Proof.
  intros A B f h X. induction X as [|x X IH] using rev_ind; intros H; [reflexivity|]. rewrite app_length. cbn [length]. replace (Z.of_nat (length X + 1)) with (Z.of_nat (length X) + 1) by lia. rewrite zrange_snoc by lia. rewrite !map_app. cbn [map].
  rewrite IH, (H (length X) x); auto.
  - rewrite nth_error_app2, Nat.sub_diag by lia. reflexivity.
  - intros g y G. apply H. rewrite nth_error_app1; [assumption|]. apply nth_error_Some. congruence.
Qed.
Lemma turn_oport : forall p rd l c, length (cy_oport (fold_left (tm_turn p rd) l c)) = (length (cy_oport c) + length l)%nat.
Proof.
  intros p rd l. induction l as [|g l IH]; intros c; cbn [fold_left length]; [lia|]. rewrite IH. assert (T : length (cy_oport (tm_turn p rd c g)) = S (length (cy_oport c))).
  { unfold tm_turn. destruct (if negb (cy_frame c) then tm_pick p c g else _) as [[[f q] of] sv]. destruct (f && negb (cy_abort c)); [destruct (bsel (at_ (cy_psv c) q 0) 0 =? 1); [destruct ((_ || _) && rd)|]|]; cbn [cy_oport]; rewrite app_length; cbn; lia. }
  rewrite T. lia.
Qed.

Section clock.
Context {D : Type}.
Variable d0 : D.
Variable p : tm_param.
Hypothesis N1 : 1 <= tm_n p.
Hypothesis S1 : 1 <= tm_s p.
Notation n := (tm_n p).
Notation s := (tm_s p).

(** Does the whole of the claims hold? Only for beats that are full or empty. *)
Variable fl : bool.
Definition in_good (i : tm_in D) : Prop := in_packed p i /\ (fl = false -> s <= 2) /\ (fl = true -> in_full p i).
Definition regs_good (l : list (tm_preg D)) : Prop :=
  length l = Z.to_nat n /\ forall q, 0 <= q < n -> exists m, preg_ok p (at_ l q (pr0 d0)) m /\ (fl = true -> m = 0 \/ m = s).

Section one.
Variables (st : tm_state D) (i : tm_in D).
Notation R q := (at_ (ts_regs st) q (pr0 d0)).
Notation I q := (at_ (ti_port i) q (pi0 d0)).
Notation F0 := (ts_frame st).
Notation P0 := (ts_port st).
Notation psv := (cy_psv (tm_start d0 p st i)).
Notation pse := (cy_pse (tm_start d0 p st i)).
Notation offs := (cy_offn (tm_start d0 p st i)).
Notation c1 := (tm_cycle d0 p st i).
Notation bt := (map (tm_mux d0 p st i c1) (loop s)).
Hypothesis PR : 0 <= P0 < n.
Hypothesis RG : regs_good (ts_regs st).
Hypothesis IG : in_good i.

Lemma in_of : forall q, 0 <= q < n -> exists mi, pi_valid (I q) = 2 ^ mi - 1 /\ 0 <= mi <= s /\ (fl = true -> mi = 0 \/ mi = s) /\ nth_error (ti_port i) (Z.to_nat q) = Some (I q).
Proof.
  intros q Q. destruct IG as ([L PK] & _ & FU).
  assert (NE : nth_error (ti_port i) (Z.to_nat q) = Some (I q)). { unfold at_. apply nth_error_nth'. lia. }
  assert (IN : In (I q) (ti_port i)) by (eapply nth_error_In; exact NE). rewrite Forall_forall in PK. destruct fl.
  - destruct (FU eq_refl) as [_ A]. rewrite Forall_forall in A. destruct (A _ IN) as [Z0|Z0]; [exists 0|exists s]; repeat split; auto; try lia.
  - destruct (PK _ IN) as (m & M & E0). exists m. repeat split; auto; try lia; discriminate.
Qed.
Lemma reg_of : forall q, 0 <= q < n -> exists m, preg_ok p (R q) m /\ (fl = true -> m = 0 \/ m = s).
Proof. intros q Q. now apply RG. Qed.
Lemma off_of : forall q, 0 <= q < n -> o offs q = pr_off (R q).
Proof. intros q Q. unfold o, at_, tm_start. cbn [cy_offn]. rewrite nth_indep with (d' := pr_off (pr0 d0)) by (rewrite map_length; destruct RG as [-> _]; lia). apply map_nth. Qed.
Lemma V_of : forall q k, 0 <= q < n -> 0 <= k <= s -> V psv q k = negb (pi_pause (I q)) && fvalid p (R q) (I q) (pr_off (R q) + k).
Proof.
  intros q k Q K. unfold V, tm_start. cbn [cy_psv]. rewrite at_map by assumption. cbn zeta. destruct (pi_pause (I q)); [apply Z.bits_0|]. cbn [negb andb]. destruct (reg_of q Q) as (m & H & _). pose proof (po_off _ _ _ H).
  unfold fvalid. apply rotate_bit; try lia. now apply full_range.
Qed.
Lemma E_of : forall q k, 0 <= q < n -> 0 <= k < s -> E pse (q, k) = Z.testbit (full s (pi_eop (I q)) (pr_eop (R q))) (pr_off (R q) + k).
Proof.
  intros q k Q K. unfold E, tm_start. cbn [cy_pse fst snd]. rewrite at_map by assumption. cbn zeta. destruct (reg_of q Q) as (m & H & _). pose proof (po_off _ _ _ H). apply rotate_bit; try lia. now apply full_range.
Qed.
Lemma start_active : active p psv pse offs F0 P0 (tm_start d0 p st i) 0 [] [].
Proof.
  assert (L : length psv = Z.to_nat n /\ length pse = Z.to_nat n /\ length offs = Z.to_nat n).
  { unfold tm_start. cbn [cy_psv cy_pse cy_offn]. rewrite !map_length, loop_len. destruct RG as [-> _]. auto. }
  assert (ST0 : forall l, (forall a q k b, ([] : list (Z * Z)) = a ++ (q, k) :: b -> l)) by (intros l [|] ? ? ? G; discriminate).
  assert (SB : sel_bits p pse F0 [] 0). { intros q g _ _. rewrite Z.bits_0. destruct (Z.to_nat g); reflexivity. }
  assert (UB : unbroken pse F0 P0 []). { split; [intros [|] x y b G; discriminate|intros _ x r G; discriminate]. }
  constructor; [constructor| | | | | | | | | | | | | | ]; cbn [app cnt filter length Z.of_nat map fst snd]; auto.
  all: try (intros [|] ? ? ?; discriminate). all: try (intros [|] ? ?; discriminate). all: try (intros _ [|] ? ?; discriminate). all: try (intros [|] ? ? ? ?; discriminate). all: try (intros ? HH; now destruct HH). all: try (intros G; now elim G).
  - intros q Q. rewrite Z.add_0_r. reflexivity.
  - intros F. unfold tm_start. cbn [cy_off cy_port]. rewrite Z.add_0_r. split; [symmetry; now apply off_of|]. intros _. unfold tm_start in F. cbn [cy_frame] in F. auto.
Qed.

(** The segment behind a pair. *)
Definition tagged (x : Z * Z) : Z * @mseg D := (fst x, fseg p (R (fst x)) (I (fst x)) (pr_off (R (fst x)) + snd x)).
(** What one clock does: the segments in [X] are sent. *)
Record sends (X : list (Z * Z)) : Prop := {
  se_turn : in_turn p psv X;
  se_unbroken : unbroken pse F0 P0 X;
  se_len : Z.of_nat (length X) <= s;
  se_beat : map snd (filter fst bt) = map (fun x => snd (tagged x)) X;
  se_ready : existsb fst bt = true -> sk_ready (ts_out st) = true;
  se_port : 0 <= cy_portn c1 < n;
  se_next : (X = [] /\ (F0 = true -> cy_framen c1 = true /\ cy_portn c1 = P0)) \/ exists a x, X = a ++ [x] /\ cy_framen c1 = negb (E pse x) /\ cy_portn c1 = fst x;
  se_regs : forall q, 0 <= q < n -> tm_preg_step p false (R q) (I q) (at_ (cy_offn c1) q 0) = tm_preg_step p false (R q) (I q) (pr_off (R q) + cnt q X)
    /\ tm_in_ready p (R q) (at_ (cy_offn c1) q 0) = tm_in_ready p (R q) (pr_off (R q) + cnt q X);
  se_sel : fl = true -> sel_bits p pse F0 X (cy_selv c1) /\ (X = [] -> cy_framen c1 = F0) /\
    forall g x, nth_error X g = Some x -> nth_error (map (fun x => snd (snd x)) bt) g = Some (snd (snd (tagged x))) }.

Lemma existsb_filter : forall (l : list (tm_seg (D := D))), existsb fst l = true -> filter fst l <> [].
Proof. intros l H. apply existsb_exists in H. destruct H as (x & X & F). intros G. assert (In x (filter fst l)) by now apply filter_In. rewrite G in H. destruct H. Qed.

Lemma done_sends : forall X, sk_ready (ts_out st) = true -> done p psv pse offs F0 P0 c1 X -> sends X.
Proof.
  intros X RD H. destruct H as [DL DO DP DS DT DU DSE DCP DPN DN].
  assert (LX : Z.of_nat (length X) <= s).
  { destruct (Z.le_gt_cases (Z.of_nat (length X)) s) as [|G]; [assumption|]. assert (LO : length (cy_oport c1) = Z.to_nat s) by (unfold tm_cycle; rewrite turn_oport, loop_len; reflexivity).
    destruct (nth_error X (Z.to_nat s)) as [x|] eqn:NX; [|apply nth_error_None in NX; lia]. destruct (DP _ _ NX) as [NO _]. assert (Z.to_nat s < length (cy_oport c1))%nat by (apply nth_error_Some; congruence). lia. }
  assert (MX : forall g x, nth_error X g = Some x -> tm_mux d0 p st i c1 (Z.of_nat g) = (true, snd (tagged x))).
  { intros g [q k] NX. destruct (DP _ _ NX) as [NO NS]. cbn [fst snd] in NO, NS. assert (GL : (g < length X)%nat) by (apply nth_error_Some; congruence).
    destruct (nth_error_split _ _ NX) as (a & b & EX & LA). destruct (DT a q k b EX) as (Q & K & VK). assert (KR : 0 <= k < s). { subst k. pose proof (cnt_pos q a). pose proof (cnt_len q a). rewrite EX, app_length in LX. cbn [length] in LX. lia. }
    assert (AP : at_ (cy_oport c1) (Z.of_nat g) 0 = q) by (unfold at_; rewrite Nat2Z.id; now apply nth_error_nth).
    assert (AS : at_ (cy_oseg c1) (Z.of_nat g) 0 = pr_off (R q) + k) by (rewrite <- off_of by assumption; unfold at_; rewrite Nat2Z.id; now apply nth_error_nth).
    unfold tm_mux. rewrite AP, AS. cbn zeta. destruct (reg_of q Q) as (m & HM & _). pose proof (po_off _ _ _ HM).
    rewrite !bsel_testbit by lia. rewrite DS, Z.testbit_ones_nonneg by lia. replace (Z.of_nat g <? Z.of_nat (length X)) with true by (symmetry; apply Z.ltb_lt; lia).
    rewrite V_of in VK by lia. apply andb_true_iff in VK. destruct VK as [_ VK]. unfold fvalid in VK. rewrite VK. unfold tagged, fseg. cbn [fst snd].
    destruct (Z.testbit (full s (pi_sop (I q)) (pr_sop (R q))) (pr_off (R q) + k)), (Z.testbit (full s (pi_eop (I q)) (pr_eop (R q))) (pr_off (R q) + k)); reflexivity. }
  assert (BT : map snd (filter fst bt) = map (fun x => snd (tagged x)) X).
  { rewrite loop_zrange, (zrange_app 0 (Z.of_nat (length X)) s) by lia. rewrite map_app, filter_app. rewrite (nth_range _ (tm_seg (D := D)) (tm_mux d0 p st i c1) (fun x => (true, snd (tagged x))) X MX).
    assert (F1 : forall l, filter (@fst bool _) (map (fun x => (true, snd (tagged x)) : tm_seg (D := D)) l) = map (fun x => (true, snd (tagged x))) l) by (induction l as [|y l IH]; [reflexivity|cbn [map filter fst]; now rewrite IH]). rewrite F1.
    assert (F2 : filter fst (map (tm_mux d0 p st i c1) (zrange (Z.of_nat (length X)) s)) = []).
    { assert (G : forall l, (forall g, In g l -> Z.of_nat (length X) <= g) -> filter fst (map (tm_mux d0 p st i c1) l) = []).
      { induction l as [|g l IH]; intros G; [reflexivity|]. cbn [map filter]. replace (fst (tm_mux d0 p st i c1 g)) with false; [apply IH; intros; apply G; now right|]. unfold tm_mux. cbn [fst].
        specialize (G g (or_introl eq_refl)). rewrite (bsel_testbit (cy_osel c1) g) by lia. rewrite DS, Z.testbit_ones_nonneg by lia. replace (g <? Z.of_nat (length X)) with false by (symmetry; apply Z.ltb_ge; lia). reflexivity. }
      apply G. intros g GI. apply zrange_in in GI. lia. }
    match goal with |- map snd (?a ++ ?b) = _ => replace b with (@nil (tm_seg (D := D))) by (symmetry; exact F2) end. rewrite app_nil_r, map_map. reflexivity. }
  constructor; auto.
  - destruct DN as [(-> & A & B)|DN]; [left|right; exact DN]. split; [reflexivity|]. intros FT. rewrite A, FT. auto.
  - intros q Q. rewrite DO, off_of by assumption. auto.
  - intros _. split; [exact DSE|]. split.
    + intros ->. destruct DN as [(_ & A & _)|(a & x & G & _)]; [exact A|destruct a; discriminate].
    + intros g x NX. rewrite map_map. assert (GL : (g < length X)%nat) by (apply nth_error_Some; congruence). erewrite map_nth_error with (d := Z.of_nat g).
      * rewrite (MX _ _ NX). reflexivity.
      * unfold loop. apply map_nth_error. rewrite nth_error_nth' with (d := O) by (rewrite seq_length; lia). rewrite seq_nth by lia. reflexivity.
Qed.

Lemma nothing_sends : cy_osel c1 = 0 -> cy_framen c1 = F0 -> cy_portn c1 = P0 -> cy_selv c1 = 0 -> cy_offn c1 = offs -> sends [].
Proof.
  intros A B C S0 O0. assert (FN : filter fst bt = []).
  { generalize (loop s) as l. induction l as [|g l IH]; [reflexivity|]. cbn [map filter]. replace (fst (tm_mux d0 p st i c1 g)) with false; [exact IH|]. unfold tm_mux. cbn [fst]. rewrite A. unfold bsel, psel. rewrite Zdiv_0_l. reflexivity. }
  constructor; cbn [map length Z.of_nat]; try lia; auto.
  - intros [|] q k b G; discriminate.
  - split; [intros [|] x y b G; discriminate|intros _ x r G; discriminate].
  - now rewrite FN.
  - intros G. apply existsb_filter in G. contradiction.
  - left. split; [reflexivity|]. intros FT. rewrite B. auto.
  - intros q Q. rewrite O0. change (at_ offs q 0) with (o offs q). rewrite off_of by assumption. cbn [cnt filter length Z.of_nat]. rewrite Z.add_0_r. auto.
  - intros _. split; [|split; [auto|intros [|] x G; discriminate]]. intros q g _ _. rewrite S0, Z.bits_0. destruct (Z.to_nat g); reflexivity.
Qed.

Lemma glitch_sends : forall q, s = 2 -> fl = false -> sk_ready (ts_out st) = true -> glitch p psv offs F0 c1 q -> sends [].
Proof.
  intros q S2 FL RD [Q [V0 V1] GL GO [OP OS] [GF GP]]. destruct (reg_of q Q) as (m & HM & _). destruct (in_of q Q) as (mi & HI & MI & _). pose proof (po_off _ _ _ HM) as PO.
  rewrite V_of in V0 by lia. rewrite V_of in V1 by lia. apply andb_true_iff in V1. destruct V1 as [PA V1]. rewrite PA, Z.add_0_r in V0. cbn [andb] in V0.
  destruct (glitch_step p S1 (R q) (I q) m mi S2 HM HI MI V0 V1) as [G1 G2].
  assert (FN : filter fst bt = []).
  { rewrite S2. change (loop 2) with [0; 1]. cbn [map filter]. assert (MF : forall g, (g = 0 \/ g = 1) -> fst (tm_mux d0 p st i c1 g) = false).
    { intros g G. unfold tm_mux. cbn [fst]. rewrite OP, OS. assert (A1 : at_ [q; q] g 0 = q) by (destruct G as [-> | ->]; reflexivity). assert (A2 : at_ [o offs q; o offs q] g 0 = pr_off (R q)) by (rewrite <- off_of by assumption; destruct G as [-> | ->]; reflexivity).
      rewrite A1, A2. rewrite (bsel_testbit (full _ _ _)) by lia. unfold fvalid in V0. rewrite V0. apply andb_false_r. }
    rewrite !MF by auto. reflexivity. }
  constructor; cbn [map length Z.of_nat]; try lia; auto.
  - intros [|] q' k b G; discriminate.
  - split; [intros [|] x y b G; discriminate|intros _ x r G; discriminate].
  - now rewrite FN.
  - left. split; [reflexivity|]. intros FT. rewrite GF in FT. discriminate.
  - intros q' Q'. rewrite GO, off_of by assumption. cbn [cnt filter length Z.of_nat]. destruct (Z.eqb_spec q' q) as [->|]; [rewrite Z.add_0_r; auto|auto].
  - intros FT. rewrite FL in FT. discriminate.
Qed.

Lemma clock_sends : exists X, sends X.
Proof.
  destruct (sk_ready (ts_out st)) eqn:RD.
  - assert (L : length psv = Z.to_nat n /\ length pse = Z.to_nat n /\ length offs = Z.to_nat n).
    { unfold tm_start. cbn [cy_psv cy_pse cy_offn]. rewrite !map_length, loop_len. destruct RG as [-> _]. auto. }
    destruct L as (LV & LE & LO).
    assert (RO : forall q, 0 <= q < n -> 0 <= o offs q < s). { intros q Q. rewrite off_of by assumption. destruct (reg_of q Q) as (m & HM & _). apply (po_off _ _ _ HM). }
    assert (CS : (fl = true \/ s = 1) \/ (fl = false /\ s = 2)). { destruct fl eqn:FL; [auto|]. destruct IG as (_ & IF & _). specialize (IF FL). destruct (Z.eq_dec s 1); [auto|]. right. split; [reflexivity|lia]. }
    destruct CS as [CS|[FL S2]].
    + assert (MONO : forall q k k', 0 <= q < n -> 0 <= k <= k' -> k' < s -> V psv q k = false -> V psv q k' = false).
      { intros q k k' Q K K' VK. destruct CS as [FL|S0]; [|replace k' with k by lia; exact VK]. destruct (reg_of q Q) as (m & HM & MS). specialize (MS FL). destruct (in_of q Q) as (mi & HI & MI & MIS & _). specialize (MIS FL). pose proof (po_off _ _ _ HM). pose proof (po_m _ _ _ HM).
        rewrite V_of in VK by lia. rewrite V_of by lia. destruct (pi_pause (I q)); [reflexivity|]. cbn [negb andb] in *. rewrite (fvalid_eq p S1 _ _ m mi) in VK by (auto; lia). rewrite (fvalid_eq p S1 _ _ m mi) by (auto; lia).
        destruct (Z.ltb_spec (pr_off (R q) + k) s), (Z.ltb_spec (pr_off (R q) + k') s); rewrite ?Z.ltb_ge in *; lia. }
      destruct (loop_done p N1 S1 psv pse offs F0 P0 LV LE LO PR RO MONO _ start_active) as (X & DX). exists X. apply done_sends; [exact RD|]. unfold tm_cycle. rewrite RD. exact DX.
    + assert (CE : c1 = tm_turn p true (tm_turn p true (tm_start d0 p st i) 0) 1) by (unfold tm_cycle; rewrite RD, S2; reflexivity).
      destruct (turn_two p N1 S1 psv pse offs F0 P0 LV LE LO PR RO _ S2 start_active) as [(X & DX)|(q & GX)]; rewrite <- CE in *.
      * exists X. now apply done_sends.
      * exists []. now apply (glitch_sends q).
  - exists []. assert (SM : same (tm_start d0 p st i) c1) by (unfold tm_cycle; rewrite RD; apply loop_not_ready). destruct SM as (A & B & C & O0 & S0). now apply nothing_sends.
Qed.
End one.
End clock.
