(** Lemmas on the TLP multiplexer (C92, C93): all clocks. *)
From Verif Require Import PyBase RtlModel RtlProofs RtlFcProofs RtlMuxModel RtlMuxProofs RtlTlpMuxModel RtlRamDemuxSpec RtlRamDemuxProofs RtlTlpMuxSpec RtlTlpMuxProofs RtlTlpMuxProofs2 RtlTlpMuxProofs3.
From Coq Require Import Lia.

Section merge.
Context {D : Type}.
Notation seg := (@mseg D).
Lemma from_app : forall q (a b : list (Z * seg)), from_port q (a ++ b) = from_port q a ++ from_port q b.
Proof. intros. unfold from_port. now rewrite filter_app, map_app. Qed.
Lemma whole_app : forall (a b : list (Z * seg)), whole a -> whole b -> (forall l x y r, a = l ++ [x] -> b = y :: r -> ends_packet x = false -> fst y = fst x) -> whole (a ++ b).
Proof.
  intros a b A B AB l x y r EQ NE. revert l a A AB EQ. induction l as [|z l IH]; intros a A AB EQ.
  - destruct a as [|x1 [|y1 a]]; cbn in EQ.
    + apply (B [] x y r); assumption.
    + destruct b as [|y1 b]; [discriminate|]. injection EQ as <- <- _. now apply (AB [] x1 y1 b).
    + injection EQ as <- <- _. now apply (A [] x1 y1 a).
  - destruct a as [|z1 a]; cbn in EQ.
    + now apply (B (z :: l) x y r).
    + injection EQ as <- EQ. apply (IH a); auto.
      * intros l1 u v t -> U. now apply (A (z1 :: l1) u v t).
      * intros l1 u v t -> -> U. now apply (AB (z1 :: l1) u v t).
Qed.
(** Is a packet open after the segments? *)
Definition open_after (b : bool) (src : list (Z * seg)) : bool := fold_left (fun _ x => negb (ends_packet x)) src b.
Lemma open_snoc : forall b l x, open_after b (l ++ [x]) = negb (ends_packet x).
Proof. intros. unfold open_after. now rewrite fold_left_app. Qed.
Lemma firsts_app : forall a b (st : bool), firsts st (a ++ b) = firsts st a ++ firsts (negb (open_after (negb st) a)) (b : list (Z * seg)).
Proof.
  induction a as [|x a IH]; intros b st; [cbn; now rewrite negb_involutive|]. cbn [app firsts]. rewrite IH, <- app_assoc. reflexivity.
Qed.
Lemma firsts_len : forall (l : list (Z * seg)) st, (length (firsts st l) <= length l)%nat.
Proof. induction l as [|x l IH]; intros st; cbn; [lia|]. rewrite app_length. specialize (IH (ends_packet x)). destruct st; cbn; lia. Qed.
End merge.

Section trace.
Context {D : Type}.
Variable d0 : D.
Variable p : tm_param.
Hypothesis N1 : 1 <= tm_n p.
Hypothesis S1 : 1 <= tm_s p.
Notation n := (tm_n p).
Notation s := (tm_s p).
Variable fl : bool.
Notation seg := (@mseg D).

Definition beat (b : list (tm_seg (D := D))) : list seg := map snd (filter fst b).
(** The pulses of the selection registers. *)
Definition pulses_of (v : Z) (l : list D) : list (Z * D) :=
  flat_map (fun g => flat_map (fun q => if Z.testbit v (s * q + g) then match nth_error l (Z.to_nat g) with Some d => [(q, d)] | None => [] end else []) (count_up n)) (count_up s).

Record inv (st : tm_state D) (tr : list (tm_ev D)) (src : list (Z * seg)) : Prop := {
  in_port : 0 <= ts_port st < n;
  in_len : length (ts_regs st) = Z.to_nat n;
  in_regs : forall q, 0 <= q < n -> exists m, preg_ok p (at_ (ts_regs st) q (pr0 d0)) m /\ (fl = true -> m = 0 \/ m = s) /\ m_taken p q tr = from_port q src ++ pend (at_ (ts_regs st) q (pr0 d0)) m;
  in_tags : Forall (fun x => 0 <= fst x < n) src;
  in_whole : whole src;
  in_open : forall a x, src = a ++ [x] -> ends_packet x = false -> ts_frame st = true /\ ts_port st = fst x;
  in_skid : skid_inv (ts_out st);
  in_out : map snd src = m_out tr ++ flat_map beat (content (ts_out st));
  in_beats : Forall (fun b => Z.of_nat (length (beat b)) <= s) (content (ts_out st));
  in_frame : fl = true -> ts_frame st = open_after false src;
  in_sel : fl = true -> firsts true src = m_pulses p tr ++ pulses_of (ts_selv st) (ts_sel st) /\ Z.of_nat (length (pulses_of (ts_selv st) (ts_sel st))) <= s }.

Lemma filter_tag : forall (f : Z * Z -> Z * seg) q X, (forall x, fst (f x) = fst x) -> filter (fun x => fst x =? q) (map f X) = map f (filter (fun x => fst x =? q) X).
Proof. intros f q X F. induction X as [|x X IH]; [reflexivity|]. cbn [map filter]. rewrite F, IH. destruct (fst x =? q); reflexivity. Qed.

Lemma pulses_eq : forall pse (h : Z * Z -> Z * seg) X F v (sel : list D), (forall x, In x X -> fst (h x) = fst x /\ ends_packet (h x) = E pse x /\ 0 <= fst x < n) -> Z.of_nat (length X) <= s -> sel_bits p pse F X v ->
  (forall g x, nth_error X g = Some x -> nth_error sel g = Some (snd (snd (h x)))) -> pulses_of v sel = firsts (negb F) (map h X).
Proof.
  intros pse h X F v sel H LX SB NS. unfold pulses_of.
  transitivity (flat_map (fun g => match nth_error X g with Some x => if starts_at pse F X g then [(fst x, snd (snd (h x)))] else [] | None => [] end) (seq 0 (Z.to_nat s))).
  - change (count_up s) with (loop s). unfold loop. rewrite flat_map_concat_map, flat_map_concat_map, map_map. f_equal. apply map_ext_in. intros g G. apply in_seq in G. rewrite Nat2Z.id.
    assert (TB : forall q, In q (loop n) -> Z.testbit v (s * q + Z.of_nat g) = match nth_error X g with Some x => (fst x =? q) && starts_at pse F X g | None => false end).
    { intros q Q. apply loop_in in Q. rewrite SB by lia. now rewrite Nat2Z.id. }
    destruct (nth_error X g) as [x|] eqn:NX.
    + rewrite (NS _ _ NX). destruct (H x (nth_error_In _ _ NX)) as (_ & _ & XR). change (count_up n) with (loop n).
      rewrite flat_map_concat_map. rewrite (map_ext_in _ (fun q => if (fst x =? q) && starts_at pse F X g then [(q, snd (snd (h x)))] else [])) by (intros q Q; now rewrite TB).
      rewrite <- flat_map_concat_map. destruct (starts_at pse F X g).
      * assert (NL : NoDup (loop n)). { unfold loop. apply FinFun.Injective_map_NoDup; [intros ? ? ?; lia|apply seq_NoDup]. } assert (XI : In (fst x) (loop n)) by now apply loop_in.
        revert NL XI. generalize (loop n) as l. induction l as [|y l IH]; intros NL XI; [destruct XI|]. inversion NL as [|? ? NI NL']; subst. cbn [flat_map]. destruct XI as [->|XI].
        -- rewrite Z.eqb_refl. cbn [andb app]. f_equal. clear - NI. induction l as [|z l IH]; [reflexivity|]. cbn [flat_map]. destruct (Z.eqb_spec (fst x) z) as [EZ|]; [elim NI; left; now symmetry|]. cbn [andb app]. apply IH. intros G. apply NI. now right.
        -- destruct (Z.eqb_spec (fst x) y) as [<-|]; [contradiction|]. cbn [andb app]. now apply IH.
      * generalize (loop n) as l. induction l as [|y l IH]; [reflexivity|]. cbn [flat_map]. rewrite andb_false_r. exact IH.
    + change (count_up n) with (loop n). revert TB. generalize (loop n) as l. induction l as [|y l IH]; intros TB; [reflexivity|]. cbn [flat_map]. rewrite TB by now left. cbn [app]. apply IH. intros. apply TB. now right.
  - assert (LS : (length X <= Z.to_nat s)%nat) by lia. revert LS. generalize (Z.to_nat s) as k. clear SB NS LX. revert F. induction X as [|x X IH]; intros F k LS.
    + cbn [map firsts]. generalize O as z. induction k as [|k IHk]; intros z; [reflexivity|]. cbn [seq flat_map]. rewrite IHk by (cbn; lia). destruct z; reflexivity.
    + destruct k as [|k]; [cbn in LS; lia|]. cbn [seq flat_map nth_error starts_at map firsts]. destruct (H x (or_introl eq_refl)) as (HF & HE & _). rewrite HF. f_equal.
      specialize (IH ltac:(intros; apply H; now right) (negb (E pse x)) k ltac:(cbn in LS; lia)). rewrite negb_involutive in IH. rewrite HE, <- IH. rewrite <- seq_shift, !flat_map_concat_map, map_map. f_equal. apply map_ext. intros g.
      cbn [nth_error]. replace (starts_at pse F (x :: X) (S g)) with (starts_at pse (negb (E pse x)) X g); [reflexivity|]. unfold starts_at. destruct g; cbn [nth_error]; [now rewrite negb_involutive|reflexivity].
Qed.

Lemma inv_start : inv (tm0 d0 p) [] [].
Proof.
  constructor; unfold tm0; cbn [ts_port ts_regs ts_frame ts_out ts_selv ts_sel]; auto; try lia.
  - rewrite map_length, loop_len. reflexivity.
  - intros q Q. exists 0. rewrite at_map by assumption. split; [|auto]. constructor; cbn; try lia; auto.
    + intros j J. rewrite Z.bits_0. symmetry. apply Z.ltb_ge. exact J.
    + intros j J. rewrite Z.bits_0 in J. discriminate.
  - intros [|] x y b G; discriminate.
  - intros [|] x G; discriminate.
  - split; discriminate.
  - constructor.
  - intros _. assert (PZ : pulses_of 0 [] = []); [|rewrite PZ; cbn; split; [reflexivity|lia]]. unfold pulses_of. generalize (count_up s) as l. induction l as [|g l IH]; [reflexivity|]. cbn [flat_map]. rewrite IH, app_nil_r. generalize (count_up n) as r. induction r as [|q r IHr]; [reflexivity|]. cbn [flat_map]. rewrite Z.bits_0. exact IHr.
Qed.
Lemma pulses_zero : forall l, pulses_of 0 l = [].
Proof.
  intros l. unfold pulses_of. generalize (count_up s) as k. induction k as [|g k IH]; [reflexivity|]. cbn [flat_map]. rewrite IH, app_nil_r. generalize (count_up n) as r. induction r as [|q r IHr]; [reflexivity|]. cbn [flat_map]. rewrite Z.bits_0. exact IHr.
Qed.

Lemma inv_step : forall st tr src i, inv st tr src -> in_good p fl i -> exists src', inv (tm_step d0 p st i) (tr ++ [tm_event d0 p st i]) src'.
Proof.
  intros st tr src i H IG. destruct H as [IP IL IR IT IW IO IS IU IB IF IE].
  assert (RG : regs_good d0 p fl (ts_regs st)). { split; [exact IL|]. intros q Q. destruct (IR q Q) as (m & A & B & _). eauto. }
  destruct (clock_sends d0 p N1 S1 fl st i IP RG IG) as (X & [TU UN LX BE RD PO NX RE SE]).
  set (c := tm_cycle d0 p st i) in *. set (bt := map (tm_mux d0 p st i c) (loop s)) in *. set (e := tm_event d0 p st i).
  destruct (ti_rst i) eqn:RS.
  - exists []. assert (ER : m_rst e = true) by exact RS. destruct (skid_reset (ts_out st) (ti_ready i) (existsb fst bt) bt) as [K1 K2].
    assert (SO : ts_out (tm_step d0 p st i) = skid_step (ts_out st) true (ti_ready i) (existsb fst bt) bt) by (unfold tm_step; rewrite RS; reflexivity).
    assert (RQ : forall q, 0 <= q < n -> at_ (ts_regs (tm_step d0 p st i)) q (pr0 d0) = tm_preg_step p true (at_ (ts_regs st) q (pr0 d0)) (at_ (ti_port i) q (pi0 d0)) (at_ (cy_offn c) q 0)).
    { intros q Q. unfold tm_step. rewrite RS. cbn [ts_regs]. now rewrite at_map. }
    constructor; unfold m_taken, m_out, m_pulses; rewrite ?since_snoc, ?ER, ?SO, ?K2; auto.
    + unfold tm_step. rewrite RS. cbn. lia.
    + unfold tm_step. rewrite RS. cbn [ts_regs]. now rewrite map_length, loop_len.
    + intros q Q. exists 0. rewrite RQ by assumption.
      assert (PZ : pr_off (tm_preg_step p true (at_ (ts_regs st) q (pr0 d0)) (at_ (ti_port i) q (pi0 d0)) (at_ (cy_offn c) q 0)) = 0 /\ pr_valid (tm_preg_step p true (at_ (ts_regs st) q (pr0 d0)) (at_ (ti_port i) q (pi0 d0)) (at_ (cy_offn c) q 0)) = 0).
      { unfold tm_preg_step. destruct (tm_in_ready _ _ _); auto. }
      destruct PZ as [Z1 Z2]. split; [|split; [auto|]].
      * constructor; rewrite ?Z1, ?Z2; try lia; auto.
        -- intros j J. rewrite Z.bits_0. symmetry. apply Z.ltb_ge. exact J.
        -- intros j J. rewrite Z.bits_0 in J. discriminate.
      * rewrite since_snoc, ER. unfold pend. rewrite Z1. reflexivity.
    + intros [|] x y b G; discriminate.
    + intros [|] x G; discriminate.
    + intros _. unfold tm_step. rewrite RS. reflexivity.
    + intros _. unfold tm_step. rewrite RS. cbn [ts_selv ts_sel]. rewrite pulses_zero. cbn. split; [reflexivity|lia].
  - set (h := tagged d0 p st i) in *. exists (src ++ map h X).
    assert (ER : m_rst e = false) by exact RS.
    assert (XR : forall x, In x X -> 0 <= fst x < n /\ 0 <= snd x < s).
    { intros [q k] XI. apply in_split in XI. destruct XI as (a & b & XE). destruct (TU a q k b XE) as (Q & K & _). cbn [fst snd]. split; [exact Q|]. rewrite K. pose proof (cnt_pos q a). pose proof (cnt_len q a). rewrite XE, app_length in LX. cbn [length] in LX. lia. }
    assert (HE : forall x, In x X -> fst (h x) = fst x /\ ends_packet (h x) = E (cy_pse (tm_start d0 p st i)) x /\ 0 <= fst x < n).
    { intros [q k] XI. destruct (XR _ XI) as [Q K]. split; [reflexivity|]. split; [|exact Q]. rewrite (E_of d0 p S1 fl st i RG) by assumption. reflexivity. }
    assert (SO : ts_out (tm_step d0 p st i) = skid_step (ts_out st) false (ti_ready i) (existsb fst bt) bt) by (unfold tm_step; rewrite RS; reflexivity).
    destruct (skid_ok (ts_out st) (ti_ready i) (existsb fst bt) bt IS RD) as (K1 & K2 & _ & _).
    assert (BX : beat bt = map snd (map h X)) by (unfold beat; rewrite BE, map_map; reflexivity).
    assert (SF : ts_frame (tm_step d0 p st i) = cy_framen c /\ ts_port (tm_step d0 p st i) = cy_portn c /\ ts_selv (tm_step d0 p st i) = cy_selv c /\ ts_sel (tm_step d0 p st i) = map (fun x => snd (snd x)) bt) by (unfold tm_step; rewrite RS; repeat split; reflexivity).
    destruct SF as (SF1 & SF2 & SF3 & SF4).
    assert (RQ : forall q, 0 <= q < n -> at_ (ts_regs (tm_step d0 p st i)) q (pr0 d0) = tm_preg_step p false (at_ (ts_regs st) q (pr0 d0)) (at_ (ti_port i) q (pi0 d0)) (at_ (cy_offn c) q 0)).
    { intros q Q. unfold tm_step. rewrite RS. cbn [ts_regs]. now rewrite at_map. }
    assert (BN : flat_map beat (if existsb fst bt then [bt] else []) = beat bt).
    { destruct (existsb fst bt) eqn:EB; [cbn; apply app_nil_r|]. unfold beat. replace (filter fst bt) with (@nil (tm_seg (D := D))); [reflexivity|]. symmetry. revert EB. clear. induction bt as [|x l IH]; intros EB; [reflexivity|]. cbn in *. apply orb_false_iff in EB. destruct EB as [-> EB]. now apply IH. }
    constructor; rewrite ?SO, ?SF1, ?SF2, ?SF3, ?SF4; auto.
    + unfold tm_step. rewrite RS. cbn [ts_regs]. now rewrite map_length, loop_len.
    + intros q Q. destruct (IR q Q) as (m & HM & MS & MT). destruct (in_of d0 p N1 S1 fl i IG q Q) as (mi & HI & MI & MIS & NE). destruct (RE q Q) as [RE1 RE2].
      destruct (port_step p S1 (at_ (ts_regs st) q (pr0 d0)) (at_ (ti_port i) q (pi0 d0)) m mi (cnt q X) HM HI MI) as (m' & H1 & H2 & H3).
      * pose proof (cnt_pos q X). pose proof (cnt_len q X). lia.
      * intros k K. pose proof (cnt_len q X). pose proof (in_turn_valid _ _ _ _ _ TU K) as VK. rewrite (V_of d0 p S1 fl st i RG) in VK by lia. now apply andb_true_iff in VK.
      * exists m'. rewrite RQ, RE1 by assumption. split; [exact H1|]. split; [intros FL; destruct H3 as [[-> _]| ->]; auto|].
        unfold m_taken. rewrite since_snoc, ER. change (since m_rst _ tr) with (m_taken p q tr). rewrite MT, from_app, <- !app_assoc. f_equal. unfold e, tm_event. cbn [te_in te_ready]. rewrite NE.
        replace (nth (Z.to_nat q) _ false) with (tm_in_ready p (at_ (ts_regs st) q (pr0 d0)) (at_ (cy_offn c) q 0)).
        2:{ symmetry. change (nth (Z.to_nat q) ?l false) with (at_ l q false). now rewrite at_map. }
        rewrite RE2. match goal with |- _ ++ ?u = _ => change u with (if tm_in_ready p (at_ (ts_regs st) q (pr0 d0)) (pr_off (at_ (ts_regs st) q (pr0 d0)) + cnt q X) then beat_segs p (at_ (ti_port i) q (pi0 d0)) else []) end.
        rewrite H2. f_equal. unfold from_port. rewrite filter_tag by reflexivity. rewrite (in_turn_port _ _ _ _ TU), !map_map.
        replace (zrange (pr_off (at_ (ts_regs st) q (pr0 d0))) (pr_off (at_ (ts_regs st) q (pr0 d0)) + cnt q X)) with (zrange (0 + pr_off (at_ (ts_regs st) q (pr0 d0))) (cnt q X + pr_off (at_ (ts_regs st) q (pr0 d0)))) by (f_equal; lia).
        rewrite zrange_shift, map_map. apply map_ext. intros k. unfold h, tagged. cbn [fst snd]. f_equal. lia.
    + apply Forall_app. split; [exact IT|]. apply Forall_forall. intros y Y. apply in_map_iff in Y. destruct Y as (x & <- & XI). apply (HE x XI).
    + apply whole_app; auto.
      * intros a u v b EQ NE. apply map_eq_app in EQ. destruct EQ as (a' & r' & XE & <- & EQ). destruct r' as [|u' [|v' b']]; try discriminate. cbn in EQ. injection EQ as <- <- <-.
        assert (In u' X) by (rewrite XE; apply in_or_app; right; now left). assert (In v' X) by (rewrite XE; apply in_or_app; right; right; now left).
        destruct (HE u' H) as (_ & EU & _). rewrite EU in NE. exact (proj1 UN a' u' v' b' XE NE).
      * intros l x y r -> EQ NE. destruct X as [|y' X']; [discriminate|]. cbn in EQ. injection EQ as <- _. destruct (IO l x eq_refl NE) as [FR FP]. change (fst (h y')) with (fst y'). rewrite <- FP. exact (proj2 UN FR y' X' eq_refl).
    + intros a x EQ NE. destruct NX as [[-> NX]|(a' & x' & -> & NX1 & NX2)].
      * rewrite app_nil_r in EQ. destruct (IO a x EQ NE) as [FR FP]. destruct (NX FR) as [-> ->]. auto.
      * rewrite map_app, app_assoc in EQ. apply app_inj_tail in EQ. destruct EQ as [_ <-]. assert (In x' (a' ++ [x'])) by (apply in_or_app; right; now left). destruct (HE x' H) as (_ & EU & _). rewrite EU in NE. rewrite NX1, NX2, NE. auto.
    + unfold m_out. rewrite since_snoc, ER. change (since m_rst _ tr) with (m_out tr). rewrite map_app, IU, <- BX, <- BN, <- !app_assoc, <- flat_map_app, K2, flat_map_app. f_equal. f_equal.
      unfold e, tm_event. cbn [te_in te_out]. destruct (sk_valid (ts_out st)), (ti_ready i); cbn; rewrite ?app_nil_r; reflexivity.
    + assert (FA : Forall (fun b => Z.of_nat (length (beat b)) <= s) (content (ts_out st) ++ (if existsb fst bt then [bt] else []))).
      { apply Forall_app. split; [exact IB|]. destruct (existsb fst bt); constructor; [|constructor]. rewrite BX, !map_length. exact LX. }
      rewrite K2 in FA. apply Forall_app in FA. apply FA.
    + intros FL. destruct (SE FL) as (_ & SE2 & _). destruct NX as [[XE _]|(a & x & XE & NX1 & _)].
      * rewrite XE in *. cbn [map]. rewrite app_nil_r, SE2 by reflexivity. auto.
      * rewrite NX1, XE, map_app, app_assoc. cbn [map]. rewrite open_snoc. assert (XI : In x X) by (rewrite XE; apply in_or_app; right; now left). destruct (HE x XI) as (_ & -> & _). reflexivity.
    + intros FL. destruct (SE FL) as (SE1 & _ & SE3). unfold m_pulses. rewrite since_snoc, ER. change (since m_rst (pulses p) tr) with (m_pulses p tr). rewrite firsts_app, (proj1 (IE FL)). cbn [negb]. rewrite <- IF by assumption.
      rewrite (pulses_eq _ h X _ _ _ HE LX SE1 SE3), <- app_assoc. split; [rewrite <- app_assoc; reflexivity|]. pose proof (firsts_len (map h X) (negb (ts_frame st))) as FLN. rewrite map_length in FLN. lia.
Qed.

Lemma trace_snoc : forall l st i, tm_trace d0 p st (l ++ [i]) = tm_trace d0 p st l ++ [tm_event d0 p (tm_run d0 p st l) i].
Proof. induction l as [|x l IH]; intros st i; [reflexivity|]. cbn [app tm_trace]. rewrite IH. reflexivity. Qed.
Lemma run_snoc : forall l st i, tm_run d0 p st (l ++ [i]) = tm_step d0 p (tm_run d0 p st l) i.
Proof. intros. unfold tm_run. now rewrite fold_left_app. Qed.
Lemma inv_run : forall l, Forall (in_good p fl) l -> exists src, inv (tm_run d0 p (tm0 d0 p) l) (tm_trace d0 p (tm0 d0 p) l) src.
Proof.
  induction l as [|i l IH] using rev_ind; intros G; [exists []; apply inv_start|]. apply Forall_app in G. destruct G as [G1 G2]. inversion G2; subst. destruct (IH G1) as (src & H). rewrite trace_snoc, run_snoc. eapply inv_step; eassumption.
Qed.
Lemma inv_merge : forall st tr src, inv st tr src -> is_merge p tr src.
Proof.
  intros st tr src [IP IL IR IT IW IO IS IU IB IF IE]. constructor; auto.
  - exists (flat_map beat (content (ts_out st))). split; [exact IU|]. destruct IS as [K1 K2].
    unfold content in *. destruct (sk_valid (ts_out st)), (sk_tvalid (ts_out st)); cbn [app flat_map] in *; rewrite ?app_nil_r, ?app_length; repeat match goal with H : Forall _ (_ :: _) |- _ => inversion H; clear H; subst end; cbn [length]; try lia.
  - intros q Q. destruct (IR q Q) as (m & HM & _ & MT). exists (pend (at_ (ts_regs st) q (pr0 d0)) m). split; [exact MT|]. unfold pend. rewrite map_length. pose proof (po_off _ _ _ HM). pose proof (po_m _ _ _ HM). rewrite zrange_len by lia. lia.
Qed.
End trace.

Lemma packed_of_full : forall D p (i : tm_in D), 1 <= tm_s p -> in_full p i -> in_packed p i.
Proof.
  intros D p i S1 [L F]. split; [exact L|]. eapply Forall_impl; [|exact F]. intros x [Z0|Z0]; [exists 0|exists (tm_s p)]; split; auto; lia.
Qed.
Lemma merged : forall D (d0 : D) p l, tm_ok p -> Forall (in_packed p) l -> tm_s p <= 2 \/ Forall (in_full p) l -> exists src, is_merge p (tm_trace d0 p (tm0 d0 p) l) src.
Proof.
  intros D d0 p l [N1 S1] PK [S2|FU].
  - destruct (inv_run d0 p N1 S1 false l) as (src & H); [|exists src; eapply inv_merge; eassumption]. eapply Forall_impl; [|exact PK]. intros i I. split; [exact I|]. split; [auto|discriminate].
  - destruct (inv_run d0 p N1 S1 true l) as (src & H); [|exists src; eapply inv_merge; eassumption]. eapply Forall_impl; [|exact FU]. intros i I. split; [now apply packed_of_full|]. split; [discriminate|auto].
Qed.
Lemma selected : forall D (d0 : D) p l, tm_ok p -> Forall (in_full p) l -> exists src rest, is_merge p (tm_trace d0 p (tm0 d0 p) l) src /\ firsts true src = m_pulses p (tm_trace d0 p (tm0 d0 p) l) ++ rest /\ Z.of_nat (length rest) <= tm_s p.
Proof.
  intros D d0 p l [N1 S1] FU. destruct (inv_run d0 p N1 S1 true l) as (src & H).
  { eapply Forall_impl; [|exact FU]. intros i I. split; [now apply packed_of_full|]. split; [discriminate|auto]. }
  exists src. eexists. split; [exact (inv_merge d0 p N1 S1 true _ _ _ H)|]. exact (in_sel _ _ _ _ _ _ H eq_refl).
Qed.

(** The output without assumptions on the input. *)
Lemma ready_of : forall D (d0 : D) p st i, existsb fst (map (tm_mux d0 p st i (tm_cycle d0 p st i)) (loop (tm_s p))) = true -> sk_ready (ts_out st) = true.
Proof.
  intros D d0 p st i H. destruct (sk_ready (ts_out st)) eqn:RD; [reflexivity|]. assert (SM : same (tm_start d0 p st i) (tm_cycle d0 p st i)) by (unfold tm_cycle; rewrite RD; apply loop_not_ready). destruct SM as (_ & _ & _ & O0 & _). exfalso. revert H.
  generalize (loop (tm_s p)) as l. induction l as [|g l IH]; cbn [map existsb]; [discriminate|]. replace (fst (tm_mux d0 p st i (tm_cycle d0 p st i) g)) with false; [exact IH|]. unfold tm_mux. cbn [fst]. rewrite O0. unfold bsel, psel. cbn [tm_start cy_osel]. rewrite Zdiv_0_l. reflexivity.
Qed.
Lemma skid_run : forall D (d0 : D) p l, skid_inv (ts_out (tm_run d0 p (tm0 d0 p) l)).
Proof.
  intros D d0 p l. induction l as [|i l IH] using rev_ind; [split; discriminate|]. rewrite run_snoc. unfold tm_step. destruct (ti_rst i); cbn [ts_out]; [apply skid_reset|]. apply skid_ok; [exact IH|]. apply ready_of.
Qed.
Lemma trace_app : forall D (d0 : D) p a b st, tm_trace d0 p st (a ++ b) = tm_trace d0 p st a ++ tm_trace d0 p (tm_run d0 p st a) b.
Proof. intros D d0 p a. induction a as [|x a IH]; intros b st; [reflexivity|]. cbn [app tm_trace]. f_equal. apply IH. Qed.
Lemma trace_len : forall D (d0 : D) p l st, length (tm_trace d0 p st l) = length l.
Proof. intros D d0 p l. induction l; intros; cbn; auto. Qed.
Lemma kept : forall D (d0 : D) p l, m_kept (tm_trace d0 p (tm0 d0 p) l).
Proof.
  intros D d0 p l a e1 e2 b EQ R1 O1 Y1. rewrite <- (firstn_skipn (length a) l), trace_app in EQ. assert (LA : (length a <= length l)%nat). { rewrite <- (trace_len D d0 p l (tm0 d0 p)). rewrite <- (firstn_skipn (length a) l), trace_app, EQ, app_length. lia. }
 set (st := tm_run d0 p (tm0 d0 p) (firstn (length a) l)) in *.
  assert (L1 : length (tm_trace d0 p (tm0 d0 p) (firstn (length a) l)) = length a) by (rewrite trace_len, firstn_length; lia).
  assert (EQ2 : tm_trace d0 p st (skipn (length a) l) = e1 :: e2 :: b).
  { apply (f_equal (skipn (length a))) in EQ. rewrite <- L1 in EQ at 1. rewrite skipn_app, skipn_all, Nat.sub_diag in EQ. rewrite skipn_app, skipn_all, Nat.sub_diag in EQ. exact EQ. }
  destruct (skipn (length a) l) as [|i1 [|i2 r]]; cbn [tm_trace] in EQ2; try discriminate. injection EQ2 as <- <- _. unfold m_rst, tm_event in *. cbn [te_in te_out] in *.
  destruct (sk_valid (ts_out st)) eqn:SV; [|now elim O1]. unfold tm_step. rewrite R1. cbn [ts_out].
  match goal with |- context [skid_step _ _ _ ?v ?x] => destruct (skid_ok (ts_out st) (ti_ready i1) v x (skid_run D d0 p _)) as (_ & _ & _ & K) end; [apply ready_of|]. destruct (K SV Y1) as [-> ->]. reflexivity.
Qed.

(** Against the claims. *)
Lemma src_taken : forall D p (tr : list (tm_ev D)) src x, is_merge p tr src -> In x src -> 0 <= fst x < tm_n p /\ In (snd x) (m_taken p (fst x) tr).
Proof.
  intros D p tr src x [_ H T _] X. rewrite Forall_forall in T. specialize (T x X). split; [exact T|]. destruct (H _ T) as (rest & -> & _). apply in_or_app. left. unfold from_port. apply in_map. apply filter_In. split; [exact X|apply Z.eqb_refl].
Qed.
Lemma firsts_in : forall D (src : list (Z * @mseg D)) b y, In y (firsts b src) -> exists x, In x src /\ fst x = fst y /\ snd (snd x) = snd y.
Proof.
  intros D src. induction src as [|x src IH]; intros b y H; [destruct H|]. cbn [firsts] in H. apply in_app_or in H. destruct H as [H|H].
  - destruct b; [|destruct H]. destruct H as [<-|[]]. exists x. cbn. auto.
  - destruct (IH _ _ H) as (z & Z1 & Z2). exists z. split; [now right|exact Z2].
Qed.
Lemma not_merged : forall D p (tr : list (tm_ev D)) a u v b, m_out tr = a ++ u :: v :: b -> snd (fst u) = false ->
  (forall q, 0 <= q < tm_n p -> ~ (In u (m_taken p q tr) /\ In v (m_taken p q tr))) -> ~ exists src, is_merge p tr src.
Proof.
  intros D p tr a u v b MO NE NI (src & M). destruct (im_out _ _ _ M) as (rest & EQ & _). rewrite MO, <- app_assoc in EQ. cbn [app] in EQ. apply map_eq_app in EQ. destruct EQ as (a' & r & SE & _ & EQ).
  destruct r as [|x [|y r]]; try discriminate. cbn in EQ. injection EQ as <- <- _. pose proof (im_whole _ _ _ M a' x y r SE NE) as XY.
  assert (IX : In x src) by (rewrite SE; apply in_or_app; right; now left). assert (IY : In y src) by (rewrite SE; apply in_or_app; right; right; now left).
  destruct (src_taken _ _ _ _ _ M IX) as [X1 X2]. destruct (src_taken _ _ _ _ _ M IY) as [_ Y2]. rewrite XY in Y2. exact (NI _ X1 (conj X2 Y2)).
Qed.
