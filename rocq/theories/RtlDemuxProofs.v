(** Proofs about the frame demultiplexers (C87): safety. *)
From Coq Require Import FinFun.
From Verif Require Import PyBase BitLemmas RtlDemuxModel RtlDemuxSpec.

Definition zseq (n : Z) : list Z := map Z.of_nat (seq 0 (Z.to_nat n)).
Lemma zseq_in n q : In q (zseq n) <-> 0 <= q < n.
Proof.
  unfold zseq. rewrite in_map_iff. split.
  - intros (k & <- & H). apply in_seq in H. lia.
  - intros H. exists (Z.to_nat q). split; [lia|]. apply in_seq. lia.
Qed.
Lemma zseq_nodup n : NoDup (zseq n).
Proof. unfold zseq. apply FinFun.Injective_map_NoDup; [intros a b; lia|apply seq_NoDup]. Qed.

Lemma filter_one (A : Type) (p : A -> bool) (l : list A) x : NoDup l -> In x l -> (forall y, In y l -> y <> x -> p y = false) -> filter p l = if p x then [x] else [].
Proof.
  intros ND HI HF. induction l as [|y l IH]; [contradiction|]. inversion ND as [|? ? N1 N2]; subst. cbn [filter]. destruct HI as [->|HI].
  - assert (E : filter p l = []).
    { clear -HF N1. induction l as [|z l IH]; [reflexivity|]. cbn [filter]. rewrite (HF z); [|cbn; tauto|intros ->; apply N1; now left]. apply IH; [|intros H; apply N1; now right].
      intros y Hy. apply HF. cbn in *. tauto. }
    rewrite E. destruct (p x); reflexivity.
  - rewrite (HF y); [|left; reflexivity|congruence]. apply IH; [assumption..|]. intros z Hz. apply HF. now right.
Qed.
Lemma filter_none (A : Type) (p : A -> bool) (l : list A) : (forall y, In y l -> p y = false) -> filter p l = [].
Proof. intros H. induction l as [|z l IH]; [reflexivity|]. cbn [filter]. rewrite (H z) by now left. apply IH. intros. apply H. now right. Qed.

(* ---------- output datapath ---------- *)
Section vskid.
Context {M : Type}.
Variable n : Z.
Implicit Types (k : vskid M).

Definition port v : Prop := v = 0 \/ exists q, 0 <= q < n /\ v = 2 ^ q.
Definition item (v : Z) (d : M) : list (Z * M) := if v =? 0 then [] else [(Z.log2 v, d)].
Definition vcontent k : list (Z * M) := item (vk_valid k) (vk_data k) ++ item (vk_tvalid k) (vk_tdata k).
Record vinv k : Prop := { v_p1 : port (vk_valid k); v_p2 : port (vk_tvalid k); v_r : vk_ready k = true -> vk_tvalid k = 0; v_t : vk_tvalid k <> 0 -> vk_valid k <> 0 }.
(** What the sinks take at this edge. *)
Definition vgiven k (mready : Z) : list (Z * M) :=
  map (fun q => (q, vk_data k)) (filter (fun q => Z.testbit (vk_valid k) q && Z.testbit mready q) (zseq n)).

Lemma port_pos q : 0 <= q -> 2 ^ q <> 0.
Proof. intros. pose proof (Z.pow_pos_nonneg 2 q). lia. Qed.
Lemma land_port mready q : 0 <= q -> (Z.land mready (2 ^ q) =? 0) = negb (Z.testbit mready q).
Proof.
  intros Hq. destruct (Z.testbit mready q) eqn:E; cbn [negb].
  - apply Z.eqb_neq. intros H. assert (B : Z.testbit (Z.land mready (2 ^ q)) q = true) by (rewrite Z.land_spec, E, Z.pow2_bits_true by assumption; reflexivity).
    rewrite H, Z.bits_0 in B. discriminate.
  - apply Z.eqb_eq. apply Z.bits_inj'. intros j Hj. rewrite Z.land_spec, Z.bits_0, Z.pow2_bits_eqb by assumption.
    destruct (Z.eqb_spec q j) as [->|]; [now rewrite E|apply andb_false_r].
Qed.
Lemma item_pow q d : 0 <= q -> item (2 ^ q) d = [(q, d)].
Proof. intros H. unfold item. destruct (Z.eqb_spec (2 ^ q) 0) as [E|E]; [now apply port_pos in E|]. now rewrite Z.log2_pow2. Qed.
Lemma vgiven_eq k mready : port (vk_valid k) -> vgiven k mready = if negb (Z.land mready (vk_valid k) =? 0) then item (vk_valid k) (vk_data k) else [].
Proof.
  intros [E|(q & Hq & E)]; unfold vgiven; rewrite E.
  - rewrite Z.land_0_r. cbn [Z.eqb negb]. rewrite filter_none; [reflexivity|]. intros. now rewrite Z.bits_0.
  - rewrite land_port, negb_involutive by lia. rewrite (filter_one _ _ _ q); [|apply zseq_nodup|now apply zseq_in|].
    + rewrite Z.pow2_bits_true, item_pow by lia. cbn [andb]. destruct (Z.testbit mready q); reflexivity.
    + intros y _ N. rewrite Z.pow2_bits_false by congruence. reflexivity.
Qed.

Lemma vskid_ok k mready vint d : vinv k -> port vint -> (vint <> 0 -> vk_ready k = true) ->
  let k' := vskid_step k false mready vint d in
  vinv k' /\ vcontent k ++ item vint d = vgiven k mready ++ vcontent k' /\ vk_ready k' = vskid_early k mready /\
  (vk_valid k <> 0 -> Z.land mready (vk_valid k) = 0 -> vk_valid k' = vk_valid k /\ vk_data k' = vk_data k).
Proof.
  intros [P1 P2 R T] PV HV. cbn zeta. rewrite vgiven_eq by assumption. unfold vcontent, vskid_step, vskid_early. destruct k as [v dd t td r]. cbn [vk_valid vk_data vk_tvalid vk_tdata vk_ready] in *.
  assert (P0 : port 0) by now left. assert (L0 : v = 0 -> Z.land mready v = 0) by (intros ->; apply Z.land_0_r).
  assert (A : forall T (x y : T), x = x /\ y = y) by (intros; split; reflexivity).
  destruct r.
  - rewrite (R eq_refl) in *. destruct (Z.eqb_spec (Z.land mready v) 0) as [EL|EL]; cbn [negb orb].
    + destruct (Z.eqb_spec v 0) as [EV|EV]; cbn [orb]; rewrite ?EV; cbn [vk_valid vk_data vk_tvalid vk_tdata vk_ready item Z.eqb app]; rewrite ?app_nil_r.
      * split; [constructor; cbn; auto|]. repeat split; auto; congruence.
      * split; [constructor; cbn; auto; discriminate|]. repeat split; auto.
    + cbn [vk_valid vk_data vk_tvalid vk_tdata vk_ready Z.eqb app]. change (item 0 td) with (@nil (Z * M)). rewrite ?app_nil_r. split; [constructor; cbn; auto; congruence|]. repeat split; auto; congruence.
  - assert (vint = 0) as -> by (destruct (Z.eq_dec vint 0); [assumption|specialize (HV n0); discriminate]). change (item 0 d) with (@nil (Z * M)). rewrite app_nil_r.
    destruct (Z.eqb_spec (Z.land mready v) 0) as [EL|EL]; cbn [negb orb vk_valid vk_data vk_tvalid vk_tdata vk_ready].
    + split; [|repeat split; auto]. constructor; cbn; auto. intros H. apply andb_true_iff in H. now apply Z.eqb_eq.
    + change (item 0 td) with (@nil (Z * M)). rewrite ?app_nil_r. split; [constructor; cbn; auto; congruence|]. repeat split; auto; congruence.
Qed.
Lemma vskid_reset k mready vint d : vinv (vskid_step k true mready vint d) /\ vcontent (vskid_step k true mready vint d) = [].
Proof.
  unfold vskid_step. destruct (vk_ready k); [destruct (_ || _)|destruct (negb _)]; cbn; (split; [constructor; cbn; intros; (now left) || congruence|reflexivity]).
Qed.
Lemma vcontent_len k : (length (vcontent k) <= 2)%nat.
Proof. unfold vcontent, item. rewrite app_length. destruct (_ =? 0), (_ =? 0); cbn; lia. Qed.
End vskid.

(* ---------- the specification, one beat at a time ---------- *)
Section demux.
Context {D : Type}.
Notation ev := (dm_ev D).
Notation beat := (@beat D).
Variable n : Z.
Hypothesis Hn : 1 <= n.

Lemma pick_choice w64 s (i : dm_in D) : let e := dm_event w64 s i in
  dm_pick n i = match choice n e with Some q => (q, false) | None => (fst (dm_pick n i), true) end /\ (forall q, choice n e = Some q -> 0 <= q < n).
Proof.
  cbn zeta. unfold dm_pick, choice. cbn [de_drop de_select dm_event]. fold (zseq n).
  assert (E : fold_left (fun '(sel, drop) j => if Z.testbit (di_select i) j then (j, false) else (sel, drop)) (rev (zseq n)) (0, true) =
    match find (fun q => Z.testbit (di_select i) q) (zseq n) with Some q => (q, false) | None => (0, true) end).
  { induction (zseq n) as [|x l IH]; [reflexivity|]. cbn [rev find]. rewrite fold_left_app, IH. cbn [fold_left]. destruct (find _ l), (Z.testbit (di_select i) x); reflexivity. }
  rewrite E. split.
  - destruct (find _ _), (di_drop i); cbn; reflexivity.
  - intros q. destruct (di_drop i); [discriminate|]. intros H. apply find_some in H. now apply zseq_in.
Qed.

Lemma taken_snoc (tr : list ev) e : taken n (tr ++ [e]) = taken_step n (taken n tr) e.
Proof. unfold taken. now rewrite fold_left_app. Qed.
Lemma sent_snoc (tr : list ev) e : sent n (tr ++ [e]) = sent_step n (sent n tr) e.
Proof. unfold sent. now rewrite fold_left_app. Qed.
Lemma cut_snoc (l : list beat) b : cut (l ++ [b]) = if fst (fst b) then (fst (cut l) ++ [snd (cut l) ++ [b]], []) else (fst (cut l), snd (cut l) ++ [b]).
Proof. unfold cut. rewrite fold_left_app. cbn [fold_left]. destruct (fold_left _ l _) as [fs cur]. reflexivity. Qed.

Lemma expected_eq w64 (l : list beat) : expected w64 l = flat_map (sends w64) (fst (cut l)) ++ sends w64 (snd (cut l)).
Proof. unfold expected, frames. rewrite flat_map_app. cbn. now rewrite app_nil_r. Qed.
Lemma sends_nil w64 : sends w64 (@nil beat) = [].
Proof. unfold sends, decision. destruct w64; reflexivity. Qed.
Lemma expected_snoc w64 (l : list beat) b : expected w64 (l ++ [b]) = flat_map (sends w64) (fst (cut l)) ++ sends w64 (snd (cut l) ++ [b]).
Proof.
  rewrite expected_eq, cut_snoc. destruct (fst (fst b)); cbn [fst snd]; [|reflexivity]. rewrite flat_map_app, sends_nil, app_nil_r. cbn. now rewrite app_nil_r.
Qed.

Lemma sends_wide (f : list beat) b : f <> [] -> sends false (f ++ [b]) = sends false f ++ match decision false f with Some q => [(q, fst b)] | None => [] end.
Proof.
  intros H. destruct f as [|a f]; [congruence|]. unfold sends, decision. cbn [app nth_error]. destruct (snd a); [|reflexivity]. change (a :: f ++ [b]) with ((a :: f) ++ [b]). now rewrite map_app.
Qed.
Lemma sends_first (b : beat) : sends false [b] = match snd b with Some q => [(q, fst b)] | None => [] end.
Proof. reflexivity. Qed.
Lemma decision_app w64 (f g : list beat) q : decision w64 f = Some q -> decision w64 (f ++ g) = Some q.
Proof. unfold decision. destruct (nth_error f _) eqn:E; [|discriminate]. rewrite nth_error_app1, E; [tauto|]. apply nth_error_Some. congruence. Qed.
Lemma decision_wide (f : list beat) g : f <> [] -> decision false (f ++ g) = decision false f.
Proof. destruct f; [congruence|reflexivity]. Qed.
Lemma sends_more w64 (f : list beat) b q : decision w64 f = Some q -> sends w64 (f ++ [b]) = sends w64 f ++ [(q, fst b)].
Proof. intros H. unfold sends. rewrite (decision_app _ _ _ _ H), H. now rewrite map_app. Qed.

Lemma shl_port v sc : (v = true -> 0 <= sc < n) -> port n (Z.shiftl (Z.b2z v) sc mod 2 ^ n) /\ (v = true -> Z.shiftl (Z.b2z v) sc mod 2 ^ n = 2 ^ sc) /\ (v = false -> Z.shiftl (Z.b2z v) sc mod 2 ^ n = 0).
Proof.
  intros H. destruct v; cbn [Z.b2z].
  - specialize (H eq_refl). assert (E : Z.shiftl 1 sc mod 2 ^ n = 2 ^ sc).
    { rewrite Z.shiftl_1_l. apply Z.mod_small. split; [apply Z.pow_nonneg; lia|apply Z.pow_lt_mono_r; lia]. }
    rewrite E. split; [right; exists sc; auto|]. split; [auto|discriminate].
  - rewrite Z.shiftl_0_l, Z.mod_0_l by (apply port_pos; lia). split; [now left|]. split; [discriminate|auto].
Qed.

(* ---------- data widths over 64 ---------- *)
Record winv (tr : list ev) (s : dm_state D) : Prop := {
  w_skid : vinv n (dm_out s);
  w_frame : dm_frame s = true <-> snd (cut (taken n tr)) <> [];
  w_idle : dm_frame s = false -> dm_drop s = false;
  w_dec : dm_frame s = true -> decision false (snd (cut (taken n tr))) = if dm_drop s then None else Some (dm_sel s);
  w_sel : dm_frame s = true -> dm_drop s = false -> 0 <= dm_sel s < n;
  w_eq : expected false (taken n tr) = sent n tr ++ vcontent (dm_out s);
  w_go : dm_tready s = true -> vk_ready (dm_out s) = true \/ dm_drop s = true \/ (exists a e, tr = a ++ [e] /\ ends_dropped n a e /\ held n e) }.

Lemma given_eq w64 s (i : dm_in D) : given n (dm_event w64 s i) = vgiven n (dm_out s) (di_mready i).
Proof. unfold given, vgiven. cbn [dm_event de_mlast de_mdata de_mvalid de_mready]. fold (zseq n). now rewrite <- surjective_pairing. Qed.

Lemma held_of k mready (e : ev) : vinv n k -> de_mvalid e = vk_valid k -> de_mready e = mready -> @vskid_early (bool * D) k mready = false -> held n e.
Proof.
  intros [P1 P2 R T] E1 E2 H. unfold vskid_early in H. apply orb_false_iff in H. destruct H as [H1 H2]. apply negb_false_iff, Z.eqb_eq in H1.
  destruct P1 as [E|(q & Hq & E)].
  - exfalso. rewrite E in *. cbn [Z.eqb] in H2. rewrite andb_true_r in H2. apply Z.eqb_neq in H2. now apply T in H2.
  - exists q. rewrite E1, E2. rewrite E in *. split; [assumption|]. split; [apply Z.pow2_bits_true; lia|]. apply negb_true_iff. rewrite <- land_port by lia. now apply Z.eqb_eq.
Qed.

Lemma wide_step tr s i : winv tr s -> unblocked n (tr ++ [dm_event false s i]) -> winv (tr ++ [dm_event false s i]) (dm_step false n s i).
Proof.
  intros [W1 W2 W3 W4 W5 W6 W7] U. set (e := dm_event false s i) in *. destruct (di_rst i) eqn:ER.
  - destruct (vskid_reset n (dm_out s) (di_mready i) (Z.shiftl (Z.b2z (let '(sc, dc, fc, _) := dm_ctl false n s i in di_valid i && dm_ready false s i && negb dc && fc)) (fst (fst (fst (dm_ctl false n s i)))) mod 2 ^ n) (di_last i, di_data i)) as [V1 V2].
    assert (S : dm_step false n s i = mkDm 0 false false false (dm_tv s) (dm_tl s) (dm_td s) (vskid_step (dm_out s) true (di_mready i) (Z.shiftl (Z.b2z (let '(sc, dc, fc, _) := dm_ctl false n s i in di_valid i && dm_ready false s i && negb dc && fc)) (fst (fst (fst (dm_ctl false n s i)))) mod 2 ^ n) (di_last i, di_data i))).
    { unfold dm_step. destruct (dm_ctl false n s i) as [[[sc dc] fc] [[sn dn] fn]]. rewrite ER. reflexivity. }
    rewrite S. assert (T : taken n (tr ++ [e]) = []) by (rewrite taken_snoc; unfold taken_step; cbn [e dm_event de_rst]; now rewrite ER).
    assert (T2 : sent n (tr ++ [e]) = []) by (rewrite sent_snoc; unfold sent_step; cbn [e dm_event de_rst]; now rewrite ER).
    constructor; rewrite ?T, ?T2; cbn [dm_out dm_frame dm_drop dm_sel dm_tready]; try discriminate; auto.
    + cbn. split; [discriminate|intros H; now destruct H].
  - set (acc := taken n tr) in *. set (cur := snd (cut acc)) in *. set (b := (di_last i, di_data i, choice n e) : beat).
    assert (TK : takes e = di_valid i && dm_ready false s i) by reflexivity.
    assert (T : taken n (tr ++ [e]) = if takes e then acc ++ [b] else acc) by (rewrite taken_snoc; unfold taken_step; cbn [e dm_event de_rst]; now rewrite ER).
    assert (T2 : sent n (tr ++ [e]) = sent n tr ++ vgiven n (dm_out s) (di_mready i)) by (rewrite sent_snoc; unfold sent_step; cbn [e dm_event de_rst]; rewrite ER; unfold e; now rewrite given_eq).
    destruct (pick_choice false s i) as [PK PR]. fold e in PK, PR.
    (* the decision of the frame of this beat *)
    assert (CT : exists sc dc fc, fst (dm_ctl false n s i) = (sc, dc, fc) /\ (takes e = true -> fc = true) /\
      (takes e = true -> decision false (cur ++ [b]) = (if dc then None else Some sc)) /\ (takes e = true -> dc = false -> 0 <= sc < n) /\
      snd (dm_ctl false n s i) = (if takes e then if di_last i then (dm_sel s, false, false) else (sc, dc, true) else (dm_sel s, dm_drop s, dm_frame s)) /\
      (takes e = false -> dc = dm_drop s) /\ (takes e = true -> dm_drop s = true -> dc = true)).
    { unfold dm_ctl. cbn [negb orb andb]. rewrite TK, !andb_true_r. destruct (dm_frame s) eqn:EF; cbn [negb andb].
      - exists (dm_sel s), (dm_drop s), true. split; [reflexivity|]. split; [auto|]. split; [|split; [intros _; now apply W5|split; [|auto]]].
        + intros _. rewrite decision_wide by now apply W2. now apply W4.
        + destruct (di_valid i && dm_ready false s i); [|reflexivity]. cbn [andb]. destruct (di_last i); reflexivity.
      - assert (EC : cur = []). { destruct cur eqn:E; [reflexivity|]. exfalso. assert (X : false = true) by (apply W2; discriminate). congruence. }
        destruct (di_valid i && dm_ready false s i) eqn:ET; cbn [andb].
        + destruct (dm_pick n i) as [sc dc] eqn:EP. exists sc, dc, true. split; [destruct (di_last i); reflexivity|]. split; [auto|].
          assert (X : (if dc then None else Some sc) = choice n e /\ (dc = false -> 0 <= sc < n)).
          { destruct (choice n e) as [q|]; [injection PK as -> ->|injection PK as ->]; split; try reflexivity; [intros _; now apply PR|discriminate]. }
          destruct X as [X1 X2]. split; [intros _; rewrite EC; cbn; now rewrite X1|]. split; [auto|]. split; [destruct (di_last i); reflexivity|]. split; [discriminate|]. rewrite (W3 eq_refl). discriminate.
        + exists (dm_sel s), (dm_drop s), false. split; [reflexivity|]. split; [discriminate|]. split; [discriminate|]. split; [discriminate|]. split; [reflexivity|]. split; [auto|discriminate]. }
    destruct CT as (sc & dc & fc & C1 & C2 & C3 & C4 & C5 & C6 & C7).
    set (v := di_valid i && dm_ready false s i && negb dc && fc).
    assert (S : dm_step false n s i = let '(sn, dn, fn) := snd (dm_ctl false n s i) in mkDm sn dn fn (vskid_early (dm_out s) (di_mready i) || dc) (dm_tv s) (dm_tl s) (dm_td s)
      (vskid_step (dm_out s) false (di_mready i) (Z.shiftl (Z.b2z v) sc mod 2 ^ n) (di_last i, di_data i))).
    { unfold dm_step. destruct (dm_ctl false n s i) as [c [[sn dn] fn]]. cbn [fst snd] in *. rewrite C1, ER. reflexivity. }
    assert (EV : v = takes e && negb dc) by (unfold v; rewrite <- TK; destruct (takes e); [rewrite C2 by reflexivity; now rewrite andb_true_r|reflexivity]).
    destruct (shl_port v sc) as (Q1 & Q2 & Q3). { rewrite EV. intros H. apply andb_true_iff in H. destruct H as [H1 H2]. apply C4; [assumption|]. now apply negb_true_iff. }
    (* a beat is passed on only when the output stage takes it *)
    assert (GO : v = true -> vk_ready (dm_out s) = true).
    { rewrite EV. intros H. apply andb_true_iff in H. destruct H as [H1 H2]. apply negb_true_iff in H2.
      assert (TR : dm_tready s = true). { rewrite TK in H1. apply andb_true_iff in H1. destruct H1 as [_ H1]. unfold dm_ready in H1. cbn [andb] in H1. rewrite orb_false_r in H1. now apply andb_true_iff in H1. }
      destruct (W7 TR) as [?|[H|(a & e1 & E1 & E2 & E3)]]; [assumption|exfalso; rewrite (C7 H1 H) in H2; discriminate|exfalso].
      assert (X : choice n e = None) by (apply (U a e1 e []); [rewrite E1, <- app_assoc; reflexivity|assumption..]).
      assert (EC : cur = []). { destruct E2 as (F1 & F2 & F3 & _). unfold cur, acc. rewrite E1, taken_snoc. unfold taken_step. rewrite F1, F2, cut_snoc. cbn [fst]. now rewrite F3. }
      specialize (C3 H1). rewrite EC in C3. cbn in C3. rewrite X, H2 in C3. discriminate. }
    destruct (vskid_ok n (dm_out s) (di_mready i) (Z.shiftl (Z.b2z v) sc mod 2 ^ n) (di_last i, di_data i) W1 Q1) as (K1 & K2 & K3 & K4).
    { intros H. apply GO. destruct v; [reflexivity|]. now rewrite Q3 in H. }
    set (k' := vskid_step (dm_out s) false (di_mready i) (Z.shiftl (Z.b2z v) sc mod 2 ^ n) (di_last i, di_data i)) in *.
    assert (CUT : snd (cut (taken n (tr ++ [e]))) = if takes e then if di_last i then [] else cur ++ [b] else cur).
    { rewrite T. destruct (takes e); [|reflexivity]. rewrite cut_snoc. cbn [fst b]. destruct (di_last i); reflexivity. }
    assert (NZ : cur ++ [b] <> []) by (destruct cur; discriminate).
    rewrite S, C5. assert (EQ : expected false (taken n (tr ++ [e])) = sent n (tr ++ [e]) ++ vcontent k').
    { rewrite T2, <- app_assoc, <- K2. rewrite app_assoc, <- W6, T. destruct (takes e) eqn:ET; rewrite EV in *; cbn [andb] in *.
      - rewrite expected_snoc, expected_eq. fold cur. rewrite <- app_assoc. f_equal. specialize (C3 eq_refl).
        destruct cur as [|c0 cur'] eqn:EC.
        + cbn [app]. rewrite sends_nil, sends_first. cbn [app]. cbn in C3. cbn [snd b]. rewrite C3. destruct dc; [rewrite Q3 by reflexivity; reflexivity|]. rewrite Q2 by reflexivity. rewrite item_pow by (apply C4; reflexivity). reflexivity.
        + rewrite decision_wide in C3 by discriminate. rewrite sends_wide by discriminate. f_equal. rewrite C3. destruct dc; [rewrite Q3 by reflexivity; reflexivity|]. rewrite Q2 by reflexivity. rewrite item_pow by (apply C4; reflexivity). reflexivity.
      - rewrite Q3 by reflexivity. cbn. now rewrite app_nil_r. }
    constructor; rewrite ?CUT.
    + destruct (takes e); [destruct (di_last i)|]; assumption.
    + destruct (takes e); [destruct (di_last i)|]; cbn [dm_frame]; [split; [discriminate|congruence]|tauto|assumption].
    + destruct (takes e); [destruct (di_last i)|]; cbn [dm_frame dm_drop]; [auto|discriminate|assumption].
    + destruct (takes e); [destruct (di_last i)|]; cbn [dm_frame dm_drop dm_sel]; [discriminate|intros _; now apply C3|assumption].
    + destruct (takes e); [destruct (di_last i)|]; cbn [dm_frame dm_drop dm_sel]; [discriminate|intros _; now apply C4|assumption].
    + rewrite EQ. destruct (takes e); [destruct (di_last i)|]; reflexivity.
    + assert (EK : forall x y z, dm_out (mkDm x y z (vskid_early (dm_out s) (di_mready i) || dc) (dm_tv s) (dm_tl s) (dm_td s) k') = k') by reflexivity.
      destruct (vskid_early (dm_out s) (di_mready i)) eqn:EE; [intros _; left; destruct (takes e); [destruct (di_last i)|]; assumption|]. cbn [orb].
      destruct dc; [|destruct (takes e); [destruct (di_last i)|]; cbn [dm_tready]; discriminate]. destruct (takes e) eqn:ET; [destruct (di_last i) eqn:EL|]; cbn [dm_tready dm_drop]; intros _.
      * right. right. exists tr, e. split; [reflexivity|]. split; [repeat split|].
        -- exact ER.
        -- assumption.
        -- exact EL.
        -- change (decision false (cur ++ [(de_last e, de_data e, choice n e)]) = None). specialize (C3 eq_refl). unfold b in C3. cbn [e dm_event de_last de_data]. rewrite EL. exact C3.
        -- eapply held_of; [exact W1|reflexivity|reflexivity|exact EE].
      * right. left. reflexivity.
      * right. left. symmetry. now apply C6.
Qed.
End demux.
