(** Lemmas for the UltraScale stream link: one transfer, then runs. *)
From Verif Require Import PyBase BitLemmas TlpModel TlpProofs UsModel UsSpec UsProofs UsStreamModel UsStreamSpec UsStreamProofs.
From Coq Require Import ZifyBool ZifyNat.
Ltac Zify.zify_post_hook ::= Z.div_mod_to_equations.

Lemma firstn_skipn_add {A} (l : list A) : forall c n, firstn c l ++ firstn n (skipn c l) = firstn (c + n) l.
Proof.
  induction l as [|x l IH]; intros c n.
  - now rewrite skipn_nil, !firstn_nil.
  - destruct c; [reflexivity|]. cbn. now rewrite IH.
Qed.
Lemma skipn_skipn' {A} (l : list A) : forall c n, skipn n (skipn c l) = skipn (c + n) l.
Proof.
  induction l as [|x l IH]; intros c n.
  - now rewrite !skipn_nil.
  - destruct c; [reflexivity|]. cbn. apply IH.
Qed.
Lemma Forall_firstn {A} (P : A -> Prop) l : forall n, Forall P l -> Forall P (firstn n l).
Proof. induction l; intros n H; [now rewrite firstn_nil|]. destruct n; cbn; [constructor|]. inversion H; constructor; auto. Qed.
Lemma Forall_skipn {A} (P : A -> Prop) l : forall n, Forall P l -> Forall P (skipn n l).
Proof. induction l; intros n H; [now rewrite skipn_nil|]. destruct n; cbn; [assumption|]. inversion H; auto. Qed.

(** The sink's frame after [c] DWORDs of [f]. *)
Definition part (b : us_bus) (f : us_frame) (c : nat) : us_frame :=
  if (c =? 0)%nat then frame0 else
  mkFrame (firstn c (f_data f)) (if has_be b then firstn c (f_byte_en f) else []) (firstn c (f_parity f))
    (match b_if b with CQ | RQ => f_first_be f | _ => 0 end) (match b_if b with CQ | RQ => f_last_be f | _ => 0 end)
    (f_discontinue f) (match b_if b with RQ => f_seq_num f mod (if b_user b =? 60 then 16 else 64) | _ => 0 end).

Lemma has_be_if b : has_be b = match b_if b with CQ | RC => true | _ => false end.
Proof. unfold has_be, be_pos. now destruct (b_if b). Qed.

Lemma part_full b f c : frame_ok (b_if b) f -> (length (f_data f) <= c)%nat -> part b f c = delivered b f.
Proof.
  intros (H1 & _ & H3 & _ & H5 & _) Hc. unfold part, delivered.
  assert (Hz : (c =? 0)%nat = false) by (destruct (f_data f); [congruence|cbn in Hc; lia]). rewrite Hz, has_be_if.
  rewrite (firstn_all2 (f_data f)) by lia. rewrite (firstn_all2 (f_parity f)) by lia.
  destruct (b_if b); try reflexivity; (rewrite (firstn_all2 (f_byte_en f)) by lia); reflexivity.
Qed.

Definition be_rest (b : us_bus) (f : us_frame) (c : nat) : list Z := if has_be b then skipn c (f_byte_en f) else f_byte_en f.

Lemma load_take b f c : bus_ok b = true -> frame_ok (b_if b) f -> (c < length (f_data f))%nat ->
  exists bt, load_beat b f (c =? 0)%nat (skipn c (f_data f)) (be_rest b f c) (skipn c (f_parity f)) =
    Ok (bt, (skipn (c + b_lanes b) (f_data f), be_rest b f (c + b_lanes b), skipn (c + b_lanes b) (f_parity f))) /\
  bt_last bt = (length (f_data f) <=? c + b_lanes b)%nat /\
  forall q tr, snk_take b (mkSnk q (part b f c) (c =? 0)%nat tr) bt =
    Ok (if (length (f_data f) <=? c + b_lanes b)%nat then mkSnk (q ++ [delivered b f]) frame0 true tr
        else mkSnk q (part b f (c + b_lanes b)) false tr).
Proof.
  intros HB HF Hc. pose proof HF as (_ & HD & HPL & HPN & HBE & _).
  set (n := b_lanes b).
  assert (Hn : (2 <= n <= 16)%nat) by (subst n; destruct (bus_cases b HB) as [(_ & H & _)|(_ & H & _)]; lia).
  set (xs := firstn n (skipn c (f_data f))). set (ps := firstn n (skipn c (f_parity f))).
  set (bs := if has_be b then firstn n (be_rest b f c) else []).
  assert (HBL : has_be b = true -> length (f_byte_en f) = length (f_data f) /\ Forall nib (f_byte_en f)).
  { rewrite has_be_if. destruct (b_if b); try discriminate; intros _; exact HBE. }
  assert (HSL : length (skipn c (f_data f)) = (length (f_data f) - c)%nat) by apply skipn_length.
  assert (HSP : length (skipn c (f_parity f)) = (length (f_data f) - c)%nat) by (rewrite skipn_length; lia).
  assert (HSB : has_be b = true -> length (be_rest b f c) = (length (f_data f) - c)%nat).
  { intros H. unfold be_rest. rewrite H, skipn_length. destruct (HBL H). lia. }
  set (m := Nat.min n (length (f_data f) - c)). assert (Hm : (1 <= m <= n)%nat) by lia.
  assert (Hxs : length xs = m) by (subst xs; rewrite firstn_length, HSL; reflexivity).
  assert (Hps : length ps = m) by (subst ps; rewrite firstn_length, HSP; reflexivity).
  assert (Hbs : has_be b = true -> length bs = m).
  { intros H. subst bs. rewrite H, firstn_length, HSB by assumption. reflexivity. }
  assert (Fxs : Forall dword xs) by (apply Forall_firstn, Forall_skipn, HD).
  assert (Fps : Forall nib ps) by (apply Forall_firstn, Forall_skipn, HPN).
  assert (Fbs : Forall nib bs).
  { subst bs. unfold be_rest. destruct (has_be b) eqn:E; [|constructor]. apply Forall_firstn, Forall_skipn. now apply HBL. }
  set (last := Z.of_nat m - 1). set (pad := (n - (length (f_data f) - c))%nat).
  set (isl := (length (f_data f) <=? c + n)%nat).
  set (tl := if isl then tail_user b last else []).
  set (u := ors 0 (head_user b (c =? 0)%nat f ++ ufields b 0 bs ps pad ++ tl)).
  set (d := ors 0 (dfields 0 xs)). set (bt := mkBeat d (2 ^ Z.of_nat m - 1) u isl).
  assert (Htl : tl = [] \/ tl = tail_user b last) by (subst tl; destruct isl; auto).
  assert (Hpad : (length ps + pad)%nat = b_lanes b) by (rewrite Hps; subst m pad n; lia).
  assert (Hlast : 0 <= last < Z.of_nat (b_lanes b)) by (subst last m n; lia).
  exists bt. split; [|split; [reflexivity|]].
  - unfold load_beat. fold n. rewrite src_lanes_ok; [|lia|intros H; rewrite (HSB H); lia]. cbn [bind].
    rewrite HSL. fold m. fold xs. fold ps. fold bs. fold pad.
    replace (m =? 0)%nat with false by lia. replace (0 + Z.of_nat m - 1) with last by (subst last; lia).
    rewrite !skipn_skipn'. rewrite keep_value.
    assert (EU : match skipn (c + n) (f_data f) with [] => ors (ors (ors 0 (head_user b (c =? 0)%nat f)) (ufields b 0 bs ps pad)) (tail_user b last)
       | _ => ors (ors 0 (head_user b (c =? 0)%nat f)) (ufields b 0 bs ps pad) end = u /\
       match skipn (c + n) (f_data f) with [] => true | _ => false end = isl).
    { subst u tl. rewrite !ors_app. destruct (skipn (c + n) (f_data f)) eqn:E.
      - assert (HZ : length (skipn (c + n) (f_data f)) = 0%nat) by (now rewrite E). rewrite skipn_length in HZ.
        assert (EI : isl = true) by (subst isl; lia). rewrite EI. auto.
      - assert (HZ : length (skipn (c + n) (f_data f)) = S (length l)) by (now rewrite E). rewrite skipn_length in HZ.
        assert (EI : isl = false) by (subst isl; lia). rewrite EI. auto. }
    destruct EU as (EU1 & EU2). rewrite EU1, EU2. fold d.
    assert (HDR : 0 <= d < 2 ^ (32 * Z.of_nat n)) by (apply ors_range; [lia|]; apply dfields_range; [assumption|lia|lia]).
    assert (HKR : 0 <= 2 ^ Z.of_nat m - 1 < 2 ^ Z.of_nat n).
    { assert (2 ^ Z.of_nat m <= 2 ^ Z.of_nat n) by (apply Z.pow_le_mono_r; lia). assert (0 < 2 ^ Z.of_nat m) by (apply Z.pow_pos_nonneg; lia). lia. }
    assert (HUR : 0 <= u < 2 ^ b_user b) by (subst u; apply (user_range b _ f bs ps pad last); try assumption; lia).
    unfold sig. replace ((0 <=? d) && (d <? 2 ^ (32 * Z.of_nat n))) with true by lia. cbn [bind].
    replace ((0 <=? 2 ^ Z.of_nat m - 1) && (2 ^ Z.of_nat m - 1 <? 2 ^ Z.of_nat n)) with true by lia. cbn [bind].
    replace ((0 <=? u) && (u <? 2 ^ b_user b)) with true by lia. cbn [bind].
    unfold be_rest. destruct (has_be b); rewrite ?skipn_skipn'; reflexivity.
  - intros q tr. unfold snk_take. cbn [k_first bt_last bt_keep bt_data bt_user bt k_frame k_queue k_tready_int].
    rewrite check_keep_ok; [|exact Hm|fold n; intros Hi; subst isl m; lia]. cbn [bind].
    subst u. rewrite (head_get b _ f bs ps pad last tl HB HF Fps Fbs Hpad Hlast Htl). set (u := ors 0 _).
    assert (HL : forall j, (j < length xs)%nat -> Z.land (Z.shiftr d ((0 + Z.of_nat j) * 32)) 0xffffffff = nth j xs 0).
    { intros j Hj. destruct (dfields_get xs 0 j Fxs Hj) as (HI & HR). change 0xffffffff with (2^32 - 1).
      apply ors_get; try lia; [|assumption|now right]. rewrite Forall_forall in Fxs. apply Fxs. apply nth_In. assumption. }
    assert (HLP : forall j, (j < length xs)%nat -> Z.land (Z.shiftr u ((0 + Z.of_nat j) * 4 + par_pos b)) 0xf = nth j ps 0).
    { intros j Hj. pose proof (par_pos_nonneg b) as HPP.
      destruct (ufields_par b ps 0 bs pad j (Z.of_nat (b_lanes b)) Fps Fbs ltac:(lia) ltac:(lia) ltac:(lia) (fun q Hq => proj1 (pos_gap b q HB Hq))) as (HI & HR).
      change 0xf with (2^4 - 1). apply ors_get; try lia.
      - rewrite Forall_forall in Fps. apply Fps. apply nth_In. lia.
      - apply Forall_app. split; [|apply Forall_app; split].
        + eapply Forall_impl; [|apply (head_clear_lane b _ f (0 + Z.of_nat j) ((0 + Z.of_nat j) * 4 + par_pos b) HB); [lia|left; reflexivity]]. intros g Hg. right. exact Hg.
        + exact HR.
        + destruct Htl as [->| ->]; [constructor|].
          eapply Forall_impl; [|apply (tail_clear_lane b last (0 + Z.of_nat j) ((0 + Z.of_nat j) * 4 + par_pos b) HB); [lia|assumption|left; reflexivity]]. intros g Hg. right. exact Hg.
      - right. apply in_app_iff. right. apply in_app_iff. left. exact HI. }
    assert (HLB : forall q, be_pos b = Some q -> forall j, (j < length xs)%nat -> Z.land (Z.shiftr u ((0 + Z.of_nat j) * 4 + q)) 0xf = nth j bs 0).
    { intros q0 Hq j Hj. destruct (pos_gap b q0 HB Hq) as (HG1 & HG2).
      assert (HBT : has_be b = true) by (unfold has_be; now rewrite Hq).
      destruct (ufields_be b q0 ps 0 bs pad j (Z.of_nat (b_lanes b)) Fps Fbs ltac:(lia) ltac:(rewrite (Hbs HBT); lia) ltac:(lia) ltac:(lia) Hq HG1) as (HI & HR).
      change 0xf with (2^4 - 1). apply ors_get; try lia.
      - rewrite Forall_forall in Fbs. apply Fbs. apply nth_In. rewrite (Hbs HBT). lia.
      - apply Forall_app. split; [|apply Forall_app; split].
        + eapply Forall_impl; [|apply (head_clear_lane b _ f (0 + Z.of_nat j) ((0 + Z.of_nat j) * 4 + q0) HB); [lia|right; exists q0; split; [assumption|reflexivity]]]. intros g Hg. right. exact Hg.
        + exact HR.
        + destruct Htl as [->| ->]; [constructor|].
          eapply Forall_impl; [|apply (tail_clear_lane b last (0 + Z.of_nat j) ((0 + Z.of_nat j) * 4 + q0) HB); [lia|assumption|right; exists q0; split; [assumption|reflexivity]]]. intros g Hg. right. exact Hg.
      - right. apply in_app_iff. right. apply in_app_iff. left. exact HI. }
    rewrite (snk_lanes_ok b d _ u (b_lanes b) 0 _ xs bs ps); try assumption; try lia.
    + assert (EP : forall g, mkFrame (f_data (part b f c) ++ xs) (if has_be b then f_byte_en (part b f c) ++ bs else f_byte_en (part b f c)) (f_parity (part b f c) ++ ps)
        (match b_if b with CQ | RQ => if (c =? 0)%nat then f_first_be f else f_first_be (part b f c) | _ => f_first_be (part b f c) end)
        (match b_if b with CQ | RQ => if (c =? 0)%nat then f_last_be f else f_last_be (part b f c) | _ => f_last_be (part b f c) end)
        (if f_discontinue f then true else f_discontinue (part b f c))
        (match b_if b with RQ => g | _ => f_seq_num (part b f c) end) =
        mkFrame (firstn (c + n) (f_data f)) (if has_be b then firstn (c + n) (f_byte_en f) else []) (firstn (c + n) (f_parity f))
        (match b_if b with CQ | RQ => f_first_be f | _ => 0 end) (match b_if b with CQ | RQ => f_last_be f | _ => 0 end)
        (f_discontinue f) (match b_if b with RQ => g | _ => 0 end)).
      { intros g. rewrite <- !firstn_skipn_add. fold xs ps. subst bs. unfold be_rest, part. destruct (c =? 0)%nat eqn:EC.
        - assert (c = 0%nat) by lia. subst c. cbn [firstn app frame0 f_data f_byte_en f_parity f_first_be f_last_be f_discontinue f_seq_num].
          destruct (has_be b), (b_if b), (f_discontinue f); reflexivity.
        - cbn [f_data f_byte_en f_parity f_first_be f_last_be f_discontinue f_seq_num].
          destruct (has_be b), (b_if b), (f_discontinue f); reflexivity. }
      cbn [f_data f_byte_en f_parity f_first_be f_last_be f_discontinue f_seq_num]. rewrite EP.
      assert (EPT : mkFrame (firstn (c + n) (f_data f)) (if has_be b then firstn (c + n) (f_byte_en f) else []) (firstn (c + n) (f_parity f))
        (match b_if b with CQ | RQ => f_first_be f | _ => 0 end) (match b_if b with CQ | RQ => f_last_be f | _ => 0 end)
        (f_discontinue f) (match b_if b with RQ => f_seq_num f mod (if b_user b =? 60 then 16 else 64) | _ => 0 end) = part b f (c + n)).
      { unfold part. replace (c + n =? 0)%nat with false by lia. reflexivity. }
      rewrite EPT. fold n isl. destruct isl eqn:EI; [|reflexivity]. rewrite part_full; [reflexivity|assumption|subst isl; lia].
    + intros j Hj. rewrite Z.add_0_l, ones_bit by lia. rewrite Hxs. lia.
Qed.

(** The link invariant: [rest] is what the sink has not completed yet. *)
Definition takes (b : us_bus) (f : us_frame) (c : nat) (bt : beat) : Prop :=
  forall q tr, snk_take b (mkSnk q (part b f c) (c =? 0)%nat tr) bt =
    Ok (if (length (f_data f) <=? c + b_lanes b)%nat then mkSnk (q ++ [delivered b f]) frame0 true tr
        else mkSnk q (part b f (c + b_lanes b)) false tr).

Inductive phase (b : us_bus) (rest : list us_frame) (s : us_src) (k : us_snk) : Prop :=
| ph_idle : s_active s = false -> s_data s = [] -> s_tvalid s = false -> rest = s_queue s ->
    k_frame k = frame0 -> k_first k = true -> phase b rest s k
| ph_mid cur c : s_active s = true -> (c + b_lanes b < length (f_data cur))%nat -> takes b cur c (s_beat s) ->
    k_frame k = part b cur c -> k_first k = (c =? 0)%nat ->
    s_frame s = cur -> s_data s = skipn (c + b_lanes b) (f_data cur) -> s_be s = be_rest b cur (c + b_lanes b) ->
    s_par s = skipn (c + b_lanes b) (f_parity cur) -> s_first s = false -> rest = cur :: s_queue s -> phase b rest s k
| ph_end cur c : s_active s = true -> (length (f_data cur) <= c + b_lanes b)%nat -> takes b cur c (s_beat s) ->
    k_frame k = part b cur c -> k_first k = (c =? 0)%nat -> s_data s = [] -> rest = cur :: s_queue s -> phase b rest s k
| ph_next cur c nxt : s_active s = true -> (length (f_data cur) <= c + b_lanes b)%nat -> takes b cur c (s_beat s) ->
    k_frame k = part b cur c -> k_first k = (c =? 0)%nat ->
    s_frame s = nxt -> s_data s = f_data nxt -> s_be s = f_byte_en nxt -> s_par s = f_parity nxt -> s_first s = true ->
    rest = cur :: nxt :: s_queue s -> phase b rest s k.

Definition inv (b : us_bus) (snt : list us_frame) (st : us_src * us_snk) : Prop :=
  let '(s, k) := st in
  (s_tvalid s = true -> k_tready_int k = true) /\ Forall (frame_ok (b_if b)) snt /\
  exists don rest, snt = don ++ rest /\ k_queue k = map (delivered b) don /\ phase b rest s k.

Definition ceil (b : us_bus) (n : nat) : Z := (Z.of_nat n + Z.of_nat (b_lanes b) - 1) / Z.of_nat (b_lanes b).
Definition pending (b : us_bus) (s : us_src) : Z :=
  (if s_active s then 1 else 0) + ceil b (length (s_data s)) + all_transfers b (s_queue s).
Definition meas (b : us_bus) (st : us_src * us_snk) : Z :=
  2 * pending b (fst st) - (if s_tvalid (fst st) then 1 else 0).

Lemma all_transfers_app b l m : all_transfers b (l ++ m) = all_transfers b l + all_transfers b m.
Proof. induction l as [|f l IH]; [reflexivity|]. cbn [app all_transfers fold_right]. fold (all_transfers b (l ++ m)). fold (all_transfers b l). rewrite IH. lia. Qed.

Lemma lanes_pos b : bus_ok b = true -> (2 <= b_lanes b <= 16)%nat.
Proof. intros HB. destruct (bus_cases b HB) as [(_ & H & _)|(_ & H & _)]; lia. Qed.

Lemma ceil_0 b : bus_ok b = true -> ceil b 0 = 0.
Proof. intros HB. pose proof (lanes_pos b HB). unfold ceil. apply Z.div_small. lia. Qed.
Lemma ceil_step b n : bus_ok b = true -> (b_lanes b < n)%nat -> ceil b (n - b_lanes b) = ceil b n - 1.
Proof.
  intros HB Hn. pose proof (lanes_pos b HB). unfold ceil. replace (Z.of_nat n + Z.of_nat (b_lanes b) - 1) with (Z.of_nat (n - b_lanes b) + Z.of_nat (b_lanes b) - 1 + 1 * Z.of_nat (b_lanes b)) by lia.
  rewrite Z.div_add by lia. lia.
Qed.
Lemma ceil_one b n : bus_ok b = true -> (1 <= n <= b_lanes b)%nat -> ceil b n = 1.
Proof.
  intros HB Hn. pose proof (lanes_pos b HB). unfold ceil.
  replace (Z.of_nat n + Z.of_nat (b_lanes b) - 1) with (Z.of_nat n - 1 + 1 * Z.of_nat (b_lanes b)) by lia.
  rewrite Z.div_add, Z.div_small by lia. reflexivity.
Qed.
Lemma ceil_nonneg b n : bus_ok b = true -> 0 <= ceil b n.
Proof. intros HB. pose proof (lanes_pos b HB). unfold ceil. apply Z.div_pos; lia. Qed.
Lemma transfers_ceil b f : transfers b f = ceil b (length (f_data f)).
Proof. reflexivity. Qed.
Lemma transfers_nonneg b l : bus_ok b = true -> 0 <= all_transfers b l.
Proof. intros HB. induction l as [|f l IH]; cbn; [lia|]. rewrite transfers_ceil. pose proof (ceil_nonneg b (length (f_data f)) HB). unfold all_transfers in IH. lia. Qed.

Lemma inv0 b : inv b [] (src0, snk0).
Proof. split; [discriminate|]. split; [constructor|]. exists [], []. repeat split. now apply ph_idle. Qed.

Lemma inv_send b snt s k fs : inv b snt (s, k) -> Forall (frame_ok (b_if b)) fs -> inv b (snt ++ fs) (src_send s fs, k).
Proof.
  intros (HT & HF & don & rest & -> & HQ & HP) Hfs. split; [exact HT|]. split; [now apply Forall_app|].
  exists don, (rest ++ fs). rewrite app_assoc. repeat split; [assumption|].
  destruct HP; subst rest.
  - apply ph_idle; auto.
  - eapply ph_mid; eauto.
  - eapply ph_end; eauto.
  - eapply ph_next; eauto.
Qed.
Lemma meas_send b s k fs : meas b (src_send s fs, k) = meas b (s, k) + 2 * all_transfers b fs.
Proof. unfold meas, pending, src_send; cbn [fst s_active s_data s_queue s_tvalid]. rewrite all_transfers_app. lia. Qed.

(** Loading the beat at offset [c] of [f]. *)
Lemma load_phase b f c q be0 k p : bus_ok b = true -> frame_ok (b_if b) f -> (c < length (f_data f))%nat ->
  k_frame k = part b f c -> k_first k = (c =? 0)%nat -> be0 = be_rest b f c ->
  exists s', (let! (bt, (data, be, par)) := load_beat b f (c =? 0)%nat (skipn c (f_data f)) be0 (skipn c (f_parity f)) in
      Ok (mkSrc q f data be par true false p bt)) = Ok s' /\
    phase b (f :: q) s' k /\ s_tvalid s' = p /\ pending b s' = ceil b (length (f_data f) - c) + all_transfers b q.
Proof.
  intros HB HF Hc HK1 HK2 ->. pose proof (lanes_pos b HB) as HN. destruct (load_take b f c HB HF Hc) as (bt & -> & _ & HTK). cbn [bind]. eexists. split; [reflexivity|].
  split; [|split; [reflexivity|]].
  - destruct (Nat.lt_ge_cases (c + b_lanes b) (length (f_data f))).
    + eapply (ph_mid _ _ _ _ f c); cbn; auto.
    + eapply (ph_end _ _ _ _ f c); cbn; auto. apply skipn_all2. lia.
  - unfold pending. cbn [s_active s_data s_queue]. rewrite skipn_length.
    destruct (Nat.lt_ge_cases (c + b_lanes b) (length (f_data f))).
    + replace (length (f_data f) - (c + b_lanes b))%nat with (length (f_data f) - c - b_lanes b)%nat by lia. rewrite ceil_step by (assumption || lia). lia.
    + replace (length (f_data f) - (c + b_lanes b))%nat with 0%nat by lia. rewrite ceil_0 by assumption. rewrite (ceil_one b (length (f_data f) - c)) by (assumption || lia). lia.
Qed.

Lemma frame_ne i f : frame_ok i f -> (0 < length (f_data f))%nat.
Proof. intros (H & _). destruct (f_data f); [congruence|cbn; lia]. Qed.

Lemma skipn_cons {A} (l : list A) c : (c < length l)%nat -> exists x r, skipn c l = x :: r.
Proof. intros H. destruct (skipn c l) eqn:E; [|eauto]. pose proof (skipn_length c l) as HL. rewrite E in HL. cbn in HL. lia. Qed.

Lemma edge_ok b snt s k pa pk : bus_ok b = true -> inv b snt (s, k) ->
  exists s' k', src_step b s false pa (snk_tready k pk) = Ok s' /\ snk_step b k false pk (s_tvalid s) (s_beat s) = Ok k' /\
    inv b snt (s', k') /\ meas b (s', k') <= meas b (s, k) /\
    (pa = false -> pk = false -> meas b (s', k') <= Z.max 0 (meas b (s, k) - 1)).
Proof.
  intros HB (HT & HF & don & rest & -> & HQ & HP). pose proof (lanes_pos b HB) as HN.
  assert (HTA : s_tvalid s = true -> s_active s = true) by (destruct HP; congruence).
  assert (ETR : snk_tready k pk && s_tvalid s = s_tvalid s && negb pk).
  { unfold snk_tready. destruct (s_tvalid s); [|now rewrite andb_false_r]. rewrite HT by reflexivity. cbn. now rewrite andb_true_r. }
  unfold src_step, snk_step. rewrite ETR. unfold meas. cbn [fst].
  apply Forall_app in HF as (HFD & HFR).
  destruct (s_tvalid s && negb pk) eqn:ETK.
  - (* a transfer is taken *)
    apply andb_true_iff in ETK as (ETV & EPK). specialize (HTA ETV).
    assert (HTK : forall cur c, takes b cur c (s_beat s) -> k_frame k = part b cur c -> k_first k = (c =? 0)%nat ->
      snk_take b k (s_beat s) = Ok (if (length (f_data cur) <=? c + b_lanes b)%nat then mkSnk (k_queue k ++ [delivered b cur]) frame0 true (k_tready_int k)
        else mkSnk (k_queue k) (part b cur (c + b_lanes b)) false (k_tready_int k))).
    { intros cur c H E1 E2. rewrite <- H. destruct k; cbn in *; subst; reflexivity. }
    rewrite ETV.
    destruct HP as [Ha|cur c Ha Hc Htk Hk1 Hk2 Hs1 Hs2 Hs3 Hs4 Hs5 HR|cur c Ha Hc Htk Hk1 Hk2 Hs2 HR|cur c nxt Ha Hc Htk Hk1 Hk2 Hs1 Hs2 Hs3 Hs4 Hs5 HR]; [congruence| | |];
      rewrite (HTK cur c Htk Hk1 Hk2); subst rest; inversion HFR as [|? ? HF1 HF2]; subst.
    + replace (length (f_data (s_frame s)) <=? c + b_lanes b)%nat with false by lia.
      destruct (skipn_cons (f_data (s_frame s)) (c + b_lanes b) Hc) as (x & r & EX).
      cbn [bind k_queue k_frame k_first].
      set (k' := mkSnk (k_queue k) (part b (s_frame s) (c + b_lanes b)) false true).
      destruct (load_phase b (s_frame s) (c + b_lanes b) (s_queue s) (s_be s) k' (negb pa) HB HF1 Hc eq_refl) as (s' & HL & HP' & HV' & HM'); [cbn; lia|assumption|].
      replace (c + b_lanes b =? 0)%nat with false in HL by lia.
      rewrite Hs2, EX. cbn [s_data s_active s_frame s_first s_be s_par s_queue]. rewrite <- EX, Hs4, Hs5, HL.
      exists s', k'. split; [reflexivity|]. split; [reflexivity|]. split; [|].
      * split; [reflexivity|]. split; [apply Forall_app; split; assumption|]. exists don, (s_frame s :: s_queue s). auto.
      * rewrite HM', HV'. unfold pending. rewrite Ha, Hs2, skipn_length. destruct pa; cbn [negb]; lia.
    + replace (length (f_data cur) <=? c + b_lanes b)%nat with true by lia. cbn [bind k_queue k_frame k_first].
      set (k' := mkSnk (k_queue k ++ [delivered b cur]) frame0 true true).
      rewrite Hs2. destruct (s_queue s) as [|f q] eqn:EQ.
      * cbn [s_data s_active]. eexists _, k'. split; [reflexivity|]. split; [reflexivity|]. split.
        -- split; [reflexivity|]. split; [apply Forall_app; split; assumption|]. exists (don ++ [cur]), []. split; [now rewrite <- app_assoc|].
           split; [cbn; now rewrite map_app, HQ|]. apply ph_idle; cbn; auto.
        -- unfold pending. cbn [s_active s_data s_queue s_tvalid]. rewrite Ha, Hs2, EQ. cbn [length]. rewrite ceil_0 by assumption. cbn [all_transfers fold_right]. lia.
      * inversion HF2 as [|? ? HF3 HF4]; subst. pose proof (frame_ne _ _ HF3) as HNE.
        cbn [s_data s_active s_frame s_first s_be s_par s_queue].
        destruct (load_phase b f 0 q (f_byte_en f) k' (negb pa) HB HF3 HNE eq_refl eq_refl) as (s' & HL & HP' & HV' & HM'); [unfold be_rest; now destruct (has_be b)|].
        cbn [Nat.eqb skipn] in HL. destruct (f_data f) as [|x r] eqn:EX; [cbn in HNE; lia|]. rewrite HL.
        exists s', k'. split; [reflexivity|]. split; [reflexivity|]. split.
        -- split; [reflexivity|]. split; [apply Forall_app; split; assumption|]. exists (don ++ [cur]), (f :: q). split; [now rewrite <- app_assoc|].
           split; [cbn; now rewrite map_app, HQ|]. assumption.
        -- rewrite HM', HV'. unfold pending. rewrite Ha, Hs2, EQ. cbn [length]. rewrite ceil_0 by assumption. cbn [all_transfers fold_right].
           rewrite transfers_ceil, EX. fold (all_transfers b q). pose proof (transfers_nonneg b q HB). rewrite Nat.sub_0_r. cbn [length]. destruct pa; cbn [negb]; lia.
    + replace (length (f_data cur) <=? c + b_lanes b)%nat with true by lia. cbn [bind k_queue k_frame k_first].
      set (k' := mkSnk (k_queue k ++ [delivered b cur]) frame0 true true).
      inversion HF2 as [|? ? HF3 HF4]; subst. pose proof (frame_ne _ _ HF3) as HNE.
      destruct (load_phase b (s_frame s) 0 (s_queue s) (s_be s) k' (negb pa) HB HF3 HNE eq_refl eq_refl) as (s' & HL & HP' & HV' & HM'); [unfold be_rest; rewrite Hs3; now destruct (has_be b)|].
      cbn [Nat.eqb skipn] in HL. rewrite Hs2, Hs4, Hs5. destruct (f_data (s_frame s)) as [|x r] eqn:EX; [cbn in HNE; lia|]. cbn [s_data s_active s_frame s_first s_be s_par s_queue]. rewrite HL.
      exists s', k'. split; [reflexivity|]. split; [reflexivity|]. split.
      * split; [reflexivity|]. split; [apply Forall_app; split; assumption|]. exists (don ++ [cur]), (s_frame s :: s_queue s). split; [now rewrite <- app_assoc|].
        split; [cbn; now rewrite map_app, HQ|]. assumption.
      * rewrite HM', HV'. unfold pending. rewrite Ha, Hs2. rewrite Nat.sub_0_r.
        pose proof (transfers_nonneg b (s_queue s) HB). pose proof (ceil_nonneg b (length (x :: r)) HB). destruct pa; cbn [negb]; lia.
  - (* no transfer *)
    cbn [bind]. set (k' := mkSnk (k_queue k) (k_frame k) (k_first k) true).
    assert (EV : forall x, s_active s && (s_tvalid s || x) = s_tvalid s || (s_active s && x)) by (intros x; destruct (s_tvalid s), (s_active s); cbn; try reflexivity; specialize (HTA eq_refl); discriminate).
    assert (HPV : pa = false -> pk = false -> s_tvalid s = false) by (intros _ ->; rewrite andb_true_r in ETK; assumption).
    destruct HP as [Ha Hd Hv HR Hk1 Hk2|cur c Ha Hc Htk Hk1 Hk2 Hs1 Hs2 Hs3 Hs4 Hs5 HR|cur c Ha Hc Htk Hk1 Hk2 Hs2 HR|cur c nxt Ha Hc Htk Hk1 Hk2 Hs1 Hs2 Hs3 Hs4 Hs5 HR].
    + rewrite Ha, Hd. cbn [andb]. destruct (s_queue s) as [|f q] eqn:EQ; subst rest.
      * cbn [s_data s_active]. eexists _, k'. split; [reflexivity|]. split; [reflexivity|]. split.
        -- split; [reflexivity|]. split; [apply Forall_app; split; assumption|]. exists don, []. repeat split; [assumption|]. apply ph_idle; cbn; auto.
        -- unfold pending. cbn [s_active s_data s_queue s_tvalid]. rewrite Ha, Hd, EQ, Hv. cbn [length all_transfers fold_right]. rewrite ceil_0 by assumption. lia.
      * inversion HFR as [|? ? HF3 HF4]; subst. pose proof (frame_ne _ _ HF3) as HNE.
        cbn [s_data s_active s_frame s_first s_be s_par s_queue].
        destruct (load_phase b f 0 q (f_byte_en f) k' (negb pa) HB HF3 HNE Hk1 Hk2) as (s' & HL & HP' & HV' & HM'); [unfold be_rest; now destruct (has_be b)|].
        cbn [Nat.eqb skipn] in HL. destruct (f_data f) as [|x r] eqn:EX; [cbn in HNE; lia|]. rewrite HL.
        exists s', k'. split; [reflexivity|]. split; [reflexivity|]. split.
        -- split; [reflexivity|]. split; [apply Forall_app; split; assumption|]. exists don, (f :: q). auto.
        -- rewrite HM', HV', Hv. unfold pending. rewrite Ha, Hd, EQ. cbn [all_transfers fold_right length]. rewrite ceil_0 by assumption.
           rewrite transfers_ceil, EX, Nat.sub_0_r. fold (all_transfers b q). cbn [length]. pose proof (ceil_nonneg b (S (length r)) HB). destruct pa; cbn [negb]; lia.
    + rewrite Hs2. destruct (skipn_cons (f_data cur) (c + b_lanes b) Hc) as (x & r & EX). rewrite EX, EV, Ha. cbn [s_data s_active].
      eexists _, k'. split; [reflexivity|]. split; [reflexivity|]. split.
      * split; [reflexivity|]. split; [apply Forall_app; split; assumption|]. exists don, rest. repeat split; [assumption|].
        eapply (ph_mid _ _ _ _ cur c); cbn; auto.
      * unfold pending. cbn [s_active s_data s_queue s_tvalid]. rewrite Ha, Hs2, EX.
        pose proof (ceil_nonneg b (length (x :: r)) HB). pose proof (transfers_nonneg b (s_queue s) HB).
        destruct (s_tvalid s) eqn:ETV, pa, pk; cbn [negb orb andb] in *; try lia; try discriminate; specialize (HPV eq_refl eq_refl); discriminate.
    + rewrite Hs2, EV, Ha. destruct (s_queue s) as [|f q] eqn:EQ; subst rest.
      * cbn [s_data s_active]. eexists _, k'. split; [reflexivity|]. split; [reflexivity|]. split.
        -- split; [reflexivity|]. split; [apply Forall_app; split; assumption|]. exists don, [cur]. repeat split; [assumption|]. eapply (ph_end _ _ _ _ cur c); cbn; auto.
        -- unfold pending. cbn [s_active s_data s_queue s_tvalid]. rewrite Ha, Hs2, EQ. cbn [length all_transfers fold_right]. rewrite ceil_0 by assumption.
           destruct (s_tvalid s) eqn:ETV, pa, pk; cbn [negb orb andb] in *; try lia; try discriminate; specialize (HPV eq_refl eq_refl); discriminate.
      * inversion HFR as [|? ? HF1 HF2]; subst. inversion HF2 as [|? ? HF3 HF4]; subst. pose proof (frame_ne _ _ HF3) as HNE.
        cbn [s_data s_active]. destruct (f_data f) as [|x r] eqn:EX; [cbn in HNE; lia|].
        eexists _, k'. split; [reflexivity|]. split; [reflexivity|]. split.
        -- split; [reflexivity|]. split; [apply Forall_app; split; assumption|]. exists don, (cur :: f :: q). repeat split; [assumption|].
           eapply (ph_next _ _ _ _ cur c f); cbn; auto.
        -- unfold pending. cbn [s_active s_data s_queue s_tvalid]. rewrite Ha, Hs2, EQ. cbn [all_transfers fold_right]. rewrite transfers_ceil, EX. change (length (@nil Z)) with 0%nat. rewrite ceil_0 by assumption.
           pose proof (ceil_nonneg b (length (x :: r)) HB). pose proof (transfers_nonneg b q HB). unfold all_transfers in *.
           destruct (s_tvalid s) eqn:ETV, pa, pk; cbn [negb orb andb] in *; try lia; try discriminate; specialize (HPV eq_refl eq_refl); discriminate.
    + subst rest. inversion HFR as [|? ? HF1 HF2]; subst. inversion HF2 as [|? ? HF3 HF4]; subst. pose proof (frame_ne _ _ HF3) as HNE.
      rewrite Hs2, EV, Ha. destruct (f_data (s_frame s)) as [|x r] eqn:EX; [cbn in HNE; lia|]. cbn [s_data s_active].
      eexists _, k'. split; [reflexivity|]. split; [reflexivity|]. split.
      * split; [reflexivity|]. split; [apply Forall_app; split; assumption|]. exists don, (cur :: s_frame s :: s_queue s). repeat split; [assumption|].
        eapply (ph_next _ _ _ _ cur c (s_frame s)); cbn; auto.
      * unfold pending. cbn [s_active s_data s_queue s_tvalid]. rewrite Ha, Hs2.
        pose proof (ceil_nonneg b (length (x :: r)) HB). pose proof (transfers_nonneg b (s_queue s) HB).
        destruct (s_tvalid s) eqn:ETV, pa, pk; cbn [negb orb andb] in *; try lia; try discriminate; specialize (HPV eq_refl eq_refl); discriminate.
Qed.
