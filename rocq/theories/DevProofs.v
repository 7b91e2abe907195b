(** Lemmas for the device containers. *)
From Verif Require Import PyBase BitLemmas TlpModel TlpProofs BarModel BarSpec BarProofs RouteModel UsModel UsProofs DevModel DevSpec.
From Coq Require Import ZifyBool ZifyNat.
Ltac Zify.zify_post_hook ::= Z.div_mod_to_equations.

Lemma kind_flags t : (is_cfg0 t, is_cpl t, is_io t, is_mem t) =
  match kind_of t with
  | Some KCfg => (true, false, false, false) | Some KCpl => (false, true, false, false)
  | Some KIo => (false, false, true, false) | Some KMem => (false, false, false, true)
  | None => (false, false, false, false)
  end.
Proof.
  unfold is_cfg0, is_cpl, is_io, is_mem, ft_in, t_fmt_type, kind_of. generalize (t_fmt t) (t_type t). intros a b. cbn [existsb ft_eqb fst snd].
  unfold ft_eqb, TLP_CFG_READ_0, TLP_CFG_WRITE_0, TLP_CPL, TLP_CPL_DATA, TLP_CPL_LOCKED, TLP_CPL_LOCKED_DATA, TLP_IO_READ, TLP_IO_WRITE, TLP_MEM_READ, TLP_MEM_READ_64, TLP_MEM_WRITE, TLP_MEM_WRITE_64.
  cbn [fst snd].
  destruct a as [|p|?]; [|do 2 (try destruct p as [p|p|])|]; try reflexivity; (destruct b as [|q|?]; [|do 4 (try destruct q as [q|q|])|]); reflexivity.
Qed.

Lemma read_flag t : kind_of t = Some KMem -> ft_in (t_fmt_type t) [TLP_MEM_READ; TLP_MEM_READ_64] = (t_fmt t <? 2).
Proof.
  unfold kind_of, ft_in, t_fmt_type, ft_eqb, TLP_MEM_READ, TLP_MEM_READ_64. cbn [existsb fst snd]. generalize (t_fmt t) (t_type t). intros a b.
  destruct a as [|p|?]; [|do 2 (try destruct p as [p|p|])|]; try discriminate; (destruct b as [|q|?]; [|do 4 (try destruct q as [q|q|])|]); (reflexivity || discriminate).
Qed.

Lemma real_match_nil L : forall i a io, (real_match i L a io = [] <-> existsb (fun e => bar_hit e a io) L = false).
Proof.
  induction L as [|e L IH]; intros i a io; [split; reflexivity|]. cbn [real_match existsb].
  destruct (bar_hit e a io); cbn [orb]; [split; discriminate|]. apply IH.
Qed.

Lemma match_laid f L a io : fn_bars f = regs_of L -> Forall bar_ok L -> 0 <= a < 2^64 -> match_bar (fn_bars f) a io = Ok (real_match 0 L a io).
Proof. intros -> HL Ha. apply match_bar_loop_exact; assumption. Qed.

Lemma find_num_spec n : forall l k0, match find_num n k0 l with
  | Some k => (k0 <= k)%nat /\ existsb (fun f => fn_num f =? n) (firstn (k - k0) l) = false /\ exists f, nth_error l (k - k0) = Some f /\ fn_num f = n
  | None => existsb (fun f => fn_num f =? n) l = false
  end.
Proof.
  induction l as [|f l IH]; intros k0; cbn [find_num]; [reflexivity|]. destruct (fn_num f =? n) eqn:E.
  - split; [lia|]. rewrite Nat.sub_diag. cbn. split; [reflexivity|]. exists f. split; [reflexivity|lia].
  - specialize (IH (S k0)). destruct (find_num n (S k0) l) as [k|].
    + destruct IH as (H1 & H2 & H3). split; [lia|]. replace (k - k0)%nat with (S (k - S k0)) by lia. cbn [firstn existsb nth_error]. rewrite E. split; assumption.
    + cbn [existsb]. now rewrite E.
Qed.

Lemma find_bar_spec a io : 0 <= a < 2^64 -> forall l Ls, laid_out l Ls -> forall k0, exists r, find_bar a io k0 l = Ok r /\
  let p := fun fL : fn * list barent => existsb (fun e => bar_hit e a io) (snd fL) in
  match r with
  | Some k => (k0 <= k)%nat /\ first_at p (combine l Ls) (k - k0)
  | None => existsb p (combine l Ls) = false
  end.
Proof.
  intros Ha l Ls H. induction H as [|f L l Ls (HB & HL) H IH]; intros k0; cbn [find_bar combine].
  - exists None. split; reflexivity.
  - rewrite (match_laid f L a io HB HL Ha). cbn [bind]. pose proof (real_match_nil L 0 a io) as HN.
    destruct (real_match 0 L a io) as [|h r] eqn:E.
    + apply proj1 in HN. specialize (HN eq_refl). destruct (IH (S k0)) as (r & -> & HR). exists r. split; [reflexivity|].
      cbv zeta in *. destruct r as [k|].
      * destruct HR as (H1 & H2 & x & H3 & H4). split; [lia|]. replace (k - k0)%nat with (S (k - S k0)) by lia. split; [cbn [firstn existsb snd]; rewrite HN; assumption|].
        exists x. split; assumption.
      * cbn [existsb snd]. rewrite HN. assumption.
    + exists (Some k0). split; [reflexivity|]. cbv zeta. split; [lia|]. rewrite Nat.sub_diag. split; [reflexivity|]. exists (f, L). split; [reflexivity|]. cbn [snd].
      destruct (existsb _ L) eqn:E2; [reflexivity|]. apply proj2 in HN. specialize (HN eq_refl). discriminate.
Qed.

(** Lifting a predicate on functions to (function, layout) pairs. *)
Lemma combine_existsb (p : fn -> bool) : forall l Ls, length Ls = length l ->
  existsb (fun fL : fn * list barent => p (fst fL)) (combine l Ls) = existsb p l.
Proof. induction l; intros [|L Ls] H; try discriminate; [reflexivity|]. cbn. rewrite IHl by (cbn in H; lia). reflexivity. Qed.
Lemma combine_firstn' {A B} : forall k (l : list A) (m : list B), firstn k (combine l m) = combine (firstn k l) (firstn k m).
Proof. induction k; intros [|x l] [|y m]; try reflexivity. cbn. now rewrite IHk. Qed.
Lemma combine_nth_error {A B} : forall k (l : list A) (m : list B) x, length m = length l -> nth_error l k = Some x ->
  exists y, nth_error (combine l m) k = Some (x, y).
Proof.
  induction k; intros [|a l] [|b m] x HL H; try discriminate; cbn in *.
  - injection H as ->. eauto.
  - apply IHk; [lia|assumption].
Qed.
Lemma first_at_fn (p : fn -> bool) l (Ls : list (list barent)) k f : length Ls = length l ->
  existsb p (firstn k l) = false -> nth_error l k = Some f -> p f = true ->
  first_at (fun fL : fn * list barent => p (fst fL)) (combine l Ls) k.
Proof.
  intros HL H1 H2 H3. split.
  - rewrite combine_firstn', combine_existsb; [assumption|]. rewrite !firstn_length. lia.
  - destruct (combine_nth_error k l Ls f HL H2) as (L & E). exists (f, L). split; assumption.
Qed.

Lemma laid_length fs Ls : laid_out fs Ls -> length Ls = length fs.
Proof. intros H. induction H; cbn; congruence. Qed.

Lemma existsb_ext' {A} (f g : A -> bool) : (forall x, f x = g x) -> forall l, existsb f l = existsb g l.
Proof. intros H. induction l; [reflexivity|]. cbn. now rewrite H, IHl. Qed.
Lemma first_at_ext {A} (p q : A -> bool) l k : (forall x, p x = q x) -> first_at p l k -> first_at q l k.
Proof. intros H (H1 & x & H2 & H3). split; [now rewrite <- (existsb_ext' p q H)|]. exists x. split; [assumption|]. now rewrite <- H. Qed.

Lemma ur_answers bus num t : answers (ur_reply bus num t) t bus num 1.
Proof. repeat split. Qed.

Lemma existsb_map {A B} (g : A -> B) p l : existsb p (map g l) = existsb (fun x => p (g x)) l.
Proof. induction l; [reflexivity|]. cbn. now rewrite IHl. Qed.

Lemma dev_recv_ok d Ls t : laid_out (dv_fns d) Ls -> kind_of t <> None -> tlp_check t = true -> 0 <= t_address t < 2^64 ->
  exists out, dev_recv d t = Ok (captured d t, out) /\
  match out with
  | DFn k => first_at (targets (dv_bus d) (dv_num d) t) (combine (dv_fns d) Ls) k
  | DReply c => existsb (targets (dv_bus d) (dv_num d) t) (combine (dv_fns d) Ls) = false /\ nonposted t = true /\
      answers c t (dv_bus (captured d t)) (dv_num d) 1
  | DDrop => existsb (targets (dv_bus d) (dv_num d) t) (combine (dv_fns d) Ls) = false /\ nonposted t = false
  end.
Proof.
  intros HL HK HC Ha. pose proof (laid_length _ _ HL) as HLen. unfold dev_recv. rewrite HC. cbn [negb].
  pose proof (kind_flags t) as HF. unfold nonposted, targets, captured.
  destruct (kind_of t) as [[]|] eqn:EK; [| | | |congruence]; injection HF; intros F4 F3 F2 F1; rewrite ?F1, ?F2, ?F3, ?F4; clear HF.
  - destruct (id_device (t_dest_id t) =? dv_num d) eqn:ED.
    + cbn [dv_fns dv_bus dv_num]. pose proof (find_num_spec (id_function (t_dest_id t)) (map (set_fn_bus (id_bus (t_dest_id t))) (dv_fns d)) 0) as HN.
      destruct (find_num _ 0 _) as [k|].
      * destruct HN as (_ & HN1 & f & HN2 & HN3). rewrite Nat.sub_0_r in *. exists (DFn k). split; [reflexivity|].
        rewrite firstn_map, existsb_map in HN1. rewrite nth_error_map in HN2. destruct (nth_error (dv_fns d) k) as [g|] eqn:EG; [|discriminate]. injection HN2 as <-.
        eapply first_at_ext; [|eapply (first_at_fn (fun f => fn_num f =? id_function (t_dest_id t)) (dv_fns d) Ls k g HLen HN1 EG)].
        -- intros [f L]. cbn. reflexivity.
        -- cbn in HN3. lia.
      * exists (DReply (ur_reply (id_bus (t_dest_id t)) (dv_num d) t)). split; [reflexivity|]. split; [|split; [reflexivity|apply ur_answers]].
        rewrite existsb_map in HN. change (existsb (fun f => fn_num f =? id_function (t_dest_id t)) (dv_fns d) = false) in HN. rewrite <- (combine_existsb (fun f => fn_num f =? id_function (t_dest_id t)) (dv_fns d) Ls HLen) in HN.
        (etransitivity; [|exact HN]). apply existsb_ext'. intros [f L]. reflexivity.
    + exists (DReply (ur_reply (dv_bus d) (dv_num d) t)). split; [reflexivity|]. split; [|split; [reflexivity|apply ur_answers]].
      cbn [andb]. clear. induction (combine (dv_fns d) Ls) as [|[f L] r IH]; [reflexivity|]. cbn. exact IH.
  - destruct ((id_bus (t_requester_id t) =? dv_bus d) && (id_device (t_requester_id t) =? dv_num d)) eqn:ED.
    + pose proof (find_num_spec (id_function (t_requester_id t)) (dv_fns d) 0) as HN. destruct (find_num _ 0 _) as [k|].
      * destruct HN as (_ & HN1 & f & HN2 & HN3). rewrite Nat.sub_0_r in *. exists (DFn k). split; [reflexivity|].
        eapply first_at_ext; [|eapply (first_at_fn (fun f => fn_num f =? id_function (t_requester_id t)) (dv_fns d) Ls k f HLen HN1 HN2)].
        -- intros [g L]. cbn. reflexivity.
        -- lia.
      * exists DDrop. split; [reflexivity|]. split; [|reflexivity].
        rewrite <- HN. rewrite <- (combine_existsb (fun f => fn_num f =? id_function (t_requester_id t)) (dv_fns d) Ls HLen).
        apply existsb_ext'. intros [f L]. reflexivity.
    + exists DDrop. split; [reflexivity|]. split; [|reflexivity]. cbn [andb]. clear. induction (combine (dv_fns d) Ls) as [|[f L] r IH]; [reflexivity|]. cbn. exact IH.
  - destruct (find_bar_spec (t_address t) true Ha _ _ HL 0) as (r & -> & HR). cbn [bind]. cbv zeta in HR. destruct r as [k|].
    + destruct HR as (_ & HR). rewrite Nat.sub_0_r in HR. exists (DFn k). split; [reflexivity|]. eapply first_at_ext; [|exact HR]. intros [f L]. reflexivity.
    + exists (DReply (ur_reply (dv_bus d) (dv_num d) t)). split; [reflexivity|]. split; [|split; [reflexivity|apply ur_answers]]. (etransitivity; [|exact HR]). apply existsb_ext'. intros [f L]. reflexivity.
  - rewrite (read_flag t EK). destruct (find_bar_spec (t_address t) false Ha _ _ HL 0) as (r & -> & HR). cbn [bind]. cbv zeta in HR. destruct r as [k|].
    + destruct HR as (_ & HR). rewrite Nat.sub_0_r in HR. exists (DFn k). split; [reflexivity|]. eapply first_at_ext; [|exact HR]. intros [f L]. reflexivity.
    + assert (HX : existsb (fun '(_, L) => existsb (fun e => bar_hit e (t_address t) false) L) (combine (dv_fns d) Ls) = false).
      { (etransitivity; [|exact HR]). apply existsb_ext'. intros [f L]. reflexivity. }
      destruct (t_fmt t <? 2).
      * exists (DReply (ur_reply (dv_bus d) (dv_num d) t)). split; [reflexivity|]. split; [exact HX|split; [reflexivity|apply ur_answers]].
      * exists DDrop. split; [reflexivity|]. split; [exact HX|reflexivity].
Qed.

(** UltraScale. *)
Lemma aperture32_ok k : 0 <= k <= 32 -> aperture32 (2^32 - 2^k) = k.
Proof.
  intros Hk. unfold aperture32. rewrite Z.land_comm, land_lnot_himask by lia.
  assert (H : 0xffffffff mod 2^k = 2^k - 1).
  { assert (E : 2^32 = 2^(32-k) * 2^k) by (rewrite <- Z.pow_add_r by lia; f_equal; lia).
    assert (0 < 2^k) by (apply Z.pow_pos_nonneg; lia). change 0xffffffff with (2^32 - 1). rewrite E.
    symmetry. apply (Z.mod_unique _ _ (2^(32-k) - 1)); [lia|ring]. }
  rewrite H. replace (2^k - 1 + 1) with (2^k) by lia. apply Z.log2_pow2. lia.
Qed.
Lemma aperture64_ok k : 0 <= k <= 32 -> aperture64 (2^32 - 2^k) (2^32 - 1) = k.
Proof.
  intros Hk. unfold aperture64. assert (H0 : 0 < 2^k) by (apply Z.pow_pos_nonneg; lia).
  assert (H1 : 2^k <= 2^32) by (apply Z.pow_le_mono_r; lia).
  rewrite lor_add_disjoint by lia.
  replace (2^32 - 2^k + (2^32 - 1) * 2^32) with (2^64 - 2^k) by lia.
  rewrite Z.land_comm, land_lnot_himask by lia.
  assert (H : 0xffffffffffffffff mod 2^k = 2^k - 1).
  { assert (E : 2^64 = 2^(64-k) * 2^k) by (rewrite <- Z.pow_add_r by lia; f_equal; lia).
    change 0xffffffffffffffff with (2^64 - 1). rewrite E. symmetry. apply (Z.mod_unique _ _ (2^(64-k) - 1)); [lia|ring]. }
  rewrite H. replace (2^k - 1 + 1) with (2^k) by lia. apply Z.log2_pow2. lia.
Qed.

Lemma py_index_app {A} (l : list A) x r : py_index (l ++ x :: r) (zlen l) = Ok x.
Proof.
  unfold py_index, zlen.
  destruct (Z.ltb_spec (Z.of_nat (length l)) 0); [lia|]. rewrite Nat2Z.id, nth_error_app2, Nat.sub_diag by lia. reflexivity.
Qed.

Lemma real_match_len L : forall i a io, zlen (real_match i L a io) = zlen (filter (fun e => bar_hit e a io) L).
Proof.
  induction L as [|e L IH]; intros i a io; [reflexivity|]. cbn [real_match filter]. destruct (bar_hit e a io); [|apply IH].
  unfold zlen in *. cbn [length]. specialize (IH (i + bar_slots e) a io). lia.
Qed.
Lemma real_match_one L : forall i0 a io i o, real_match i0 L a io = [(i, o)] -> exists A e B, L = A ++ e :: B /\ bar_hit e a io = true /\
  existsb (fun e => bar_hit e a io) A = false /\ existsb (fun e => bar_hit e a io) B = false /\ i = i0 + slots A.
Proof.
  induction L as [|e L IH]; intros i0 a io i o H; [discriminate|]. cbn [real_match] in H. destruct (bar_hit e a io) eqn:E.
  - injection H as Hi Ho Hr. exists [], e, L. cbn. apply real_match_nil in Hr. repeat split; try assumption. lia.
  - apply IH in H. destruct H as (A & e' & B & -> & H1 & H2 & H3 & H4). exists (e :: A), e', B. cbn [app existsb slots fold_right]. rewrite E.
    fold (slots A). repeat split; try assumption. lia.
Qed.

Lemma find_bar1_spec a io : 0 <= a < 2^64 -> forall l Ls, laid_out l Ls -> forall k0, exists r, find_bar1 a io k0 l = Ok r /\
  match r with
  | Some (k, i) => (k0 <= k)%nat /\ first_at (claims a io) (combine l Ls) (k - k0) /\
      exists f L, nth_error (combine l Ls) (k - k0) = Some (f, L) /\ Forall bar_ok L /\ exists s, one_hit L a io i s
  | None => existsb (claims a io) (combine l Ls) = false
  end.
Proof.
  intros Ha l Ls H. induction H as [|f L l Ls (HB & HL) H IH]; intros k0; cbn [find_bar1 combine].
  - exists None. split; reflexivity.
  - rewrite (match_laid f L a io HB HL Ha). cbn [bind]. pose proof (real_match_len L 0 a io) as HN.
    assert (HO : (exists i o, real_match 0 L a io = [(i, o)]) \/ (claims a io (f, L) = false /\
      match real_match 0 L a io with [(i, _)] => Ok (Some (k0, i)) | _ => find_bar1 a io (S k0) l end = find_bar1 a io (S k0) l)).
    { unfold claims. cbn [snd]. rewrite <- HN. destruct (real_match 0 L a io) as [|[i o] [|x r]]; [right; split; reflexivity|left; eauto|right; split; [|reflexivity]].
      unfold zlen. cbn [length]. lia. }
    destruct HO as [(i & o & E)|(E1 & ->)].
    + rewrite E. exists (Some (k0, i)). split; [reflexivity|]. split; [lia|]. rewrite Nat.sub_diag. split.
      * split; [reflexivity|]. exists (f, L). split; [reflexivity|]. unfold claims. cbn [snd]. rewrite <- HN, E. reflexivity.
      * exists f, L. split; [reflexivity|]. split; [assumption|]. apply real_match_one in E. destruct E as (A & e & B & HE & H1 & H2 & H3 & H4).
        exists (get_k e), A, e, B. repeat split; try assumption.
    + destruct (IH (S k0)) as (r & -> & HR). exists r. split; [reflexivity|]. destruct r as [[k i]|].
      * destruct HR as (H1 & (H2 & x & H3 & H4) & H5). split; [lia|]. replace (k - k0)%nat with (S (k - S k0)) by lia. split; [|exact H5].
        split; [cbn [firstn existsb]; rewrite E1; assumption|]. exists x. split; assumption.
      * cbn [existsb]. rewrite E1. assumption.
Qed.

Lemma shape_slots : forall A A', map bar_shape A = map bar_shape A' -> slots A = slots A'.
Proof.
  induction A as [|e A IH]; intros [|e' A'] H; try discriminate; [reflexivity|]. cbn [map] in H. injection H as He HA.
  cbn [slots fold_right]. fold (slots A) (slots A'). rewrite (IH _ HA). f_equal. destruct e, e'; try discriminate; reflexivity.
Qed.
Lemma shape_split L L0 A e B : map bar_shape L = map bar_shape L0 -> L = A ++ e :: B ->
  exists A0 e0 B0, L0 = A0 ++ e0 :: B0 /\ bar_shape e0 = bar_shape e /\ slots A0 = slots A.
Proof.
  intros H ->. rewrite map_app in H. cbn [map] in H. symmetry in H. apply map_eq_app in H. destruct H as (A0 & R & -> & HA & HR).
  destruct R as [|e0 B0]; [discriminate|]. cbn [map] in HR. injection HR as He HB. exists A0, e0, B0. split; [reflexivity|]. split; [assumption|]. now apply shape_slots.
Qed.

Lemma io_aperture_ok f0 r L0 A e B L : fn_bars f0 = regs_of L0 -> Forall bar_ok L -> map bar_shape L = map bar_shape L0 -> L = A ++ e :: B ->
  forall a, bar_hit e a true = true -> io_aperture (f0 :: r) (slots A) = Ok (get_k e).
Proof.
  intros HB HL HS HE a Hh. destruct (shape_split _ _ _ _ _ HS HE) as (A0 & e0 & B0 & -> & He & HA). unfold io_aperture.
  change (py_index (f0 :: r) 0) with (@Ok fn f0). cbn [bind]. rewrite HB. cbn [b_mask regs_of].
  rewrite HE in HL. apply Forall_app in HL. destruct HL as (_ & HL). inversion HL as [|? ? He' _]; subst.
  destruct e as [|k b|k b pf|k b pf]; try discriminate Hh. destruct e0; try discriminate He. cbn in He. injection He as ->.
  rewrite flat_map_app. cbn [flat_map reg_masks app]. rewrite <- HA, slots_masks, py_index_app. cbn [bind get_k].
  rewrite aperture32_ok; [reflexivity|]. cbn in He'. lia.
Qed.

Lemma mem_aperture_ok f0 r L0 A e B L : fn_bars f0 = regs_of L0 -> Forall bar_ok L -> Forall bar_ok L0 -> map bar_shape L = map bar_shape L0 -> L = A ++ e :: B ->
  forall a, bar_hit e a false = true -> mem_aperture (f0 :: r) (slots A) = Ok (get_k e).
Proof.
  intros HB HL HL0 HS HE a Hh. destruct (shape_split _ _ _ _ _ HS HE) as (A0 & e0 & B0 & -> & He & HA). unfold mem_aperture.
  change (py_index (f0 :: r) 0) with (@Ok fn f0). cbn [bind]. rewrite HB. cbn [b_mask b_bar regs_of].
  rewrite HE in HL. apply Forall_app in HL. destruct HL as (_ & HL). inversion HL as [|? ? He' _]; subst.
  apply Forall_app in HL0. destruct HL0 as (_ & HL0). inversion HL0 as [|? ? He0 _]; subst.
  rewrite !flat_map_app, <- HA.
  destruct e as [|k b|k b pf|k b pf]; try discriminate Hh; destruct e0 as [|k0 b0|k0 b0 pf0|k0 b0 pf0]; try discriminate He; cbn in He; injection He as -> ->; cbn [flat_map reg_bars reg_masks app].
  - rewrite slots_bars at 1. rewrite py_index_app. rewrite slots_masks, py_index_app. cbn [bind get_k]. cbn in He', He0.
    rewrite (bar_flags b0 (if pf then 8 else 0) k 4) by (destruct pf; lia).
    assert (E : Z.land (if pf then 8 else 0) 4 = 0) by (destruct pf; reflexivity). rewrite E. cbn [Z.eqb negb].
    rewrite aperture32_ok by lia. reflexivity.
  - rewrite slots_bars at 1. rewrite py_index_app. rewrite slots_masks. rewrite py_index_app. cbn [bind get_k]. cbn in He', He0.
    assert (E : Z.land (b0 mod 2 ^ 32 + 4 + (if pf then 8 else 0)) 4 = 4).
    { rewrite <- Z.add_assoc. rewrite (bar_flags (b0 mod 2^32) (4 + (if pf then 8 else 0)) k 4); [destruct pf; reflexivity|lia| |destruct pf; lia|lia].
      rewrite <- mod_mod_pow by lia. lia. }
    rewrite E. cbn [Z.eqb negb].
    replace (zlen (flat_map reg_masks A0) + 1) with (zlen (flat_map reg_masks A0 ++ [2^32 - 2^k])) by (unfold zlen; rewrite app_length; cbn [length]; lia).
    change (2 ^ 32 - 2 ^ k :: 2 ^ 32 - 1 :: flat_map reg_masks B0) with ([2 ^ 32 - 2 ^ k] ++ (2 ^ 32 - 1) :: flat_map reg_masks B0).
    rewrite app_assoc, py_index_app. cbn [bind]. rewrite aperture64_ok by lia. reflexivity.
Qed.
