(** Proofs for C20 (region allocator). *)
From Coq Require Import ZifyBool ZifyNat.
From Verif Require Import PyBase BitLemmas TlpModel BarModel AllocModel.
Ltac Zify.zify_post_hook ::= Z.div_mod_to_equations.

Lemma align_pow2 x k : 0 <= k ->
  x <= align x (2^k - 1) < x + 2^k /\ align x (2^k - 1) mod 2^k = 0 /\
  (x mod 2^k = 0 -> align x (2^k - 1) = x) /\ (x mod 2^k <> 0 -> x < align x (2^k - 1)).
Proof.
  intros Hk. unfold align. rewrite land_low_mod by assumption.
  assert (HP : 0 < 2^k) by (apply Z.pow_pos_nonneg; lia). set (p := 2^k) in *. clearbody p.
  pose proof (Z.mod_pos_bound x p HP). destruct (Z.eqb_spec (x mod p) 0) as [E|E]; cbn [negb].
  - repeat split; lia.
  - assert (Hm : (x + (p - 1) + 1 - x mod p) mod p = 0).
    { replace (x + (p - 1) + 1 - x mod p) with ((x / p + 1) * p) by (pose proof (Z.div_mod x p ltac:(lia)); nia).
      apply Z.mod_mul. lia. }
    repeat split; lia.
Qed.

Lemma log2_up_cover n : 0 < n -> n <= 2 ^ Z.log2_up n.
Proof.
  intros H. destruct (Z.eq_dec n 1) as [->|]; [reflexivity|]. pose proof (Z.log2_up_spec n ltac:(lia)). lia.
Qed.

(** Region list in allocation order; [lim] is the current limit. *)
Inductive regs_inv (step : Z) : Z -> list (Z * Z) -> Prop :=
| ri_nil : regs_inv step 0 []
| ri_snoc lim rs b n : regs_inv step lim rs -> 0 < n -> b mod 2 ^ Z.log2_up n = 0 ->
    (rs = [] -> b = 0) -> (rs <> [] -> lim + step <= b) -> lim <= b -> regs_inv step (b + n - 1) (rs ++ [(b, n)]).

Lemma regs_inv_all step lim rs : 0 <= step -> regs_inv step lim rs -> 0 <= lim /\
  Forall (fun r => 0 < snd r /\ 0 <= fst r /\ fst r mod 2 ^ Z.log2_up (snd r) = 0 /\ fst r + snd r - 1 <= lim) rs.
Proof.
  intros Hs. induction 1 as [|lim rs b n H [IH0 IH] Hn Hb H1 H2 H3]; [split; [lia|constructor]|].
  assert (0 <= b) by lia. split; [lia|].
  apply Forall_app. split.
  - eapply Forall_impl; [|exact IH]. cbn beta. intros [b' n'] (A & B & C & D). cbn [fst snd] in *.
    repeat split; lia.
  - constructor; [|constructor]. cbn [fst snd]. repeat split; try lia.
Qed.

Lemma regs_inv_pairs step lim rs : 0 <= step -> regs_inv step lim rs ->
  ForallOrdPairs (fun r1 r2 => fst r1 + snd r1 - 1 + step <= fst r2) rs.
Proof.
  intros Hs. induction 1 as [|lim rs b n H IH Hn Hb H1 H2 H3]; [constructor|].
  pose proof (regs_inv_all _ _ _ Hs H) as [_ HA]. clear H.
  assert (HL : Forall (fun r => fst r + snd r - 1 + step <= b) rs).
  { destruct rs as [|r0 rs']; [constructor|]. specialize (H2 ltac:(discriminate)).
    eapply Forall_impl; [|exact HA]. cbn beta. intros; lia. }
  clear HA H1 H2 H3. induction rs as [|r rs IHr].
  - repeat constructor.
  - inversion HL; subst. inversion IH; subst. cbn [app]. constructor; [|auto].
    apply Forall_app. split; [assumption|]. constructor; [assumption|constructor].
Qed.

Lemma alloc_step_inv s n step : 0 <= step <= 1 -> regs_inv step (al_limit s) (al_regions s) -> 0 < n ->
  (step = 1 -> al_regions s <> [] -> al_limit s mod 2 ^ Z.log2_up n <> 0) ->
  exists s' a, alloc_region s n = Ok (s', a) /\ regs_inv step (al_limit s') (al_regions s') /\
    al_regions s' = al_regions s ++ [(a, n)] /\ al_limit s' = a + n - 1.
Proof.
  intros Hs HI Hn Hstep. unfold alloc_region. replace (n <=? 0) with false by lia.
  pose proof (align_pow2 (al_limit s) (Z.log2_up n) (Z.log2_up_nonneg n)) as (H1 & H2 & H3 & H4).
  fold (size_mask n) in *. set (a := align (al_limit s) (size_mask n)) in *. clearbody a.
  eexists _, a. split; [reflexivity|]. cbn [al_limit al_regions]. split; [|split; reflexivity].
  econstructor; eauto; try lia.
  intros E. assert (E0 : al_limit s = 0).
    { rewrite E in HI. remember (al_limit s) as l. clear - HI. inversion HI as [E0|l' rs b m A B C D F G E1 E2]; [reflexivity|destruct rs; discriminate]. }
    rewrite E0 in H3. rewrite H3; [reflexivity|]. apply Z.mod_0_l. pose proof (Z.pow_pos_nonneg 2 (Z.log2_up n) ltac:(lia) (Z.log2_up_nonneg n)). lia.
Qed.

(** every history: at most one byte shared *)
Lemma alloc_all_any sizes : forall s, regs_inv 0 (al_limit s) (al_regions s) -> Forall (fun n => 0 < n) sizes ->
  exists s', alloc_all alloc_region s sizes = Ok s' /\ regs_inv 0 (al_limit s') (al_regions s') /\
    map snd (al_regions s') = map snd (al_regions s) ++ sizes.
Proof.
  induction sizes as [|n r IH]; intros s HI HS; cbn [alloc_all].
  - exists s. rewrite app_nil_r. auto.
  - inversion HS; subst. destruct (alloc_step_inv s n 0 ltac:(lia) HI ltac:(assumption) ltac:(lia)) as (s1 & a & E & HI1 & HR & _).
    rewrite E. cbn [bind]. destruct (IH s1 HI1 ltac:(assumption)) as (s' & E' & HI' & HM).
    exists s'. split; [exact E'|]. split; [exact HI'|]. rewrite HM, HR, map_app, <- app_assoc. reflexivity.
Qed.

Lemma log2_up_pos n : 2 <= n -> 1 <= Z.log2_up n.
Proof. intros. change 1 with (Z.log2_up 2). apply Z.log2_up_le_mono. lia. Qed.

Lemma mod_pow_even x k : 1 <= k -> x mod 2^k = 0 -> x mod 2 = 0.
Proof.
  intros Hk H. replace k with (1 + (k - 1)) in H by lia. rewrite Z.pow_add_r in H by lia. change (2^1) with 2 in H.
  assert (0 < 2^(k-1)) by (apply Z.pow_pos_nonneg; lia).
  apply Z.mod_divide in H; [|lia]. apply Z.mod_divide; [lia|]. destruct H as [q ->]. exists (q * 2^(k-1)). ring.
Qed.

Lemma alloc_all_even sizes : forall s, regs_inv 1 (al_limit s) (al_regions s) ->
  (al_regions s <> [] -> al_limit s mod 2 = 1) -> Forall (fun n => 0 < n /\ n mod 2 = 0) sizes ->
  exists s', alloc_all alloc_region s sizes = Ok s' /\ regs_inv 1 (al_limit s') (al_regions s') /\
    map snd (al_regions s') = map snd (al_regions s) ++ sizes.
Proof.
  induction sizes as [|n r IH]; intros s HI HO HS; cbn [alloc_all].
  - exists s. rewrite app_nil_r. auto.
  - inversion HS as [|? ? [Hn He] HS']; subst.
    assert (Hk : 1 <= Z.log2_up n) by (apply log2_up_pos; lia).
    destruct (alloc_step_inv s n 1 ltac:(lia) HI ltac:(assumption)) as (s1 & a & E & HI1 & HR & HL).
    { intros _ HN HM. specialize (HO HN). pose proof (mod_pow_even _ _ Hk HM). lia. }
    rewrite E. cbn [bind].
    assert (Ha : a mod 2 = 0).
    { pose proof (regs_inv_all 1 _ _ ltac:(lia) HI1) as [_ HA]. rewrite HR in HA. apply Forall_app in HA as [_ HA].
      inversion HA as [|? ? (_ & _ & HA1 & _)]; subst. cbn [fst snd] in HA1. eapply mod_pow_even; [|exact HA1]. exact Hk. }
    destruct (IH s1 HI1) as (s' & E' & HI' & HM); [|assumption|].
    { intros _. rewrite HL. lia. }
    exists s'. split; [exact E'|]. split; [exact HI'|]. rewrite HM, HR, map_app, <- app_assoc. reflexivity.
Qed.

Lemma alloc_io_same : alloc_io_region = alloc_region.
Proof. reflexivity. Qed.

(** overlap of consecutive requests, characterised *)
Lemma alloc_overlap_iff s n : 0 < n ->
  exists s' a, alloc_region s n = Ok (s', a) /\
    (a = al_limit s <-> al_limit s mod 2 ^ Z.log2_up n = 0) /\ al_limit s <= a.
Proof.
  intros Hn. unfold alloc_region. replace (n <=? 0) with false by lia.
  pose proof (align_pow2 (al_limit s) (Z.log2_up n) (Z.log2_up_nonneg n)) as (H1 & H2 & H3 & H4).
  fold (size_mask n) in *. set (a := align (al_limit s) (size_mask n)) in *. clearbody a.
  eexists _, a. split; [reflexivity|]. split; [|lia].
  split; intros H; [|apply H3; exact H]. destruct (Z.eq_dec (al_limit s mod 2 ^ Z.log2_up n) 0) as [E|E]; [exact E|].
  specialize (H4 E). lia.
Qed.

Lemma alloc_any sizes : Forall (fun n => 0 < n) sizes ->
  exists s', alloc_all alloc_region alloc0 sizes = Ok s' /\ map snd (al_regions s') = sizes /\
    Forall (fun r => 0 <= fst r /\ fst r mod 2 ^ Z.log2_up (snd r) = 0) (al_regions s') /\
    ForallOrdPairs (fun r1 r2 => fst r1 + snd r1 - 1 <= fst r2) (al_regions s').
Proof.
  intros HS. destruct (alloc_all_any sizes alloc0 (ri_nil 0) HS) as (s' & E & HI & HM).
  exists s'. split; [exact E|]. split; [exact HM|]. split.
  - destruct (regs_inv_all 0 _ _ ltac:(lia) HI) as [_ HA]. eapply Forall_impl; [|exact HA]. cbn beta. intros r (A & B & C & D). auto.
  - pose proof (regs_inv_pairs 0 _ _ ltac:(lia) HI) as HP. clear - HP. induction HP; constructor; [|assumption].
    eapply Forall_impl; [|exact H]. cbn beta. intros; lia.
Qed.
Lemma alloc_even sizes : Forall (fun n => 0 < n /\ n mod 2 = 0) sizes ->
  exists s', alloc_all alloc_region alloc0 sizes = Ok s' /\ map snd (al_regions s') = sizes /\
    Forall (fun r => 0 <= fst r /\ fst r mod 2 ^ Z.log2_up (snd r) = 0) (al_regions s') /\
    ForallOrdPairs (fun r1 r2 => fst r1 + snd r1 <= fst r2) (al_regions s').
Proof.
  intros HS. destruct (alloc_all_even sizes alloc0 (ri_nil 1) ltac:(intros []; reflexivity) HS) as (s' & E & HI & HM).
  exists s'. split; [exact E|]. split; [exact HM|]. split.
  - destruct (regs_inv_all 1 _ _ ltac:(lia) HI) as [_ HA]. eapply Forall_impl; [|exact HA]. cbn beta. intros r (A & B & C & D). auto.
  - pose proof (regs_inv_pairs 1 _ _ ltac:(lia) HI) as HP. clear - HP. induction HP; constructor; [|assumption].
    eapply Forall_impl; [|exact H]. cbn beta. intros; lia.
Qed.

Lemma find_region_hit rs : forall a b n, In (b, n) rs -> b <= a < b + n ->
  ForallOrdPairs (fun r1 r2 => fst r1 + snd r1 <= fst r2) rs -> find_region rs a = Some (b, n, a - b).
Proof.
  induction rs as [|[b0 n0] rs IH]; intros a b n HIn Ha HP; [contradiction|]. cbn [find_region].
  inversion HP as [|? ? H1 H2]; subst. destruct HIn as [E|HIn].
  - injection E as -> ->. replace ((b <=? a) && (a <? b + n)) with true by lia. reflexivity.
  - rewrite Forall_forall in H1. specialize (H1 _ HIn). cbn [fst snd] in H1.
    replace ((b0 <=? a) && (a <? b0 + n0)) with false by lia. apply IH; assumption.
Qed.
Lemma find_region_miss rs : forall a, (forall b n, In (b, n) rs -> ~ (b <= a < b + n)) -> find_region rs a = None.
Proof.
  induction rs as [|[b0 n0] rs IH]; intros a H; [reflexivity|]. cbn [find_region].
  pose proof (H b0 n0 (or_introl eq_refl)). replace ((b0 <=? a) && (a <? b0 + n0)) with false by lia.
  apply IH. intros b n Hin. apply H. now right.
Qed.
