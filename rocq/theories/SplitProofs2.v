(** Proofs about request handlers and end-to-end transfers (C11-C13). *)
From Coq Require Import ZifyBool ZifyNat.
From Verif Require Import PyBase BitLemmas TlpModel TlpSpec TlpProofs BarModel BarSpec BarProofs SplitModel SplitSpec SplitProofs.
Ltac Zify.zify_post_hook ::= Z.div_mod_to_equations.

Lemma zlen_slice_set (l : list Z) a d : 0 <= a -> a + zlen d <= zlen l -> zlen (slice_set l a d) = zlen l.
Proof. intros. unfold slice_set, zlen in *. rewrite !app_length, firstn_length, skipn_length. lia. Qed.

Lemma mem_of_slice_set l a d x : 0 <= a -> a + zlen d <= zlen l -> mem_of (slice_set l a d) x = mem_store (mem_of l) a d x.
Proof.
  intros Ha Hl. unfold mem_of, mem_store, slice_set. pose proof (zlen_nonneg d).
  destruct (Z.leb_spec 0 x).
  2:{ replace (a <=? x) with false by lia. reflexivity. }
  assert (Hf : length (firstn (Z.to_nat a) l) = Z.to_nat a) by (rewrite firstn_length; unfold zlen in *; lia).
  destruct (Z.leb_spec a x); cbn [andb].
  - rewrite app_nth2 by lia. rewrite Hf. destruct (Z.ltb_spec x (a + zlen d)).
    + rewrite app_nth1 by (unfold zlen in *; lia). f_equal. lia.
    + rewrite app_nth2 by (unfold zlen in *; lia). rewrite nth_skipn_add. f_equal. unfold zlen in *. lia.
  - rewrite app_nth1 by lia. apply nth_firstn_lt. lia.
Qed.

Lemma Forall_slice_set (P : Z -> Prop) l a d : Forall P l -> Forall P d -> Forall P (slice_set l a d).
Proof. intros. unfold slice_set. rewrite !Forall_app. split; [now apply Forall_firstn|split; [assumption|now apply Forall_skipn]]. Qed.

Lemma slice_mem_of (l : list Z) a n : 0 <= a -> 0 <= n -> a + n <= zlen l -> slice l a (a + n) = mem_load (mem_of l) a n.
Proof.
  intros. apply list_eq_nth.
  - pose proof (zlen_slice l a (a + n) ltac:(lia) ltac:(lia)) as H2.
    pose proof (zlen_mem_load (mem_of l) a n ltac:(lia)) as H3. unfold zlen in *. lia.
  - intros j Hj. pose proof (zlen_slice l a (a + n) ltac:(lia) ltac:(lia)) as H2. unfold zlen in H2.
    rewrite <- (Nat2Z.id j). rewrite nth_slice by lia. rewrite nth_mem_load by lia. unfold mem_of.
    replace (0 <=? a + Z.of_nat j) with true by lia. reflexivity.
Qed.

Lemma nth_set_nth_eq {A} (l : list A) i v d : (i < length l)%nat -> nth i (set_nth l i v) d = v.
Proof. revert i; induction l as [|x l IH]; intros [|i] H; cbn in *; try lia; auto. apply IH; lia. Qed.
Lemma nth_set_nth_ne {A} (l : list A) i j v d : i <> j -> nth j (set_nth l i v) d = nth j l d.
Proof. revert i j; induction l as [|x l IH]; intros [|i] [|j] H; cbn; try congruence; auto. Qed.
Lemma length_set_nth {A} (l : list A) i v : length (set_nth l i v) = length l.
Proof. revert i; induction l as [|x l IH]; intros [|i]; cbn; auto. Qed.

Lemma selects_shift a0 L f l a : selects a0 L f l a = selects 0 L f l (a - a0).
Proof. unfold selects. rewrite Z.sub_0_r. f_equal. lia. Qed.

(** ---- endpoint write ---- *)
Definition ep_frame (rs0 : list epregion) (i : Z) (n : Z) (rs : list epregion) : Prop :=
  length rs = length rs0 /\ (forall j, j <> Z.to_nat i -> nth j rs ENone = nth j rs0 ENone) /\
  exists l, nth (Z.to_nat i) rs ENone = EMem l /\ zlen l = n.
Definition ep_view (i off : Z) (rs : list epregion) (j : Z) : Z :=
  match nth (Z.to_nat i) rs ENone with EMem l => mem_of l (off + j) | _ => 0 end.

Lemma le_bytes_byte n : forall v, Forall is_byte (le_bytes n v).
Proof. induction n as [|n IH]; intros v; cbn [le_bytes]; constructor; auto. unfold is_byte. lia. Qed.
Lemma payload_bytes t : Forall is_byte (payload t).
Proof. unfold payload. induction (t_data t) as [|w l IH]; cbn [flat_map]; [constructor|]. rewrite Forall_app. split; [apply le_bytes_byte|assumption]. Qed.

Lemma Forall_nth_byte l k : Forall is_byte l -> is_byte (nth k l 0).
Proof.
  intros H. destruct (Nat.ltb_spec k (length l)).
  - rewrite Forall_forall in H. apply H. now apply nth_In.
  - rewrite nth_overflow by assumption. unfold is_byte. lia.
Qed.
Lemma Forall_byte_mem_of l : (forall a, is_byte (mem_of l a)) <-> Forall is_byte l.
Proof.
  split.
  - intros H. apply Forall_forall. intros x Hx. apply In_nth with (d := 0) in Hx. destruct Hx as (n & Hn & <-).
    specialize (H (Z.of_nat n)). unfold mem_of in H. replace (0 <=? Z.of_nat n) with true in H by lia.
    now rewrite Nat2Z.id in H.
  - intros H a. unfold mem_of. destruct (0 <=? a); [now apply Forall_nth_byte|unfold is_byte; lia].
Qed.

Lemma ep_write_ok rs0 i off n N : 0 <= i < zlen rs0 -> 0 <= off -> off + N <= n ->
  forall rs o d, (ep_frame rs0 i n rs) -> 0 <= o -> o + zlen d <= N -> d <> [] ->
  exists rs', ep_write_region rs i (off + o) d = Ok rs' /\ ep_frame rs0 i n rs' /\
    forall j, ep_view i off rs' j = if (o <=? j) && (j <? o + zlen d) then nth (Z.to_nat (j - o)) d 0 else ep_view i off rs j.
Proof.
  intros Hi Hoff Hn rs o d (F1 & F2 & l & F3 & F4) Ho Hz Hne.
  assert (0 < zlen d) by (destruct d; [congruence|unfold zlen; cbn [length]; lia]).
  assert (Hir : (Z.to_nat i < length rs)%nat) by (unfold zlen in Hi; lia).
  unfold ep_write_region. rewrite F3. destruct l as [|x l]; [unfold zlen in *; cbn in F4; lia|].
  set (l0 := x :: l) in *. eexists; split; [reflexivity|]. split.
  - split; [rewrite length_set_nth; assumption|]. split.
    + intros j Hj. rewrite nth_set_nth_ne by auto. now apply F2.
    + exists (slice_set l0 (off + o) d). rewrite nth_set_nth_eq by assumption.
      rewrite zlen_slice_set by lia. split; [reflexivity|assumption].
  - intros j. unfold ep_view. rewrite nth_set_nth_eq, F3 by assumption.
    rewrite mem_of_slice_set by lia. unfold mem_store.
    replace ((off + o <=? off + j) && (off + j <? off + o + zlen d)) with ((o <=? j) && (j <? o + zlen d)) by lia.
    replace (off + j - (off + o)) with (j - o) by lia. reflexivity.
Qed.

(** Handler of a legal write that decodes to region [i] at offset [off]. *)
Lemma ep_handle_mem_write_spec e t i off l :
  match_bar (ep_bars e) (t_address t) false = Ok [(i, off)] ->
  0 <= i < zlen (ep_regions e) -> nth (Z.to_nat i) (ep_regions e) ENone = EMem l ->
  0 <= off -> off mod 4096 + 4 * t_length t <= 4096 -> off + 4 * t_length t <= zlen l ->
  1 <= t_length t -> zlen (t_data t) = t_length t -> Forall (fun w => 0 <= w < 2^32) (t_data t) ->
  exists e' l', ep_handle_mem_write e t = Ok e' /\
    ep_id e' = ep_id e /\ ep_mps e' = ep_mps e /\ ep_bars e' = ep_bars e /\
    zlen (ep_regions e') = zlen (ep_regions e) /\
    (forall j, j <> Z.to_nat i -> nth j (ep_regions e') ENone = nth j (ep_regions e) ENone) /\
    nth (Z.to_nat i) (ep_regions e') ENone = EMem l' /\ zlen l' = zlen l /\
    (forall a, mem_of l' a = write_effect off (t_length t) (t_first_be t) (t_last_be t) (payload t) (mem_of l) a) /\
    (Forall is_byte l -> Forall is_byte l').
Proof.
  intros HM Hi Hr Hoff H4k Hend Hlen Hd HF. unfold ep_handle_mem_write. rewrite HM. cbn [bind].
  replace (t_length t * 4 >? 0x1000 - Z.land off 0xfff) with false by (rewrite land_fff; lia).
  rewrite get_data_payload by assumption. cbn [bind].
  assert (Hpl : zlen (payload t) = 4 * t_length t) by (unfold zlen; rewrite payload_len; unfold zlen in Hd; lia).
  destruct (be_write_spec (fun rs o d => ep_write_region rs i (off + o) d)
    (ep_frame (ep_regions e) i (zlen l)) (ep_view i off) (4 * t_length t) t (payload t) (ep_regions e))
    as (rs' & W1 & (F1 & F2 & l' & F3 & F4) & W3); try lia.
  { intros. apply (ep_write_ok (ep_regions e) i off (zlen l) (4 * t_length t)); auto; lia. }
  { split; [reflexivity|]. split; [reflexivity|]. exists l. split; [assumption|reflexivity]. }
  rewrite W1. cbn [bind]. exists (set_regions e rs'), l'.
  assert (HV : forall a, mem_of l' a = write_effect off (t_length t) (t_first_be t) (t_last_be t) (payload t) (mem_of l) a).
  { intros a. specialize (W3 (a - off)). unfold ep_view in W3. rewrite F3, Hr in W3.
    replace (off + (a - off)) with a in W3 by lia. rewrite W3. unfold write_effect. now rewrite (selects_shift off). }
  repeat split; auto.
  - unfold zlen. cbn. lia.
  - intros HB. apply Forall_byte_mem_of. intros a. rewrite HV. unfold write_effect.
    destruct (selects _ _ _ _ _); [apply Forall_nth_byte, payload_bytes|now apply Forall_byte_mem_of].
Qed.

(** ---- extent of a legal request ---- *)
Lemma nonzero_lane m : 0 <= m < 16 -> m <> 0 -> exists k, 0 <= k < 4 /\ Z.testbit m k = true.
Proof.
  intros H H0.
  assert (H1 : existsb (Z.testbit m) [0;1;2;3] = true).
  { assert (HX : forallb (fun m => (m =? 0) || existsb (Z.testbit m) [0;1;2;3]) [0;1;2;3;4;5;6;7;8;9;10;11;12;13;14;15] = true) by (vm_compute; reflexivity).
    rewrite forallb_forall in HX. specialize (HX m).
    assert (In m [0;1;2;3;4;5;6;7;8;9;10;11;12;13;14;15]) by (cbn; lia).
    specialize (HX H1). apply orb_true_iff in HX. destruct HX as [HX|HX]; [lia|exact HX]. }
  rewrite existsb_exists in H1. destruct H1 as (k & Hk & Hb). exists k. split; [cbn in Hk; lia|assumption].
Qed.

Lemma selects_lane t j k : 0 <= j < t_length t -> 0 <= k < 4 ->
  tlp_selects t (t_address t + 4 * j + k) = lane_enabled (t_first_be t) (t_last_be t) (t_length t) j k.
Proof.
  intros. unfold tlp_selects, selects.
  replace (t_address t <=? t_address t + 4 * j + k) with true by lia.
  replace (t_address t + 4 * j + k <? t_address t + 4 * t_length t) with true by lia. cbn [andb].
  f_equal; lia.
Qed.

Lemma legal_first t : be_legal t -> 1 <= t_length t -> exists k, 0 <= k < 4 /\ tlp_selects t (t_address t + k) = true.
Proof.
  intros (B1 & B2 & B3 & B4 & B5) Hl. destruct (nonzero_lane _ B1 B3) as (k & Hk & Hb). exists k. split; [assumption|].
  replace (t_address t + k) with (t_address t + 4 * 0 + k) by lia. rewrite selects_lane by lia.
  unfold lane_enabled. rewrite Z.eqb_refl. assumption.
Qed.
Lemma legal_last t : be_legal t -> 1 <= t_length t -> exists k, 0 <= k < 4 /\ tlp_selects t (t_address t + 4 * (t_length t - 1) + k) = true.
Proof.
  intros HB Hl. pose proof HB as (B1 & B2 & B3 & B4 & B5). destruct (Z.eq_dec (t_length t) 1) as [E|E].
  - destruct (legal_first t HB Hl) as (k & Hk & Hs). exists k. split; [assumption|].
    replace (t_address t + 4 * (t_length t - 1) + k) with (t_address t + k) by lia. assumption.
  - destruct (nonzero_lane _ B2 (B5 E)) as (k & Hk & Hb). exists k. split; [assumption|].
    rewrite selects_lane by lia. unfold lane_enabled.
    replace (t_length t - 1 =? 0) with false by lia. rewrite Z.eqb_refl. assumption.
Qed.

Lemma legal_extent t lo hi : be_legal t -> 1 <= t_length t -> t_address t mod 4 = 0 -> lo mod 4 = 0 -> hi mod 4 = 0 ->
  (forall a, tlp_selects t a = true -> lo <= a < hi) -> lo <= t_address t /\ t_address t + 4 * t_length t <= hi.
Proof.
  intros HB Hl Ha Hlo Hhi HS. destruct (legal_first t HB Hl) as (k & Hk & H1). destruct (legal_last t HB Hl) as (k' & Hk' & H2).
  apply HS in H1. apply HS in H2. lia.
Qed.

(** Offset and count of a contiguous selection. *)
Definition zr16 := [0;1;2;3;4;5;6;7;8;9;10;11;12;13;14;15].
Definition run_mask (m f c : Z) : bool :=
  forallb (fun k => Bool.eqb (Z.testbit m k) ((f <=? k) && (k <? c))) [0;1;2;3].

Lemma run_mask_sweep (P : Z -> Z -> Z -> bool) :
  forallb (fun m => forallb (fun f => forallb (fun c => implb (run_mask m f c && (f <? c)) (P m f c)) [0;1;2;3;4]) [0;1;2;3]) zr16 = true ->
  forall m f c, 0 <= m < 16 -> 0 <= f <= 3 -> f < c <= 4 ->
  (forall k, 0 <= k < 4 -> Z.testbit m k = ((f <=? k) && (k <? c))) -> P m f c = true.
Proof.
  intros H m f c Hm Hf Hc HB. rewrite forallb_forall in H.
  specialize (H m ltac:(unfold zr16; cbn; lia)). rewrite forallb_forall in H. specialize (H f ltac:(cbn; lia)).
  rewrite forallb_forall in H. specialize (H c ltac:(cbn; lia)).
  assert (HR : run_mask m f c = true).
  { unfold run_mask. apply forallb_forall. intros k Hk. rewrite HB by (cbn in Hk; lia). apply Bool.eqb_reflx. }
  rewrite HR in H. replace (f <? c) with true in H by lia. exact H.
Qed.

Definition first_off (m : Z) : Z := if Z.land m 0x7 =? 0 then 3 else if Z.land m 0x3 =? 0 then 2 else if Z.land m 0x1 =? 0 then 1 else 0.
Definition last_off (m : Z) : Z := if Z.land m 0xf =? 0x1 then 3 else if Z.land m 0xe =? 0x2 then 2 else if Z.land m 0xc =? 0x4 then 1 else 0.

Lemma contiguous_be t first count : be_legal t -> 1 <= t_length t -> 0 <= first - t_address t <= 3 ->
  (forall a, tlp_selects t a = true <-> first <= a < first + count) ->
  t_address t + get_first_be_offset t = first /\ get_be_byte_count t = count.
Proof.
  intros HB Hl Hf HS. pose proof HB as (B1 & B2 & B3 & B4 & B5).
  destruct (legal_first t HB Hl) as (k1 & Hk1 & S1). apply HS in S1.
  destruct (legal_last t HB Hl) as (k2 & Hk2 & S2). apply HS in S2.
  assert (HL : forall j k, 0 <= j < t_length t -> 0 <= k < 4 ->
     lane_enabled (t_first_be t) (t_last_be t) (t_length t) j k = ((first <=? t_address t + 4 * j + k) && (t_address t + 4 * j + k <? first + count))).
  { intros j k Hj Hk. rewrite <- selects_lane by assumption. apply Bool.eq_iff_eq_true. rewrite HS. lia. }
  assert (Hend : first + count <= t_address t + 4 * t_length t).
  { assert (tlp_selects t (first + count - 1) = true) by (apply HS; lia).
    unfold tlp_selects, selects in H. lia. }
  set (f := first - t_address t) in *. set (c := f + count).
  assert (E1 : get_first_be_offset t = f).
  { assert (HX : (first_off (t_first_be t) =? f) = true).
    { apply (run_mask_sweep (fun m f c => first_off m =? f)) with (c := Z.min 4 c); try lia; [vm_compute; reflexivity|].
      intros k Hk. specialize (HL 0 k ltac:(lia) Hk). unfold lane_enabled in HL. rewrite Z.eqb_refl in HL. rewrite HL. lia. }
    unfold get_first_be_offset. unfold first_off in HX. lia. }
  assert (E2 : get_last_be_offset t = 4 * t_length t - c).
  { set (be := if t_length t =? 1 then t_first_be t else t_last_be t).
    assert (HX : (last_off be =? 4 - (c - 4 * (t_length t - 1))) = true).
    { apply (run_mask_sweep (fun m f c => last_off m =? 4 - c)) with (f := Z.max 0 (f - 4 * (t_length t - 1))); try lia; [vm_compute; reflexivity| |].
      { unfold be. destruct (t_length t =? 1); lia. }
      intros k Hk. specialize (HL (t_length t - 1) k ltac:(lia) Hk). unfold lane_enabled in HL. unfold be.
      destruct (Z.eqb_spec (t_length t) 1) as [E|E].
      - rewrite E in *. cbn [Z.sub Z.add Z.opp Z.pos_sub Z.eqb] in HL. rewrite HL. lia.
      - replace (t_length t - 1 =? 0) with false in HL by lia. rewrite Z.eqb_refl in HL. rewrite HL. lia. }
    unfold get_last_be_offset. fold be. unfold last_off in HX. lia. }
  unfold get_be_byte_count. rewrite E1, E2. unfold c, f. lia.
Qed.

(** ---- endpoint read ---- *)
Lemma ep_handle_mem_read_spec e t i off l :
  match_bar (ep_bars e) (t_address t) false = Ok [(i, off)] ->
  nth (Z.to_nat i) (ep_regions e) ENone = EMem l -> Forall is_byte l -> 0 <= ep_mps e ->
  0 <= off -> off mod 4096 + 4 * t_length t <= 4096 -> off + 4 * t_length t <= zlen l ->
  1 <= t_length t -> t_address t mod 4 = 0 ->
  exists cs, ep_handle_mem_read e t = Ok cs /\
    completes t (ep_id e) (128 * 2^(ep_mps e)) (t_address t + get_first_be_offset t) (get_be_byte_count t)
      (mem_load (mem_of l) off (4 * t_length t)) cs.
Proof.
  intros HM Hr HB Hmps Hoff H4k Hend Hlen Ha. unfold ep_handle_mem_read. rewrite HM. cbn [bind].
  replace (t_length t * 4 >? 0x1000 - Z.land off 0xfff) with false by (rewrite land_fff; lia).
  assert (E : ep_read_region (ep_regions e) i off (t_length t * 4) = Ok (slice l off (off + 4 * t_length t))).
  { unfold ep_read_region. rewrite Hr. destruct l as [|x l]; [change (zlen (@nil Z)) with 0 in Hend; lia|]. do 2 f_equal. lia. }
  rewrite E. cbn [bind]. rewrite slice_mem_of by lia.
  apply complete_read_spec; auto.
  - rewrite <- slice_mem_of by lia. now apply Forall_slice.
  - apply zlen_mem_load. lia.
Qed.

Lemma window_arith b k a len : 4 <= k -> b mod 2^k = 0 -> b <= a -> a + 4 * len <= b + 2^k -> 1 <= len -> a mod 4096 + 4 * len <= 4096 ->
  (a - b) mod 4096 + 4 * len <= 4096.
Proof.
  intros Hk Hb H1 H2 H3 H4. destruct (Z.leb_spec 12 k) as [Hc|Hc].
  - assert (E : 2^k = 4096 * 2^(k - 12)) by (change 4096 with (2^12); rewrite <- Z.pow_add_r by lia; f_equal; lia).
    pose proof (pow2_pos k ltac:(lia)) as HP2. pose proof (Z.div_mod b (2^k) ltac:(lia)) as HD. rewrite Hb, Z.add_0_r, E in HD.
    rewrite HD. replace (a - 4096 * 2^(k-12) * (b / (4096 * 2^(k-12)))) with (a + (- (2^(k-12) * (b / (4096 * 2^(k-12))))) * 4096) by ring.
    rewrite Z.mod_add by lia. assumption.
  - assert (2^k <= 2^12) by (apply Z.pow_le_mono_r; lia). change (2^12) with 4096 in H.
    destruct (Z.eq_dec (a - b) 4096); [lia|]. rewrite (Z.mod_small (a - b)) by lia. lia.
Qed.

Lemma window_mod4 b k : 4 <= k -> b mod 2^k = 0 -> b mod 4 = 0 /\ (b + 2^k) mod 4 = 0.
Proof.
  intros Hk Hb. assert (E : 2^k = 4 * 2^(k - 2)) by (replace k with (2 + (k - 2)) at 1 by lia; rewrite Z.pow_add_r by lia; reflexivity).
  pose proof (pow2_pos k ltac:(lia)) as HP2. pose proof (Z.div_mod b (2^k) ltac:(lia)) as HD. rewrite Hb, Z.add_0_r, E in HD.
  assert (HD' : b = (2^(k-2) * (b / (4 * 2^(k-2)))) * 4) by (rewrite HD at 1; ring).
  set (q := 2 ^ (k - 2) * (b / (4 * 2 ^ (k - 2)))) in *. rewrite E. lia.
Qed.

Lemma mem_load_ext M M' a a' n : (forall j, 0 <= j < n -> M (a + j) = M' (a' + j)) -> mem_load M a n = mem_load M' a' n.
Proof.
  intros H. unfold mem_load. apply map_ext_in. intros j Hj. apply in_seq in Hj. apply H. lia.
Qed.

(** An endpoint window is a correct completer for its contents. *)
Lemma ep_completer_ok mx e i b k l : window_at e i b k -> region_contents e i l -> zlen l = 2^k -> 0 <= ep_mps e ->
  completer_ok mx (fun a => mem_of l (a - b)) b (b + 2^k) (fun t => match ep_recv_read e t with Ok cs => cs | Err _ => [] end).
Proof.
  intros (Hk & Hb & Hi & HW) (Hr & HB) Hz Hmps t (L1 & L2 & L3 & L4 & L5 & L6) Hck HS first count Hf HS2.
  destruct (window_mod4 b k Hk Hb) as (M1 & M2).
  destruct (legal_extent t b (b + 2^k) L5 L2 L1 M1 M2 HS) as (X1 & X2).
  destruct (ep_handle_mem_read_spec e t i (t_address t - b) l) as (cs & C1 & C2); auto; try lia.
  { apply HW. lia. }
  { apply window_arith with (k := k); auto. }
  exists (ep_id e), (128 * 2^(ep_mps e)). unfold ep_recv_read. rewrite Hck, L6.
  replace (ft_in _ _) with true by (destruct (t_address t <? 2^32); reflexivity). rewrite C1.
  destruct (contiguous_be t first count L5 L2 Hf HS2) as (E1 & E2). rewrite E1, E2 in C2.
  erewrite mem_load_ext; [exact C2|]. intros j Hj. cbv beta. f_equal. lia.
Qed.

(** A list of legal writes inside the window. *)
Lemma ep_recv_writes_spec mx i b k ts : forall e l, window_at e i b k -> region_contents e i l -> zlen l = 2^k ->
  Forall (fun t => mem_write_legal mx t /\ tlp_check t = true /\ (forall a, tlp_selects t a = true -> b <= a < b + 2^k)) ts ->
  exists e' l', ep_recv_writes e ts = Ok e' /\ window_at e' i b k /\ region_contents e' i l' /\ zlen l' = 2^k /\
    ep_mps e' = ep_mps e /\ ep_id e' = ep_id e /\ ep_bars e' = ep_bars e /\
    (forall j, j <> Z.to_nat i -> nth j (ep_regions e') ENone = nth j (ep_regions e) ENone) /\
    forall a, mem_of l' (a - b) = apply_writes ts (fun a => mem_of l (a - b)) a.
Proof.
  induction ts as [|t ts IH]; intros e l HW HR Hz HF.
  - exists e, l. cbn. repeat (split; [auto|]); auto.
  - apply Forall_cons_iff in HF. destruct HF as [(((L1 & L2 & L3 & L4 & L5 & L6) & D1 & D2) & Hck & HS) HF].
    pose proof HW as (Hk & Hb & Hi & HM). pose proof HR as (Hr & HB).
    destruct (window_mod4 b k Hk Hb) as (M1 & M2).
    destruct (legal_extent t b (b + 2^k) L5 L2 L1 M1 M2 HS) as (X1 & X2).
    destruct (ep_handle_mem_write_spec e t i (t_address t - b) l) as (e1 & l1 & W1 & W2 & W3 & W4 & W5 & W6 & W7 & W8 & W9 & W10); auto; try lia.
    { apply HM. lia. } { apply window_arith with (k := k); auto. }
    destruct (IH e1 l1) as (e' & l' & R1 & R2 & R3 & R4 & R5 & R6 & R7 & R8 & R9); auto.
    { repeat split; auto; try lia. intros a Ha. rewrite W4. now apply HM. }
    { split; auto. } { lia. }
    exists e', l'. cbn [ep_recv_writes]. unfold ep_recv_write at 1. rewrite Hck, L6.
    replace (ft_in _ _) with true by (destruct (t_address t <? 2^32); reflexivity). rewrite W1. cbn [bind].
    repeat split; auto; try congruence; try apply R2; try apply R3.
    { intros j Hj. rewrite R8, W6; auto. }
    intros a. rewrite R9. unfold apply_writes. cbn [fold_left]. apply apply_writes_ext.
    intros a'. rewrite W9. unfold apply_write, write_effect.
    rewrite (selects_shift (t_address t - b)), (selects_shift (t_address t)).
    replace (a' - b - (t_address t - b)) with (a' - t_address t) by lia. reflexivity.
Qed.

Lemma covers_in addr len ts : covers addr len ts -> forall t, In t ts -> forall a, tlp_selects t a = true -> addr <= a < addr + len.
Proof.
  revert addr len. induction ts as [|t ts IH]; intros addr len HC u Hu a Ha; [destruct Hu|].
  cbn in HC. destruct HC as (k & Hk & HS & HC). destruct Hu as [<-|Hu].
  - apply HS in Ha. lia.
  - specialize (IH _ _ HC u Hu a Ha). lia.
Qed.

Lemma exec_mops_spec mps mrrs i b k : 0 <= mps -> 0 <= mrrs -> forall ops e s l,
  window_at e i b k -> region_contents e i l -> zlen l = 2^k -> 0 <= ep_mps e -> queues_empty (rq_queues s) ->
  Forall (mop_in b (2^k)) ops ->
  exists e' s' l' outs, exec_mops mps mrrs (e, s) ops = Ok (e', s', outs) /\
    window_at e' i b k /\ region_contents e' i l' /\ zlen l' = 2^k /\ queues_empty (rq_queues s') /\
    (forall j, j <> Z.to_nat i -> nth j (ep_regions e') ENone = nth j (ep_regions e) ENone) /\
    forall m, (forall a, b <= a < b + 2^k -> m a = mem_of l (a - b)) ->
      outs = snd (spec_mops m ops) /\
      forall a, b <= a < b + 2^k -> mem_of l' (a - b) = fst (spec_mops m ops) a.
Proof.
  intros Hmps Hmrrs. induction ops as [|o ops IH]; intros e s l HW HR Hz Hem HQ HF.
  - exists e, s, l, []. cbn [exec_mops spec_mops fst snd]. do 6 (split; [assumption || reflexivity|]).
    intros m Hm. split; [reflexivity|]. intros a Ha. symmetry. auto.
  - apply Forall_cons_iff in HF. destruct HF as [Ho HF]. cbn [exec_mops]. destruct o as [addr data|addr len]; cbn [mop_in] in Ho; destruct Ho as (O1 & O2 & O3).
    + destruct (mem_write_spec (mkId 0 0 0) mps 0 0 addr data Hmps O3) as (ts & T1 & T2 & T3 & T4).
      destruct (ep_recv_writes_spec (128 * 2^mps) i b k ts e l HW HR Hz) as (e1 & l1 & R1 & R2 & R3 & R4 & R5 & R6 & R7 & R8 & R9).
      { rewrite Forall_forall in *. intros t Ht. destruct (T2 t Ht) as (A1 & A2 & A3). split; [assumption|]. split; [assumption|].
        intros a Ha. pose proof (covers_in _ _ _ T3 t Ht a Ha). lia. }
      unfold exec_mop, rc_mem_write. cbn [find_region]. rewrite T1. cbn [bind snd]. rewrite R1. cbn [bind fst snd].
      destruct (IH e1 s l1 R2 R3 R4 ltac:(lia) HQ HF) as (e' & s' & l' & outs & Q1 & Q2 & Q3 & Q4 & Q5 & Q6 & Q7).
      rewrite Q1. cbn [bind fst snd]. exists e', s', l', ([] :: outs).
      do 5 (split; [assumption || reflexivity|]). split; [intros j Hj; rewrite Q6, R8; auto|].
      intros m Hm. cbn [spec_mops spec_mop fst snd].
      destruct (Q7 (mem_store m addr data)) as (P1 & P2).
      { intros a Ha. rewrite R9, T4. unfold mem_store. now rewrite Hm. }
      split; [now rewrite P1|exact P2].
    + unfold exec_mop, rc_mem_read. cbn [find_region].
      destruct (mem_read_loop_spec false (mkId 0 0 0) mrrs 0 0 (fun t => match ep_recv_read e t with Ok cs => cs | Err _ => [] end)
        (fun a => mem_of l (a - b)) b (b + 2^k) len Hmrrs) with (fuel := Z.to_nat len) (s := s) (addr := addr) (n := 0) (data := @nil Z)
        as (s1 & ts & R1 & R2 & R3 & R4); auto; try lia.
      { now apply ep_completer_ok with (i := i). }
      rewrite R1. cbn [bind fst snd app]. rewrite Z.sub_0_r.
      destruct (IH e s1 l HW HR Hz Hem R2 HF) as (e' & s' & l' & outs & Q1 & Q2 & Q3 & Q4 & Q5 & Q6 & Q7).
      rewrite Q1. cbn [bind fst snd]. do 4 eexists. split; [reflexivity|]. do 4 (split; [eassumption|]). split; [assumption|].
      intros m Hm. cbn [spec_mops spec_mop fst snd]. destruct (Q7 m Hm) as (P1 & P2). split; [|exact P2].
      rewrite P1. f_equal. apply mem_load_ext. intros j Hj. symmetry. apply Hm. lia.
Qed.

(** ---- root complex handlers ---- *)
Lemma find_region_some rs a i r : find_region rs a = Some (i, r) ->
  nth_error rs i = Some r /\ r_base r <= a < r_base r + r_size r.
Proof.
  revert i. induction rs as [|x rs IH]; intros i H; cbn [find_region] in H; [discriminate|].
  destruct ((r_base x <=? a) && (a <? r_base x + r_size x)) eqn:E.
  - injection H as <- <-. cbn. split; [reflexivity|lia].
  - destruct (find_region rs a) as [[j y]|] eqn:E2; [|discriminate]. injection H as <- <-. cbn. now apply IH.
Qed.

Lemma find_region_set rs : forall i r r' a, nth_error rs i = Some r -> r_base r' = r_base r -> r_size r' = r_size r ->
  find_region (set_nth rs i r') a =
  match find_region rs a with Some (j, x) => Some (j, if Nat.eqb j i then r' else x) | None => None end.
Proof.
  induction rs as [|x rs IH]; intros i r r' a Hn Hb Hs; [destruct i; discriminate|].
  destruct i as [|i]; cbn [set_nth find_region].
  - cbn in Hn. injection Hn as ->. rewrite Hb, Hs.
    destruct ((r_base r <=? a) && (a <? r_base r + r_size r)); [reflexivity|].
    destruct (find_region rs a) as [[j y]|]; reflexivity.
  - cbn in Hn. destruct ((r_base x <=? a) && (a <? r_base x + r_size x)); [reflexivity|].
    rewrite (IH i r r' a Hn Hb Hs). destruct (find_region rs a) as [[j y]|]; reflexivity.
Qed.

Lemma same_map_set rs : forall i r r', nth_error rs i = Some r -> r_base r' = r_base r -> r_size r' = r_size r ->
  same_map (set_nth rs i r') rs.
Proof.
  unfold same_map. induction rs as [|x rs IH]; intros i r r' Hn Hb Hs; [destruct i; discriminate|].
  destruct i; cbn in *; [injection Hn as ->; congruence|]. f_equal. eauto.
Qed.

Lemma regions_wf_set rs : forall i r', regions_wf rs -> zlen (r_mem r') = r_size r' /\ Forall is_byte (r_mem r') -> regions_wf (set_nth rs i r').
Proof. unfold regions_wf. induction rs as [|x rs IH]; intros i r' H Hr; [constructor|]. inversion H; subst. destruct i; cbn; constructor; auto. Qed.

Lemma rc_write_region_spec rs i addr d : regions_wf rs -> d <> [] -> in_region rs i addr (addr + zlen d) -> Forall is_byte d ->
  exists rs', rc_write_region rs addr d = Ok rs' /\ regions_wf rs' /\ same_map rs' rs /\
    (forall lo hi, in_region rs i lo hi -> in_region rs' i lo hi) /\
    forall a, rc_mem rs' a = mem_store (rc_mem rs) addr d a.
Proof.
  intros Hwf Hne Hin HB.
  assert (Hz : 0 < zlen d) by (destruct d; [congruence|unfold zlen; cbn [length]; lia]).
  destruct (Hin addr ltac:(lia)) as (r & Hr). destruct (Hin (addr + zlen d - 1) ltac:(lia)) as (r2 & Hr2).
  destruct (find_region_some _ _ _ _ Hr) as (N1 & N2). destruct (find_region_some _ _ _ _ Hr2) as (N3 & N4).
  assert (r2 = r) by congruence. subst r2.
  pose proof Hwf as Hwf'. unfold regions_wf in Hwf'. rewrite Forall_forall in Hwf'. destruct (Hwf' r (nth_error_In _ _ N1)) as (Hsz & HBr).
  set (off := addr - r_base r). unfold rc_write_region. rewrite Hr. fold off.
  assert (E : mmap_set (r_mem r) off d = Ok (slice_set (r_mem r) off d)).
  { unfold mmap_set. replace (zlen (slice (r_mem r) off (off + zlen d)) =? zlen d) with true by (rewrite zlen_slice by lia; lia). reflexivity. }
  rewrite E. cbn [bind]. set (r' := mkRegion _ _ _).
  exists (set_nth rs i r'). split; [reflexivity|].
  assert (Hfr : forall a, find_region (set_nth rs i r') a = match find_region rs a with Some (j, x) => Some (j, if Nat.eqb j i then r' else x) | None => None end).
  { intros. apply find_region_set with (r := r); auto. }
  repeat split.
  - apply regions_wf_set; auto. cbn. split; [rewrite zlen_slice_set by lia; assumption|now apply Forall_slice_set].
  - apply same_map_set with (r := r); auto.
  - intros lo hi H a Ha. rewrite Hfr. destruct (H a Ha) as (x & ->). rewrite Nat.eqb_refl. eauto.
  - intros a. unfold rc_mem. rewrite Hfr. unfold mem_store.
    destruct ((addr <=? a) && (a <? addr + zlen d)) eqn:Ea.
    + destruct (Hin a ltac:(lia)) as (x & ->). rewrite Nat.eqb_refl. cbn [r_mem r_base r'].
      rewrite mem_of_slice_set by lia. unfold mem_store.
      replace ((off <=? a - r_base r) && (a - r_base r <? off + zlen d)) with true by lia. f_equal. lia.
    + destruct (find_region rs a) as [[j x]|] eqn:Ef; [|reflexivity].
      destruct (Nat.eqb_spec j i) as [->|]; [|reflexivity].
      destruct (find_region_some _ _ _ _ Ef) as (N5 & N6). assert (x = r) by congruence. subst x. cbn [r_mem r_base r'].
      rewrite mem_of_slice_set by lia. unfold mem_store.
      replace ((off <=? a - r_base r) && (a - r_base r <? off + zlen d)) with false by lia. reflexivity.
Qed.

Lemma rc_read_region_spec rs i addr n : regions_wf rs -> 1 <= n -> in_region rs i addr (addr + n) ->
  rc_read_region rs addr n = Ok (mem_load (rc_mem rs) addr n).
Proof.
  intros Hwf Hn Hin. destruct (Hin addr ltac:(lia)) as (r & Hr). destruct (Hin (addr + n - 1) ltac:(lia)) as (r2 & Hr2).
  destruct (find_region_some _ _ _ _ Hr) as (N1 & N2). destruct (find_region_some _ _ _ _ Hr2) as (N3 & N4).
  assert (r2 = r) by congruence. subst r2.
  unfold regions_wf in Hwf. rewrite Forall_forall in Hwf. destruct (Hwf r (nth_error_In _ _ N1)) as (Hsz & HBr).
  unfold rc_read_region. rewrite Hr. f_equal. rewrite slice_mem_of by lia. apply mem_load_ext. intros j Hj. unfold rc_mem.
  destruct (Hin (addr + j) ltac:(lia)) as (x & Hx). rewrite Hx. destruct (find_region_some _ _ _ _ Hx) as (N5 & N6).
  assert (x = r) by congruence. subst x. f_equal. lia.
Qed.

Lemma rc_mem_byte rs a : regions_wf rs -> is_byte (rc_mem rs a).
Proof.
  intros H. unfold rc_mem. destruct (find_region rs a) as [[j x]|] eqn:E; [|unfold is_byte; lia].
  destruct (find_region_some _ _ _ _ E) as (N & _). unfold regions_wf in H. rewrite Forall_forall in H.
  apply Forall_byte_mem_of. apply (H x). eapply nth_error_In; eauto.
Qed.

Lemma rc_handle_mem_read_spec rs mps t i : regions_wf rs -> 0 <= mps -> 1 <= t_length t -> t_address t mod 4 = 0 ->
  t_address t mod 4096 + 4 * t_length t <= 4096 -> in_region rs i (t_address t) (t_address t + 4 * t_length t) ->
  exists cs, rc_handle_mem_read rs mps t = Ok cs /\
    completes t (mkId 0 0 0) (128 * 2^mps) (t_address t + get_first_be_offset t) (get_be_byte_count t)
      (mem_load (rc_mem rs) (t_address t) (4 * t_length t)) cs.
Proof.
  intros Hwf Hm Hl Ha H4 Hin. unfold rc_handle_mem_read. destruct (Hin (t_address t) ltac:(lia)) as (r & ->).
  replace (t_length t * 4 >? 0x1000 - Z.land (t_address t) 0xfff) with false by (rewrite land_fff; lia).
  rewrite (rc_read_region_spec rs i) by (try replace (t_length t * 4) with (4 * t_length t) by lia; auto; lia).
  cbn [bind]. replace (t_length t * 4) with (4 * t_length t) by lia. apply complete_read_spec; auto.
  - apply Forall_forall. intros x Hx. unfold mem_load in Hx. apply in_map_iff in Hx. destruct Hx as (j & <- & _). now apply rc_mem_byte.
  - apply zlen_mem_load. lia.
Qed.

Lemma rc_handle_mem_write_spec rs t i : regions_wf rs -> 1 <= t_length t ->
  t_address t mod 4096 + 4 * t_length t <= 4096 -> in_region rs i (t_address t) (t_address t + 4 * t_length t) ->
  zlen (t_data t) = t_length t -> Forall (fun w => 0 <= w < 2^32) (t_data t) ->
  exists rs', rc_handle_mem_write rs t = Ok rs' /\ same_map rs' rs /\ regions_wf rs' /\
    forall a, rc_mem rs' a = apply_write (rc_mem rs) t a.
Proof.
  intros Hwf Hl H4 Hin Hd HF. unfold rc_handle_mem_write. destruct (Hin (t_address t) ltac:(lia)) as (r & ->).
  replace (t_length t * 4 >? 0x1000 - Z.land (t_address t) 0xfff) with false by (rewrite land_fff; lia).
  rewrite get_data_payload by assumption. cbn [bind].
  assert (Hpl : zlen (payload t) = 4 * t_length t) by (unfold zlen; rewrite payload_len; unfold zlen in Hd; lia).
  set (addr := t_address t) in *.
  destruct (be_write_spec (fun rs o d => rc_write_region rs (addr + o) d)
    (fun rs' => regions_wf rs' /\ same_map rs' rs /\ in_region rs' i addr (addr + 4 * t_length t))
    (fun rs' j => rc_mem rs' (addr + j)) (4 * t_length t) t (payload t) rs) as (rs' & W1 & (G1 & G2 & G3) & W2); try lia.
  { intros rs1 o d (G1 & G2 & G3) Ho Hod Hne Hincl.
    assert (0 < zlen d) by (destruct d; [congruence|unfold zlen; cbn [length]; lia]).
    destruct (rc_write_region_spec rs1 i (addr + o) d G1 Hne) as (rs2 & R1 & R2 & R3 & R4 & R5).
    { intros a Ha'. apply G3. lia. }
    { rewrite Forall_forall. intros x Hx. apply Hincl in Hx. pose proof (payload_bytes t) as HP. rewrite Forall_forall in HP. auto. }
    exists rs2. split; [assumption|]. split.
    - split; [assumption|]. split; [unfold same_map in *; congruence|]. now apply R4.
    - intros j. rewrite R5. unfold mem_store.
      replace ((addr + o <=? addr + j) && (addr + j <? addr + o + zlen d)) with ((o <=? j) && (j <? o + zlen d)) by lia.
      replace (addr + j - (addr + o)) with (j - o) by lia. reflexivity. }
  { split; [assumption|]. split; [reflexivity|assumption]. }
  exists rs'. split; [assumption|]. split; [assumption|]. split; [assumption|].
  intros a. specialize (W2 (a - addr)). cbv beta in W2. replace (addr + (a - addr)) with a in W2 by lia.
  rewrite W2. unfold apply_write, write_effect. fold addr. now rewrite (selects_shift addr).
Qed.

(** ---- span of a legal request ---- *)
Lemma mask_sweep (P : Z -> bool) : forallb P (tl zr16) = true -> forall m, 0 <= m < 16 -> m <> 0 -> P m = true.
Proof. intros H m Hm H0. rewrite forallb_forall in H. apply H. unfold zr16. cbn. lia. Qed.

Lemma first_off_spec m : 0 <= m < 16 -> m <> 0 ->
  0 <= first_off m <= 3 /\ Z.testbit m (first_off m) = true /\ forall k, 0 <= k < 4 -> Z.testbit m k = true -> first_off m <= k.
Proof.
  intros Hm H0.
  pose proof (mask_sweep (fun m => (0 <=? first_off m) && (first_off m <=? 3) && Z.testbit m (first_off m) &&
    forallb (fun k => implb (Z.testbit m k) (first_off m <=? k)) [0;1;2;3]) ltac:(vm_compute; reflexivity) m Hm H0) as H.
  cbv beta in H. rewrite !andb_true_iff, forallb_forall in H. destruct H as (((A & B) & C) & D).
  split; [lia|]. split; [assumption|]. intros k Hk Hb. specialize (D k ltac:(cbn; lia)). rewrite Hb in D. cbn [implb] in D. lia.
Qed.
Lemma last_off_spec m : 0 <= m < 16 -> m <> 0 ->
  0 <= last_off m <= 3 /\ Z.testbit m (3 - last_off m) = true /\ forall k, 0 <= k < 4 -> Z.testbit m k = true -> k <= 3 - last_off m.
Proof.
  intros Hm H0.
  pose proof (mask_sweep (fun m => (0 <=? last_off m) && (last_off m <=? 3) && Z.testbit m (3 - last_off m) &&
    forallb (fun k => implb (Z.testbit m k) (k <=? 3 - last_off m)) [0;1;2;3]) ltac:(vm_compute; reflexivity) m Hm H0) as H.
  cbv beta in H. rewrite !andb_true_iff, forallb_forall in H. destruct H as (((A & B) & C) & D).
  split; [lia|]. split; [assumption|]. intros k Hk Hb. specialize (D k ltac:(cbn; lia)). rewrite Hb in D. cbn [implb] in D. lia.
Qed.

Lemma span_ok t : be_legal t -> 1 <= t_length t -> selected_span t (t_address t + get_first_be_offset t) (get_be_byte_count t).
Proof.
  intros HB Hl. pose proof HB as (B1 & B2 & B3 & B4 & B5).
  change (get_first_be_offset t) with (first_off (t_first_be t)).
  set (be := if t_length t =? 1 then t_first_be t else t_last_be t).
  assert (HC : get_be_byte_count t = 4 * t_length t - first_off (t_first_be t) - last_off be).
  { unfold get_be_byte_count. change (get_first_be_offset t) with (first_off (t_first_be t)). change (get_last_be_offset t) with (last_off be). lia. }
  assert (Hbe : 0 <= be < 16 /\ be <> 0).
  { unfold be. destruct (Z.eqb_spec (t_length t) 1); [auto|]. split; auto. }
  destruct (first_off_spec _ B1 B3) as (F1 & F2 & F3).
  destruct (last_off_spec be) as (G1 & G2 & G3); try tauto.
  assert (HLl : forall k, 0 <= k < 4 -> lane_enabled (t_first_be t) (t_last_be t) (t_length t) (t_length t - 1) k = Z.testbit be k).
  { intros k Hk. unfold lane_enabled, be. destruct (Z.eqb_spec (t_length t) 1) as [E|E].
    - replace (t_length t - 1 =? 0) with true by lia. reflexivity.
    - replace (t_length t - 1 =? 0) with false by lia. rewrite Z.eqb_refl. reflexivity. }
  rewrite HC. split; [|split].
  - replace (t_address t + first_off (t_first_be t)) with (t_address t + 4 * 0 + first_off (t_first_be t)) by lia.
    rewrite selects_lane by lia. unfold lane_enabled. rewrite Z.eqb_refl. assumption.
  - replace (t_address t + first_off (t_first_be t) + (4 * t_length t - first_off (t_first_be t) - last_off be) - 1)
      with (t_address t + 4 * (t_length t - 1) + (3 - last_off be)) by lia.
    rewrite selects_lane, HLl by lia. assumption.
  - intros a Ha.
    assert (Hr : t_address t <= a < t_address t + 4 * t_length t) by (unfold tlp_selects, selects in Ha; lia).
    set (j := (a - t_address t) / 4). set (k := (a - t_address t) mod 4).
    assert (Hjk : a = t_address t + 4 * j + k) by lia. assert (0 <= j < t_length t) by lia. assert (0 <= k < 4) by lia.
    clearbody j k. subst a. rewrite selects_lane in Ha by assumption. split.
    + destruct (Z.eq_dec j 0) as [->|]; [|lia]. unfold lane_enabled in Ha. rewrite Z.eqb_refl in Ha. specialize (F3 k ltac:(lia) Ha). lia.
    + destruct (Z.eq_dec j (t_length t - 1)) as [->|]; [|lia]. rewrite HLl in Ha by assumption. specialize (G3 k ltac:(lia) Ha). lia.
Qed.

Lemma span_unique t f c f' c' : selected_span t f c -> selected_span t f' c' -> f = f' /\ c = c'.
Proof. intros (A1 & A2 & A3) (B1 & B2 & B3). apply A3 in B1 as X1. apply A3 in B2 as X2. apply B3 in A1 as X3. apply B3 in A2 as X4. lia. Qed.

(** ---- statements used by the property file ---- *)
Lemma function_write_spec rid mps addr data attr tc : 0 <= mps -> Forall is_byte data ->
  exists ts, function_mem_write true rid mps addr data attr tc = Ok ts /\
    Forall (fun t => mem_write_legal (128 * 2^mps) t /\ from_transfer rid attr tc t /\ tlp_check t = true) ts /\
    covers addr (zlen data) ts /\
    (forall a, select_count ts a = if (addr <=? a) && (a <? addr + zlen data) then 1%nat else 0%nat) /\
    (forall m a, apply_writes ts m a = mem_store m addr data a).
Proof.
  intros H1 H2. destruct (mem_write_spec rid mps attr tc addr data H1 H2) as (ts & T1 & T2 & T3 & T4).
  exists ts. unfold function_mem_write. cbn [negb]. repeat (split; [assumption|]). split; [|assumption].
  intros a. apply covers_count; [apply zlen_nonneg|assumption].
Qed.

Lemma rc_write_remote_spec rs mps addr data attr tc : 0 <= mps -> Forall is_byte data -> find_region rs addr = None ->
  exists ts, rc_mem_write rs mps addr data attr tc = Ok (rs, ts) /\
    Forall (fun t => mem_write_legal (128 * 2^mps) t /\ from_transfer (mkId 0 0 0) attr tc t /\ tlp_check t = true) ts /\
    covers addr (zlen data) ts /\
    (forall a, select_count ts a = if (addr <=? a) && (a <? addr + zlen data) then 1%nat else 0%nat) /\
    (forall m a, apply_writes ts m a = mem_store m addr data a).
Proof.
  intros H1 H2 HN. destruct (mem_write_spec (mkId 0 0 0) mps attr tc addr data H1 H2) as (ts & T1 & T2 & T3 & T4).
  exists ts. unfold rc_mem_write. rewrite HN, T1. cbn [bind]. split; [reflexivity|]. repeat (split; [assumption|]). split; [|assumption].
  intros a. apply covers_count; [apply zlen_nonneg|assumption].
Qed.

Lemma rc_write_local_spec rs i mps addr data attr tc : regions_wf rs -> Forall is_byte data -> data <> [] ->
  in_region rs i addr (addr + zlen data) ->
  exists rs', rc_mem_write rs mps addr data attr tc = Ok (rs', []) /\ regions_wf rs' /\ same_map rs' rs /\
    forall a, rc_mem rs' a = mem_store (rc_mem rs) addr data a.
Proof.
  intros Hwf HB Hne Hin. destruct (rc_write_region_spec rs i addr data Hwf Hne Hin HB) as (rs' & R1 & R2 & R3 & _ & R5).
  assert (0 < zlen data) by (destruct data; [congruence|unfold zlen; cbn [length]; lia]).
  exists rs'. unfold rc_mem_write. destruct (Hin addr ltac:(lia)) as (r & ->). rewrite R1. auto.
Qed.

Lemma rc_read_remote_spec rs mrrs attr tc respond M lo hi s addr len :
  0 <= mrrs -> 0 <= len -> find_region rs addr = None -> queues_empty (rq_queues s) ->
  completer_ok (128 * 2^mrrs) M lo hi respond -> lo <= addr -> addr + len <= hi ->
  exists s' ts, rc_mem_read rs mrrs attr tc respond s addr len = Ok (s', mem_load M addr len, ts) /\
    queues_empty (rq_queues s') /\ covers addr len ts /\
    Forall (fun t => mem_req_legal (128 * 2^mrrs) false t /\ from_transfer (mkId 0 0 0) attr tc t /\ tlp_check t = true /\ 0 <= t_tag t < 32) ts.
Proof.
  intros Hm Hl HN HQ HC Hlo Hhi. unfold rc_mem_read. rewrite HN.
  destruct (mem_read_loop_spec false (mkId 0 0 0) mrrs attr tc respond M lo hi len Hm HC (Z.to_nat len) s addr 0 []) as (s' & ts & R1 & R2 & R3 & R4); auto; try lia.
  rewrite Z.sub_0_r in *. exists s', ts. auto.
Qed.

Lemma rc_read_local_spec rs i mrrs attr tc respond s addr len : regions_wf rs -> 1 <= len -> in_region rs i addr (addr + len) ->
  rc_mem_read rs mrrs attr tc respond s addr len = Ok (s, mem_load (rc_mem rs) addr len, []).
Proof.
  intros Hwf Hl Hin. unfold rc_mem_read. destruct (Hin addr ltac:(lia)) as (r & ->).
  rewrite (rc_read_region_spec rs i) by assumption. reflexivity.
Qed.

Lemma ep_completion_spec e t i off l first count :
  match_bar (ep_bars e) (t_address t) false = Ok [(i, off)] ->
  nth (Z.to_nat i) (ep_regions e) ENone = EMem l -> Forall is_byte l -> 0 <= ep_mps e ->
  0 <= off -> off mod 4096 + 4 * t_length t <= 4096 -> off + 4 * t_length t <= zlen l ->
  1 <= t_length t -> t_address t mod 4 = 0 -> be_legal t -> selected_span t first count ->
  exists cs, ep_handle_mem_read e t = Ok cs /\
    completes t (ep_id e) (128 * 2^(ep_mps e)) first count (mem_load (mem_of l) off (4 * t_length t)) cs.
Proof.
  intros. destruct (span_unique t first count _ _ H9 (span_ok t H8 H6)) as (-> & ->).
  now apply ep_handle_mem_read_spec with (i := i).
Qed.

Lemma rc_completion_spec rs mps t i first count : regions_wf rs -> 0 <= mps -> 1 <= t_length t -> t_address t mod 4 = 0 ->
  t_address t mod 4096 + 4 * t_length t <= 4096 -> in_region rs i (t_address t) (t_address t + 4 * t_length t) ->
  be_legal t -> selected_span t first count ->
  exists cs, rc_handle_mem_read rs mps t = Ok cs /\
    completes t (mkId 0 0 0) (128 * 2^mps) first count (mem_load (rc_mem rs) (t_address t) (4 * t_length t)) cs.
Proof.
  intros. destruct (span_unique t first count _ _ H6 (span_ok t H5 H1)) as (-> & ->).
  now apply rc_handle_mem_read_spec with (i := i).
Qed.

(** Zero-length read (no byte enabled): one completion of byte count 1. *)
Lemma ep_zero_length_read e t i off l :
  match_bar (ep_bars e) (t_address t) false = Ok [(i, off)] ->
  nth (Z.to_nat i) (ep_regions e) ENone = EMem l -> Forall is_byte l -> 0 <= ep_mps e ->
  0 <= off -> off mod 4096 <= 4092 -> off + 4 <= zlen l -> t_length t = 1 -> t_address t mod 4 = 0 -> t_first_be t = 0 ->
  exists c, ep_handle_mem_read e t = Ok [c] /\ answers t (ep_id e) c /\ t_length c = 1 /\ t_byte_count c = 1 /\
    payload c = mem_load (mem_of l) off 4.
Proof.
  intros HM Hr HB Hmps Hoff H4 He Hl Ha Hf.
  destruct (ep_handle_mem_read_spec e t i off l) as (cs & C1 & C2); auto; try lia. rewrite Hl in C2.
  change (4 * 1) with 4 in C2.
  assert (E1 : get_be_byte_count t = 1).
  { unfold get_be_byte_count, get_first_be_offset, get_last_be_offset. rewrite Hl, Hf. reflexivity. }
  rewrite E1 in C2. destruct cs as [|c rest]; [destruct C2|]. cbn [completes] in C2. destruct C2 as (A & B1 & B2 & B3 & B4 & B5).
  assert (HZ : zlen (payload c) = 4 * t_length c) by (destruct A as (_ & _ & _ & _ & _ & _ & _ & A8 & _); unfold zlen in *; rewrite payload_len; lia).
  destruct rest as [|c' rest].
  - exists c. split; [assumption|]. split; [assumption|]. assert (t_length c = 1); [|auto].
    rewrite B5, zlen_mem_load in HZ by lia. lia.
  - exfalso. destruct B5 as (P1 & P2 & P3).
    assert (E : skipn (length (payload c)) (mem_load (mem_of l) off 4) = []).
    { apply skipn_all2. pose proof (zlen_mem_load (mem_of l) off 4 ltac:(lia)) as HL. unfold zlen in *. lia. }
    rewrite E in P3. cbn [completes] in P3. destruct P3 as (A' & D1 & _ & _ & _ & D5).
    assert (HZ' : zlen (payload c') = 4 * t_length c') by (destruct A' as (_ & _ & _ & _ & _ & _ & _ & A8 & _); unfold zlen in *; rewrite payload_len; lia).
    destruct rest as [|]; [rewrite D5 in HZ'; change (zlen (@nil Z)) with 0 in HZ'; lia|].
    destruct D5 as (D5 & _). rewrite D5, firstn_nil in HZ'. change (zlen (@nil Z)) with 0 in HZ'; lia.
Qed.

(** A BAR layout in which only BAR [i] decodes the window. *)
Lemma window_of_layout e L i b k : ep_bars e = regs_of L -> Forall bar_ok L -> 4 <= k -> b mod 2^k = 0 ->
  0 <= i < zlen (ep_regions e) ->
  (forall a, b <= a < b + 2^k -> addr_ok L a /\ spec_match 0 L a false = [(i, a - b)]) -> window_at e i b k.
Proof.
  intros HE HL Hk Hb Hi HW. repeat split; auto; try lia. intros a Ha. destruct (HW a Ha) as (A1 & A2).
  rewrite HE, <- A2. now apply match_bar_loop_spec.
Qed.
