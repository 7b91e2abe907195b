(** Proofs about memory request splitting (C07-C13). *)
From Coq Require Import ZifyBool ZifyNat.
From Verif Require Import PyBase BitLemmas TlpModel TlpSpec TlpProofs BarModel SplitModel SplitSpec.
Ltac Zify.zify_post_hook ::= Z.div_mod_to_equations.

Lemma zlen_nonneg {A} (l : list A) : 0 <= zlen l.
Proof. unfold zlen; lia. Qed.

Lemma zlen_slice {A} (l : list A) a b : 0 <= a <= b -> b <= zlen l -> zlen (slice l a b) = b - a.
Proof. unfold zlen, slice. intros. rewrite firstn_length, skipn_length. lia. Qed.

Lemma Forall_firstn {A} (P : A -> Prop) n l : Forall P l -> Forall P (firstn n l).
Proof. intros H. revert n; induction H; intros [|n]; cbn; constructor; auto. Qed.
Lemma Forall_skipn {A} (P : A -> Prop) n l : Forall P l -> Forall P (skipn n l).
Proof. intros H. revert n; induction H; intros [|n]; cbn; auto. Qed.
Lemma Forall_slice {A} (P : A -> Prop) l a b : Forall P l -> Forall P (slice l a b).
Proof. intros. unfold slice. now apply Forall_firstn, Forall_skipn. Qed.

Lemma nth_firstn_lt {A} (d : A) l n i : (i < n)%nat -> nth i (firstn n l) d = nth i l d.
Proof. revert n i; induction l as [|x l IH]; intros [|n] [|i] H; cbn; try lia; auto. apply IH; lia. Qed.
Lemma nth_skipn_add {A} (d : A) l n i : nth i (skipn n l) d = nth (n + i) l d.
Proof. revert n; induction l as [|x l IH]; intros [|n]; cbn; auto. now destruct i. Qed.

Lemma nth_slice (l : list Z) a b i : 0 <= a -> 0 <= i < b - a -> nth (Z.to_nat i) (slice l a b) 0 = nth (Z.to_nat (a + i)) l 0.
Proof.
  intros Ha Hi. unfold slice. rewrite nth_firstn_lt by lia. rewrite nth_skipn_add. f_equal. lia.
Qed.

Lemma land_fff a : Z.land a 0xfff = a mod 4096.
Proof. change 0xfff with (2^12 - 1). now rewrite land_low_mod by lia. Qed.
Lemma land_3 a : Z.land a 3 = a mod 4.
Proof. change 3 with (2^2 - 1). now rewrite land_low_mod by lia. Qed.
Lemma land_7f a : Z.land a 0x7f = a mod 128.
Proof. change 0x7f with (2^7 - 1). now rewrite land_low_mod by lia. Qed.
Lemma shiftl_128 mps : 0 <= mps -> Z.shiftl 128 mps = 128 * 2^mps.
Proof. intros. now rewrite Z.shiftl_mul_pow2. Qed.
Lemma shiftl_32 mps : 0 <= mps -> Z.shiftl 32 mps = 32 * 2^mps.
Proof. intros. now rewrite Z.shiftl_mul_pow2. Qed.
Lemma pow2_pos k : 0 <= k -> 1 <= 2^k.
Proof. intros. pose proof (Z.pow_pos_nonneg 2 k). lia. Qed.

(** bytes of the payload *)
Lemma payload_get_data t pay : get_data t = Ok pay -> payload t = pay.
Proof.
  unfold get_data, payload. generalize (t_data t) as ds. intros ds; revert pay.
  induction ds as [|w ds IH]; intros pay H; cbn [bytes_of_dwords flat_map] in *; [now injection H|].
  unfold pack_u32 in H. destruct (_ && _); [|discriminate]. cbn [bind] in H.
  destruct (bytes_of_dwords ds) as [bs|] eqn:E; [|discriminate]. cbn [bind] in H. injection H as <-.
  rewrite (IH bs eq_refl). reflexivity.
Qed.
Lemma get_data_payload t : Forall (fun w => 0 <= w < 2^32) (t_data t) -> get_data t = Ok (payload t).
Proof.
  unfold get_data, payload. induction 1 as [|w ds Hw H IH]; [reflexivity|].
  cbn [bytes_of_dwords flat_map]. unfold pack_u32. replace ((0 <=? w) && (w <? 2 ^ 32)) with true by lia.
  cbn [bind]. rewrite IH. reflexivity.
Qed.
Lemma payload_len t : length (payload t) = (4 * length (t_data t))%nat.
Proof. unfold payload. induction (t_data t) as [|w l IH]; cbn [flat_map]; [reflexivity|]. rewrite app_length, IH. cbn [le_bytes length]. lia. Qed.

(** byte enables of [set_be] are legal *)
Lemma first_be_legal o : 0 <= o < 4 -> forall p, 0 <= p < 4 ->
  0 <= Z.land (Z.shiftl 15 o) 15 < 16 /\ Z.land (Z.shiftl 15 o) 15 <> 0 /\ 0 <= Z.shiftr 15 p < 16 /\ Z.shiftr 15 p <> 0.
Proof. intros Ho p Hp. revert o Ho p Hp. intros o Ho. sweep4 o; intros p Hp; sweep4 p; cbn; lia. Qed.
Lemma both_be_legal o : 0 <= o < 4 -> forall p, 0 <= p < 4 -> o + p <= 3 ->
  0 <= Z.land (Z.land (Z.shiftl 15 o) 15) (Z.shiftr 15 p) < 16 /\ Z.land (Z.land (Z.shiftl 15 o) 15) (Z.shiftr 15 p) <> 0.
Proof. intros Ho. sweep4 o; intros p Hp; sweep4 p; cbn; lia. Qed.

Lemma be_len_bounds addr len : 1 <= len -> 1 <= be_len addr len /\
  4 * be_len addr len = len + addr mod 4 + (3 - (addr + len - 1) mod 4).
Proof. intros. unfold be_len. lia. Qed.

Lemma set_be_legal addr len t : 1 <= len -> be_legal (fst (set_be addr len t)).
Proof.
  intros Hl. rewrite set_be_eq. cbn zeta. cbn [fst].
  pose proof (first_be_legal (addr mod 4) ltac:(lia) (3 - (addr + len - 1) mod 4) ltac:(lia)) as (H1 & H2 & H3 & H4).
  pose proof (be_len_bounds addr len Hl) as (HB & HB2).
  unfold be_legal. cbn [t_first_be t_last_be t_length set_last_be set_first_be set_length set_address].
  destruct (Z.eqb_spec (be_len addr len) 1).
  - pose proof (both_be_legal (addr mod 4) ltac:(lia) (3 - (addr + len - 1) mod 4) ltac:(lia) ltac:(lia)) as (H5 & H6).
    repeat split; try tauto; try lia.
  - repeat split; try tauto; try lia.
Qed.

(** ---- one write TLP ---- *)
Definition wr_hdr (rid : pcie_id) (attr tc addr : Z) : tlp :=
  set_tc tc (set_attr attr (set_requester_id rid
    (set_fmt_type (if addr >? 0xffffffff then TLP_MEM_WRITE_64 else TLP_MEM_WRITE) tlp0))).

Lemma write_chunk rid mps attr tc addr d :
  0 <= mps -> d <> [] -> Forall is_byte d ->
  zlen d <= 128 * 2^mps - addr mod 4 -> zlen d <= 4096 - addr mod 4096 ->
  exists t, set_be_data addr d (wr_hdr rid attr tc addr) = Ok t /\ tlp_check t = true /\
    mem_write_legal (128 * 2^mps) t /\ from_transfer rid attr tc t /\
    (forall a, tlp_selects t a = true <-> addr <= a < addr + zlen d) /\
    (forall m a, apply_write m t a = mem_store m addr d a).
Proof.
  intros Hmps Hne HB Hmax H4k.
  assert (Hlen: 0 < zlen d) by (destruct d; [congruence|unfold zlen; cbn [length]; lia]).
  destruct (set_be_data_ok addr d (wr_hdr rid attr tc addr) Hne HB) as (t & H1 & H2 & H3 & H4 & H5).
  destruct (set_be_data_spec addr d (wr_hdr rid attr tc addr) Hne HB) as (t' & pay & H1' & H2' & H3' & H4' & H6 & H7 & H8 & H9 & H10).
  rewrite H1 in H1'. injection H1' as <-. rewrite H2 in H2'. assert (E2 : zeros (addr mod 4) ++ d ++ zeros (3 - (addr + zlen d - 1) mod 4) = pay) by congruence.
  exists t. split; [exact H1|].
  pose proof (be_len_bounds addr (zlen d) ltac:(lia)) as (HB1 & HB2).
  pose proof (pow2_pos mps Hmps) as HP.
  assert (HL : t_length t = be_len addr (zlen d)) by (rewrite H3; reflexivity).
  assert (HF : t_fmt_type t = (2 + (if t_address t <? 2^32 then 0 else 1), 0)).
  { unfold t_fmt_type. destruct H7 as (F1 & F2 & _). rewrite F1, F2, H6. unfold wr_hdr.
    destruct (Z.gtb_spec addr 0xffffffff).
    - replace (4 * (addr / 4) <? 2^32) with false by lia. reflexivity.
    - replace (4 * (addr / 4) <? 2^32) with true by lia. reflexivity. }
  assert (HBE : be_legal t).
  { pose proof (set_be_legal addr (zlen d) (wr_hdr rid attr tc addr) ltac:(lia)) as HH.
    assert (E1 : t_first_be t = t_first_be (fst (set_be addr (zlen d) (wr_hdr rid attr tc addr)))) by (rewrite H3; reflexivity).
    assert (E3 : t_last_be t = t_last_be (fst (set_be addr (zlen d) (wr_hdr rid attr tc addr)))) by (rewrite H3; reflexivity).
    unfold be_legal in *. rewrite E1, E3, HL. rewrite set_be_length in HH. exact HH. }
  split; [|split; [|split; [|split]]].
  - unfold tlp_check. rewrite HF. unfold ft_in, ft_eqb. cbn [existsb fst snd].
    pose proof (f_equal fst HF) as F1. cbn [fst t_fmt_type] in F1. rewrite F1, H4, HL, H6, land_fff.
    replace (be_len addr (zlen d) * 4 >? 4096 - (4 * (addr / 4)) mod 4096) with false by lia.
    rewrite Z.eqb_refl. replace (0 >? be_len addr (zlen d)) with false by lia.
    destruct (4 * (addr / 4) <? 2 ^ 32); reflexivity.
  - split; [|split; [lia|exact H5]]. unfold mem_req_legal. rewrite HL, H6. repeat split; try lia; try apply HBE; try tauto.
    rewrite <- H6. exact HF.
  - destruct H7 as (_ & _ & F3 & _ & _ & _ & F4 & _ & _ & _ & _ & _ & F5 & _). unfold from_transfer. rewrite F3, F4, F5. unfold wr_hdr. repeat split; reflexivity.
  - exact H8.
  - intros m a. unfold apply_write, write_effect, mem_store. fold (tlp_selects t a).
    rewrite (payload_get_data t pay) by (rewrite H2, E2; reflexivity).
    destruct ((addr <=? a) && (a <? addr + zlen d)) eqn:E.
    + rewrite (proj2 (H8 a)) by lia. apply H9. lia.
    + destruct (tlp_selects t a) eqn:E'; [|reflexivity]. apply H8 in E'. lia.
Qed.

Lemma mem_store_app m addr d1 d2 a : mem_store (mem_store m addr d1) (addr + zlen d1) d2 a = mem_store m addr (d1 ++ d2) a.
Proof.
  unfold mem_store. rewrite zlen_app. pose proof (zlen_nonneg d1). pose proof (zlen_nonneg d2).
  destruct ((addr + zlen d1 <=? a) && (a <? addr + zlen d1 + zlen d2)) eqn:E1.
  - replace ((addr <=? a) && (a <? addr + (zlen d1 + zlen d2))) with true by lia.
    rewrite app_nth2 by (unfold zlen in *; lia). f_equal. unfold zlen in *; lia.
  - destruct ((addr <=? a) && (a <? addr + zlen d1)) eqn:E2.
    + replace ((addr <=? a) && (a <? addr + (zlen d1 + zlen d2))) with true by lia.
      rewrite app_nth1 by (unfold zlen in *; lia). reflexivity.
    + replace ((addr <=? a) && (a <? addr + (zlen d1 + zlen d2))) with false by lia. reflexivity.
Qed.

Lemma mem_store_nil m addr a : mem_store m addr [] a = m a.
Proof. unfold mem_store. replace ((addr <=? a) && (a <? addr + zlen [])) with false by (unfold zlen; cbn [length]; lia). reflexivity. Qed.

Lemma mem_store_ext m m' addr d : (forall a, m a = m' a) -> forall a, mem_store m addr d a = mem_store m' addr d a.
Proof. intros H a. unfold mem_store. destruct (_ && _); auto. Qed.

Lemma apply_write_ext m m' t : (forall a, m a = m' a) -> forall a, apply_write m t a = apply_write m' t a.
Proof. intros H a. unfold apply_write, write_effect. destruct selects; auto. Qed.
Lemma apply_writes_ext ts : forall m m', (forall a, m a = m' a) -> forall a, apply_writes ts m a = apply_writes ts m' a.
Proof.
  unfold apply_writes. induction ts as [|t ts IH]; intros m m' H a; cbn [fold_left]; [apply H|].
  apply IH. now apply apply_write_ext.
Qed.

Lemma skipn_add {A} n k (l : list A) : skipn n (skipn k l) = skipn (k + n) l.
Proof. revert l; induction k as [|k IH]; intros [|x l]; cbn; auto. now rewrite skipn_nil. Qed.

Lemma slice_skipn_cons {A} (l : list A) n k : 0 <= n -> 0 <= k -> slice l n (n + k) ++ skipn (Z.to_nat (n + k)) l = skipn (Z.to_nat n) l.
Proof.
  intros. unfold slice. replace (n + k - n) with k by lia.
  replace (Z.to_nat (n + k)) with (Z.to_nat n + Z.to_nat k)%nat by lia.
  replace (skipn (Z.to_nat n + Z.to_nat k) l) with (skipn (Z.to_nat k) (skipn (Z.to_nat n) l)).
  - apply firstn_skipn.
  - apply skipn_add.
Qed.

Lemma mem_write_loop_spec rid mps attr tc data : 0 <= mps -> Forall is_byte data -> forall fuel addr n,
  0 <= n <= zlen data -> (Z.to_nat (zlen data - n) <= fuel)%nat ->
  exists ts, mem_write_loop fuel rid mps attr tc addr data n = Ok ts /\
    Forall (fun t => mem_write_legal (128 * 2^mps) t /\ from_transfer rid attr tc t /\ tlp_check t = true) ts /\
    covers addr (zlen data - n) ts /\
    (forall m a, apply_writes ts m a = mem_store m addr (skipn (Z.to_nat n) data) a).
Proof.
  intros Hmps HB. induction fuel as [|f IH]; intros addr n Hn Hf.
  - exists []. cbn [mem_write_loop]. replace (n <? zlen data) with false by lia. split; [reflexivity|].
    split; [constructor|]. split; [cbn; lia|]. intros m a. cbn.
    rewrite skipn_all2 by (unfold zlen in *; lia). now rewrite mem_store_nil.
  - cbn [mem_write_loop]. destruct (Z.ltb_spec n (zlen data)).
    2:{ exists []. split; [reflexivity|].
        split; [constructor|]. split; [cbn; lia|]. intros m a. cbn.
        rewrite skipn_all2 by (unfold zlen in *; lia). now rewrite mem_store_nil. }
    replace (mps <? 0) with false by lia. rewrite shiftl_128, land_fff by assumption.
    set (k := Z.min (Z.min (zlen data - n) (128 * 2^mps - addr mod 4)) (4096 - addr mod 4096)).
    pose proof (pow2_pos mps Hmps) as HP.
    assert (Hk : 1 <= k <= zlen data - n /\ k <= 128 * 2^mps - addr mod 4 /\ k <= 4096 - addr mod 4096) by lia.
    clearbody k. destruct Hk as (Hk1 & Hk2 & Hk3).
    assert (Hz : zlen (slice data n (n + k)) = k) by (rewrite zlen_slice by lia; lia).
    destruct (write_chunk rid mps attr tc addr (slice data n (n + k)) Hmps) as (t & T1 & T2 & T3 & T4 & T5 & T6).
    { intros E. rewrite E in Hz. cbn in Hz. lia. }
    { now apply Forall_slice. }
    { lia. } { lia. }
    unfold wr_hdr in T1. rewrite T1. cbn [bind]. unfold send. rewrite T2. cbn [bind].
    destruct (IH (addr + k) (n + k) ltac:(lia) ltac:(lia)) as (ts & R1 & R2 & R3 & R4).
    rewrite R1. cbn [bind]. exists (t :: ts). split; [reflexivity|]. split; [constructor; auto|].
    split.
    + cbn [covers]. exists k. split; [lia|]. rewrite Hz in T5. split; [exact T5|].
      replace (zlen data - n - k) with (zlen data - (n + k)) by lia. exact R3.
    + intros m a. cbn. change (fold_left apply_write ts (apply_write m t) a) with (apply_writes ts (apply_write m t) a).
      rewrite R4. rewrite (mem_store_ext _ _ _ _ (T6 m)).
      rewrite <- (slice_skipn_cons data n k) by lia. rewrite <- mem_store_app, Hz. reflexivity.
Qed.

Lemma covers_count ts : forall addr len a, 0 <= len -> covers addr len ts ->
  select_count ts a = (if (addr <=? a) && (a <? addr + len) then 1%nat else 0%nat).
Proof.
  unfold select_count. induction ts as [|t ts IH]; intros addr len a Hl H; cbn [covers] in H.
  - replace ((addr <=? a) && (a <? addr + len)) with false by lia. reflexivity.
  - destruct H as (k & Hk & Hs & Hr). cbn [filter].
    specialize (IH (addr + k) (len - k) a ltac:(lia) Hr).
    destruct (tlp_selects t a) eqn:E.
    + apply Hs in E. cbn [length]. rewrite IH.
      replace ((addr + k <=? a) && (a <? addr + k + (len - k))) with false by lia.
      replace ((addr <=? a) && (a <? addr + len)) with true by lia. reflexivity.
    + rewrite IH. assert (~ addr <= a < addr + k) by (intros HH; apply Hs in HH; congruence).
      destruct ((addr <=? a) && (a <? addr + len)) eqn:E2.
      * replace ((addr + k <=? a) && (a <? addr + k + (len - k))) with true by lia. reflexivity.
      * replace ((addr + k <=? a) && (a <? addr + k + (len - k))) with false by lia. reflexivity.
Qed.

Lemma mem_write_spec rid mps attr tc addr data : 0 <= mps -> Forall is_byte data ->
  exists ts, mem_write_loop (length data) rid mps attr tc addr data 0 = Ok ts /\
    Forall (fun t => mem_write_legal (128 * 2^mps) t /\ from_transfer rid attr tc t /\ tlp_check t = true) ts /\
    covers addr (zlen data) ts /\
    (forall m a, apply_writes ts m a = mem_store m addr data a).
Proof.
  intros Hm HB. destruct (mem_write_loop_spec rid mps attr tc data Hm HB (length data) addr 0) as (ts & R1 & R2 & R3 & R4).
  { pose proof (zlen_nonneg data); lia. } { unfold zlen; lia. }
  exists ts. rewrite Z.sub_0_r in R3. auto.
Qed.

(** ---- completions ---- *)
Lemma set_data_bytes_ok d t : (length d mod 4 = 0)%nat -> Forall is_byte d ->
  exists ds, set_data_bytes d t = Ok (set_length (zlen ds) (set_data ds t)) /\
    4 * zlen ds = zlen d /\ flat_map (le_bytes 4) ds = d /\ Forall (fun w => 0 <= w < 2^32) ds.
Proof.
  intros Hl HB. destruct (dwords_bytes_ok d Hl HB (length d) ltac:(lia)) as (ds & D1 & D2 & D3 & D4).
  exists ds. unfold set_data_bytes. rewrite D1. cbn [bind]. split; [reflexivity|].
  split; [lia|]. split; [|assumption].
  change ds with (t_data (set_data ds tlp0)). apply (payload_get_data (set_data ds tlp0)). exact D2.
Qed.

Lemma rcb_off addr : Z.shiftr (Z.land addr 0x7c) 2 = (addr / 4) mod 32.
Proof.
  rewrite Z.shiftr_land. change (Z.shiftr 124 2) with (2^5 - 1). rewrite land_low_mod by lia.
  rewrite Z.shiftr_div_pow2 by lia. reflexivity.
Qed.

Lemma cpl_chunk req comp mps (data : list Z) m L addr count :
  0 <= mps -> Forall is_byte data -> 0 <= m -> 1 <= L -> 4 * (m + L) <= zlen data -> 4 * L <= 128 * 2^mps ->
  4 * L <= count + addr mod 4 + 3 ->
  exists c, (let! cpl := set_data_bytes (slice data (m * 4) ((m + L) * 4))
               (set_lower_address (Z.land addr 0x7f) (set_byte_count count (set_completion_data req comp tlp0))) in
             send cpl) = Ok c /\
    answers req comp c /\ t_length c = L /\ t_byte_count c = count /\ t_lower_address c = addr mod 128 /\
    payload c = slice data (m * 4) ((m + L) * 4).
Proof.
  intros Hmps HB Hm HL Hd Hmax Hc.
  assert (Hz : zlen (slice data (m * 4) ((m + L) * 4)) = 4 * L) by (rewrite zlen_slice by lia; lia).
  set (c0 := set_lower_address _ _).
  destruct (set_data_bytes_ok (slice data (m * 4) ((m + L) * 4)) c0) as (ds & D1 & D2 & D3 & D4).
  { unfold zlen in Hz. assert (length (slice data (m * 4) ((m + L) * 4)) = (Z.to_nat L * 4)%nat) as -> by lia.
    apply Nat.mod_mul. lia. }
  { now apply Forall_slice. }
  rewrite D1. cbn [bind]. exists (set_length (zlen ds) (set_data ds c0)).
  assert (HL2 : zlen ds = L) by lia.
  split.
  - unfold send. assert (tlp_check (set_length (zlen ds) (set_data ds c0)) = true) as ->; [|reflexivity].
    unfold tlp_check. unfold c0, set_completion_data, set_completion. rewrite land_7f. tlp_simp.
    unfold ft_in, ft_eqb. cbn [existsb]. rewrite (Z.eqb_refl (zlen ds)), land_3.
    replace (count + addr mod 128 mod 4 + 3 <? zlen ds * 4) with false by lia.
    replace (0 >? zlen ds) with false by lia. reflexivity.
  - repeat split; auto.
    + unfold c0. apply land_7f.
Qed.

Lemma cpl_loop_spec req comp mps data dw bl : 0 <= mps -> Forall is_byte data -> zlen data = 4 * dw ->
  forall fuel m n addr p, 0 <= m < dw -> (Z.to_nat (dw - m) <= fuel)%nat ->
  0 <= p <= 3 -> bl - n + addr mod 4 + p = 4 * (dw - m) ->
  exists cs, cpl_loop fuel req comp mps data dw bl m n addr = Ok cs /\
    completes req comp (128 * 2^mps) addr (bl - n) (skipn (Z.to_nat (4 * m)) data) cs.
Proof.
  intros Hmps HB Hz. induction fuel as [|f IH]; intros m n addr p Hm Hf Hp Hbl; [lia|].
  cbn [cpl_loop]. replace (m <? dw) with true by lia. replace (mps <? 0) with false by lia.
  rewrite shiftl_32, rcb_off by assumption. pose proof (pow2_pos mps Hmps) as HP.
  destruct (Z.gtb_spec (dw - m) (32 * 2^mps)).
  - set (L := 32 * 2^mps - (addr / 4) mod 32).
    assert (HL : 1 <= L < dw - m /\ L <= 32 * 2^mps) by lia.
    assert (Hend : (addr + (4 * L - addr mod 4)) mod 128 = 0).
    { assert (Hq : addr + (4 * L - addr mod 4) = (addr / 128 + 2^mps) * 128) by lia.
      rewrite Hq. apply Z.mod_mul. lia. }
    clearbody L.
    destruct (cpl_chunk req comp mps data m L addr (bl - n)) as (c & C1 & C2 & C3 & C4 & C5 & C6); try lia; try assumption.
    destruct (set_data_bytes _ _) as [x|] eqn:EX in C1 |- *; [|discriminate]. cbn [bind] in C1 |- *. rewrite C1. cbn [bind].
    rewrite land_3.
    destruct (IH (m + L) (n + (L * 4 - addr mod 4)) (addr + (L * 4 - addr mod 4)) p) as (cs & R1 & R2); try lia.
    rewrite R1. cbn [bind]. exists (c :: cs). split; [reflexivity|].
    cbn [completes]. rewrite C3, C4, C5. split; [assumption|]. split; [lia|]. split; [lia|]. split; [reflexivity|]. split; [reflexivity|].
    cbv zeta. assert (HPl : length (payload c) = Z.to_nat (4 * L)).
    { rewrite C6. pose proof (zlen_slice data (m * 4) ((m + L) * 4) ltac:(lia) ltac:(lia)) as HH. unfold zlen in HH. lia. }
    destruct cs as [|c2 cs]; [destruct R2|].
    split.
    { rewrite HPl, C6. unfold slice. f_equal; [lia|]. f_equal. lia. }
    split; [replace (4 * L) with (L * 4) in * by lia; lia|].
    rewrite HPl, skipn_add. replace (Z.to_nat (4 * m) + Z.to_nat (4 * L))%nat with (Z.to_nat (4 * (m + L))) by lia.
    replace (4 * L) with (L * 4) by lia.
    replace (bl - n - (L * 4 - addr mod 4)) with (bl - (n + (L * 4 - addr mod 4))) by lia. exact R2.
  - destruct (cpl_chunk req comp mps data m (dw - m) addr (bl - n)) as (c & C1 & C2 & C3 & C4 & C5 & C6); try lia; try assumption.
    destruct (set_data_bytes _ _) as [x|] eqn:EX in C1 |- *; [|discriminate]. cbn [bind] in C1 |- *. rewrite C1. cbn [bind].
    replace (m + (dw - m)) with dw in * by lia.
    assert (HE : forall a b, cpl_loop f req comp mps data dw bl dw a b = Ok []).
    { intros. destruct f; cbn [cpl_loop]; replace (dw <? dw) with false by lia; reflexivity. }
    rewrite HE. cbn [bind]. exists [c]. split; [reflexivity|].
    cbn [completes]. rewrite C3, C4, C5. split; [assumption|]. split; [lia|]. split; [lia|]. split; [reflexivity|]. split; [reflexivity|].
    cbv zeta. rewrite C6. unfold slice. rewrite firstn_all2; [f_equal; lia|].
    rewrite skipn_length. unfold zlen in Hz. lia.
Qed.

Lemma first_off_range t : 0 <= get_first_be_offset t <= 3.
Proof. unfold get_first_be_offset. repeat destruct (_ =? _); lia. Qed.
Lemma last_off_range t : 0 <= get_last_be_offset t <= 3.
Proof. unfold get_last_be_offset. cbv zeta. repeat destruct (_ =? _); lia. Qed.

Lemma complete_read_spec req comp mps data : 0 <= mps -> Forall is_byte data ->
  1 <= t_length req -> t_address req mod 4 = 0 -> zlen data = 4 * t_length req ->
  exists cs, complete_read req comp mps data = Ok cs /\
    completes req comp (128 * 2^mps) (t_address req + get_first_be_offset req) (get_be_byte_count req) data cs.
Proof.
  intros Hmps HB Hl Ha Hz. unfold complete_read.
  pose proof (first_off_range req). pose proof (last_off_range req).
  destruct (cpl_loop_spec req comp mps data (t_length req) (get_be_byte_count req) Hmps HB Hz
    (Z.to_nat (t_length req)) 0 0 (t_address req + get_first_be_offset req) (get_last_be_offset req)) as (cs & H1 & H2); try lia.
  { unfold get_be_byte_count. lia. }
  exists cs. split; [assumption|]. rewrite Z.sub_0_r in H2. exact H2.
Qed.

(** ---- consuming completions ---- *)
Lemma skipn_len_slice (l : list Z) a : 0 <= a -> slice l a (zlen l) = skipn (Z.to_nat a) l.
Proof. intros. unfold slice. apply firstn_all2. rewrite skipn_length. unfold zlen. lia. Qed.

Lemma cpl_bytes_ok req comp c : answers req comp c -> cpl_bytes c = Ok (payload c).
Proof.
  intros (_ & _ & _ & _ & _ & _ & _ & HZ & HF). unfold cpl_bytes. rewrite <- HZ. rewrite Z.leb_refl.
  unfold zlen. rewrite Nat2Z.id, firstn_all. now apply (get_data_payload c).
Qed.

Lemma slice_split (d p : list Z) o e : p = firstn (length p) d -> 0 <= o <= zlen p -> zlen p <= e ->
  slice p o e ++ slice (skipn (length p) d) 0 (e - zlen p) = slice d o e.
Proof.
  intros HP Ho He. rewrite <- (firstn_skipn (length p) d) at 2. rewrite <- HP.
  set (r := skipn (length p) d). unfold slice, zlen in *.
  rewrite skipn_app. replace (Z.to_nat o - length p)%nat with O by lia.
  change (skipn (Z.to_nat 0) r) with r. change (skipn 0 r) with r.
  rewrite firstn_app, skipn_length. f_equal. f_equal. lia.
Qed.

(** The receiver recovers the requested bytes: those after the first DWORD's
    offset, up to the byte count. *)
Lemma recv_spec req comp max rest : forall cs addr count data bl m acc fuel,
  completes req comp max addr count data cs ->
  count = bl - m -> 1 <= count -> count + addr mod 4 <= zlen data <= count + addr mod 4 + 3 ->
  zlen data mod 4 = 0 -> (length cs < fuel)%nat ->
  cpl_recv_loop fuel bl m (cs ++ rest) acc = Ok (acc ++ slice data (addr mod 4) (addr mod 4 + count), rest).
Proof.
  induction cs as [|c cs IH]; intros addr count data bl m acc fuel H Hc H1 Hz Hz4 Hf; [destruct H|].
  destruct fuel as [|f]; [cbn in Hf; lia|]. cbn [length] in Hf.
  cbn [completes] in H. destruct H as (HA & HL & HM & HBC & HLA & HR). cbv zeta in HR.
  cbn [cpl_recv_loop app]. replace (m <? bl) with true by lia.
  rewrite (cpl_bytes_ok _ _ _ HA). destruct HA as (_ & HS & _ & _ & _ & _ & _ & HZ & _).
  rewrite HS. change (negb (0 =? CPL_STATUS_SC)) with false. cbv iota.
  rewrite HLA, HBC, land_3. replace (addr mod 128 mod 4) with (addr mod 4) by lia.
  assert (HPl : zlen (payload c) = 4 * t_length c).
  { unfold zlen in *. rewrite payload_len. lia. }
  replace (count =? bl - m) with true by lia.
  destruct cs as [|c2 cs].
  - subst data.
    replace (count + 3 + addr mod 4 >=? t_length c * 4) with true by lia. cbn [negb bind].
    destruct f as [|f']; [cbn in Hf; lia|]. cbn [cpl_recv_loop].
    replace (m + (zlen (payload c) - addr mod 4) <? bl) with false by lia. reflexivity.
  - destruct HR as (HP & Hend & HR).
    assert (HLlt : 4 * t_length c < zlen data).
    { destruct (Z.ltb_spec (4 * t_length c) (zlen data)); [assumption|].
      exfalso. rewrite (skipn_all2 data) in HR by (unfold zlen in *; lia).
      assert (HLc: 4 * t_length c = zlen data).
      { apply (f_equal (@length Z)) in HP. rewrite firstn_length in HP. unfold zlen in *. lia. }
      clear -HR. destruct HR as (HA & HL & _ & _ & _ & HR).
      assert (payload c2 = []) as E.
      { destruct cs; [assumption|]. destruct HR as (HP & _). rewrite firstn_nil in HP. assumption. }
      pose proof (payload_len c2) as HH. rewrite E in HH. cbn in HH. destruct HA as (_ & _ & _ & _ & _ & _ & _ & HZ & _).
      unfold zlen in HZ. lia. }
    assert (Hdel : (addr + (4 * t_length c - addr mod 4)) mod 4 = 0) by lia.
    replace (count + 3 + addr mod 4 >=? t_length c * 4) with true by lia. cbn [negb bind].
    assert (Hsk : zlen (skipn (length (payload c)) data) = zlen data - 4 * t_length c).
    { unfold zlen in *. rewrite skipn_length. lia. }
    assert (Hc' : count - (4 * t_length c - addr mod 4) = bl - (m + (zlen (payload c) - addr mod 4))) by lia.
    rewrite (IH _ _ _ _ _ _ _ HR Hc') by (rewrite ?Hdel, ?Hsk; cbn [length] in *; lia).
    f_equal. f_equal. rewrite <- app_assoc. f_equal. rewrite Hdel. rewrite Z.add_0_l.
    replace (count - (4 * t_length c - addr mod 4)) with (addr mod 4 + count - zlen (payload c)) by lia.
    rewrite (slice_split data (payload c)) by (try assumption; lia). reflexivity.
Qed.

(** ---- read requests ---- *)
Lemma free_tag_empty ext s : queues_empty (rq_queues s) ->
  exists tag, get_free_tag ext s = (mkRq tag (rq_queues s), Some tag) /\ 0 <= tag < (if ext then 256 else 32).
Proof.
  intros H. unfold get_free_tag. exists ((rq_tag s + 1) mod (if ext then 256 else 32)).
  destruct ext; (split; [|apply Z.mod_pos_bound; lia]).
  - change (Z.to_nat 256) with (S 255). cbn [free_tag_loop]. rewrite H. reflexivity.
  - change (Z.to_nat 32) with (S 31). cbn [free_tag_loop]. rewrite H. reflexivity.
Qed.

Definition rd_hdr (rid : pcie_id) (tag attr tc addr : Z) : tlp :=
  set_tc tc (set_attr attr (set_tag tag (set_requester_id rid
    (set_fmt_type (if addr >? 0xffffffff then TLP_MEM_READ_64 else TLP_MEM_READ) tlp0)))).

Lemma read_chunk rid mx tag attr tc addr k : 1 <= k ->
  k <= mx - addr mod 4 -> mx mod 4 = 0 -> k <= 4096 - addr mod 4096 ->
  let t := fst (set_be addr k (rd_hdr rid tag attr tc addr)) in
  tlp_check t = true /\ mem_req_legal mx false t /\ from_transfer rid attr tc t /\ t_tag t = tag /\
  (forall a, tlp_selects t a = true <-> addr <= a < addr + k).
Proof.
  intros Hk Hmax Hm4 H4k t.
  pose proof (set_be_spec addr k (rd_hdr rid tag attr tc addr) Hk) as (S1 & S2 & S3 & S4). fold t in S1, S2, S3, S4.
  pose proof (be_len_bounds addr k Hk) as (HB1 & HB2).
  assert (HA : t_address t = 4 * (addr / 4)) by (unfold t; rewrite set_be_address; lia).
  assert (HL : t_length t = be_len addr k) by (unfold t; apply set_be_length).
  assert (HF : t_fmt_type t = (0 + (if t_address t <? 2^32 then 0 else 1), 0)).
  { unfold t_fmt_type. destruct S4 as (F1 & F2 & _). rewrite F1, F2, HA. unfold rd_hdr.
    destruct (Z.gtb_spec addr 0xffffffff).
    - replace (4 * (addr / 4) <? 2^32) with false by lia. reflexivity.
    - replace (4 * (addr / 4) <? 2^32) with true by lia. reflexivity. }
  pose proof (set_be_legal addr k (rd_hdr rid tag attr tc addr) Hk) as HBE. fold t in HBE.
  split; [|split; [|split; [|split]]]; auto.
  - unfold tlp_check. rewrite HF. unfold ft_in, ft_eqb. cbn [existsb fst snd].
    pose proof (f_equal fst HF) as F1. cbn [fst t_fmt_type] in F1. rewrite F1, HL, HA, land_fff.
    replace (be_len addr k * 4 >? 4096 - (4 * (addr / 4)) mod 4096) with false by lia.
    destruct (4 * (addr / 4) <? 2 ^ 32); reflexivity.
  - unfold mem_req_legal. rewrite HL. rewrite HA at 1 2.
    assert (4 * be_len addr k <= mx) by lia.
    repeat split; try lia; try apply HBE; try tauto.
  - destruct S4 as (_ & _ & F3 & _ & _ & _ & F4 & _ & _ & _ & _ & _ & F5 & _). unfold from_transfer. rewrite F3, F4, F5. unfold rd_hdr. repeat split; reflexivity.
  - destruct S4 as (_ & _ & _ & _ & _ & _ & _ & _ & _ & _ & _ & _ & _ & _ & F & _). rewrite F. reflexivity.
Qed.

Lemma zlen_mem_load M a n : 0 <= n -> zlen (mem_load M a n) = n.
Proof. intros. unfold zlen, mem_load. rewrite map_length, seq_length. lia. Qed.

Lemma nth_mem_load M a n i : 0 <= i < n -> nth (Z.to_nat i) (mem_load M a n) 0 = M (a + i).
Proof.
  intros H. unfold mem_load. rewrite nth_indep with (d' := M (a + Z.of_nat 0)) by (rewrite map_length, seq_length; lia).
  rewrite (map_nth (fun k => M (a + Z.of_nat k)) (seq 0 (Z.to_nat n)) 0%nat). rewrite seq_nth by lia. f_equal. lia.
Qed.

Lemma list_eq_nth (l l' : list Z) : length l = length l' -> (forall i, (i < length l)%nat -> nth i l 0 = nth i l' 0) -> l = l'.
Proof. intros. now apply nth_ext with 0 0. Qed.

Lemma seq_shift_add n k : seq n k = map (fun i => (n + i)%nat) (seq 0 k).
Proof. revert n; induction k as [|k IH]; intros n; [reflexivity|]. cbn [seq map]. f_equal; [lia|].
  rewrite (IH (S n)), (IH 1%nat), map_map. apply map_ext. intros; lia. Qed.

Lemma mem_load_app M a n k : 0 <= n -> 0 <= k -> mem_load M a n ++ mem_load M (a + n) k = mem_load M a (n + k).
Proof.
  intros. unfold mem_load. replace (Z.to_nat (n + k)) with (Z.to_nat n + Z.to_nat k)%nat by lia.
  rewrite seq_app, map_app. f_equal. rewrite Nat.add_0_l.
  rewrite (seq_shift_add (Z.to_nat n)). rewrite map_map. apply map_ext. intros i. f_equal. lia.
Qed.

Lemma slice_mem_load M a n o e : 0 <= o <= e -> e <= n -> slice (mem_load M a n) o e = mem_load M (a + o) (e - o).
Proof.
  intros. apply list_eq_nth.
  - pose proof (zlen_slice (mem_load M a n) o e ltac:(lia) ltac:(rewrite zlen_mem_load; lia)) as H1.
    pose proof (zlen_mem_load M (a + o) (e - o) ltac:(lia)) as H2. unfold zlen in *. lia.
  - intros i Hi. pose proof (zlen_slice (mem_load M a n) o e ltac:(lia) ltac:(rewrite zlen_mem_load; lia)) as H1.
    unfold zlen in H1. rewrite <- (Nat2Z.id i). rewrite nth_slice by lia. rewrite !nth_mem_load by lia. f_equal. lia.
Qed.

Lemma mem_load_bytes M a n : (forall x, is_byte (M x)) -> Forall is_byte (mem_load M a n).
Proof. intros H. unfold mem_load. apply Forall_map, Forall_forall. auto. Qed.

Lemma recv_request mx M lo hi respond t first count acc :
  completer_ok mx M lo hi respond -> mem_req_legal mx false t -> tlp_check t = true ->
  1 <= count -> t_address t = first - first mod 4 -> 4 * t_length t <= count + first mod 4 + 3 ->
  count + first mod 4 <= 4 * t_length t ->
  (forall a, tlp_selects t a = true <-> first <= a < first + count) -> lo <= first -> first + count <= hi ->
  cpl_recv_loop (S (length (respond t))) count 0 ([] ++ respond t) acc = Ok (acc ++ mem_load M first count, []).
Proof.
  intros HC HL Hck Hc HA H4 H5 HS Hlo Hhi.
  destruct (HC t HL Hck) with (first := first) (count := count) as (comp & cmax & HH).
  { intros a Ha. apply HS in Ha. lia. } { lia. } { exact HS. }
  assert (1 <= t_length t) by apply HL.
  cbn [app]. rewrite <- (app_nil_r (respond t)) at 2.
  rewrite (recv_spec _ _ _ [] _ _ _ _ _ _ acc _ HH).
  - rewrite HA. rewrite slice_mem_load by lia. do 3 f_equal. f_equal; lia.
  - lia.
  - lia.
  - rewrite zlen_mem_load by lia. lia.
  - rewrite zlen_mem_load by lia. lia.
  - lia.
Qed.

Lemma mem_read_loop_spec ext rid mrrs attr tc respond M lo hi len :
  0 <= mrrs -> completer_ok (128 * 2^mrrs) M lo hi respond ->
  forall fuel s addr n data, queues_empty (rq_queues s) -> 0 <= n <= len -> (Z.to_nat (len - n) <= fuel)%nat ->
  lo <= addr -> addr + (len - n) <= hi ->
  exists s' ts, mem_read_loop fuel false ext rid mrrs attr tc respond s addr len n data =
      Ok (s', data ++ mem_load M addr (len - n), ts) /\
    queues_empty (rq_queues s') /\ covers addr (len - n) ts /\
    Forall (fun t => mem_req_legal (128 * 2^mrrs) false t /\ from_transfer rid attr tc t /\ tlp_check t = true /\
                     0 <= t_tag t < (if ext then 256 else 32)) ts.
Proof.
  intros Hmrrs HC. induction fuel as [|f IH]; intros s addr n data HQ Hn Hf Hlo Hhi.
  - exists s, []. cbn [mem_read_loop]. replace (n <? len) with false by lia.
    replace (len - n) with 0 by lia. cbn. rewrite app_nil_r. repeat split; auto.
  - cbn [mem_read_loop]. destruct (Z.ltb_spec n len).
    2:{ exists s, []. replace (len - n) with 0 by lia. cbn. rewrite app_nil_r. repeat split; auto. }
    destruct (free_tag_empty ext s HQ) as (tag & Htag & Hrange). rewrite Htag. cbv beta iota.
    replace (mrrs <? 0) with false by lia. rewrite shiftl_128, land_fff by assumption.
    pose proof (pow2_pos mrrs Hmrrs) as HP.
    set (k := Z.min (Z.min (len - n) (128 * 2^mrrs - addr mod 4)) (4096 - addr mod 4096)).
    assert (Hk : 1 <= k <= len - n /\ k <= 128 * 2^mrrs - addr mod 4 /\ k <= 4096 - addr mod 4096) by lia.
    clearbody k. destruct Hk as (Hk1 & Hk2 & Hk3).
    destruct (read_chunk rid (128 * 2^mrrs) tag attr tc addr k) as (T1 & T2 & T3 & T4 & T5); try lia.
    set (t := fst (set_be addr k (rd_hdr rid tag attr tc addr))) in *.
    change (fst (set_be addr k _)) with t.
    pose proof (be_len_bounds addr k ltac:(lia)) as (HB1 & HB2).
    assert (HA : t_address t = addr - addr mod 4) by apply set_be_address.
    assert (HL : t_length t = be_len addr k) by apply set_be_length.
    unfold send. rewrite T1. cbn [bind rq_queues]. rewrite HQ.
    rewrite (recv_request (128 * 2^mrrs) M lo hi respond t addr k data) by (try assumption; lia).
    cbn [bind fst snd rq_tag].
    set (s1 := mkRq _ _).
    destruct (IH s1 (addr + k) (n + k) (data ++ mem_load M addr k)) as (s' & ts & R1 & R2 & R3 & R4); try lia.
    { intros j. cbn. rewrite HQ. now destruct (j =? tag). }
    rewrite R1. cbn [bind fst snd]. exists s', (t :: ts). split.
    { rewrite <- app_assoc. replace (len - (n + k)) with ((len - n) - k) by lia.
      rewrite mem_load_app by lia. do 4 f_equal. f_equal. lia. }
    split; [assumption|]. split.
    + cbn [covers]. exists k. split; [lia|]. split; [exact T5|]. replace (len - n - k) with (len - (n + k)) by lia. exact R3.
    + constructor; auto. rewrite T4. auto.
Qed.

(** ---- Function.mem_read: right for one chunk, raises otherwise ---- *)
Lemma function_read_single rid ext mrrs attr tc respond M lo hi s addr len :
  0 <= mrrs -> completer_ok (128 * 2^mrrs) M lo hi respond -> queues_empty (rq_queues s) -> 1 <= len ->
  len <= 128 * 2^mrrs - addr mod 4 -> len <= 4096 - addr mod 4096 -> lo <= addr -> addr + len <= hi ->
  exists s' t, function_mem_read true ext rid mrrs attr tc respond s addr len = Ok (s', Some (mem_load M addr len), [t]) /\
    queues_empty (rq_queues s') /\ mem_req_legal (128 * 2^mrrs) false t /\ from_transfer rid attr tc t /\
    (forall a, tlp_selects t a = true <-> addr <= a < addr + len).
Proof.
  intros Hmrrs HC HQ Hlen H1 H2 Hlo Hhi. unfold function_mem_read. cbn [negb].
  assert (Hfu : exists f, Z.to_nat len = S f) by (exists (pred (Z.to_nat len)); lia). destruct Hfu as (f & ->).
  cbn [mem_read_loop]. replace (0 <? len) with true by lia.
  destruct (free_tag_empty ext s HQ) as (tag & Htag & Hrange). rewrite Htag. cbv beta iota.
  replace (mrrs <? 0) with false by lia. rewrite shiftl_128, land_fff by assumption.
  pose proof (pow2_pos mrrs Hmrrs) as HP.
  replace (Z.min (Z.min (len - 0) (128 * 2^mrrs - addr mod 4)) (4096 - addr mod 4096)) with len by lia.
  destruct (read_chunk rid (128 * 2^mrrs) tag attr tc addr len) as (T1 & T2 & T3 & T4 & T5); try lia.
  set (t := fst (set_be addr len (rd_hdr rid tag attr tc addr))) in *.
  change (fst (set_be addr len _)) with t.
  pose proof (be_len_bounds addr len ltac:(lia)) as (HB1 & HB2).
  assert (HA : t_address t = addr - addr mod 4) by apply set_be_address.
  assert (HL : t_length t = be_len addr len) by apply set_be_length.
  unfold send. rewrite T1. cbn [bind rq_queues]. rewrite HQ.
  rewrite (recv_request (128 * 2^mrrs) M lo hi respond t addr len []) by (try assumption; lia).
  cbn [bind fst snd rq_tag app].
  assert (HE : forall s0 d, mem_read_loop f true ext rid mrrs attr tc respond s0 (addr + len) len (0 + len) d = Ok (s0, d, [])).
  { intros. destruct f; cbn [mem_read_loop]; replace (0 + len <? len) with false by lia; reflexivity. }
  rewrite HE. cbn [bind fst snd]. eexists. exists t. split; [reflexivity|].
  split; [|auto]. intros j. cbn. rewrite HQ. now destruct (j =? tag).
Qed.

(** Completions for the whole length: byte counts start at [len]. *)
Lemma function_read_raises rid ext mrrs attr tc respond M lo hi s addr len :
  0 <= mrrs -> (forall mx, completer_ok mx M lo hi respond) -> queues_empty (rq_queues s) -> 1 <= len ->
  Z.min (128 * 2^mrrs - addr mod 4) (4096 - addr mod 4096) < len -> lo <= addr -> addr + len <= hi ->
  function_mem_read true ext rid mrrs attr tc respond s addr len = Err AssertionError.
Proof.
  intros Hmrrs HC HQ Hlen H1 Hlo Hhi. unfold function_mem_read. cbn [negb].
  assert (Hfu : exists f, Z.to_nat len = S f) by (exists (pred (Z.to_nat len)); lia). destruct Hfu as (f & ->).
  cbn [mem_read_loop]. replace (0 <? len) with true by lia.
  destruct (free_tag_empty ext s HQ) as (tag & Htag & Hrange). rewrite Htag. cbv beta iota.
  replace (mrrs <? 0) with false by lia. rewrite shiftl_128, land_fff by assumption.
  pose proof (pow2_pos mrrs Hmrrs) as HP.
  set (k := Z.min (Z.min (len - 0) (128 * 2^mrrs - addr mod 4)) (4096 - addr mod 4096)).
  assert (Hk : 1 <= k < len) by lia. clearbody k.
  set (t := fst (set_be addr len _)).
  change (t) with (fst (set_be addr len (rd_hdr rid tag attr tc addr))) in *. 
  set (t' := fst (set_be addr len (rd_hdr rid tag attr tc addr))). change t with t'. clear t. rename t' into t.
  unfold send. destruct (tlp_check t) eqn:Eck; cbn [bind]; [|reflexivity].
  pose proof (be_len_bounds addr len ltac:(lia)) as (HB1 & HB2).
  assert (HA : t_address t = addr - addr mod 4) by apply set_be_address.
  assert (HL : t_length t = be_len addr len) by apply set_be_length.
  pose proof (set_be_spec addr len (rd_hdr rid tag attr tc addr) Hlen) as (S1 & S2 & S3 & S4). fold t in S1, S2, S3, S4.
  pose proof (set_be_legal addr len (rd_hdr rid tag attr tc addr) Hlen) as HBE. fold t in HBE.
  assert (HF : t_fmt_type t = (0 + (if t_address t <? 2^32 then 0 else 1), 0)).
  { unfold t_fmt_type. destruct S4 as (F1 & F2 & _). rewrite F1, F2, HA. unfold rd_hdr.
    destruct (Z.gtb_spec addr 0xffffffff).
    - replace (addr - addr mod 4 <? 2^32) with false by lia. reflexivity.
    - replace (addr - addr mod 4 <? 2^32) with true by lia. reflexivity. }
  destruct (HC (4 * t_length t) t) with (first := addr) (count := len) as (comp & cmax & HH).
  { unfold mem_req_legal. split; [assumption|]. split; [lia|]. split; [lia|]. split; [|split; [exact HBE|exact HF]].
    unfold tlp_check in Eck. apply andb_true_iff in Eck as (Eck & _). apply andb_true_iff in Eck as (Eck & _).
    apply andb_true_iff in Eck as (_ & Eck).
    assert (HI : ft_in (t_fmt_type t) [TLP_MEM_READ; TLP_MEM_READ_64; TLP_MEM_READ_LOCKED; TLP_MEM_READ_LOCKED_64; TLP_MEM_WRITE; TLP_MEM_WRITE_64] = true).
    { rewrite HF. destruct (t_address t <? 2^32); reflexivity. }
    rewrite HI in Eck. rewrite land_fff in Eck. lia. }
  { assumption. } { intros a Ha. apply S1 in Ha. lia. } { lia. } { exact S1. }
  cbn [rq_queues]. rewrite HQ. cbn [app].
  destruct (respond t) as [|c cs]; [destruct HH|].
  cbn [length cpl_recv_loop]. replace (0 <? k) with true by lia.
  cbn [completes] in HH. destruct HH as (HAn & _ & _ & HBC & _).
  destruct HAn as (_ & HSt & _). rewrite HSt. change (negb (0 =? CPL_STATUS_SC)) with false. cbv iota.
  rewrite HBC. destruct (negb (_ >=? _)); [reflexivity|].
  replace (len =? k - 0) with false by lia. reflexivity.
Qed.

(** ---- byte-enable run writer ---- *)
Lemma incl_slice (l : list Z) a b : incl (slice l a b) l.
Proof.
  intros x Hx. unfold slice in Hx.
  rewrite <- (firstn_skipn (Z.to_nat a) l). apply in_or_app. right.
  rewrite <- (firstn_skipn (Z.to_nat (b - a)) (skipn (Z.to_nat a) l)). apply in_or_app. now left.
Qed.

Section BeWrite.
  Context {S : Type} (wr : S -> Z -> list Z -> result S) (good : S -> Prop) (view : S -> Z -> Z) (N : Z).
  Variable data : list Z.
  Hypothesis Hwr : forall s o d, good s -> 0 <= o -> o + zlen d <= N -> d <> [] -> incl d data ->
    exists s', wr s o d = Ok s' /\ good s' /\
      forall j, view s' j = if (o <=? j) && (j <? o + zlen d) then nth (Z.to_nat (j - o)) d 0 else view s j.
  Variables (sel : Z -> bool) (s0 : S).
  Hypothesis HN : zlen data <= N.

  Definition run_inv (st : Z * option Z * S) (off : Z) : Prop :=
    let '(o, start, s) := st in
    o = off /\ good s /\
    let lo := match start with Some x => x | None => off end in
    0 <= lo <= off /\ (forall j, lo <= j < off -> sel j = true) /\
    forall j, view s j = if (0 <=? j) && (j <? lo) && sel j then nth (Z.to_nat j) data 0 else view s0 j.

  Lemma run_flush s so off : off <= zlen data -> run_inv (off, Some so, s) off ->
    exists s', (if negb (off =? so) then wr s so (slice data so off) else Ok s) = Ok s' /\ run_inv (off, None, s') off.
  Proof.
    intros Hoff (_ & HG & Hlo & Hp & Hv).
    destruct (Z.eqb_spec off so) as [->|Hne]; cbn [negb].
    - exists s. split; [reflexivity|]. cbn. repeat split; auto; lia.
    - assert (Hz : zlen (slice data so off) = off - so) by (rewrite zlen_slice by lia; lia).
      destruct (Hwr s so (slice data so off) HG) as (s' & W1 & W2 & W3); try lia.
      { intros E. rewrite E in Hz. cbn in Hz. lia. }
      { apply incl_slice. }
      exists s'. split; [exact W1|]. cbn. repeat split; auto; try lia.
      intros j. rewrite W3, Hz, Hv.
      destruct ((so <=? j) && (j <? so + (off - so))) eqn:E1.
      + replace ((0 <=? j) && (j <? off)) with true by lia. rewrite Hp by lia. cbn [andb].
        rewrite nth_slice by lia. f_equal. lia.
      + destruct (Z.ltb_spec j so).
        * replace (j <? off) with true by lia. reflexivity.
        * replace (j <? off) with false by lia. reflexivity.
  Qed.

  Lemma be_lane_inv mask st off k : run_inv st off -> 0 <= off < zlen data -> 0 <= k ->
    Z.testbit mask k = sel off -> exists st', be_lane wr data mask st k = Ok st' /\ run_inv st' (off + 1).
  Proof.
    intros HI Hoff Hk Hb. destruct st as [[o start] s]. pose proof HI as (-> & HG & Hlo & Hp & Hv).
    unfold be_lane. rewrite Z.shiftl_1_l, land_pow2_testbit, Hb by assumption.
    destruct (sel off) eqn:Es.
    - eexists; split; [reflexivity|]. destruct start as [so|]; cbn.
      + repeat split; auto; try lia. intros j Hj. destruct (Z.eq_dec j off); [congruence|apply Hp; lia].
      + repeat split; auto; try lia. intros j Hj. replace j with off by lia. assumption.
    - destruct start as [so|].
      + destruct (run_flush s so off ltac:(lia) HI) as (s' & -> & (_ & HG' & Hlo' & Hp' & Hv')). cbn [bind].
        eexists; split; [reflexivity|]. cbn. repeat split; auto; try lia.
        intros j. rewrite Hv'. destruct (Z.eq_dec j off) as [->|].
        * rewrite Es, !andb_false_r. reflexivity.
        * replace (j <? off + 1) with (j <? off) by lia. reflexivity.
      + cbn [bind]. eexists; split; [reflexivity|]. cbn. repeat split; auto; try lia.
        intros j. rewrite Hv. destruct (Z.eq_dec j off) as [->|].
        * rewrite Es, !andb_false_r. reflexivity.
        * replace (j <? off + 1) with (j <? off) by lia. reflexivity.
  Qed.

  Lemma be_dword_inv mask st off : run_inv st off -> 0 <= off -> off + 4 <= zlen data ->
    (forall k, 0 <= k < 4 -> Z.testbit mask k = sel (off + k)) ->
    exists st', be_dword wr data mask st = Ok st' /\ run_inv st' (off + 4).
  Proof.
    intros HI H0 H4 Hb. unfold be_dword.
    destruct (be_lane_inv mask st off 0 HI) as (st1 & -> & I1); try lia.
    { rewrite Hb by lia. f_equal; lia. } cbn [bind].
    destruct (be_lane_inv mask st1 (off+1) 1 I1) as (st2 & -> & I2); try lia.
    { rewrite Hb by lia. f_equal; lia. } cbn [bind].
    destruct (be_lane_inv mask st2 (off+1+1) 2 I2) as (st3 & -> & I3); try lia.
    { rewrite Hb by lia. f_equal; lia. } cbn [bind].
    destruct (be_lane_inv mask st3 (off+1+1+1) 3 I3) as (st4 & -> & I4); try lia.
    { rewrite Hb by lia. f_equal; lia. }
    exists st4. split; [reflexivity|]. replace (off + 4) with (off + 1 + 1 + 1 + 1) by lia. exact I4.
  Qed.
End BeWrite.

Lemma be_write_spec {S} (wr : S -> Z -> list Z -> result S) (good : S -> Prop) (view : S -> Z -> Z) N t data s :
  (forall s o d, good s -> 0 <= o -> o + zlen d <= N -> d <> [] -> incl d data ->
    exists s', wr s o d = Ok s' /\ good s' /\
      forall j, view s' j = if (o <=? j) && (j <? o + zlen d) then nth (Z.to_nat (j - o)) d 0 else view s j) ->
  good s -> 1 <= t_length t -> zlen data = 4 * t_length t -> zlen data <= N ->
  exists s', be_write wr t data s = Ok s' /\ good s' /\
    forall j, view s' j = if selects 0 (t_length t) (t_first_be t) (t_last_be t) j then nth (Z.to_nat j) data 0 else view s j.
Proof.
  intros Hwr HG Hl Hz HN.
  set (sel := fun j => lane_enabled (t_first_be t) (t_last_be t) (t_length t) (j / 4) (j mod 4)).
  unfold be_write.
  assert (I0 : run_inv good view data sel s (0, None, s) 0).
  { cbn. repeat split; auto; try lia. intros j. replace ((0 <=? j) && (j <? 0)) with false by lia. reflexivity. }
  destruct (be_dword_inv wr good view N data Hwr sel s HN (t_first_be t) _ 0 I0) as (st1 & -> & I1); try lia.
  { intros k Hk. unfold sel, lane_enabled. replace ((0 + k) / 4) with 0 by lia. rewrite Z.eqb_refl. f_equal. lia. }
  cbn [bind].
  assert (HX : exists st3, (let! st := (if t_length t >? 1 then be_dword wr data (t_last_be t)
      (if t_length t >? 2 then let '(offset, start, s) := st1 in
        (offset + (t_length t - 2) * 4, match start with None => Some offset | Some _ => start end, s) else st1)
      else Ok (if t_length t >? 2 then let '(offset, start, s) := st1 in
        (offset + (t_length t - 2) * 4, match start with None => Some offset | Some _ => start end, s) else st1)) in Ok st) = Ok st3 /\
      run_inv good view data sel s st3 (4 * t_length t)).
  { destruct (Z.gtb_spec (t_length t) 1).
    - assert (I2 : run_inv good view data sel s (if t_length t >? 2 then let '(offset, start, s) := st1 in
        (offset + (t_length t - 2) * 4, match start with None => Some offset | Some _ => start end, s) else st1) (4 * t_length t - 4)).
      { destruct (Z.gtb_spec (t_length t) 2).
        - destruct st1 as [[o start] s1]. destruct I1 as (-> & G1 & L1 & P1 & V1).
          assert (Hmid : forall j, 4 <= j < 4 * t_length t - 4 -> sel j = true).
          { intros j Hj. unfold sel, lane_enabled. replace (j / 4 =? 0) with false by lia.
            replace (j / 4 =? t_length t - 1) with false by lia. reflexivity. }
          destruct start as [so|]; unfold run_inv; cbv zeta.
          + split; [lia|]. split; [assumption|]. split; [lia|]. split; [|assumption].
            intros j Hj. destruct (Z.ltb_spec j 4); [apply P1; lia|apply Hmid; lia].
          + split; [lia|]. split; [assumption|]. split; [lia|]. split; [|assumption].
            intros j Hj. apply Hmid; lia.
        - replace (4 * t_length t - 4) with (0 + 4) by lia. exact I1. }
      destruct (be_dword_inv wr good view N data Hwr sel s HN (t_last_be t) _ _ I2) as (st3 & -> & I3); try lia.
      { intros k Hk. unfold sel, lane_enabled. replace ((4 * t_length t - 4 + k) / 4 =? 0) with false by lia.
        replace ((4 * t_length t - 4 + k) / 4 =? t_length t - 1) with true by lia. f_equal. lia. }
      exists st3. split; [reflexivity|]. replace (4 * t_length t) with (4 * t_length t - 4 + 4) by lia. exact I3.
    - replace (t_length t >? 2) with false by lia. exists st1. split; [reflexivity|].
      replace (4 * t_length t) with (0 + 4) by lia. exact I1. }
  destruct HX as (st3 & E3 & I3).
  destruct (t_length t >? 1);
    (destruct (if t_length t >? 2 then _ else _) as [[o2 start2] s2];
     try (destruct (be_dword wr data (t_last_be t) _) as [st4|] eqn:E4; [|discriminate]);
     cbn [bind] in E3 |- *; injection E3 as ->);
  destruct st3 as [[o3 start3] s3]; unfold be_flush;
    assert (HF : exists s', match start3 with Some so => if negb (o3 =? so) then wr s3 so (slice data so o3) else Ok s3 | None => Ok s3 end = Ok s' /\
       run_inv good view data sel s (4 * t_length t, None, s') (4 * t_length t));
    (pose proof I3 as (-> & _); destruct start3 as [so|]; [|exists s3; auto];
      apply (run_flush wr good view N data Hwr sel s HN); [lia|exact I3]) ||
    (destruct HF as (s' & -> & (_ & G & _ & _ & V)); exists s'; split; [reflexivity|]; split; [assumption|];
     intros j; rewrite V; unfold selects; rewrite Z.sub_0_r; reflexivity).
Qed.
