(** Lemmas: header codec, tags, MSI capability, routing. *)
From Verif Require Import PyBase BitLemmas TlpModel TlpSpec TlpProofs SplitModel SplitSpec SplitProofs SplitProofs2 PcieIfModel PcieIfSpec PcieIfProofs.
From Coq Require Import ZifyBool ZifyNat.
Ltac Zify.zify_post_hook ::= Z.div_mod_to_equations.

(** ---- codec ---- *)
Lemma be_int_acc l : forall a, fold_left (fun a b => a * 256 + b) l a = a * 256^(zlen l) + le_val (rev l).
Proof.
  induction l as [|x l IH]; intros a; cbn [fold_left rev].
  - change (256 ^ zlen (@nil Z)) with 1. cbn [le_val]. lia.
  - rewrite IH. assert (E : forall u v, le_val (u ++ [v]) = le_val u + v * 256^(zlen u)).
    { clear. induction u as [|y u IH]; intros v; cbn [app le_val]; [change (256 ^ zlen (@nil Z)) with 1; lia|].
      rewrite IH. unfold zlen. cbn [length]. rewrite Nat2Z.inj_succ, Z.pow_succ_r by lia. lia. }
    rewrite E. unfold zlen. cbn [length]. rewrite rev_length, Nat2Z.inj_succ, Z.pow_succ_r by lia. lia.
Qed.
Lemma be_int_le l : be_int l = le_val (rev l).
Proof. unfold be_int. rewrite be_int_acc. lia. Qed.

Lemma to_bytes_be_int l : Forall is_byte l -> to_bytes_be (length l) (be_int l) = Ok l.
Proof.
  intros H. unfold to_bytes_be. rewrite be_int_le.
  assert (HR : Forall is_byte (rev l)) by now apply Forall_rev.
  pose proof (le_val_range _ HR) as HV. unfold zlen in HV. rewrite rev_length in HV.
  replace (2 ^ (8 * Z.of_nat (length l))) with (256 ^ Z.of_nat (length l)) by (rewrite Z.pow_mul_r by lia; reflexivity).
  replace ((0 <=? le_val (rev l)) && (le_val (rev l) <? 256 ^ Z.of_nat (length l))) with true by lia.
  rewrite <- (rev_length l) at 1. rewrite le_bytes_val by assumption. now rewrite rev_involutive.
Qed.

Lemma be_int_range l : Forall is_byte l -> 0 <= be_int l < 256 ^ zlen l.
Proof. intros H. rewrite be_int_le. pose proof (le_val_range (rev l) (Forall_rev H)). unfold zlen in *. now rewrite rev_length in *. Qed.

(** The effect of to_tlp on a frame made from 16 header bytes. *)
Lemma codec_16 (h data : list Z) : length h = 16%nat -> Forall is_byte h -> (length data mod 4 = 0)%nat -> Forall is_byte data ->
  exists f, (let! dws := dwords_of_bytes (length data) data in update_parity (mkFrame 0 (be_int h) dws 0 0 [] 0 None 0 0 0 0)) = Ok f /\
    check_parity f = Ok true /\ f_hdr f = be_int h /\ payload (set_data (f_data f) tlp0) = data /\
    to_tlp f = Ok (if (nth 0 h 0 =? 0x22) || (nth 0 h 0 =? 0x62) then [Z.land (nth 0 h 0) 0xdf] ++ slice h 1 8 ++ slice h 12 16 else h, data).
Proof.
  intros HL HB HD HDB. destruct (dwords_bytes_ok data HD HDB (length data) (le_n _)) as (ws & W1 & W2 & W3 & W4).
  rewrite W1. cbn [bind]. pose proof (be_int_range h HB) as HR. unfold zlen in HR. rewrite HL in HR.
  destruct (update_values (mkFrame 0 (be_int h) ws 0 0 [] 0 None 0 0 0 0)) as (f & U1 & U2 & U3 & U4 & U5 & U6 & U7 & U8).
  { split; [exact HR|]. split; [cbn; lia|assumption]. }
  exists f. split; [exact U1|]. split; [exact U8|]. split; [exact U3|]. cbn [f_data f_hdr] in *. split.
  { rewrite U4. apply payload_get_data. exact W2. }
  unfold to_tlp. rewrite U3, U4. rewrite <- HL. rewrite to_bytes_be_int by assumption. cbn [bind].
  destruct h as [|b0 h]; [discriminate|]. unfold py_index. change (0 <? 0) with false. change (Z.to_nat 0) with O. cbn [nth_error bind nth].
  rewrite W2. cbn [bind]. reflexivity.
Qed.

Lemma header_types ft hdr : header_of ft hdr ->
  In ft [(0,0);(1,0);(0,1);(1,1);(2,0);(3,0);(0,2);(2,2);(0,4);(2,4);(0,5);(2,5);
         (0,10);(2,10);(0,11);(2,11);(2,12);(3,12);(2,13);(3,13);(2,14);(3,14);
         (1,16);(1,17);(1,18);(1,19);(1,20);(1,21);(1,22);(1,23);(3,16);(3,17);(3,18);(3,19);(3,20);(3,21);(3,22);(3,23)].
Proof.
  intros (HK & _). destruct HK as [HK|(HF & HS)].
  - cbn in HK |- *. intuition.
  - destruct ft as [f s]. cbn [fst snd] in *.
    assert (E : s = 16 \/ s = 17 \/ s = 18 \/ s = 19 \/ s = 20 \/ s = 21 \/ s = 22 \/ s = 23) by lia.
    destruct HF as [-> | ->]; repeat (destruct E as [-> | E]; [cbn; tauto|]); subst s; cbn; tauto.
Qed.

Definition is_widened (ft : Z * Z) : bool := existsb (fun x => (fst x =? fst ft) && (snd x =? snd ft)) [(0,0);(0,1);(2,0);(2,12);(2,13);(2,14)].

Lemma list12 (l : list Z) : length l = 12%nat -> exists b0 b1 b2 b3 b4 b5 b6 b7 b8 b9 b10 b11, l = [b0;b1;b2;b3;b4;b5;b6;b7;b8;b9;b10;b11].
Proof. intros H. do 12 (destruct l as [|? l]; [discriminate|]). destruct l; [|discriminate]. repeat eexists. Qed.
Lemma list16 (l : list Z) : length l = 16%nat -> exists b0 b1 b2 b3 b4 b5 b6 b7 b8 b9 b10 b11 b12 b13 b14 b15, l = [b0;b1;b2;b3;b4;b5;b6;b7;b8;b9;b10;b11;b12;b13;b14;b15].
Proof. intros H. do 16 (destruct l as [|? l]; [discriminate|]). destruct l; [|discriminate]. repeat eexists. Qed.

Ltac bytes_of H := repeat match type of H with Forall _ (_ :: _) => let h := fresh "Hb" in inversion H as [|? ? h ?]; subst; clear H; match goal with H' : Forall is_byte _ |- _ => rename H' into H end end.

Lemma Forall_cons_inv {A} (P : A -> Prop) x l : Forall P (x :: l) -> P x /\ Forall P l.
Proof. intros H. inversion H; auto. Qed.

(** Round trip without widening: header bytes as packed, followed by zeros. *)
Lemma codec_plain ft hdr data force : header_of ft hdr -> Forall is_byte data -> (length data mod 4 = 0)%nat ->
  force && ft_in ft force_types = false ->
  exists f, from_tlp ft hdr data force = Ok f /\ to_tlp f = Ok (hdr ++ zeros (16 - zlen hdr), data) /\ check_parity f = Ok true.
Proof.
  intros HH HD HL HF. pose proof (header_types _ _ HH) as HT. destruct HH as (_ & HB & H0 & HN).
  unfold from_tlp. rewrite HF. cbn [bind]. cbv zeta.
  assert (HLen : length (hdr ++ zeros (16 - zlen hdr)) = 16%nat).
  { rewrite app_length. unfold zeros, zlen. rewrite repeat_length. destruct (Z.odd (fst ft)); lia. }
  destruct (codec_16 (hdr ++ zeros (16 - zlen hdr)) data HLen) as (f & F1 & F2 & _ & _ & F3).
  { apply Forall_app. split; [assumption|apply zeros_bytes]. } { assumption. } { assumption. }
  exists f. split; [exact F1|]. split; [|exact F2]. rewrite F3.
  rewrite app_nth1 by (destruct (Z.odd (fst ft)); lia). rewrite H0.
  cbn in HT. repeat (destruct HT as [<- | HT]; [reflexivity|]). contradiction.
Qed.

(** I/O requests with forcing: exactly the packed header. *)
Lemma codec_io ft hdr data : header_of ft hdr -> Forall is_byte data -> (length data mod 4 = 0)%nat -> ft = (0, 2) \/ ft = (2, 2) ->
  exists f, from_tlp ft hdr data true = Ok f /\ to_tlp f = Ok (hdr, data) /\ check_parity f = Ok true.
Proof.
  intros (_ & HB & H0 & HN) HD HL HF.
  assert (HN' : length hdr = 12%nat) by (destruct HF; subst ft; exact HN).
  destruct (list12 hdr HN') as (b0 & b1 & b2 & b3 & b4 & b5 & b6 & b7 & b8 & b9 & b10 & b11 & ->).
  cbn [nth] in H0. set (h := [Z.lor b0 0x20; b1; b2; b3; b4; b5; b6; b7; 0; 0; 0; 0; b8; b9; b10; b11]).
  destruct (codec_16 h data eq_refl) as (f & F1 & F2 & _ & _ & F3).
  { unfold h. repeat (apply Forall_cons_inv in HB; let h := fresh "B" in destruct HB as (h & HB)).
    assert (is_byte (Z.lor b0 32)) by (destruct HF; subst ft; cbn in H0; subst b0; (split; [discriminate|reflexivity])).
    repeat (apply Forall_cons; [first [assumption | split; [discriminate|reflexivity]]|]). apply Forall_nil. }
  { assumption. } { assumption. }
  exists f. split; [|split; [|exact F2]].
  - unfold from_tlp. destruct HF; subst ft; exact F1.
  - rewrite F3. destruct HF; subst ft; cbn in H0; subst b0; reflexivity.
Qed.

Lemma big_endian_int l : big_endian l = be_int l.
Proof.
  unfold be_int. induction l as [|x l IH]; [reflexivity|]. cbn [big_endian fold_left]. rewrite IH, !be_int_acc. lia.
Qed.

(** Widened requests: the 64-bit form of the same packet. *)
Lemma codec_widened ft hdr data : header_of ft hdr -> Forall is_byte data -> (length data mod 4 = 0)%nat -> widened ft ->
  exists f hdr', from_tlp ft hdr data true = Ok f /\ to_tlp f = Ok (hdr', data) /\ check_parity f = Ok true /\
    header_of (fst ft + 1, snd ft) hdr' /\ (forall k, (1 <= k < 8)%nat -> nth k hdr' 0 = nth k hdr 0) /\
    header_address hdr' = header_address hdr.
Proof.
  intros (_ & HB & H0 & HN) HD HL HF.
  assert (HN' : length hdr = 12%nat).
  { cbn in HF. repeat (destruct HF as [<- | HF]; [exact HN|]). contradiction. }
  destruct (list12 hdr HN') as (b0 & b1 & b2 & b3 & b4 & b5 & b6 & b7 & b8 & b9 & b10 & b11 & ->).
  cbn [nth] in H0. set (h := [Z.lor b0 0x20; b1; b2; b3; b4; b5; b6; b7; 0; 0; 0; 0; b8; b9; b10; b11]).
  assert (Hor : Z.lor b0 32 = b0 + 32 /\ 0 <= b0 + 32 < 256 /\ b0 + 32 <> 0x22 /\ b0 + 32 <> 0x62).
  { cbn in HF. repeat (destruct HF as [<- | HF]; [cbn in H0; subst b0; repeat split; discriminate|]). contradiction. }
  destruct Hor as (HO & HR & N1 & N2).
  assert (Hh : Forall is_byte h).
  { unfold h. repeat (apply Forall_cons_inv in HB; let h := fresh "B" in destruct HB as (h & HB)).
    assert (is_byte (Z.lor b0 32)) by (rewrite HO; exact HR).
    repeat (apply Forall_cons; [first [assumption | split; [discriminate|reflexivity]]|]). apply Forall_nil. }
  destruct (codec_16 h data eq_refl Hh HL HD) as (f & F1 & F2 & _ & _ & F3).
  exists f, h. split; [|split; [|split; [exact F2|]]].
  - unfold from_tlp. cbn in HF. repeat (destruct HF as [<- | HF]; [exact F1|]). contradiction.
  - rewrite F3. unfold h. cbn [nth]. rewrite HO. replace ((b0 + 32 =? 34) || (b0 + 32 =? 98)) with false by lia. reflexivity.
  - split; [|split].
    + split; [|split; [exact Hh|]].
      * cbn in HF. repeat (destruct HF as [<- | HF]; [left; cbn; tauto|]). contradiction.
      * unfold h. cbn [nth fst snd]. rewrite HO. split; [lia|].
        cbn in HF. repeat (destruct HF as [<- | HF]; [reflexivity|]). contradiction.
    + intros k Hk. unfold h. do 8 (destruct k as [|k]; [try reflexivity; lia|]). lia.
    + unfold header_address. rewrite !big_endian_int. unfold h, be_int. cbn [skipn fold_left]. lia.
Qed.

(** ---- tags ---- *)
Lemma nth_error_set_nth {A} (l : list A) : forall i j v, nth_error (set_nth l i v) j =
  if (i =? j)%nat then (match nth_error l i with Some _ => Some v | None => None end) else nth_error l j.
Proof.
  induction l as [|x l IH]; intros [|i] [|j] v; cbn; try reflexivity.
  - destruct (i =? j)%nat; reflexivity.
  - apply IH.
Qed.

Definition tag_inv (out : list Z) (s : tagstate) : Prop :=
  length (tg_active s) = 256%nat /\ (forall t, In t out -> 0 <= t < 256) /\
  forall t, 0 <= t < 256 -> (nth_error (tg_active s) (Z.to_nat t) = Some true <-> In t out).

Lemma tag_lookup out s t : tag_inv out s -> 0 <= t < 256 ->
  (In t out /\ py_index (tg_active s) t = Ok true) \/ (~ In t out /\ py_index (tg_active s) t = Ok false).
Proof.
  intros (H1 & H2 & H3) Ht. unfold py_index. replace (t <? 0) with false by lia.
  destruct (nth_error (tg_active s) (Z.to_nat t)) as [[|]|] eqn:E.
  - left. split; [apply H3; auto|reflexivity].
  - right. split; [|reflexivity]. intros HI. apply H3 in HI; [congruence|assumption].
  - apply nth_error_None in E. lia.
Qed.

Lemma alloc_loop_ok out s n : tag_inv out s -> 1 <= n <= 256 -> forall fuel tag,
  (exists t, alloc_loop fuel n tag s = Ok (Some (t, mkTags t (set_nth (tg_active s) (Z.to_nat t) true))) /\ 0 <= t < n /\ ~ In t out) \/
  (alloc_loop fuel n tag s = Ok None /\ forall j, 1 <= j <= Z.of_nat fuel -> In ((tag + j) mod n) out).
Proof.
  intros HI Hn. induction fuel as [|f IH]; intros tag; cbn [alloc_loop].
  - right. split; [reflexivity|]. intros j Hj. lia.
  - cbv zeta. pose proof (Z.mod_pos_bound (tag + 1) n ltac:(lia)) as HM.
    destruct (tag_lookup out s ((tag + 1) mod n) HI ltac:(lia)) as [(HO & ->)|(HO & ->)]; cbn [bind negb].
    + destruct (IH ((tag + 1) mod n)) as [H|(H & HA)]; [left; exact H|right]. split; [exact H|].
      intros j Hj. destruct (Z.eq_dec j 1) as [->|Hj1]; [exact HO|].
      specialize (HA (j - 1) ltac:(lia)). rewrite Zplus_mod_idemp_l in HA. replace (tag + 1 + (j - 1)) with (tag + j) in HA by lia. exact HA.
    + left. exists ((tag + 1) mod n). auto.
Qed.

Lemma residue_hit t0 n t : 0 <= t < n -> exists j, 1 <= j <= n /\ (t0 + j) mod n = t.
Proof.
  intros Ht. exists ((t - t0 - 1) mod n + 1). pose proof (Z.mod_pos_bound (t - t0 - 1) n ltac:(lia)). split; [lia|].
  pose proof (Z.div_mod (t - t0 - 1) n ltac:(lia)) as HD.
  replace (t0 + ((t - t0 - 1) mod n + 1)) with (t + (- ((t - t0 - 1) / n)) * n) by nia.
  rewrite Z.mod_add by lia. apply Z.mod_small. lia.
Qed.

Lemma tag_inv_add out s t : tag_inv out s -> 0 <= t < 256 -> tag_inv (t :: out) (mkTags t (set_nth (tg_active s) (Z.to_nat t) true)).
Proof.
  intros (H1 & H2 & H3) Ht. split; [|split]; cbn [tg_active].
  - now rewrite length_set_nth.
  - intros u [<- | Hu]; [assumption|now apply H2].
  - intros u Hu. rewrite nth_error_set_nth. destruct (Nat.eqb_spec (Z.to_nat t) (Z.to_nat u)) as [E|E].
    + assert (t = u) by lia. subst u. destruct (nth_error (tg_active s) (Z.to_nat t)) eqn:EE; [split; [intros; now left|reflexivity]|].
      apply nth_error_None in EE. lia.
    + rewrite H3 by assumption. split; [intros; now right|intros [->|]; [congruence|assumption]].
Qed.
Lemma tag_inv_del out s t c : tag_inv out s -> 0 <= t < 256 -> tag_inv (filter (fun x => negb (x =? t)) out) (mkTags c (set_nth (tg_active s) (Z.to_nat t) false)).
Proof.
  intros (H1 & H2 & H3) Ht. split; [|split]; cbn [tg_active].
  - now rewrite length_set_nth.
  - intros u Hu. apply filter_In in Hu. now apply H2.
  - intros u Hu. rewrite filter_In. rewrite nth_error_set_nth. destruct (Nat.eqb_spec (Z.to_nat t) (Z.to_nat u)) as [E|E].
    + assert (t = u) by lia. subst u. rewrite Z.eqb_refl. cbn. destruct (nth_error (tg_active s) (Z.to_nat t)); split; intros; try discriminate; destruct H; discriminate.
    + rewrite H3 by assumption. destruct (Z.eqb_spec u t); [congruence|]. cbn. tauto.
Qed.

(** Tags given to release are non-negative (they come from alloc). *)
Definition op_ok (o : tagop) : Prop := match o with TRelease t => 0 <= t | TAlloc _ => True end.

Lemma tag_run_legal ops : forall out s, tag_inv out s -> Forall op_ok ops -> tags_legal out (tag_run s ops).
Proof.
  induction ops as [|o ops IH]; intros out s HI HO; cbn [tag_run]; [exact I|].
  apply Forall_cons_inv in HO. destruct HO as (HO1 & HO2). destruct o as [n|t]; cbn [tag_step].
  - unfold alloc_tag. cbv zeta. destruct (Z.leb_spec n 0) as [Hn|Hn].
    + replace (Z.to_nat (Z.min 256 n)) with O by lia. cbn [alloc_loop tags_legal]. split; [intros; lia|now apply IH].
    + destruct (alloc_loop_ok out s (Z.min 256 n) HI ltac:(lia) (Z.to_nat (Z.min 256 n)) (tg_cur s)) as [(t & E & Ht & Hni)|(E & HA)]; rewrite E; cbn [tags_legal].
      * split; [lia|]. split; [lia|]. split; [assumption|]. apply IH; [apply tag_inv_add; [assumption|lia]|assumption].
      * split; [|now apply IH]. intros t Ht Ht2. destruct (residue_hit (tg_cur s) (Z.min 256 n) t ltac:(lia)) as (j & Hj & <-). apply HA. lia.
  - cbn in HO1. unfold release_tag. destruct (Z.ltb_spec t 256) as [H256|H256].
    + destruct (tag_lookup out s t HI ltac:(lia)) as [(HIn & ->)|(HIn & ->)]; cbn [bind tags_legal]; (split; [assumption|]).
      * apply IH; [apply tag_inv_del; [assumption|lia]|assumption].
      * now apply IH.
    + pose proof HI as (H1 & H2 & _). unfold py_index. replace (t <? 0) with false by lia.
      destruct (nth_error (tg_active s) (Z.to_nat t)) eqn:E; [assert (nth_error (tg_active s) (Z.to_nat t) <> None) as HX by congruence; apply nth_error_Some in HX; lia|].
      cbn [bind tags_legal]. split; [intros HX; apply H2 in HX; lia|now apply IH].
Qed.

Lemma tag_inv0 : tag_inv [] tags0.
Proof.
  split; [reflexivity|]. split; [intros t []|]. intros t Ht. split; [|intros []]. intros E.
  unfold tags0 in E. cbn [tg_active] in E. apply nth_error_In in E. apply repeat_spec in E. discriminate.
Qed.

Lemma tag_run_legal0 ops : Forall op_ok ops -> tags_legal [] (tag_run tags0 ops).
Proof. apply tag_run_legal, tag_inv0. Qed.

(** get_free_tag without completions waiting: round robin. *)
Lemma free_tags_rr (ext : bool) n : forall s : rqstate, queues_empty (rq_queues s) ->
  free_tags ext n s = map (fun k => Some ((rq_tag s + 1 + Z.of_nat k) mod (if ext then 256 else 32))) (seq 0 n).
Proof.
  induction n as [|n IH]; intros s HQ; [reflexivity|]. cbn [free_tags seq map].
  assert (E : get_free_tag ext s = (mkRq ((rq_tag s + 1) mod (if ext then 256 else 32)) (rq_queues s), Some ((rq_tag s + 1) mod (if ext then 256 else 32)))).
  { unfold get_free_tag. destruct ext.
    - change (Z.to_nat 256) with (S 255). cbn [free_tag_loop]. rewrite HQ. reflexivity.
    - change (Z.to_nat 32) with (S 31). cbn [free_tag_loop]. rewrite HQ. reflexivity. }
  rewrite E. rewrite IH by exact HQ. cbn [rq_tag]. f_equal; [f_equal; f_equal; lia|].
  rewrite <- seq_shift, map_map. apply map_ext. intros k. f_equal. destruct ext; lia.
Qed.

Lemma free_tags_nodup (ext : bool) n (s : rqstate) : queues_empty (rq_queues s) -> Z.of_nat n <= (if ext then 256 else 32) ->
  NoDup (free_tags ext n s) /\ ~ In None (free_tags ext n s).
Proof.
  intros HQ Hn. rewrite free_tags_rr by assumption. split.
  - set (g := fun k : nat => Some ((rq_tag s + 1 + Z.of_nat k) mod (if ext then 256 else 32))).
    assert (HI : forall i j, In i (seq 0 n) -> In j (seq 0 n) -> g i = g j -> i = j).
    { intros i j Hi Hj E. apply in_seq in Hi. apply in_seq in Hj. unfold g in E. injection E as E. destruct ext; lia. }
    clearbody g. revert HI. generalize (seq_NoDup n 0). generalize (seq 0 n) as l. induction l as [|x l IHl]; intros HN HI; cbn; [constructor|].
    inversion HN as [|? ? N1 N2]; subst. constructor.
    + intros HIn. apply in_map_iff in HIn. destruct HIn as (y & Hy & Hy2). apply N1. rewrite <- (HI y x); auto. now right. now left.
    + apply IHl; [assumption|]. intros i j Hi Hj. apply HI; now right.
  - intros HIn. apply in_map_iff in HIn. destruct HIn as (y & Hy & _). discriminate.
Qed.

(** ---- MSI capability ---- *)
Lemma mmc_ok count : 1 <= count -> mmc_of count (if_msi_mmc 0 count).
Proof.
  intros Hc. unfold if_msi_mmc, bit_length. change (0 <=? 1) with true. cbv iota.
  destruct (Z.eqb_spec (count - 1) 0) as [E|E].
  - split; [lia|]. split; [assert (count = 1) by lia; subst; cbn; lia|]. intros; lia.
  - rewrite Z.abs_eq by lia. pose proof (Z.log2_spec (count - 1) ltac:(lia)) as (L1 & L2). pose proof (Z.log2_nonneg (count - 1)).
    rewrite <- Z.add_1_r in L2. split; [lia|]. split; [lia|]. intros k Hk HC.
    assert (Z.log2 (count - 1) < k) by (apply Z.log2_lt_pow2; lia). lia.
Qed.

(** ---- routing ---- *)
Lemma first_fn_spec {A} (p : iffn -> option A) fs : forall k,
  match first_fn p fs k with
  | Some (j, a) => exists pre f post, fs = pre ++ f :: post /\ j = (k + length pre)%nat /\ p f = Some a /\ Forall (fun g => p g = None) pre
  | None => Forall (fun g => p g = None) fs
  end.
Proof.
  induction fs as [|f fs IH]; intros k; cbn [first_fn]; [constructor|]. destruct (p f) eqn:E.
  - exists [], f, fs. repeat split; [cbn; lia|assumption|constructor].
  - specialize (IH (S k)). destruct (first_fn p fs (S k)) as [[j a]|].
    + destruct IH as (pre & g & post & -> & -> & H1 & H2). exists (f :: pre), g, post. repeat split; [cbn; lia|assumption|constructor; assumption].
    + constructor; assumption.
Qed.

Lemma id_eqb_eq a b : id_eqb a b = true <-> a = b.
Proof.
  unfold id_eqb. destruct a, b; cbn. rewrite !andb_true_iff, !Z.eqb_eq. split; [intros ((-> & ->) & ->); reflexivity|intros H; injection H; auto].
Qed.
Lemma id_eqb_refl a : id_eqb a a = true.
Proof. now apply id_eqb_eq. Qed.
