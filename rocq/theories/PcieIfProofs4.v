(** Lemmas: I/O operations and request handlers of the test device. *)
From Verif Require Import PyBase BitLemmas TlpModel TlpSpec TlpProofs SplitModel SplitSpec SplitProofs SplitProofs2 PcieIfModel PcieIfSpec PcieIfProofs PcieIfProofs2 PcieIfProofs3.
From Coq Require Import ZifyBool ZifyNat.
Ltac Zify.zify_post_hook ::= Z.div_mod_to_equations.

(** ---- I/O requests ---- *)
Definition io_hdr (wr : bool) (rid : pcie_id) : tlp := set_requester_id rid (set_fmt_type (if wr then TLP_IO_WRITE else TLP_IO_READ) tlp0).

Lemma io_legal_of (wr : bool) rid addr k tg t : 1 <= k -> k <= 4 - addr mod 4 ->
  t_fmt_type t = ((if wr then 2 else 0), 2) -> t_address t = 4 * (addr / 4) -> t_length t = be_len addr k ->
  t_first_be t = t_first_be (fst (set_be addr k (io_hdr wr rid))) -> t_last_be t = t_last_be (fst (set_be addr k (io_hdr wr rid))) ->
  io_req_legal wr (set_tag tg t).
Proof.
  intros H1 H2 HF HA HL HB1 HB2. pose proof (set_be_legal addr k (io_hdr wr rid) H1) as HBE. pose proof (set_be_length addr k (io_hdr wr rid)) as HLen.
  assert (E1 : be_len addr k = 1) by (unfold be_len; lia). rewrite E1 in *.
  destruct HBE as (R1 & R2 & R3 & R4 & _). specialize (R4 HLen).
  unfold io_req_legal. change (t_address (set_tag tg t)) with (t_address t). change (t_length (set_tag tg t)) with (t_length t).
  change (t_last_be (set_tag tg t)) with (t_last_be t). change (t_first_be (set_tag tg t)) with (t_first_be t). change (t_fmt_type (set_tag tg t)) with (t_fmt_type t).
  rewrite HA, HL, HB1, HB2, HF. repeat split; try lia.
Qed.

Lemma io_lane_sel t k : t_length t = 1 -> 0 <= k < 4 -> Z.testbit (t_first_be t) k = tlp_selects t (t_address t + k).
Proof. intros HL Hk. pose proof (selects_lane t 0 k ltac:(lia) Hk) as HX. replace (t_address t + 4 * 0 + k) with (t_address t + k) in HX by lia. rewrite HX. reflexivity. Qed.

Lemma io_reads_spec rid tag respond M lo hi len : io_completer_ok M lo hi respond -> lo mod 4 = 0 -> hi mod 4 = 0 ->
  forall fuel kk addr n data, 0 <= n <= len -> (Z.to_nat (len - n) <= fuel)%nat -> lo <= addr -> addr + (len - n) <= hi ->
  exists ops extra, dma_io_read_reqs fuel rid false tag kk addr len n = Ok ops /\
    io_read_join respond ops data = Ok (data ++ mem_load M addr (len - n) ++ extra) /\
    covers addr (len - n) (map snd ops) /\ Forall (fun t => io_req_legal false t /\ from_dev rid t) (map snd ops) /\
    (forall j t, nth_error (map snd ops) j = Some t -> t_tag t = tag (kk + Z.of_nat j)).
Proof.
  intros HC Hlo4 Hhi4. induction fuel as [|f IH]; intros kk addr n data Hn Hf Hlo Hhi.
  - exists [], []. cbn [dma_io_read_reqs]. replace (n <? len) with false by lia. replace (len - n) with 0 by lia.
    cbn. rewrite app_nil_r. repeat split; auto. intros j t HJ. destruct j; discriminate.
  - cbn [dma_io_read_reqs]. destruct (Z.ltb_spec n len).
    2:{ exists [], []. replace (len - n) with 0 by lia. cbn. rewrite app_nil_r. repeat split; auto. intros j t HJ. destruct j; discriminate. }
    cbv zeta. set (k := Z.min (len - n) (4 - addr mod 4)).
    assert (Hk : 1 <= k <= len - n /\ k <= 4 - addr mod 4 /\ (k < len - n -> k = 4 - addr mod 4)) by lia.
    clearbody k. destruct Hk as (Hk1 & Hk2 & Hk3).
    change (set_requester_id rid (set_fmt_type TLP_IO_READ tlp0)) with (io_hdr false rid).
    pose proof (set_be_spec addr k (io_hdr false rid) ltac:(lia)) as (S1 & S2 & S3 & S4).
    pose proof (set_be_address addr k (io_hdr false rid)) as HA. pose proof (set_be_length addr k (io_hdr false rid)) as HL.
    assert (EF : t_fmt_type (fst (set_be addr k (io_hdr false rid))) = (0, 2)) by (unfold set_be; cbn [fst]; destruct (_ =? 1); reflexivity).
    assert (EL : be_len addr k = 1) by (unfold be_len; lia).
    assert (HLeg : io_req_legal false (set_tag (tag kk) (fst (set_be addr k (io_hdr false rid))))) by (apply (io_legal_of false rid addr k); auto; lia).
    assert (ER : t_requester_id (fst (set_be addr k (io_hdr false rid))) = rid) by (unfold set_be; cbn [fst]; destruct (_ =? 1); reflexivity).
    set (t0 := fst (set_be addr k (io_hdr false rid))) in *. clearbody t0.
    set (t := set_tag (tag kk) t0) in *.
    destruct (HC t HLeg) as (c & w & C1 & C2 & C3 & C4 & C5 & C6).
    { change (t_address t) with (t_address t0). lia. } { change (t_address t) with (t_address t0). lia. }
    set (d := le_bytes 4 w) in *.
    assert (HD : skipn (Z.to_nat (addr mod 4)) d = mem_load M addr k ++ skipn (Z.to_nat (addr mod 4 + k)) d).
    { apply list_eq_nth.
      - rewrite app_length, !skipn_length. pose proof (zlen_mem_load M addr k ltac:(lia)) as HZ. unfold zlen in HZ. change (length d) with 4%nat. lia.
      - intros i Hi. rewrite skipn_length in Hi. change (length d) with 4%nat in Hi. rewrite nth_skipn_add.
        pose proof (zlen_mem_load M addr k ltac:(lia)) as HZ. unfold zlen in HZ.
        destruct (Z.ltb_spec (Z.of_nat i) k).
        + rewrite app_nth1 by lia. rewrite <- (Nat2Z.id i) at 2. rewrite nth_mem_load by lia.
          replace (Z.to_nat (addr mod 4) + i)%nat with (Z.to_nat (addr mod 4 + Z.of_nat i)) by lia.
          assert (EA : t_address t0 + (addr mod 4 + Z.of_nat i) = addr + Z.of_nat i) by lia.
          rewrite C6; [change (t_address t) with (t_address t0); f_equal; lia|lia|]. change (t_first_be t) with (t_first_be t0). rewrite io_lane_sel by lia. apply S1. lia.
        + rewrite app_nth2 by lia. rewrite nth_skipn_add. f_equal. lia. }
    destruct (IH (kk + 1) (addr + k) (n + k) (data ++ skipn (Z.to_nat (addr mod 4)) d)) as (ops & extra & R1 & R2 & R3 & R4 & R5); try lia.
    rewrite R1. cbn [bind].
    assert (HJ : io_read_join respond ((addr mod 4, t) :: ops) data = io_read_join respond ops (data ++ skipn (Z.to_nat (addr mod 4)) d)).
    { cbn [io_read_join]. rewrite C1. cbn [np_collect]. rewrite C2. change (negb (0 =? CPL_STATUS_SC)) with false. cbv iota.
      change (t_fmt_type t) with (t_fmt_type t0). rewrite EF. change (ft_in (0, 2) [TLP_MEM_READ; TLP_MEM_READ_64]) with false. cbn [fst].
      rewrite C2, C3. change (negb (0 =? CPL_STATUS_SC)) with false. change (negb (1 =? 1)) with false. cbv iota.
      rewrite get_data_payload by (rewrite C4; repeat constructor; lia). unfold payload. rewrite C4. cbn [flat_map bind]. rewrite app_nil_r. reflexivity. }
    exists ((addr mod 4, t) :: ops). cbn [map snd covers].
    assert (HT : exists extra', io_read_join respond ((addr mod 4, t) :: ops) data = Ok (data ++ mem_load M addr (len - n) ++ extra')).
    { rewrite HJ. destruct (Z.eq_dec k (len - n)) as [Ek|Ek].
      - assert (ops = []) as -> by (destruct f; cbn [dma_io_read_reqs] in R1; replace (n + k <? len) with false in R1 by lia; injection R1 as <-; reflexivity).
        exists (skipn (Z.to_nat (addr mod 4 + k)) d). cbn [io_read_join]. rewrite HD, Ek. reflexivity.
      - exists extra. rewrite R2, HD. rewrite (skipn_all2 (n := Z.to_nat (addr mod 4 + k))) by (change (length d) with 4%nat; lia).
        rewrite app_nil_r, <- !app_assoc. rewrite (app_assoc (mem_load M addr k)).
        replace (len - (n + k)) with ((len - n) - k) by lia. rewrite mem_load_app by lia. do 3 f_equal. f_equal. lia. }
    destruct HT as (extra' & HT). exists extra'. split; [reflexivity|]. split; [exact HT|].
    split; [exists k; split; [lia|]; split; [exact S1|]; replace (len - n - k) with (len - (n + k)) by lia; exact R3|].
    split; [constructor; [split; [exact HLeg|exact ER]|assumption]|].
    intros [|j] t' HJ'; cbn in HJ'.
    + injection HJ' as <-. cbn [t_tag set_tag t]. unfold t. change (t_tag (set_tag (tag kk) t0)) with (tag kk). f_equal. lia.
    + rewrite (R5 j t' HJ'). f_equal. lia.
Qed.

Lemma dma_io_read_spec rid tag respond M lo hi addr len : io_completer_ok M lo hi respond -> lo mod 4 = 0 -> hi mod 4 = 0 ->
  1 <= len -> lo <= addr -> addr + len <= hi ->
  exists ts, dma_io_read rid tag respond addr len = Ok (ts, mem_load M addr len) /\ covers addr len ts /\
    Forall (fun t => io_req_legal false t /\ from_dev rid t) ts /\ (forall j t, nth_error ts j = Some t -> t_tag t = tag (Z.of_nat j)).
Proof.
  intros HC Hlo4 Hhi4 Hlen Hlo Hhi.
  destruct (io_reads_spec rid tag respond M lo hi len HC Hlo4 Hhi4 (Z.to_nat len) 0 addr 0 []) as (ops & extra & R1 & R2 & R3 & R4 & R5); try lia.
  exists (map snd ops). unfold dma_io_read. replace (len <=? 0) with false by lia. cbv zeta iota. rewrite R1. cbn [bind]. rewrite R2. cbn [bind app].
  rewrite Z.sub_0_r in *. split; [|auto]. do 2 f_equal. unfold slice. rewrite Z.sub_0_r.
  change (skipn (Z.to_nat 0) (mem_load M addr len ++ extra)) with (mem_load M addr len ++ extra).
  pose proof (zlen_mem_load M addr len ltac:(lia)) as HZ. unfold zlen in HZ.
  rewrite firstn_app. replace (Z.to_nat len - length (mem_load M addr len))%nat with O by lia. cbn [firstn]. rewrite app_nil_r. apply firstn_all2. lia.
Qed.

Lemma io_write_chunk rid tg addr d : d <> [] -> Forall is_byte d -> zlen d <= 4 - addr mod 4 ->
  exists t, set_be_data addr d (io_hdr true rid) = Ok t /\ io_req_legal true (set_tag tg t) /\ t_requester_id t = rid /\
    zlen (t_data t) = 1 /\ Forall (fun w => 0 <= w < 2^32) (t_data t) /\
    (forall a, tlp_selects t a = true <-> addr <= a < addr + zlen d) /\ (forall m a, apply_write m t a = mem_store m addr d a).
Proof.
  intros Hne HB Hl.
  assert (Hlen: 0 < zlen d) by (destruct d; [congruence|unfold zlen; cbn [length]; lia]).
  destruct (set_be_data_ok addr d (io_hdr true rid) Hne HB) as (t & H1 & H2 & H3 & H4 & H5).
  destruct (set_be_data_spec addr d (io_hdr true rid) Hne HB) as (t' & pay & H1' & H2' & H3' & H4' & H6 & H7 & H8 & H9 & H10).
  rewrite H1 in H1'. injection H1' as <-.
  assert (HL : t_length t = be_len addr (zlen d)) by (rewrite H3; reflexivity).
  assert (EL : be_len addr (zlen d) = 1) by (unfold be_len; lia).
  exists t. split; [exact H1|]. split; [|split; [|split; [|split; [|split]]]]; try assumption.
  - apply (io_legal_of true rid addr (zlen d)); auto; try lia.
    + destruct H7 as (F1 & F2 & _). unfold t_fmt_type. rewrite F1, F2. reflexivity.
    + rewrite H3. reflexivity.
    + rewrite H3. reflexivity.
  - rewrite H3. unfold set_be. cbn [fst]. destruct (_ =? 1); reflexivity.
  - lia.
  - intros m a. unfold apply_write, write_effect, mem_store. fold (tlp_selects t a).
    rewrite (payload_get_data t pay) by assumption.
    destruct ((addr <=? a) && (a <? addr + zlen d)) eqn:E.
    + rewrite (proj2 (H8 a)) by lia. apply H9. lia.
    + destruct (tlp_selects t a) eqn:E'; [|reflexivity]. apply H8 in E'. lia.
Qed.

Lemma io_writes_spec rid tag data : Forall is_byte data -> forall fuel kk addr n,
  0 <= n <= zlen data -> (Z.to_nat (zlen data - n) <= fuel)%nat ->
  exists ts, dma_io_write_reqs fuel rid false tag kk addr data n = Ok ts /\
    Forall (fun t => io_req_legal true t /\ from_dev rid t /\ zlen (t_data t) = 1 /\ Forall (fun w => 0 <= w < 2^32) (t_data t)) ts /\
    covers addr (zlen data - n) ts /\ (forall m a, apply_writes ts m a = mem_store m addr (skipn (Z.to_nat n) data) a) /\
    (forall j t, nth_error ts j = Some t -> t_tag t = tag (kk + Z.of_nat j)).
Proof.
  intros HB. induction fuel as [|f IH]; intros kk addr n Hn Hf.
  - exists []. cbn [dma_io_write_reqs]. replace (n <? zlen data) with false by lia. split; [reflexivity|].
    split; [constructor|]. split; [cbn; lia|]. split; [|intros [|j] t HJ; discriminate]. intros m a. cbn.
    rewrite skipn_all2 by (unfold zlen in *; lia). now rewrite mem_store_nil.
  - cbn [dma_io_write_reqs]. destruct (Z.ltb_spec n (zlen data)).
    2:{ exists []. split; [reflexivity|].
        split; [constructor|]. split; [cbn; lia|]. split; [|intros [|j] t HJ; discriminate]. intros m a. cbn.
        rewrite skipn_all2 by (unfold zlen in *; lia). now rewrite mem_store_nil. }
    cbv zeta. set (k := Z.min (zlen data - n) (4 - addr mod 4)).
    assert (Hk : 1 <= k <= zlen data - n /\ k <= 4 - addr mod 4) by lia.
    clearbody k. destruct Hk as (Hk1 & Hk2).
    assert (Hz : zlen (slice data n (n + k)) = k) by (rewrite zlen_slice by lia; lia).
    change (set_requester_id rid (set_fmt_type TLP_IO_WRITE tlp0)) with (io_hdr true rid).
    destruct (io_write_chunk rid (tag kk) addr (slice data n (n + k))) as (t & T1 & T2 & T3 & T4 & T5 & T6 & T7).
    { intros E. rewrite E in Hz. cbn in Hz. lia. } { now apply Forall_slice. } { lia. }
    rewrite T1. cbn [bind].
    destruct (IH (kk + 1) (addr + k) (n + k) ltac:(lia) ltac:(lia)) as (ts & R1 & R2 & R3 & R4 & R5).
    rewrite R1. cbn [bind]. exists (set_tag (tag kk) t :: ts). split; [reflexivity|].
    split; [constructor; [|assumption]; repeat split; try apply T2; assumption|]. split; [|split].
    + cbn [covers]. exists k. split; [lia|]. rewrite Hz in T6. split; [exact T6|].
      replace (zlen data - n - k) with (zlen data - (n + k)) by lia. exact R3.
    + intros m a. cbn. change (fold_left apply_write ts (apply_write m (set_tag (tag kk) t)) a) with (apply_writes ts (apply_write m t) a).
      rewrite R4. rewrite (mem_store_ext _ _ _ _ (T7 m)).
      rewrite <- (slice_skipn_cons data n k) by lia. rewrite <- mem_store_app, Hz. reflexivity.
    + intros [|j] t' HJ'; cbn in HJ'.
      * injection HJ' as <-. change (t_tag (set_tag (tag kk) t)) with (tag kk). f_equal. lia.
      * rewrite (R5 j t' HJ'). f_equal. lia.
Qed.

Lemma dma_io_write_spec rid tag respond addr data : Forall is_byte data -> data <> [] ->
  (forall t, io_req_legal true t -> exists c r, respond t = c :: r /\ t_status c = 0) ->
  exists ts, dma_io_write rid tag respond addr data = Ok ts /\
    Forall (fun t => io_req_legal true t /\ from_dev rid t /\ zlen (t_data t) = 1 /\ Forall (fun w => 0 <= w < 2^32) (t_data t)) ts /\
    covers addr (zlen data) ts /\ (forall m a, apply_writes ts m a = mem_store m addr data a) /\
    (forall j t, nth_error ts j = Some t -> t_tag t = tag (Z.of_nat j)).
Proof.
  intros HB Hne HR. destruct (io_writes_spec rid tag data HB (length data) 0 addr 0) as (ts & R1 & R2 & R3 & R4 & R5).
  { pose proof (zlen_nonneg data); lia. } { unfold zlen; lia. }
  exists ts. rewrite Z.sub_0_r in R3. split; [|auto]. unfold dma_io_write.
  replace (zlen data =? 0) with false by (destruct data; [congruence|unfold zlen; cbn [length]; lia]). cbv zeta iota. rewrite R1. cbn [bind].
  assert (E : io_write_join respond ts = Ok tt); [|now rewrite E].
  clear -R2 HR. induction ts as [|t ts IH]; [reflexivity|]. apply Forall_cons_inv in R2. destruct R2 as ((H1 & _) & H2).
  cbn [io_write_join]. destruct (HR t H1) as (c & r & C1 & C2). rewrite C1. cbn [np_collect]. rewrite C2. change (negb (0 =? CPL_STATUS_SC)) with false. cbv iota.
  destruct H1 as (_ & _ & _ & _ & HF). rewrite HF. change (ft_in (2, 2) [TLP_MEM_READ; TLP_MEM_READ_64]) with false. cbn [fst].
  rewrite C2. change (negb (0 =? CPL_STATUS_SC)) with false. cbv iota. now apply IH.
Qed.

(** A failed completion of an I/O write is reported. *)
Lemma io_write_error rid tag respond addr data : Forall is_byte data -> data <> [] ->
  (forall t, exists c, respond t = [c] /\ t_status c <> 0) -> dma_io_write rid tag respond addr data = Err (PyException 1578).
Proof.
  intros HB Hne HR. destruct (io_writes_spec rid tag data HB (length data) 0 addr 0) as (ts & R1 & R2 & R3 & R4 & R5).
  { pose proof (zlen_nonneg data); lia. } { unfold zlen; lia. }
  assert (0 < zlen data) by (destruct data; [congruence|unfold zlen; cbn [length]; lia]).
  unfold dma_io_write. replace (zlen data =? 0) with false by lia. cbv zeta iota. rewrite R1. cbn [bind].
  destruct ts as [|t ts]; [cbn in R3; lia|]. cbn [io_write_join]. destruct (HR t) as (c & C1 & C2). rewrite C1. cbn [np_collect].
  assert (E : negb (t_status c =? CPL_STATUS_SC) = true) by (unfold CPL_STATUS_SC; lia). rewrite E. cbn [fst]. rewrite E. reflexivity.
Qed.

(** ---- received memory requests ---- *)
Lemma py_index_nth {A} (l : list A) i d : 0 <= i < zlen l -> py_index l i = Ok (nth (Z.to_nat i) l d).
Proof.
  intros H. unfold py_index, zlen in *. replace (i <? 0) with false by lia.
  destruct (nth_error l (Z.to_nat i)) eqn:E; [erewrite nth_error_nth by eassumption; reflexivity|apply nth_error_None in E; lia].
Qed.

Lemma ifr_size_ok rs i l : ifr_contents rs i l -> ifr_size rs i = Ok (zlen l).
Proof. intros (H1 & H2 & _). unfold ifr_size. rewrite (py_index_nth rs i IRNone) by assumption. cbn [bind]. now rewrite H2. Qed.
Lemma ifr_read_ok rs i l a n : ifr_contents rs i l -> ifr_read rs i a n = Ok (slice l a (a + n)).
Proof. intros (H1 & H2 & _). unfold ifr_read. rewrite (py_index_nth rs i IRNone) by assumption. cbn [bind]. now rewrite H2. Qed.

Lemma rx_cpl_of_split req comp mps data dw bl : forall fuel m n addr cs,
  cpl_loop fuel req comp mps data dw bl m n addr = Ok cs -> rx_cpl_loop fuel req comp mps data dw bl m n addr = Ok cs.
Proof.
  induction fuel as [|f IH]; intros m n addr cs H; cbn [cpl_loop rx_cpl_loop] in *; destruct (m <? dw); try assumption. cbv zeta in *.
  destruct (mps <? 0); [discriminate|].
  set (L := if dw - m >? Z.shiftl 32 mps then Z.shiftl 32 mps - Z.shiftr (Z.land addr 124) 2 else dw - m) in *.
  destruct (set_data_bytes (slice data (m * 4) ((m + L) * 4)) _) as [c|e]; [|discriminate]. cbn [bind] in *.
  unfold send in H. destruct (tlp_check c); [|discriminate]. cbn [bind] in *.
  destruct (cpl_loop f req comp mps data dw bl (m + L) (n + (L * 4 - Z.land addr 3)) (addr + (L * 4 - Z.land addr 3))) as [r|e] eqn:E; [|discriminate].
  cbn [bind] in H. rewrite (IH _ _ _ _ E). exact H.
Qed.

Lemma rx_mem_read_spec rs dev mps i l t first count : ifr_contents rs i l -> 0 <= mps ->
  1 <= t_length t -> t_address t mod 4 = 0 -> be_legal t -> selected_span t first count ->
  t_address t mod zlen l + 4 * t_length t <= zlen l ->
  exists cs, rx_mem_read rs dev mps i t = Ok cs /\
    completes t dev (128 * 2^mps) first count (mem_load (mem_of l) (t_address t mod zlen l) (4 * t_length t)) cs.
Proof.
  intros HC Hm HL Ha HBE HS Hend. destruct (span_unique t first count _ _ HS (span_ok t HBE HL)) as (-> & ->).
  unfold rx_mem_read. rewrite (ifr_size_ok _ _ _ HC). cbn [bind]. cbv zeta. rewrite (ifr_read_ok _ _ _ _ _ HC). cbn [bind].
  destruct HC as (H1 & H2 & HB & Hne). assert (0 < zlen l) by (destruct l; [congruence|unfold zlen; cbn [length]; lia]).
  pose proof (Z.mod_pos_bound (t_address t) (zlen l) ltac:(lia)).
  replace (t_length t * 4) with (4 * t_length t) by lia. rewrite slice_mem_of by lia.
  destruct (complete_read_spec t dev mps (mem_load (mem_of l) (t_address t mod zlen l) (4 * t_length t))) as (cs & C1 & C2); auto.
  { rewrite <- slice_mem_of by lia. now apply Forall_slice. } { apply zlen_mem_load. lia. }
  exists cs. split; [|exact C2]. now apply rx_cpl_of_split.
Qed.

Definition if_frame (rs0 : list ifregion) (i n : Z) (rs : list ifregion) : Prop :=
  others_same i rs0 rs /\ exists l, nth (Z.to_nat i) rs IRNone = IRMem n l /\ zlen l = n.
Definition if_view (i off : Z) (rs : list ifregion) (j : Z) : Z :=
  match nth (Z.to_nat i) rs IRNone with IRMem _ l => mem_of l (off + j) | IRNone => 0 end.

Lemma if_write_ok rs0 i off n N : 0 <= i < zlen rs0 -> 0 <= off -> off + N <= n ->
  forall rs o d, if_frame rs0 i n rs -> 0 <= o -> o + zlen d <= N -> d <> [] ->
  exists rs', ifr_write rs i (off + o) d = Ok rs' /\ if_frame rs0 i n rs' /\
    forall j, if_view i off rs' j = if (o <=? j) && (j <? o + zlen d) then nth (Z.to_nat (j - o)) d 0 else if_view i off rs j.
Proof.
  intros Hi Hoff Hn rs o d ((F1 & F2) & l & F3 & F4) Ho Hz Hne.
  assert (0 < zlen d) by (destruct d; [congruence|unfold zlen; cbn [length]; lia]).
  assert (Hir : (Z.to_nat i < length rs)%nat) by (unfold zlen in Hi; lia).
  unfold ifr_write. rewrite (py_index_nth rs i IRNone) by (unfold zlen in *; lia). cbn [bind]. rewrite F3.
  unfold mmap_set. rewrite zlen_slice by lia. replace (off + o + zlen d - (off + o) =? zlen d) with true by lia. cbn [bind].
  eexists; split; [reflexivity|]. split.
  - split; [split; [now rewrite length_set_nth|]|].
    + intros j Hj. rewrite nth_set_nth_ne by auto. now apply F2.
    + exists (slice_set l (off + o) d). rewrite nth_set_nth_eq by assumption. rewrite zlen_slice_set by lia. split; [reflexivity|assumption].
  - intros j. unfold if_view. rewrite nth_set_nth_eq, F3 by assumption.
    rewrite mem_of_slice_set by lia. unfold mem_store.
    replace ((off + o <=? off + j) && (off + j <? off + o + zlen d)) with ((o <=? j) && (j <? o + zlen d)) by lia.
    replace (off + j - (off + o)) with (j - o) by lia. reflexivity.
Qed.

Lemma if_be_write rs i l t off : ifr_contents rs i l -> 1 <= t_length t -> zlen (t_data t) = t_length t ->
  Forall (fun w => 0 <= w < 2^32) (t_data t) -> 0 <= off -> off + 4 * t_length t <= zlen l ->
  exists rs' l', be_write (fun rs o d => ifr_write rs i (off + o) d) t (payload t) rs = Ok rs' /\ ifr_contents rs' i l' /\ zlen l' = zlen l /\ others_same i rs rs' /\
    forall a, mem_of l' a = write_effect off (t_length t) (t_first_be t) (t_last_be t) (payload t) (mem_of l) a.
Proof.
  intros (C1 & C2 & C3 & C4) HL Hd HF Hoff Hend.
  assert (Hpl : zlen (payload t) = 4 * t_length t) by (unfold zlen; rewrite payload_len; unfold zlen in Hd; lia).
  destruct (be_write_spec (fun rs o d => ifr_write rs i (off + o) d) (if_frame rs i (zlen l)) (if_view i off) (4 * t_length t) t (payload t) rs)
    as (rs' & W1 & ((F1 & F2) & l' & F3 & F4) & W3); try lia.
  { intros. apply (if_write_ok rs i off (zlen l) (4 * t_length t)); auto; lia. }
  { split; [split; reflexivity|]. exists l. auto. }
  assert (HV : forall a, mem_of l' a = write_effect off (t_length t) (t_first_be t) (t_last_be t) (payload t) (mem_of l) a).
  { intros a. specialize (W3 (a - off)). unfold if_view in W3. rewrite F3, C2 in W3.
    replace (off + (a - off)) with a in W3 by lia. rewrite W3. unfold write_effect. now rewrite (selects_shift off). }
  exists rs', l'. split; [exact W1|]. split; [|split; [exact F4|split; [split; assumption|exact HV]]].
  split; [unfold zlen in *; lia|]. split; [rewrite F4; exact F3|]. split.
  - apply Forall_byte_mem_of. intros a. rewrite HV. unfold write_effect. destruct (selects _ _ _ _ _); [apply Forall_nth_byte, payload_bytes|now apply Forall_byte_mem_of].
  - intros ->. unfold zlen in *. destruct l; [congruence|]. cbn [length] in F4. lia.
Qed.

Lemma rx_mem_write_spec rs i l t : ifr_contents rs i l -> 1 <= t_length t -> zlen (t_data t) = t_length t ->
  Forall (fun w => 0 <= w < 2^32) (t_data t) -> t_address t mod zlen l + 4 * t_length t <= zlen l ->
  exists rs' l', rx_mem_write rs i t = Ok rs' /\ ifr_contents rs' i l' /\ zlen l' = zlen l /\ others_same i rs rs' /\
    forall a, mem_of l' a = write_effect (t_address t mod zlen l) (t_length t) (t_first_be t) (t_last_be t) (payload t) (mem_of l) a.
Proof.
  intros HC HL Hd HF Hend. unfold rx_mem_write. rewrite (ifr_size_ok _ _ _ HC). cbn [bind]. cbv zeta. rewrite get_data_payload by assumption. cbn [bind].
  apply if_be_write; auto. apply Z.mod_pos_bound. destruct HC as (_ & _ & _ & Hne). destruct l; [congruence|unfold zlen; cbn [length]; lia].
Qed.

(** ---- received I/O requests ---- *)
Lemma rx_io_write_spec rs dev i l t : ifr_contents rs i l -> io_req_legal true t -> zlen (t_data t) = 1 ->
  Forall (fun w => 0 <= w < 2^32) (t_data t) -> t_address t mod zlen l + 4 <= zlen l ->
  exists rs' l' c, rx_io_write rs dev i t = Ok (rs', c) /\ ifr_contents rs' i l' /\ zlen l' = zlen l /\ others_same i rs rs' /\
    (forall a, mem_of l' a = write_effect (t_address t mod zlen l) 1 (t_first_be t) 0 (payload t) (mem_of l) a) /\
    t_fmt_type c = (0, 10) /\ t_status c = 0 /\ t_requester_id c = t_requester_id t /\ t_tag c = t_tag t /\ t_completer_id c = dev.
Proof.
  intros HC (L1 & L2 & L3 & L4 & L5) Hd HF Hend.
  destruct (if_be_write rs i l t (t_address t mod zlen l)) as (rs' & l' & W1 & W2 & W3 & W4 & W5); auto; try lia.
  { apply Z.mod_pos_bound. destruct HC as (_ & _ & _ & Hne). destruct l; [congruence|unfold zlen; cbn [length]; lia]. }
  rewrite L2, L3 in W5.
  exists rs', l', (set_completion t dev false CPL_STATUS_SC tlp0). unfold rx_io_write. rewrite (ifr_size_ok _ _ _ HC). cbn [bind]. cbv zeta. rewrite get_data_payload by assumption. cbn [bind].
  unfold be_write in W1. rewrite L2 in W1. change (1 >? 2) with false in W1. change (1 >? 1) with false in W1. cbv iota in W1.
  destruct (be_dword _ (payload t) (t_first_be t) (0, None, rs)) as [st|e]; [|discriminate]. cbn [bind] in *. rewrite W1. cbn [bind].
  repeat (split; [first [reflexivity|assumption]|]). reflexivity.
Qed.

Lemma io_scan_ok rs i l addr m : ifr_contents rs i l -> 0 <= m < 16 -> 0 <= addr -> addr + 4 <= zlen l ->
  exists d, io_read_scan rs i addr m = Ok d /\ length d = 4%nat /\ Forall is_byte d /\
    forall k, 0 <= k < 4 -> nth (Z.to_nat k) d 0 = if Z.testbit m k then mem_of l (addr + k) else 0.
Proof.
  intros HC Hm Ha He. unfold io_read_scan.
  set (b := fun k => mem_of l (addr + k)). pose proof HC as (_ & _ & HB & _).
  assert (HL : forall so n, 0 <= so -> 0 <= n -> so + n <= 4 -> ifr_read rs i (addr + so) n = Ok (mem_load b so n)).
  { intros so n H1 H2 H3. rewrite (ifr_read_ok _ _ _ _ _ HC). rewrite slice_mem_of by lia. f_equal. apply mem_load_ext. intros j Hj. unfold b. f_equal. lia. }
  assert (Hb : forall k, is_byte (b k)) by (intros; apply Forall_byte_mem_of; assumption).
  assert (Hbk : forall k, mem_of l (addr + k) = b k) by reflexivity.
  assert (Hr : forall so n, 0 <= so -> 0 <= n -> so + n <= 4 -> forall data, (let! r := ifr_read rs i (addr + so) n in Ok (slice_set data so r)) = Ok (slice_set data so (mem_load b so n))).
  { intros. rewrite HL by assumption. reflexivity. }
  assert (E : m = 0 \/ m = 1 \/ m = 2 \/ m = 3 \/ m = 4 \/ m = 5 \/ m = 6 \/ m = 7 \/ m = 8 \/ m = 9 \/ m = 10 \/ m = 11 \/ m = 12 \/ m = 13 \/ m = 14 \/ m = 15) by lia.
  clear HL HC HB Hm. clearbody b. set (z := zeros 4). assert (Ez : z = [0;0;0;0]) by reflexivity.
  assert (Hz : is_byte 0) by (unfold is_byte; lia).
  Ltac lane_step Hr := 
    unfold be_dword, be_flush, be_lane; cbn [Z.land Z.shiftl Pos.iter Pos.land Z.eqb negb bind Pos.eqb Z.add Pos.add Pos.succ Z.mul Pos.mul Pos.Ndouble Pos.Nsucc_double N.to_nat Z.of_N];
    repeat match goal with |- context [zlen (slice ?z ?a ?c)] => let v := eval vm_compute in (zlen (slice [0;0;0;0] a c)) in change (zlen (slice z a c)) with v end;
    rewrite ?Hr by lia; cbn [bind Z.eqb negb Pos.eqb];
    repeat match goal with |- context [zlen (slice ?z ?a ?c)] => let v := eval vm_compute in (zlen (slice [0;0;0;0] a c)) in change (zlen (slice z a c)) with v end;
    rewrite ?Hr by lia; cbn [bind].
  repeat (destruct E as [-> | E]; [lane_step Hr; (eexists; split; [reflexivity|]; split; [reflexivity|]; split;
     [ repeat (apply Forall_cons; [first [apply Hb|exact Hz]|]); apply Forall_nil
     | intros k Hk; rewrite Hbk; assert (Ek : k = 0 \/ k = 1 \/ k = 2 \/ k = 3) by lia; destruct Ek as [-> | [-> | [-> | ->]]]; reflexivity ])|]).
  subst m; lane_step Hr; (eexists; split; [reflexivity|]; split; [reflexivity|]; split;
     [ repeat (apply Forall_cons; [first [apply Hb|exact Hz]|]); apply Forall_nil
     | intros k Hk; rewrite Hbk; assert (Ek : k = 0 \/ k = 1 \/ k = 2 \/ k = 3) by lia; destruct Ek as [-> | [-> | [-> | ->]]]; reflexivity ]).
Qed.

Lemma rx_io_read_spec rs dev i l t : ifr_contents rs i l -> io_req_legal false t -> t_address t mod zlen l + 4 <= zlen l ->
  exists c w, rx_io_read rs dev i t = Ok c /\ t_fmt_type c = (2, 10) /\ t_status c = 0 /\ t_requester_id c = t_requester_id t /\ t_tag c = t_tag t /\ t_completer_id c = dev /\
    t_length c = 1 /\ t_byte_count c = 4 /\ t_data c = [w] /\ 0 <= w < 2^32 /\
    (forall k, 0 <= k < 4 -> nth (Z.to_nat k) (le_bytes 4 w) 0 = if Z.testbit (t_first_be t) k then mem_of l (t_address t mod zlen l + k) else 0).
Proof.
  intros HC (L1 & L2 & L3 & L4 & L5) Hend.
  assert (0 <= t_address t mod zlen l).
  { apply Z.mod_pos_bound. destruct HC as (_ & _ & _ & Hne). destruct l; [congruence|unfold zlen; cbn [length]; lia]. }
  destruct (io_scan_ok rs i l (t_address t mod zlen l) (t_first_be t) HC L4 ltac:(lia) Hend) as (d & D1 & D2 & D3 & D4).
  destruct (set_data_bytes_ok d (set_completion_data t dev tlp0)) as (ds & S1 & S2 & S3 & S4).
  { rewrite D2. reflexivity. } { assumption. }
  unfold zlen in S2. rewrite D2 in S2. destruct ds as [|w [|w2 ds]]; [cbn in S2; lia| |cbn [length] in S2; lia].
  exists (set_length 1 (set_byte_count 4 (set_length 1 (set_data [w] (set_completion_data t dev tlp0))))), w.
  unfold rx_io_read. rewrite (ifr_size_ok _ _ _ HC). cbn [bind]. cbv zeta. rewrite D1. cbn [bind]. rewrite S1. cbn [bind].
  repeat (split; [reflexivity|]). apply Forall_cons_inv in S4. split; [apply S4|]. cbn [flat_map] in S3. rewrite app_nil_r in S3. rewrite S3. exact D4.
Qed.

(** ---- a test device as a completer ---- *)
Lemma mod_base b n a : 0 < n -> b mod n = 0 -> b <= a < b + n -> a mod n = a - b.
Proof. intros Hn Hb Ha. rewrite (Z.div_mod b n) in Ha |- * by lia. rewrite Hb in *. symmetry. apply Z.mod_unique_pos with (q := b / n); lia. Qed.

Lemma if_completer rs dev mps i l b mx : ifr_contents rs i l -> 0 <= mps -> b mod zlen l = 0 -> b mod 4 = 0 -> zlen l mod 4 = 0 ->
  completer_ok mx (fun a => mem_of l (a - b)) b (b + zlen l) (fun t => match rx_mem_read rs dev mps i t with Ok cs => cs | Err _ => [] end).
Proof.
  intros HC Hm Hb Hb4 Hl4 t (L1 & L2 & L3 & L4 & L5 & L6) Hck HS first count Hf HS2.
  assert (Hpos : 0 < zlen l) by (destruct HC as (_ & _ & _ & Hne); destruct l; [congruence|unfold zlen; cbn [length]; lia]).
  destruct (legal_extent t b (b + zlen l) L5 L2 L1 Hb4 ltac:(lia) HS) as (X1 & X2).
  assert (HM : t_address t mod zlen l = t_address t - b) by (apply mod_base; lia).
  destruct (contiguous_be t first count L5 L2 Hf HS2) as (E1 & E2).
  destruct (rx_mem_read_spec rs dev mps i l t _ _ HC Hm L2 L1 L5 (span_ok t L5 L2)) as (cs & C1 & C2); [lia|].
  exists dev, (128 * 2^mps). rewrite C1. rewrite E1, E2 in C2.
  erewrite mem_load_ext; [exact C2|]. intros j Hj. cbv beta. f_equal. lia.
Qed.

Lemma if_io_completer rs dev i l b : ifr_contents rs i l -> b mod zlen l = 0 -> b mod 4 = 0 -> zlen l mod 4 = 0 ->
  io_completer_ok (fun a => mem_of l (a - b)) b (b + zlen l) (fun t => match rx_io_read rs dev i t with Ok c => [c] | Err _ => [] end).
Proof.
  intros HC Hb Hb4 Hl4 t HL H1 H2.
  assert (Hpos : 0 < zlen l) by (destruct HC as (_ & _ & _ & Hne); destruct l; [congruence|unfold zlen; cbn [length]; lia]).
  assert (HM : t_address t mod zlen l = t_address t - b) by (apply mod_base; lia).
  destruct (rx_io_read_spec rs dev i l t HC HL ltac:(lia)) as (c & w & C1 & C2 & C3 & C4 & C5 & C6 & C7 & C8 & C9 & C10 & C11).
  exists c, w. rewrite C1. repeat (split; [first [reflexivity|assumption]|]). intros k Hk Ht. rewrite C11, Ht by assumption. f_equal. lia.
Qed.

Lemma if_reads_if rs dev mps i l b rid mrrs tag addr len : ifr_contents rs i l -> 0 <= mps -> 0 <= mrrs ->
  b mod zlen l = 0 -> b mod 4 = 0 -> zlen l mod 4 = 0 -> 1 <= len -> b <= addr -> addr + len <= b + zlen l ->
  exists ts, dma_mem_read rid mrrs tag (fun t => match rx_mem_read rs dev mps i t with Ok cs => cs | Err _ => [] end) addr len = Ok (ts, slice l (addr - b) (addr - b + len)).
Proof.
  intros HC Hm Hr Hb Hb4 Hl4 Hlen H1 H2.
  destruct (dma_mem_read_spec rid mrrs tag _ _ _ _ addr len Hr (if_completer rs dev mps i l b (128 * 2^mrrs) HC Hm Hb Hb4 Hl4) Hlen H1 H2) as (ts & T1 & _).
  exists ts. rewrite T1. do 2 f_equal. rewrite slice_mem_of by lia. apply mem_load_ext. intros j Hj. f_equal. lia.
Qed.
