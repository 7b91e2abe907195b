(** Lemmas: DMA operations and request handlers of the test device. *)
From Verif Require Import PyBase BitLemmas TlpModel TlpSpec TlpProofs SplitModel SplitSpec SplitProofs SplitProofs2 PcieIfModel PcieIfSpec PcieIfProofs PcieIfProofs2.
From Coq Require Import ZifyBool ZifyNat.
Ltac Zify.zify_post_hook ::= Z.div_mod_to_equations.

(** ---- memory write ---- *)
Lemma dma_write_of_split rid mps data : forall fuel addr n ts,
  mem_write_loop fuel rid mps 0 0 addr data n = Ok ts -> dma_mem_write_loop fuel rid mps false addr data n = Ok ts.
Proof.
  induction fuel as [|f IH]; intros addr n ts H; cbn [mem_write_loop dma_mem_write_loop] in *; destruct (n <? zlen data); try assumption.
  destruct (mps <? 0); [discriminate|]. cbv zeta in *.
  set (k := Z.min (Z.min (zlen data - n) (Z.shiftl 128 mps - addr mod 4)) (4096 - Z.land addr 0xfff)) in *.
  change (set_tc 0 (set_attr 0 (set_requester_id rid (set_fmt_type (if addr >? 4294967295 then TLP_MEM_WRITE_64 else TLP_MEM_WRITE) tlp0))))
    with (set_requester_id rid (set_fmt_type (if addr >? 4294967295 then TLP_MEM_WRITE_64 else TLP_MEM_WRITE) tlp0)) in H.
  destruct (set_be_data addr (slice data n (n + k)) _) as [t|e]; [|discriminate]. cbn [bind] in *.
  unfold send in H. destruct (tlp_check t); [|discriminate]. cbn [bind] in H.
  destruct (mem_write_loop f rid mps 0 0 (addr + k) data (n + k)) as [r|e] eqn:E; [|discriminate]. cbn [bind] in H.
  rewrite (IH _ _ _ E). cbn [bind]. exact H.
Qed.

Lemma dma_mem_write_spec rid mps addr data : 0 <= mps -> Forall is_byte data -> data <> [] ->
  exists ts, dma_mem_write rid mps addr data = Ok ts /\
    Forall (fun t => mem_write_legal (128 * 2^mps) t /\ from_dev rid t /\ tlp_check t = true) ts /\
    covers addr (zlen data) ts /\ (forall m a, apply_writes ts m a = mem_store m addr data a).
Proof.
  intros Hm HB Hne. destruct (mem_write_spec rid mps 0 0 addr data Hm HB) as (ts & R1 & R2 & R3 & R4).
  exists ts. split; [|split; [|auto]].
  - unfold dma_mem_write. replace (zlen data =? 0) with false by (destruct data; [congruence|unfold zlen; cbn [length]; lia]).
    now apply dma_write_of_split.
  - eapply Forall_impl; [|exact R2]. intros t (A & (B & _) & C). auto.
Qed.

Lemma no_select t : t_length t = 1 -> t_first_be t = 0 -> forall a, tlp_selects t a = false.
Proof.
  intros H1 H2 a. unfold tlp_selects, selects. rewrite H1, H2.
  destruct ((t_address t <=? a) && (a <? t_address t + 4 * 1)) eqn:E; [|reflexivity]. cbn [andb].
  unfold lane_enabled. replace ((a - t_address t) / 4 =? 0) with true by lia. apply Z.testbit_0_l.
Qed.

Lemma dma_mem_write_zero rid mps addr : 0 <= mps ->
  exists t, dma_mem_write rid mps addr [] = Ok [t] /\ t_length t = 1 /\ zlen (t_data t) = 1 /\ from_dev rid t /\
    t_address t = addr - addr mod 4 /\ (forall a, tlp_selects t a = false) /\ (forall m a, apply_write m t a = m a).
Proof.
  intros Hm. pose proof (pow2_pos mps Hm) as HP.
  destruct (write_chunk rid mps 0 0 addr [0] Hm) as (t & T1 & T2 & T3 & T4 & T5 & T6).
  { discriminate. } { repeat constructor; lia. } { change (zlen [0]) with 1. lia. } { change (zlen [0]) with 1. lia. }
  exists (set_first_be 0 t). unfold dma_mem_write. change (zlen (@nil Z) =? 0) with true. cbv iota.
  change (length [0]) with 1%nat. cbn [dma_mem_write_loop]. change (0 <? zlen [0]) with true. cbv iota zeta.
  replace (mps <? 0) with false by lia. rewrite shiftl_128, land_fff by assumption. change (zlen [0] - 0) with 1.
  replace (Z.min (Z.min 1 (128 * 2 ^ mps - addr mod 4)) (4096 - addr mod 4096)) with 1 by lia.
  change (slice [0] 0 (0 + 1)) with [0].
  change (set_be_data addr [0] (wr_hdr rid 0 0 addr)) with
    (set_be_data addr [0] (set_requester_id rid (set_fmt_type (if addr >? 4294967295 then TLP_MEM_WRITE_64 else TLP_MEM_WRITE) tlp0))) in T1.
  rewrite T1. cbn [bind]. change (0 + 1 <? zlen [0]) with false. cbn [bind].
  destruct T3 as ((L1 & L2 & L3 & L4 & L5 & L6) & L7 & L8). change (zlen [0]) with 1 in T5.
  destruct (set_be_data_spec addr [0] (wr_hdr rid 0 0 addr)) as (t' & pay & S1 & S2 & S3 & S4 & S5 & S6 & S7 & S8).
  { discriminate. } { repeat constructor; lia. }
  change (set_be_data addr [0] (wr_hdr rid 0 0 addr)) with
    (set_be_data addr [0] (set_requester_id rid (set_fmt_type (if addr >? 4294967295 then TLP_MEM_WRITE_64 else TLP_MEM_WRITE) tlp0))) in S1.
  rewrite T1 in S1. apply (f_equal (fun r => match r with Ok x => x | Err _ => t end)) in S1. cbn in S1. subst t'.
  assert (E1 : t_length t = 1).
  { destruct (legal_last t L5 L2) as (k & Hk & HS). apply T5 in HS. lia. }
  assert (HS : forall a, tlp_selects (set_first_be 0 t) a = false) by (apply no_select; [exact E1|reflexivity]).
  split; [reflexivity|]. split; [exact E1|]. split; [change (zlen (t_data t) = 1); lia|]. split; [exact (proj1 T4)|]. split; [change (t_address t = addr - addr mod 4); lia|].
  split; [exact HS|]. intros m a. unfold apply_write, write_effect. fold (tlp_selects (set_first_be 0 t) a). now rewrite HS.
Qed.

Lemma issue_msi_spec rid mps addr data : 0 <= mps -> 0 <= data < 2^32 ->
  exists ts, issue_msi rid mps addr data = Ok ts /\
    Forall (fun t => mem_write_legal (128 * 2^mps) t /\ from_dev rid t /\ tlp_check t = true) ts /\
    covers addr 4 ts /\ (forall m a, apply_writes ts m a = mem_store m addr (le_bytes 4 data) a).
Proof.
  intros Hm Hd. destruct (mem_write_spec rid mps 0 0 addr (le_bytes 4 data) Hm (le_bytes_byte 4 data)) as (ts & R1 & R2 & R3 & R4).
  exists ts. split; [|split; [|auto]].
  - unfold issue_msi. replace ((0 <=? data) && (data <? 2^32)) with true by lia. now apply dma_write_of_split.
  - eapply Forall_impl; [|exact R2]. intros t (A & (B & _) & C). auto.
Qed.
Lemma issue_msi_aligned rid mps addr data : 0 <= mps -> 0 <= data < 2^32 -> addr mod 4 = 0 ->
  exists t, issue_msi rid mps addr data = Ok [t] /\ mem_write_legal (128 * 2^mps) t /\ from_dev rid t /\
    t_address t = addr /\ t_length t = 1 /\ t_first_be t = 15 /\ t_data t = [data].
Proof.
  intros Hm Hd Ha. pose proof (pow2_pos mps Hm) as HP.
  destruct (write_chunk rid mps 0 0 addr (le_bytes 4 data) Hm) as (t & T1 & T2 & T3 & T4 & T5 & T6).
  { discriminate. } { apply le_bytes_byte. } { change (zlen (le_bytes 4 data)) with 4. lia. } { change (zlen (le_bytes 4 data)) with 4. lia. }
  exists t. unfold issue_msi. replace ((0 <=? data) && (data <? 2^32)) with true by lia.
  assert (E : mem_write_loop 4 rid mps 0 0 addr (le_bytes 4 data) 0 = Ok [t]).
  { remember (le_bytes 4 data) as d eqn:Ed. assert (Hz : zlen d = 4) by (subst d; reflexivity).
    cbn [mem_write_loop]. rewrite Hz. change (0 <? 4) with true. cbv iota zeta.
    replace (mps <? 0) with false by lia. rewrite shiftl_128, land_fff by assumption. change (4 - 0) with 4.
    replace (Z.min (Z.min 4 (128 * 2 ^ mps - addr mod 4)) (4096 - addr mod 4096)) with 4 by lia.
    replace (slice d 0 (0 + 4)) with d by (subst d; reflexivity). unfold wr_hdr in T1. rewrite T1. cbn [bind].
    unfold send. rewrite T2. cbn [bind]. change (0 + 4 <? 4) with false. reflexivity. }
  split; [now apply dma_write_of_split|]. split; [exact T3|]. split; [exact (proj1 T4)|].
  destruct T3 as ((L1 & L2 & L3 & L4 & L5 & L6) & L7 & L8). change (zlen (le_bytes 4 data)) with 4 in T5.
  destruct (set_be_data_spec addr (le_bytes 4 data) (wr_hdr rid 0 0 addr)) as (t' & pay & S1 & S2 & S3 & S4 & S5 & S6 & S7 & S8 & S9).
  { discriminate. } { apply le_bytes_byte. }
  rewrite T1 in S1. apply (f_equal (fun r => match r with Ok x => x | Err _ => t end)) in S1. cbv beta iota in S1. subst t'.
  assert (EA : t_address t = addr) by lia.
  assert (E1 : t_length t = 1).
  { destruct (legal_last t L5 L2) as (k & Hk & HS). apply T5 in HS. lia. }
  split; [exact EA|]. split; [exact E1|]. split.
  - assert (HT : forall k, 0 <= k < 4 -> Z.testbit (t_first_be t) k = true).
    { intros k Hk. pose proof (selects_lane t 0 k ltac:(lia) Hk) as HX. unfold lane_enabled in HX. change (0 =? 0) with true in HX. cbv iota in HX.
      rewrite <- HX. apply T5. lia. }
    destruct L5 as (B1 & _). pose proof (HT 0 ltac:(lia)). pose proof (HT 1 ltac:(lia)). pose proof (HT 2 ltac:(lia)). pose proof (HT 3 ltac:(lia)).
    clear -B1 H H0 H1 H2.
    assert (E : t_first_be t = 0 \/ t_first_be t = 1 \/ t_first_be t = 2 \/ t_first_be t = 3 \/ t_first_be t = 4 \/ t_first_be t = 5 \/ t_first_be t = 6 \/ t_first_be t = 7 \/
       t_first_be t = 8 \/ t_first_be t = 9 \/ t_first_be t = 10 \/ t_first_be t = 11 \/ t_first_be t = 12 \/ t_first_be t = 13 \/ t_first_be t = 14 \/ t_first_be t = 15) by lia.
    repeat (destruct E as [E|E]; [rewrite E in *; cbn in *; congruence|]). exact E.
  - change (zlen (le_bytes 4 data)) with 4 in *. rewrite E1 in S4. destruct (t_data t) as [|w [|w2 r]] eqn:ED; [discriminate| |unfold zlen in S4; cbn [length] in S4; lia].
    f_equal. apply Forall_cons_inv in L8. destruct L8 as (Hw & _).
    assert (EP : payload t = le_bytes 4 w) by (unfold payload; rewrite ED; cbn [flat_map]; apply app_nil_r).
    rewrite (payload_get_data t pay S2) in EP.
    assert (EL : le_bytes 4 w = le_bytes 4 data).
    { apply list_eq_nth; [reflexivity|]. intros i Hi. change (length (le_bytes 4 w)) with 4%nat in Hi. rewrite <- EP.
      specialize (S8 (addr + Z.of_nat i) ltac:(lia)). rewrite EA in S8. replace (addr + Z.of_nat i - addr) with (Z.of_nat i) in S8 by lia.
      now rewrite Nat2Z.id in S8. }
    apply (f_equal le_val) in EL. cbn [le_bytes le_val] in EL. lia.
Qed.

(** ---- memory read ---- *)
Lemma completes_answers req comp max : forall cs addr count data, completes req comp max addr count data cs -> Forall (answers req comp) cs.
Proof.
  induction cs as [|c cs IH]; intros addr count data H; [destruct H|]. cbn [completes] in H. destruct H as (HA & _ & _ & _ & _ & HR).
  constructor; [assumption|]. destruct cs as [|c2 cs]; [constructor|]. cbv zeta in HR. destruct HR as (_ & _ & HR). now apply IH in HR.
Qed.

Lemma np_collect_completes req comp max ft : ft = TLP_MEM_READ \/ ft = TLP_MEM_READ_64 -> forall cs addr count data,
  completes req comp max addr count data cs -> 1 <= count -> count + addr mod 4 <= zlen data <= count + addr mod 4 + 3 -> zlen data mod 4 = 0 ->
  fst (np_collect ft cs) = cs.
Proof.
  intros Hft. induction cs as [|c cs IH]; intros addr count data H H1 Hz Hz4; [reflexivity|].
  cbn [completes] in H. destruct H as (HA & HL & HM & HBC & HLA & HR). cbv zeta in HR.
  pose proof HA as (HF & HS & _ & _ & _ & _ & _ & HZ & _).
  cbn [np_collect]. rewrite HS. change (negb (0 =? CPL_STATUS_SC)) with false. cbv iota.
  replace (ft_in ft [TLP_MEM_READ; TLP_MEM_READ_64]) with true by (destruct Hft; subst; reflexivity).
  rewrite HF, HLA, HBC, land_3. replace (addr mod 128 mod 4) with (addr mod 4) by lia.
  change (ft_in (2, 10) [TLP_CPL; TLP_CPL_LOCKED]) with false. cbv iota.
  destruct cs as [|c2 cs].
  - destruct (_ <=? _); reflexivity.
  - destruct HR as (HP & Hend & HR).
    assert (HPl : zlen (payload c) = 4 * t_length c).
    { unfold zlen in *. rewrite payload_len. lia. }
    assert (HLlt : 4 * t_length c < zlen data).
    { destruct (Z.ltb_spec (4 * t_length c) (zlen data)); [assumption|].
      exfalso. rewrite (skipn_all2 data) in HR by (unfold zlen in *; lia).
      clear -HR. destruct HR as (HA & HL & _ & _ & _ & HR).
      assert (payload c2 = []) as E.
      { destruct cs; [assumption|]. destruct HR as (HP & _). rewrite firstn_nil in HP. assumption. }
      pose proof (payload_len c2) as HH. rewrite E in HH. cbn in HH. destruct HA as (_ & _ & _ & _ & _ & _ & _ & HZ & _).
      unfold zlen in HZ. lia. }
    replace (count <=? t_length c * 4 - addr mod 4) with false by lia.
    assert (Hsk : zlen (skipn (length (payload c)) data) = zlen data - 4 * t_length c).
    { unfold zlen in *. rewrite skipn_length. lia. }
    specialize (IH _ _ _ HR). destruct (np_collect ft (c2 :: cs)) as [x y]. cbn [fst] in *. f_equal. apply IH; lia.
Qed.

Lemma dma_recv_of_cpl bl : forall cs fuel m acc d r, Forall (fun c => get_data c = cpl_bytes c) cs ->
  cpl_recv_loop fuel bl m cs acc = Ok (d, r) -> dma_recv_loop bl m cs acc = Ok d.
Proof.
  induction cs as [|c cs IH]; intros fuel m acc d r HF H.
  - destruct fuel; cbn [cpl_recv_loop dma_recv_loop] in *; destruct (m <? bl); try discriminate; congruence.
  - apply Forall_cons_inv in HF. destruct HF as (HF1 & HF2). destruct fuel as [|f].
    + cbn [cpl_recv_loop dma_recv_loop] in *. destruct (m <? bl); [discriminate|congruence].
    + cbn [cpl_recv_loop dma_recv_loop] in *. destruct (Z.ltb_spec m bl) as [Hlt|Hge]; [|congruence].
      replace (Z.max (bl - m) 1) with (bl - m) by lia.
      destruct (negb (t_status c =? CPL_STATUS_SC)); [discriminate|].
      destruct (negb (t_byte_count c + 3 + Z.land (t_lower_address c) 3 >=? t_length c * 4)); [discriminate|].
      destruct (negb (t_byte_count c =? bl - m)); [discriminate|].
      rewrite HF1. destruct (cpl_bytes c) as [x|]; [|discriminate]. cbn [bind] in *. eapply IH; eassumption.
Qed.

Lemma dma_request mx M lo hi respond t first count acc ft :
  completer_ok mx M lo hi respond -> mem_req_legal mx false t -> tlp_check t = true ->
  1 <= count -> t_address t = first - first mod 4 -> 4 * t_length t <= count + first mod 4 + 3 ->
  count + first mod 4 <= 4 * t_length t ->
  (forall a, tlp_selects t a = true <-> first <= a < first + count) -> lo <= first -> first + count <= hi ->
  ft = TLP_MEM_READ \/ ft = TLP_MEM_READ_64 ->
  dma_recv_loop count 0 (fst (np_collect ft (respond t))) acc = Ok (acc ++ mem_load M first count).
Proof.
  intros HC HL Hck Hc HA H4 H5 HS Hlo Hhi Hft.
  destruct (HC t HL Hck) with (first := first) (count := count) as (comp & cmax & HH).
  { intros a Ha. apply HS in Ha. lia. } { lia. } { exact HS. }
  assert (1 <= t_length t) by apply HL.
  assert (HZ : zlen (mem_load M (t_address t) (4 * t_length t)) = 4 * t_length t) by (apply zlen_mem_load; lia).
  rewrite (np_collect_completes _ _ _ ft Hft _ _ _ _ HH) by lia.
  apply dma_recv_of_cpl with (fuel := S (length (respond t))) (r := []).
  - eapply Forall_impl; [|exact (completes_answers _ _ _ _ _ _ _ HH)]. intros c HcA.
    rewrite (cpl_bytes_ok _ _ _ HcA). apply get_data_payload. apply HcA.
  - change (respond t) with ([] ++ respond t) at 2. apply recv_request with (mx := mx) (lo := lo) (hi := hi); assumption.
Qed.

(** The set_be and set_tag order of dma_mem_read. *)
Lemma dma_rd_hdr rid tg addr k :
  set_tag tg (fst (set_be addr k (set_requester_id rid (set_fmt_type (if addr >? 0xffffffff then TLP_MEM_READ_64 else TLP_MEM_READ) tlp0)))) =
  fst (set_be addr k (rd_hdr rid tg 0 0 addr)).
Proof.
  unfold set_be, rd_hdr. cbn [fst]. match goal with |- context [if t_length ?x =? 1 then _ else _] => change (t_length x) with (- (- (k + addr mod 4 + (3 - (addr + k - 1) mod 4)) / 4)) end.
  match goal with |- context [if t_length ?x =? 1 then _ else _] => change (t_length x) with (- (- (k + addr mod 4 + (3 - (addr + k - 1) mod 4)) / 4)) end.
  destruct (_ =? 1); reflexivity.
Qed.

Lemma dma_reads_spec rid mrrs tag respond M lo hi len :
  0 <= mrrs -> completer_ok (128 * 2^mrrs) M lo hi respond ->
  forall fuel k addr n data, 0 <= n <= len -> (Z.to_nat (len - n) <= fuel)%nat -> lo <= addr -> addr + (len - n) <= hi ->
  exists ops, dma_read_reqs fuel rid mrrs false tag k addr len n = Ok ops /\
    dma_join respond ops data = Ok (data ++ mem_load M addr (len - n)) /\
    covers addr (len - n) (map snd ops) /\
    Forall (fun t => mem_req_legal (128 * 2^mrrs) false t /\ from_dev rid t /\ tlp_check t = true) (map snd ops) /\
    (forall j t, nth_error (map snd ops) j = Some t -> t_tag t = tag (k + Z.of_nat j)).
Proof.
  intros Hmrrs HC. induction fuel as [|f IH]; intros kk addr n data Hn Hf Hlo Hhi.
  - exists []. cbn [dma_read_reqs]. replace (n <? len) with false by lia. replace (len - n) with 0 by lia.
    cbn. rewrite app_nil_r. repeat split; auto. intros j t HJ. destruct j; discriminate.
  - cbn [dma_read_reqs]. destruct (Z.ltb_spec n len).
    2:{ exists []. replace (len - n) with 0 by lia. cbn. rewrite app_nil_r. repeat split; auto. intros j t HJ. destruct j; discriminate. }
    cbv zeta. replace (mrrs <? 0) with false by lia. rewrite shiftl_128, land_fff, land_7f by assumption.
    pose proof (pow2_pos mrrs Hmrrs) as HP.
    set (k := Z.min (if len - n >? 128 * 2 ^ mrrs - addr mod 4 then Z.min (len - n) (128 * 2 ^ mrrs - addr mod 128) else len - n) (4096 - addr mod 4096)).
    assert (Hk : 1 <= k <= len - n /\ k <= 128 * 2^mrrs - addr mod 4 /\ k <= 4096 - addr mod 4096).
    { unfold k. destruct (Z.gtb_spec (len - n) (128 * 2 ^ mrrs - addr mod 4)); lia. }
    clearbody k. destruct Hk as (Hk1 & Hk2 & Hk3). rewrite dma_rd_hdr.
    destruct (read_chunk rid (128 * 2^mrrs) (tag kk) 0 0 addr k) as (T1 & T2 & T3 & T4 & T5); try lia.
    assert (HA : t_address (fst (set_be addr k (rd_hdr rid (tag kk) 0 0 addr))) = addr - addr mod 4) by apply set_be_address.
    assert (HL : t_length (fst (set_be addr k (rd_hdr rid (tag kk) 0 0 addr))) = be_len addr k) by apply set_be_length.
    set (t := fst (set_be addr k (rd_hdr rid (tag kk) 0 0 addr))) in *. clearbody t.
    pose proof (be_len_bounds addr k ltac:(lia)) as (HB1 & HB2).
    destruct (IH (kk + 1) (addr + k) (n + k) (data ++ mem_load M addr k)) as (ops & R1 & R2 & R3 & R4 & R5); try lia.
    rewrite R1. cbn [bind]. exists ((k, t) :: ops). split; [reflexivity|]. cbn [dma_join map snd covers].
    rewrite (dma_request (128 * 2^mrrs) M lo hi respond t addr k data) with (ft := t_fmt_type t); try assumption; try lia.
    2:{ destruct T2 as (_ & _ & _ & _ & _ & HF). rewrite HF. destruct (t_address t <? 2^32); [left|right]; reflexivity. }
    cbn [bind]. split.
    { rewrite R2, <- app_assoc. replace (len - (n + k)) with ((len - n) - k) by lia. rewrite mem_load_app by lia. do 3 f_equal. lia. }
    split; [exists k; split; [lia|]; split; [exact T5|]; replace (len - n - k) with (len - (n + k)) by lia; exact R3|].
    split; [constructor; [|assumption]; split; [assumption|]; split; [exact (proj1 T3)|assumption]|].
    intros [|j] t' HJ; cbn in HJ.
    + injection HJ as <-. rewrite T4. f_equal. lia.
    + rewrite (R5 j t' HJ). f_equal. lia.
Qed.

Lemma dma_mem_read_spec rid mrrs tag respond M lo hi addr len :
  0 <= mrrs -> completer_ok (128 * 2^mrrs) M lo hi respond -> 1 <= len -> lo <= addr -> addr + len <= hi ->
  exists ts, dma_mem_read rid mrrs tag respond addr len = Ok (ts, mem_load M addr len) /\ covers addr len ts /\
    Forall (fun t => mem_req_legal (128 * 2^mrrs) false t /\ from_dev rid t /\ tlp_check t = true) ts /\
    (forall j t, nth_error ts j = Some t -> t_tag t = tag (Z.of_nat j)).
Proof.
  intros Hm HC Hlen Hlo Hhi.
  destruct (dma_reads_spec rid mrrs tag respond M lo hi len Hm HC (Z.to_nat len) 0 addr 0 []) as (ops & R1 & R2 & R3 & R4 & R5); try lia.
  exists (map snd ops). unfold dma_mem_read. replace (len <=? 0) with false by lia. cbv zeta iota. rewrite R1. cbn [bind]. rewrite R2. cbn [bind app].
  rewrite Z.sub_0_r in *. split; [|split; [exact R3|split; [exact R4|exact R5]]].
  rewrite slice_mem_load by lia. do 3 f_equal; lia.
Qed.

Lemma dma_mem_read_zero rid mrrs tag respond addr :
  0 <= mrrs -> (forall t, t_length t = 1 -> t_first_be t = 0 -> t_last_be t = 0 ->
     exists comp c, respond t = [c] /\ answers t comp c /\ t_length c = 1 /\ t_byte_count c = 1) ->
  exists t, dma_mem_read rid mrrs tag respond addr 0 = Ok ([t], []) /\ t_length t = 1 /\ t_address t = addr - addr mod 4 /\ from_dev rid t /\
    (forall a, tlp_selects t a = false).
Proof.
  intros Hm HR. pose proof (pow2_pos mrrs Hm) as HP. unfold dma_mem_read. change (0 <=? 0) with true. cbv zeta iota.
  change (Z.to_nat 1) with 1%nat. cbn [dma_read_reqs]. change (0 <? 1) with true. cbv zeta iota.
  replace (mrrs <? 0) with false by lia. rewrite shiftl_128, land_fff, land_7f by assumption.
  replace (Z.min (if 1 - 0 >? 128 * 2 ^ mrrs - addr mod 4 then Z.min (1 - 0) (128 * 2 ^ mrrs - addr mod 128) else 1 - 0) (4096 - addr mod 4096)) with 1.
  2:{ destruct (Z.gtb_spec (1 - 0) (128 * 2 ^ mrrs - addr mod 4)); lia. }
  change (0 + 1 <? 1) with false. cbn [bind].
  set (h := set_requester_id rid _).
  pose proof (set_be_legal addr 1 h ltac:(lia)) as HBE. pose proof (set_be_length addr 1 h) as HL. pose proof (set_be_address addr 1 h) as HA.
  pose proof (set_be_spec addr 1 h ltac:(lia)) as (S1 & S2 & S3 & S4).
  set (t := fst (set_be addr 1 h)) in *.
  assert (E1 : t_length t = 1) by (rewrite HL; unfold be_len; lia).
  assert (E2 : t_last_be t = 0) by (apply HBE; exact E1).
  assert (E3 : t_requester_id t = rid) by (destruct S4 as (_ & _ & _ & _ & _ & _ & _ & _ & S4 & _) || idtac; unfold t, set_be; cbn [fst]; destruct (_ =? 1); reflexivity).
  assert (E4 : ft_in (t_fmt_type t) [TLP_MEM_READ; TLP_MEM_READ_64] = true).
  { unfold t, set_be. cbn [fst]. unfold h. destruct (_ =? 1); destruct (addr >? _); reflexivity. }
  clearbody t. set (t' := set_tag (tag 0) (set_first_be 0 t)).
  destruct (HR t' E1 eq_refl E2) as (comp & c & C1 & C2 & C3 & C4).
  exists t'. cbn [dma_join]. rewrite C1. cbn [np_collect]. pose proof C2 as (F1 & F2 & _ & _ & _ & _ & _ & F3 & F4).
  rewrite F2. change (negb (0 =? CPL_STATUS_SC)) with false. cbv iota. change (t_fmt_type t') with (t_fmt_type t). rewrite E4, C3, C4, F1.
  rewrite land_3. change (ft_in (2, 10) [TLP_CPL; TLP_CPL_LOCKED]) with false. cbv iota.
  assert (HX : dma_recv_loop 1 0 [c] [] = Ok (slice (payload c) (t_lower_address c mod 4) (t_lower_address c mod 4 + 1))).
  { cbn [dma_recv_loop]. change (0 <? 1) with true. cbv iota. rewrite F2, C3, C4, land_3. change (negb (0 =? CPL_STATUS_SC)) with false. cbv iota.
    replace (negb (1 + 3 + t_lower_address c mod 4 >=? 1 * 4)) with false by lia. change (negb (1 =? Z.max (1 - 0) 1)) with false. cbv iota.
    rewrite get_data_payload by assumption. cbn [bind]. assert (HZ : zlen (payload c) = 4) by (unfold zlen in *; rewrite payload_len; lia).
    rewrite HZ. replace (0 + (4 - t_lower_address c mod 4) <? 1) with false by lia. reflexivity. }
  replace (fst (if 1 <=? 1 * 4 - t_lower_address c mod 4 then ([c], []) else ([c], []))) with [c] by (destruct (_ <=? _); reflexivity).
  rewrite HX. cbn [bind map snd]. split; [reflexivity|]. split; [exact E1|]. split; [exact HA|]. split; [exact E3|].
  apply no_select; [exact E1|reflexivity].
Qed.
