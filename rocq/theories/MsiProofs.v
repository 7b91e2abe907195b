(** Proofs about MSI generation, configuration and reception (C24). *)
From Verif Require Import PyBase BitLemmas TlpModel TlpSpec TlpProofs BarProofs SplitModel SplitSpec SplitProofs SplitProofs2 CfgModel CfgSpec CfgBits CfgProofs MsiModel.

Lemma le_bytes4_bytes v : Forall is_byte (le_bytes 4 v).
Proof. cbn [le_bytes]. repeat constructor; unfold is_byte; lia. Qed.
Lemma le_val4 v : 0 <= v < 2^32 -> le_val (le_bytes 4 v) = v.
Proof. intros. cbn [le_bytes le_val]. lia. Qed.

(** One aligned DWORD write is one TLP. *)
Lemma dword_write rid mps addr v attr tc : 0 <= mps -> addr mod 4 = 0 -> 0 <= v < 2^32 ->
  exists t, function_mem_write true rid mps addr (le_bytes 4 v) attr tc = Ok [t] /\
    t_address t = addr /\ t_length t = 1 /\ t_first_be t = 15 /\ t_last_be t = 0 /\ t_data t = [v] /\
    get_data t = Ok (le_bytes 4 v) /\
    mem_write_legal (128 * 2^mps) t /\ from_transfer rid attr tc t /\ tlp_check t = true.
Proof.
  intros Hm Ha Hv. unfold function_mem_write. cbn [negb].
  change (length (le_bytes 4 v)) with 4%nat.
  set (d := le_bytes 4 v). assert (Hd : zlen d = 4) by reflexivity.
  cbn [mem_write_loop]. rewrite Hd. change (0 <? 4) with true. cbv iota.
  replace (mps <? 0) with false by lia. rewrite shiftl_128, land_fff by assumption. cbv zeta.
  pose proof (pow2_pos mps Hm) as HP.
  replace (Z.min (Z.min (4 - 0) (128 * 2 ^ mps - addr mod 4)) (0x1000 - addr mod 4096)) with 4 by lia.
  replace (slice d 0 (0 + 4)) with d by reflexivity.
  assert (Hne : d <> []) by discriminate.
  destruct (write_chunk rid mps attr tc addr d Hm Hne (le_bytes4_bytes v) ltac:(lia) ltac:(lia)) as (t & T1 & T2 & T3 & T4 & T5 & T6).
  destruct (set_be_data_ok addr d (wr_hdr rid attr tc addr) Hne (le_bytes4_bytes v)) as (t' & U1 & U2 & U3 & U4 & U5).
  rewrite T1 in U1. injection U1 as <-.
  unfold wr_hdr in T1. rewrite T1. cbn [bind]. unfold send. rewrite T2. cbn [bind].
  change (0 + 4 <? 4) with false. cbv iota. cbn [bind].
  exists t. split; [reflexivity|].
  assert (HL : be_len addr (zlen d) = 1) by (unfold be_len; lia).
  rewrite HL in U3, U4. rewrite set_be_eq in U3. cbn zeta in U3. cbn [fst] in U3. rewrite HL in U3.
  rewrite Ha in U2, U3. replace (3 - (addr + zlen d - 1) mod 4) with 0 in U2, U3 by lia.
  change (zeros 0) with (@nil Z) in U2. rewrite app_nil_r, app_nil_l in U2.
  assert (HA : t_address t = addr) by (rewrite U3; change (4 * (addr / 4) = addr); lia).
  assert (HT : t_length t = 1) by (rewrite U3; reflexivity).
  split; [exact HA|]. split; [exact HT|].
  split; [rewrite U3; reflexivity|]. split; [rewrite U3; reflexivity|].
  split; [|split; [assumption|split; [assumption|split; assumption]]].
  destruct (t_data t) as [|w [|w' ws]] eqn:ED; unfold zlen in U4; cbn [length] in U4; try lia.
  inversion U5; subst. unfold get_data in U2. rewrite ED in U2. cbn in U2.
  unfold pack_u32 in U2. replace ((0 <=? w) && (w <? 2^32)) with true in U2 by lia. cbn [bind] in U2.
  injection U2 as E0 E1 E2 E3. f_equal. rewrite <- (le_val4 w), <- (le_val4 v) by assumption. cbn [le_val le_bytes]. congruence.
Qed.

Lemma msi_data_eq md k n : 0 <= k -> 0 <= n < 2^k -> Z.lor (Z.land md (Z.lnot (2^k - 1))) n = md - md mod 2^k + n.
Proof.
  intros Hk Hn. rewrite land_lnot_low, Z.lor_comm by assumption.
  replace (md - md mod 2^k) with (Z.shiftl (md / 2^k) k).
  - rewrite lor_add_disjoint by assumption. rewrite Z.shiftl_mul_pow2 by assumption. lia.
  - rewrite Z.shiftl_mul_pow2 by assumption. pose proof (Z.div_mod md (2^k) ltac:(lia)). lia.
Qed.
Lemma msi_data_range md k n : 0 <= k <= 16 -> 0 <= n < 2^k -> 0 <= md < 2^16 -> 0 <= md - md mod 2^k + n < 2^16.
Proof.
  intros Hk Hn Hm. pose proof (Z.div_mod md (2^k) ltac:(lia)). pose proof (Z.mod_pos_bound md (2^k) ltac:(lia)).
  assert (md / 2^k <= 2^(16-k) - 1).
  { enough (md / 2^k < 2^(16-k)) by lia. apply Z.div_lt_upper_bound; [lia|]. rewrite <- Z.pow_add_r by lia. replace (k + (16 - k)) with 16 by lia. lia. }
  assert (2^k * 2^(16-k) = 2^16) by (rewrite <- Z.pow_add_r by lia; f_equal; lia).
  pose proof (Z.div_pos md (2^k) ltac:(lia) ltac:(lia)). nia.
Qed.

Lemma msi_issue s rid mps number attr tc :
  0 <= mps -> s A_msi_enable <> 0 -> s A_bus_master_enable <> 0 ->
  0 <= s A_msi_multiple_message_enable <= 16 -> 0 <= number < 2^(s A_msi_multiple_message_enable) ->
  number < 2^(s A_msi_multiple_message_capable) -> 0 <= s A_msi_message_data < 2^16 -> (s A_msi_message_address) mod 4 = 0 ->
  exists t, issue_msi_interrupt s rid mps number attr tc = Ok [t] /\
    t_address t = s A_msi_message_address /\ t_length t = 1 /\ t_first_be t = 15 /\ t_last_be t = 0 /\
    t_data t = [s A_msi_message_data - s A_msi_message_data mod 2^(s A_msi_multiple_message_enable) + number] /\
    get_data t = Ok (le_bytes 4 (s A_msi_message_data - s A_msi_message_data mod 2^(s A_msi_multiple_message_enable) + number)) /\
    mem_write_legal (128 * 2^mps) t /\ from_transfer rid attr tc t /\ tlp_check t = true.
Proof.
  intros Hm He Hb Hk Hn Hc Hd Ha. unfold issue_msi_interrupt.
  replace (s A_msi_enable =? 0) with false by lia.
  replace ((number <? 0) || (number >=? 2 ^ s A_msi_multiple_message_enable) || (number >=? 2 ^ s A_msi_multiple_message_capable)) with false by lia.
  cbv zeta. rewrite msi_data_eq by lia.
  pose proof (msi_data_range _ _ _ Hk Hn Hd) as HR.
  set (v := s A_msi_message_data - _ + number) in *. clearbody v.
  unfold pack_u32. replace ((0 <=? v) && (v <? 2^32)) with true by lia. cbn [bind].
  replace (negb (s A_bus_master_enable =? 0)) with true by lia.
  apply dword_write; [assumption|assumption|]. change (2^16) with 65536 in HR. change (2^32) with 4294967296. lia.
Qed.

Lemma msi_rejects s rid mps number attr tc :
  s A_msi_enable = 0 \/ number < 0 \/ 2^(s A_msi_multiple_message_enable) <= number \/ 2^(s A_msi_multiple_message_capable) <= number ->
  issue_msi_interrupt s rid mps number attr tc = Ok [].
Proof.
  intros H. unfold issue_msi_interrupt. destruct (Z.eqb_spec (s A_msi_enable) 0); [reflexivity|].
  replace ((number <? 0) || (number >=? 2 ^ s A_msi_multiple_message_enable) || (number >=? 2 ^ s A_msi_multiple_message_capable)) with true by lia.
  reflexivity.
Qed.

(* ---------- configure_msi ---------- *)
(** Register writes with all byte enables, on the attributes. *)
Lemma bmu_low32 a d : 0 <= d < 2^32 -> exists v, byte_mask_update a 15 d (-1) = Ok v /\
  Z.land v 0xfffffffffffffffc = Z.lor (Z.land a 0xffffffff00000000) (Z.land d 0xfffffffc).
Proof.
  intros Hd. destruct (byte_mask_update_spec a 15 d (-1)) as (v & E & Hv); [lia|]. exists v. split; [assumption|].
  apply Z.bits_inj'. intros i Hi. rewrite Z.lor_spec, !Z.land_spec, Hv, m1_bit by lia.
  change 0xfffffffffffffffc with (2^64 - 2^2). change 0xffffffff00000000 with (2^64 - 2^32). change 0xfffffffc with (2^32 - 2^2).
  rewrite !himask_bit by lia.
  destruct (Z.ltb_spec i 32).
  - replace (Z.testbit 15 (i / 8)) with true. 2:{ assert (i / 8 = 0 \/ i / 8 = 1 \/ i / 8 = 2 \/ i / 8 = 3) as [->|[->|[->| ->]]] by lia; reflexivity. }
    replace (i <? 64) with true by lia. replace (32 <=? i) with false by lia. cbn [andb]. rewrite andb_false_r. reflexivity.
  - rewrite (testbit_high 15 4) by lia. replace (2 <=? i) with true by lia. replace (32 <=? i) with true by lia. cbn [andb].
    rewrite andb_false_r, orb_false_r. reflexivity.
Qed.
Lemma bmu_high32 a d : 0 <= d < 2^32 -> exists v, byte_mask_update a (Z.shiftl 15 4) (Z.shiftl d 32) (-1) = Ok v /\
  Z.land v 0xfffffffffffffffc = Z.lor (Z.land a 0xfffffffc) (Z.shiftl d 32).
Proof.
  intros Hd. destruct (byte_mask_update_spec a (Z.shiftl 15 4) (Z.shiftl d 32) (-1)) as (v & E & Hv); [cbn; lia|]. exists v. split; [assumption|].
  apply Z.bits_inj'. intros i Hi. rewrite Z.lor_spec, !Z.land_spec, Hv, m1_bit by lia.
  change 0xfffffffffffffffc with (2^64 - 2^2). change 0xfffffffc with (2^32 - 2^2).
  rewrite !himask_bit, !Z.shiftl_spec by lia.
  destruct (Z.ltb_spec i 32).
  - rewrite (Z.testbit_neg_r 15), (Z.testbit_neg_r d) by lia. rewrite orb_false_r, andb_true_r.
    replace (i <? 64) with true by lia. now rewrite andb_true_r.
  - replace (2 <=? i) with true by lia. cbn [andb]. rewrite andb_false_r, orb_false_l.
    destruct (Z.ltb_spec i 64).
    + replace (Z.testbit 15 (i / 8 - 4)) with true; [now rewrite andb_true_r|].
      assert (i / 8 - 4 = 0 \/ i / 8 - 4 = 1 \/ i / 8 - 4 = 2 \/ i / 8 - 4 = 3) as [->|[->|[->| ->]]] by lia; reflexivity.
    + rewrite andb_false_r. rewrite (testbit_high d 32) by lia. reflexivity.
Qed.
Lemma bmu_data16 a d : 0 <= d < 2^16 -> exists v, byte_mask_update a (Z.land 15 3) d (-1) = Ok v /\ Z.land v 0xffff = d.
Proof.
  intros Hd. destruct (byte_mask_update_spec a (Z.land 15 3) d (-1)) as (v & E & Hv); [cbn; lia|]. exists v. split; [assumption|].
  apply Z.bits_inj'. intros i Hi. rewrite Z.land_spec, Hv, m1_bit by lia.
  change 0xffff with (Z.ones 16). rewrite Z.testbit_ones by lia. change (Z.land 15 3) with 3. replace (0 <=? i) with true by lia. cbn [andb].
  destruct (Z.ltb_spec i 16).
  - assert (i / 8 = 0 \/ i / 8 = 1) as [-> | ->] by lia; cbn; apply andb_true_r.
  - rewrite andb_false_r. now rewrite (testbit_high d 16) by lia.
Qed.

Lemma land_hi0 a : 0 <= a < 2^32 -> Z.land a 0xffffffff00000000 = 0.
Proof.
  intros Ha. apply Z.bits_inj'. intros i Hi. rewrite Z.land_spec, Z.bits_0. change 0xffffffff00000000 with (2^64 - 2^32). rewrite himask_bit by lia.
  destruct (Z.leb_spec 32 i); [|now rewrite andb_false_r]. now rewrite (testbit_high a 32) by lia.
Qed.
Lemma addr_split a : 0 <= a < 2^64 -> a mod 4 = 0 ->
  Z.lor (Z.land a 0xfffffffc) (Z.shiftl (Z.land (Z.shiftr a 32) 0xffffffff) 32) = a.
Proof.
  intros Ha H4. apply Z.bits_inj'. intros i Hi. rewrite Z.lor_spec, Z.land_spec, Z.shiftl_spec by lia.
  change 0xfffffffc with (2^32 - 2^2). rewrite himask_bit by lia.
  destruct (Z.ltb_spec i 32).
  - rewrite (Z.testbit_neg_r _ (i - 32)) by lia. rewrite orb_false_r, andb_true_r.
    destruct (Z.leb_spec 2 i); [apply andb_true_r|]. rewrite andb_false_r. symmetry.
    rewrite <- (Z.mod_pow2_bits_low a 2 i) by lia. change (2^2) with 4. rewrite H4. apply Z.bits_0.
  - rewrite andb_false_r, andb_false_r, orb_false_l. rewrite Z.land_spec, Z.shiftr_spec by lia. replace (i - 32 + 32) with i by lia.
    change 0xffffffff with (Z.ones 32). rewrite Z.testbit_ones by lia. destruct (Z.ltb_spec i 64).
    + replace ((0 <=? i - 32) && (i - 32 <? 32)) with true by lia. apply andb_true_r.
    + rewrite (testbit_high a 64) by lia. reflexivity.
Qed.
Lemma addr_low a : 0 <= a < 2^32 -> a mod 4 = 0 -> Z.land a 0xfffffffc = a.
Proof.
  intros Ha H4. pose proof (addr_split a ltac:(lia) H4) as H. replace (Z.shiftr a 32) with 0 in H; [now rewrite Z.lor_0_r in H|].
  rewrite Z.shiftr_div_pow2 by lia. rewrite Z.div_small by lia. reflexivity.
Qed.

(** Message control as read. *)
Lemma ctrl_64 s low : 0 <= low < 2^16 ->
  Z.land (Z.shiftr (Z.lor (Z.land (read_msi_0 s) 0xffff0000) low) 23) 1 = if s A_msi_64bit_address_capable =? 0 then 0 else 1.
Proof.
  intros Hl. apply Z.bits_inj'. intros i Hi. rewrite Z.land_spec, Z.shiftr_spec, Z.lor_spec, Z.land_spec by lia.
  destruct (Z.eq_dec i 0) as [->|]; [|rewrite (testbit_high 1 1) by lia; rewrite andb_false_r; destruct (s A_msi_64bit_address_capable =? 0); [now rewrite Z.bits_0|now rewrite (testbit_high 1 1) by lia]].
  rewrite (testbit_high low 16) by lia. unfold read_msi_0. cbv zeta. change (0 + 23) with 23. bitstep. unfold z0.
  destruct (s A_msi_64bit_address_capable =? 0); reflexivity.
Qed.
Lemma ctrl_mmc s low : 0 <= low < 2^16 -> 0 <= s A_msi_multiple_message_capable < 8 ->
  Z.land (Z.shiftr (Z.lor (Z.land (read_msi_0 s) 0xffff0000) low) 17) 7 = s A_msi_multiple_message_capable.
Proof.
  intros Hl Hc. apply Z.bits_inj'. intros i Hi. rewrite Z.land_spec, Z.shiftr_spec, Z.lor_spec, Z.land_spec by lia.
  destruct (Z.ltb_spec i 3); [|rewrite (testbit_high 7 3), (testbit_high (s A_msi_multiple_message_capable) 3) by lia; apply andb_false_r].
  rewrite (testbit_high low 16) by lia. unfold read_msi_0. cbv zeta.
  assert (i = 0 \/ i = 1 \/ i = 2) as [->|[->| ->]] by lia; ev; bitstep; reflexivity.
Qed.

Lemma ctrl_write c m : 0 <= m < 8 ->
  Z.testbit (Z.lor (Z.lor (Z.land c (Z.lnot (Z.shiftl 7 20))) (Z.shiftl 1 16)) (Z.shiftl m 20)) 16 = true /\
  Z.land (Z.shiftr (Z.lor (Z.lor (Z.land c (Z.lnot (Z.shiftl 7 20))) (Z.shiftl 1 16)) (Z.shiftl m 20)) 20) 7 = m.
Proof.
  intros Hm. split.
  - rewrite !Z.lor_spec, !Z.shiftl_spec by lia. ev. cbn. now rewrite orb_true_r.
  - apply Z.bits_inj'. intros i Hi. rewrite Z.land_spec, Z.shiftr_spec, !Z.lor_spec, Z.land_spec, !Z.shiftl_spec by lia. replace (i + 20 - 20) with i by lia.
    destruct (Z.ltb_spec i 3); [|rewrite (testbit_high 7 3), (testbit_high m 3) by lia; apply andb_false_r].
    rewrite Z.lnot_spec by lia. assert (i = 0 \/ i = 1 \/ i = 2) as [->|[->| ->]] by lia; ev; rewrite ?Z.shiftl_spec by lia; ev; bools; reflexivity.
Qed.

Lemma msi_configured s low addr limit : 0 <= low < 2^16 -> 0 <= addr < 2^64 -> addr mod 4 = 0 -> 0 <= limit < 2^16 ->
  0 <= s A_msi_multiple_message_capable < 8 -> 0 <= s A_msi_message_address ->
  (s A_msi_64bit_address_capable = 0 -> addr < 2^32 /\ s A_msi_message_address < 2^32) ->
  exists s', configure_msi s low addr limit = Ok s' /\
    s' A_msi_message_address = addr /\ s' A_msi_message_data = limit /\ s' A_msi_enable = 1 /\
    s' A_msi_multiple_message_enable = s A_msi_multiple_message_capable /\
    s' A_msi_multiple_message_capable = s A_msi_multiple_message_capable /\ s' A_bus_master_enable = s A_bus_master_enable.
Proof.
  intros Hlow Ha H4 Hl Hc Hp H64. unfold configure_msi. cbv zeta. rewrite ctrl_64, ctrl_mmc by assumption.
  set (ctrl := Z.lor (Z.land (read_msi_0 s) 0xffff0000) low).
  destruct (ctrl_write ctrl _ Hc) as [C1 C2]. set (w := Z.lor (Z.lor (Z.land ctrl _) _) _) in *. clearbody w.
  assert (E0 : forall s, write_msi_cap_register s 0 w 15 = Ok (write_msi_0 s w 15)) by reflexivity.
  assert (E1 : forall t, exists v, Z.land v 0xfffffffffffffffc = Z.lor (Z.land (t A_msi_message_address) 0xffffffff00000000) (Z.land addr 0xfffffffc) /\
     write_msi_cap_register t 1 (Z.land addr 0xfffffffc) 15 = Ok (CfgModel.set_attr t A_msi_message_address (Z.land v 0xfffffffffffffffc))).
  { intros t. destruct (bmu_low32 (t A_msi_message_address) (Z.land addr 0xfffffffc)) as (v & V1 & V2).
    { change 0xfffffffc with (2^32 - 2^2). split; [apply Z.land_nonneg; lia|].
      apply (bits_range _ 32); [lia|]. intros i Hi. rewrite Z.land_spec, himask_bit by lia. replace (i <? 32) with false by lia. now rewrite !andb_false_r. }
    exists v. rewrite V2. split.
    - f_equal. rewrite <- Z.land_assoc. reflexivity.
    - unfold write_msi_cap_register. change (1 =? 0) with false. change (1 =? 1) with true. cbv iota. rewrite V1. cbn [bind]. now rewrite V2. }
  destruct (E1 s) as (v1 & V1 & ->). cbn [bind]. rewrite V1.
  set (s1 := CfgModel.set_attr s A_msi_message_address _).
  destruct (Z.eqb_spec (s A_msi_64bit_address_capable) 0) as [Hz|Hnz].
  - destruct (H64 Hz) as [Ha32 Hs32].
    change (negb (0 =? 0)) with false. cbv iota.
    assert (D : exists v, write_msi_cap_register s1 2 limit 15 = Ok (CfgModel.set_attr s1 A_msi_message_data v) /\ v = limit).
    { destruct (bmu_data16 (s1 A_msi_message_data) limit Hl) as (v & X1 & X2). exists (Z.land v 0xffff). split; [|assumption].
      unfold write_msi_cap_register. change (s1 A_msi_64bit_address_capable) with (s A_msi_64bit_address_capable). rewrite Hz.
      change (2 =? 0) with false. change (2 =? 1) with false. cbn [Z.eqb negb andb Pos.eqb]. cbv iota. rewrite X1. reflexivity. }
    destruct D as (v & -> & ->). cbn [bind]. rewrite E0. eexists. split; [reflexivity|].
    assert (A1 : Z.lor (Z.land (s A_msi_message_address) 0xffffffff00000000) (Z.land addr 0xfffffffc) = addr).
    { rewrite land_hi0 by lia. rewrite Z.lor_0_l. apply addr_low; lia. }
    split; [exact A1|]. split; [reflexivity|].
    split; [cbv [write_msi_0 set_if attr_id Z.eqb Pos.eqb]; rewrite has_4; change (Z.testbit 15 2) with true; unfold bit_set; rewrite has_bit, C1 by lia; reflexivity|].
    split; [cbv [write_msi_0 set_if attr_id Z.eqb Pos.eqb]; rewrite has_4; change (Z.testbit 15 2) with true; exact C2|].
    split; reflexivity.
  - change (negb (1 =? 0)) with true. cbv iota.
    assert (Hh : 0 <= Z.land (Z.shiftr addr 32) 0xffffffff < 2^32) by (change 0xffffffff with (Z.ones 32); apply land_ones_range; lia).
    destruct (bmu_high32 (s1 A_msi_message_address) _ Hh) as (v2 & X1 & X2).
    assert (D : write_msi_cap_register s1 2 (Z.land (Z.shiftr addr 32) 0xffffffff) 15 = Ok (CfgModel.set_attr s1 A_msi_message_address (Z.land v2 0xfffffffffffffffc))).
    { unfold write_msi_cap_register. change (s1 A_msi_64bit_address_capable) with (s A_msi_64bit_address_capable).
      replace (s A_msi_64bit_address_capable =? 0) with false by lia. change (2 =? 0) with false. change (2 =? 1) with false. change (2 =? 2) with true. cbn [negb andb]. cbv iota.
      rewrite X1. reflexivity. }
    rewrite D, X2. cbn [bind].
    set (s2 := CfgModel.set_attr s1 A_msi_message_address _).
    assert (D2 : write_msi_cap_register s2 3 limit 15 = Ok (CfgModel.set_attr s2 A_msi_message_data limit)).
    { destruct (bmu_data16 (s2 A_msi_message_data) limit Hl) as (v & Y1 & Y2).
      unfold write_msi_cap_register. change (s2 A_msi_64bit_address_capable) with (s A_msi_64bit_address_capable).
      replace (s A_msi_64bit_address_capable =? 0) with false by lia.
      change (3 =? 0) with false. change (3 =? 1) with false. change (3 =? 2) with false. cbn [negb andb]. cbv iota. change (3 =? 3) with true. cbv iota. rewrite Y1. cbn [bind]. now rewrite Y2. }
    rewrite D2. cbn [bind]. rewrite E0. eexists. split; [reflexivity|].
    assert (A1 : Z.lor (Z.land (s1 A_msi_message_address) 0xfffffffc) (Z.shiftl (Z.land (Z.shiftr addr 32) 0xffffffff) 32) = addr).
    { transitivity (Z.lor (Z.land addr 0xfffffffc) (Z.shiftl (Z.land (Z.shiftr addr 32) 0xffffffff) 32)); [f_equal|now apply addr_split].
      change (s1 A_msi_message_address) with (Z.lor (Z.land (s A_msi_message_address) 0xffffffff00000000) (Z.land addr 0xfffffffc)).
      rewrite Z.land_lor_distr_l, <- !Z.land_assoc. change (Z.land 0xffffffff00000000 0xfffffffc) with 0. rewrite Z.land_0_r, Z.lor_0_l. reflexivity. }
    split; [exact A1|]. split; [reflexivity|].
    split; [cbv [write_msi_0 set_if attr_id Z.eqb Pos.eqb]; rewrite has_4; change (Z.testbit 15 2) with true; unfold bit_set; rewrite has_bit, C1 by lia; reflexivity|].
    split; [cbv [write_msi_0 set_if attr_id Z.eqb Pos.eqb]; rewrite has_4; change (Z.testbit 15 2) with true; exact C2|].
    split; reflexivity.
Qed.

(* ---------- reception ---------- *)
Lemma msi_received known base t fired v : t_address t = base -> t_length t = 1 -> t_first_be t = 15 -> get_data t = Ok (le_bytes 4 v) ->
  0 <= v < 2^32 -> base mod 4 = 0 -> known v = true ->
  rc_handle_msi_write known base t fired = Ok (fired ++ [v]).
Proof.
  intros HA HL HF HG Hv H4 HK. unfold rc_handle_msi_write. rewrite HA, HL, HG, land_fff. cbn [bind].
  replace ((base <=? base) && (base <? base + 4)) with true by lia. replace (1 * 4 >? 0x1000 - base mod 4096) with false by lia.
  unfold be_write. rewrite HL, HF. set (wr := fun _ _ _ => _).
  assert (E : be_dword wr (le_bytes 4 v) 15 (0, None, fired) = Ok (4, Some 0, fired)) by reflexivity.
  rewrite E. cbn [bind]. change (1 >? 2) with false. change (1 >? 1) with false. cbv iota. cbn [bind be_flush].
  change (negb (4 =? 0)) with true. cbv iota. subst wr. cbv beta zeta.
  replace ((base <=? base + 0) && (base + 0 <? base + 4)) with true by lia. replace (base + 0 - base) with 0 by lia.
  change (slice (le_bytes 4 v) 0 4) with (le_bytes 4 v). unfold msi_region_write. change (negb (0 =? 0)) with false. cbv iota.
  change (negb (zlen (le_bytes 4 v) =? 4)) with false. cbv iota.
  unfold unpack_u32. change (length (le_bytes 4 v) =? 4)%nat with true. cbv iota. cbn [bind]. rewrite le_val4 by assumption. now rewrite HK.
Qed.

(** Configuration by the root complex, generation, reception. *)
Lemma msi_end_to_end s low base limit rid mps number attr tc known fired :
  0 <= mps -> 0 <= low < 2^16 -> 0 <= base < 2^64 -> base mod 4 = 0 -> 0 <= limit -> limit mod 32 = 0 -> limit + 32 <= 2^16 ->
  0 <= s A_msi_multiple_message_capable <= 5 -> 0 <= s A_msi_message_address -> s A_bus_master_enable <> 0 ->
  (s A_msi_64bit_address_capable = 0 -> base < 2^32 /\ s A_msi_message_address < 2^32) ->
  0 <= number < 2^(s A_msi_multiple_message_capable) -> known (limit + number) = true ->
  exists s' t, configure_msi s low base limit = Ok s' /\ issue_msi_interrupt s' rid mps number attr tc = Ok [t] /\
    rc_handle_msi_write known base t fired = Ok (fired ++ [limit + number]).
Proof.
  intros Hm Hlow Hb H4 Hl H32 Hl2 Hc Hp Hbm H64 Hn HK.
  change (2^16) with 65536 in *.
  destruct (msi_configured s low base limit) as (s' & C & A1 & A2 & A3 & A4 & A5 & A6); try assumption; [change (2^16) with 65536; lia|lia|].
  destruct (msi_issue s' rid mps number attr tc) as (t & I1 & I2 & I3 & I4 & I5 & I6 & I7 & I8); try assumption.
  { rewrite A3; lia. } { rewrite A6; assumption. } { rewrite A4; lia. } { rewrite A4; assumption. } { rewrite A5; lia. } { rewrite A2; change (2^16) with 65536; lia. } { rewrite A1; assumption. }
  exists s', t. split; [assumption|]. split; [assumption|].
  rewrite A2, A4 in *.
  assert (E : limit mod 2 ^ s A_msi_multiple_message_capable = 0).
  { assert (exists j, limit = j * 2 ^ s A_msi_multiple_message_capable) as (j & ->).
    { exists (limit / 32 * 2^(5 - s A_msi_multiple_message_capable)). rewrite <- Z.mul_assoc, <- Z.pow_add_r by lia.
      replace (5 - s A_msi_multiple_message_capable + s A_msi_multiple_message_capable) with 5 by lia. change (2^5) with 32. lia. }
    apply Z.mod_mul. lia. }
  rewrite E in *. rewrite Z.sub_0_r in *.
  assert (2 ^ s A_msi_multiple_message_capable <= 32) by (change 32 with (2^5); apply Z.pow_le_mono_r; lia).
  apply msi_received; try assumption; try congruence. change (2^32) with 4294967296. lia.
Qed.
