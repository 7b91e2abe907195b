(** Proofs about configuration registers (C19). *)
From Verif Require Import PyBase BitLemmas TlpModel TlpProofs BarProofs CfgModel CfgSpec CfgBits.

Ltac regcase r v := destruct (Z.eqb_spec r v) as [->|?].
Lemma pcie_other s reg data mask r : r <> reg ->
  read_pcie_cap_register (fst (write_pcie_cap_register s reg data mask)) r = read_pcie_cap_register s r.
Proof.
  intros Hr. unfold write_pcie_cap_register.
  regcase reg 2; [|regcase reg 4; [|regcase reg 6; [|regcase reg 7; [|regcase reg 8; [|regcase reg 10; [|regcase reg 12; [|reflexivity]]]]]]];
  unfold read_pcie_cap_register; cbn [fst];
  (regcase r 0; [reflexivity|]); (regcase r 1; [reflexivity|]); (regcase r 2; [reflexivity || congruence|]); (regcase r 3; [reflexivity|]);
  (regcase r 4; [reflexivity || congruence|]); (regcase r 5; [reflexivity|]); (regcase r 6; [reflexivity || congruence|]);
  (regcase r 7; [reflexivity || congruence|]); (regcase r 8; [reflexivity || congruence|]); (regcase r 9; [reflexivity|]);
  (regcase r 10; [reflexivity || congruence|]); (regcase r 11; [reflexivity|]); (regcase r 12; [reflexivity || congruence|]); reflexivity.
Qed.

Lemma pcie_write_bit s reg data mask i : 0 <= i < 32 -> pcie_bad reg i = false ->
  Z.testbit (read_pcie_cap_register (fst (write_pcie_cap_register s reg data mask)) reg) i =
  spec_bit (pcie_kind reg i) (Z.testbit mask (i / 8)) (Z.testbit data i) (Z.testbit (read_pcie_cap_register s reg) i).
Proof.
  intros Hi Hb.
  destruct (Z.eqb_spec reg 2) as [->|N2]; [exact (pcie_2_bits s data mask i Hi Hb)|].
  destruct (Z.eqb_spec reg 4) as [->|N4]; [exact (pcie_4_bits s data mask i Hi Hb)|].
  destruct (Z.eqb_spec reg 6) as [->|N6]; [exact (pcie_6_bits s data mask i Hi Hb)|].
  destruct (Z.eqb_spec reg 7) as [->|N7]; [exact (pcie_7_bits s data mask i Hi Hb)|].
  destruct (Z.eqb_spec reg 8) as [->|N8]; [exact (pcie_8_bits s data mask i Hi Hb)|].
  destruct (Z.eqb_spec reg 10) as [->|N10]; [exact (pcie_10_bits s data mask i Hi Hb)|].
  destruct (Z.eqb_spec reg 12) as [->|N12]; [exact (pcie_12_bits s data mask i Hi Hb)|].
  unfold write_pcie_cap_register, pcie_kind.
  apply Z.eqb_neq in N2, N4, N6, N7, N8, N10, N12. rewrite N2, N4, N6, N7, N8, N10, N12. reflexivity.
Qed.

(** A history of writes to the PCI Express capability. *)
Definition pcie_writes (s : attrs) (ops : list (Z * Z * Z)) : attrs :=
  fold_left (fun s op => fst (write_pcie_cap_register s (fst (fst op)) (snd (fst op)) (snd op))) ops s.

Lemma spec_bits_ext kd ops : forall (o1 o2 : Z -> Z -> bool) (P : Z -> Z -> Prop), (forall r i, P r i -> o1 r i = o2 r i) ->
  forall r i, P r i -> spec_bits kd o1 ops r i = spec_bits kd o2 ops r i.
Proof.
  induction ops as [|[[a d] m] ops IH]; intros o1 o2 P H r i Hp; cbn [spec_bits]; [apply H, Hp|].
  apply (IH _ _ P); [|assumption]. intros r' i' Hp'. now rewrite (H _ _ Hp').
Qed.

Lemma pcie_history : forall ops s reg i, 0 <= i < 32 -> pcie_bad reg i = false ->
  Z.testbit (read_pcie_cap_register (pcie_writes s ops) reg) i =
  spec_bits pcie_kind (fun r j => Z.testbit (read_pcie_cap_register s r) j) ops reg i.
Proof.
  induction ops as [|[[r d] m] ops IH]; intros s reg i Hi Hb; [reflexivity|].
  cbn [pcie_writes fold_left spec_bits fst snd]. fold (pcie_writes (fst (write_pcie_cap_register s r d m)) ops).
  rewrite IH by assumption.
  apply (spec_bits_ext _ _ _ _ (fun r j => 0 <= j < 32 /\ pcie_bad r j = false)); [|tauto].
  intros r' j [Hj Hbj]. destruct (Z.eqb_spec r' r) as [->|Hd]; [now apply pcie_write_bit|]. now rewrite pcie_other.
Qed.

Lemma pcie_raises s reg data mask : snd (write_pcie_cap_register s reg data mask) <> None <->
  reg = 12 /\ s A_link_equalization_request <> 0.
Proof.
  unfold write_pcie_cap_register.
  regcase reg 2; [cbn; split; [congruence|lia]|]. regcase reg 4; [cbn; split; [congruence|lia]|].
  regcase reg 6; [cbn; split; [congruence|lia]|]. regcase reg 7; [cbn; split; [congruence|lia]|].
  regcase reg 8; [cbn; split; [congruence|lia]|]. regcase reg 10; [cbn; split; [congruence|lia]|].
  regcase reg 12; [|cbn; split; [congruence|lia]].
  assert (E : snd (write_pcie_12 s data mask) = if s A_link_equalization_request =? 0 then None else Some UnboundLocalError) by reflexivity.
  rewrite E. destruct (Z.eqb_spec (s A_link_equalization_request) 0) as [H|H]; split; try congruence; try tauto.
Qed.

(* ---------- register files in general ---------- *)

Fixpoint run_writes {S} (wr : S -> Z -> Z -> Z -> result S) (s : S) (ops : list (Z * Z * Z)) : result S :=
  match ops with
  | [] => Ok s
  | (r, d, m) :: ops => let! s := wr s r d m in run_writes wr s ops
  end.

Lemma regfile_history {S : Type} (rd : S -> Z -> Z) (wr : S -> Z -> Z -> Z -> result S) (kd : Z -> Z -> kind)
    (Inv : S -> Prop) (opok : Z * Z * Z -> Prop) (good : Z -> Z -> Prop) :
  (forall s r d m, Inv s -> opok (r, d, m) -> exists s', wr s r d m = Ok s' /\ Inv s' /\
     forall r' i, good r' i -> Z.testbit (rd s' r') i =
       if r' =? r then spec_bit (kd r' i) (Z.testbit m (i / 8)) (Z.testbit d i) (Z.testbit (rd s r') i) else Z.testbit (rd s r') i) ->
  forall ops s, Inv s -> Forall opok ops -> exists s', run_writes wr s ops = Ok s' /\ Inv s' /\
    forall r i, good r i -> Z.testbit (rd s' r) i = spec_bits kd (fun r j => Z.testbit (rd s r) j) ops r i.
Proof.
  intros Hstep. induction ops as [|[[r d] m] ops IH]; intros s Hs Ho.
  - exists s. split; [reflexivity|]. split; [assumption|]. reflexivity.
  - inversion Ho as [|? ? Ho1 Ho2]; subst. destruct (Hstep s r d m Hs Ho1) as (s1 & E1 & I1 & B1).
    destruct (IH s1 I1 Ho2) as (s2 & E2 & I2 & B2). exists s2. split; [cbn [run_writes]; now rewrite E1|]. split; [assumption|].
    intros r' i Hg. rewrite B2 by assumption. cbn [spec_bits].
    apply (spec_bits_ext _ _ _ _ good); [|assumption]. intros r'' j Hg'. now apply B1.
Qed.

(* ---------- header ---------- *)
Lemma byte_hi x j : is_byte x -> 8 <= j -> Z.testbit x j = false.
Proof. intros H Hj. apply (testbit_high x 8); unfold is_byte in H; lia. Qed.

Lemma bmu_byte old x data : is_byte old ->
  byte_mask_update old (Z.land x 1) data (-1) = Ok (if Z.testbit x 0 then data mod 256 else old).
Proof.
  intros Ho. assert (E : Z.land x 1 = if Z.testbit x 0 then 1 else 0).
  { change 1 with (Z.ones 1). rewrite Z.land_ones by lia. change (2^1) with 2. rewrite Z.bit0_odd, Zmod_odd. reflexivity. }
  rewrite E. destruct (Z.testbit x 0); [|reflexivity].
  destruct (byte_mask_update_spec old 1 data (-1)) as (r & -> & Hb); [lia|]. f_equal.
  apply Z.bits_inj'. intros i Hi. rewrite Hb by assumption.
  assert (Z.testbit (-1) i = true) as -> by (apply Z.bits_m1; assumption).
  change 256 with (2^8). destruct (Z.ltb_spec i 8).
  - replace (i / 8) with 0 by lia. rewrite Z.mod_pow2_bits_low by lia. reflexivity.
  - rewrite Z.mod_pow2_bits_high by lia. rewrite (testbit_high 1 1) by lia. now apply byte_hi.
Qed.

Ltac hdr_bits :=
  rewrite ?Z.lor_spec, ?Z.shiftl_spec by lia; ev;
  repeat match goal with H : is_byte ?x |- context [Z.testbit ?x (Zpos ?p)] => rewrite (byte_hi x (Zpos p)) by (assumption || lia) end;
  bools.

Lemma mod256_bit d i : 0 <= i < 8 -> Z.testbit (d mod 256) i = Z.testbit d i.
Proof. intros. change 256 with (2^8). now rewrite Z.mod_pow2_bits_low by lia. Qed.
Lemma mod256_byte d : is_byte (d mod 256). Proof. unfold is_byte. lia. Qed.

Lemma reg3_bits b h l c : is_byte b -> is_byte h -> is_byte l -> is_byte c -> forall i, 0 <= i < 32 ->
  Z.testbit (Z.lor (Z.lor (Z.lor (Z.shiftl b 24) (Z.shiftl h 16)) (Z.shiftl l 8)) c) i =
  if i <? 8 then Z.testbit c i else if i <? 16 then Z.testbit l (i - 8) else if i <? 24 then Z.testbit h (i - 16) else Z.testbit b (i - 24).
Proof.
  intros Hb Hh Hl Hc i Hi. rewrite !Z.lor_spec, !Z.shiftl_spec by lia.
  destruct (Z.ltb_spec i 8); [|destruct (Z.ltb_spec i 16); [|destruct (Z.ltb_spec i 24)]].
  - rewrite (Z.testbit_neg_r b), (Z.testbit_neg_r h), (Z.testbit_neg_r l) by lia. reflexivity.
  - rewrite (Z.testbit_neg_r b), (Z.testbit_neg_r h), (byte_hi c) by (assumption || lia). now rewrite orb_false_r.
  - rewrite (Z.testbit_neg_r b), (byte_hi l), (byte_hi c) by (assumption || lia). now rewrite !orb_false_r.
  - rewrite (byte_hi h), (byte_hi l), (byte_hi c) by (assumption || lia). now rewrite !orb_false_r.
Qed.
Lemma reg15_bits p l : is_byte p -> is_byte l -> forall i, 0 <= i < 32 ->
  Z.testbit (Z.lor (Z.shiftl p 8) l) i = if i <? 8 then Z.testbit l i else if i <? 16 then Z.testbit p (i - 8) else false.
Proof.
  intros Hp Hl i Hi. rewrite !Z.lor_spec, !Z.shiftl_spec by lia.
  destruct (Z.ltb_spec i 8); [|destruct (Z.ltb_spec i 16)].
  - rewrite (Z.testbit_neg_r p) by lia. reflexivity.
  - rewrite (byte_hi l) by (assumption || lia). now rewrite orb_false_r.
  - rewrite (byte_hi l), (byte_hi p) by (assumption || lia). reflexivity.
Qed.

Lemma header_step s reg data mask : header_ok s -> exists s', write_header s reg data mask = Ok s' /\ header_ok s' /\
  forall r i, 0 <= i < 32 /\ header_bad r i = false -> Z.testbit (read_header s' r) i =
    if r =? reg then spec_bit (header_kind r i) (Z.testbit mask (i / 8)) (Z.testbit data i) (Z.testbit (read_header s r) i)
    else Z.testbit (read_header s r) i.
Proof.
  intros (H1 & H2 & H3 & H4 & H5 & H6). unfold write_header.
  destruct (Z.eqb_spec reg 1) as [->|N1].
  { eexists. split; [reflexivity|]. split; [repeat split; apply H1 || apply H2 || apply H3 || apply H4 || apply H5 || apply H6|].
    intros r i [Hi Hb]. destruct (Z.eqb_spec r 1) as [->|Nr].
    - exact (config_1_bits s data mask i Hi Hb).
    - unfold read_header. regcase r 0; [reflexivity|]. regcase r 1; [congruence|]. regcase r 2; [reflexivity|]. regcase r 3; [reflexivity|].
      regcase r 13; [reflexivity|]. regcase r 15; reflexivity. }
  destruct (Z.eqb_spec reg 3) as [->|N3].
  { rewrite bmu_byte by assumption. cbn [bind].
    rewrite bmu_byte by exact H2. cbn [bind]. rewrite bmu_byte by exact H4. cbn [bind].
    eexists. split; [reflexivity|].
    set (c := if Z.testbit mask 0 then _ else s A_cache_ln). set (l := if Z.testbit (Z.shiftr mask 1) 0 then _ else _). set (b := if Z.testbit (Z.shiftr mask 3) 0 then _ else _).
    assert (Hc : is_byte c) by (subst c; destruct (Z.testbit mask 0); [apply mod256_byte|assumption]).
    assert (Hl : is_byte l) by (subst l; destruct (Z.testbit (Z.shiftr mask 1) 0); [apply mod256_byte|exact H2]).
    assert (Hb : is_byte b) by (subst b; destruct (Z.testbit (Z.shiftr mask 3) 0); [apply mod256_byte|exact H4]).
    split; [repeat split; apply Hc || apply Hl || apply Hb || apply H3 || apply H5 || apply H6|].
    intros r i [Hi Hbad]. destruct (Z.eqb_spec r 3) as [->|Nr].
    - change (read_header _ 3) with (Z.lor (Z.lor (Z.lor (Z.shiftl b 24) (Z.shiftl (s A_header_type) 16)) (Z.shiftl l 8)) c) at 1.
      change (read_header s 3) with (Z.lor (Z.lor (Z.lor (Z.shiftl (s A_bist) 24) (Z.shiftl (s A_header_type) 16)) (Z.shiftl (s A_lat_timer) 8)) (s A_cache_ln)).
      rewrite !reg3_bits by assumption. unfold header_kind, within. change (3 =? 1) with false. change (3 =? 3) with true. cbv iota.
      destruct (Z.ltb_spec i 8); [|destruct (Z.ltb_spec i 16); [|destruct (Z.ltb_spec i 24)]].
      + replace ((0 <=? i) && (i <=? 15) || (24 <=? i) && (i <=? 31)) with true by lia. replace (i / 8) with 0 by lia. subst c. cbn [spec_bit].
        destruct (Z.testbit mask 0); [now rewrite mod256_bit by lia|reflexivity].
      + replace ((0 <=? i) && (i <=? 15) || (24 <=? i) && (i <=? 31)) with true by lia. replace (i / 8) with 1 by lia. subst l. cbn [spec_bit].
        rewrite Z.shiftr_spec by lia. change (0 + 1) with 1. destruct (Z.testbit mask 1); [|reflexivity].
        rewrite mod256_bit, Z.shiftr_spec by lia. f_equal; lia.
      + replace ((0 <=? i) && (i <=? 15) || (24 <=? i) && (i <=? 31)) with false by lia. reflexivity.
      + replace ((0 <=? i) && (i <=? 15) || (24 <=? i) && (i <=? 31)) with true by lia. replace (i / 8) with 3 by lia. subst b. cbn [spec_bit].
        rewrite Z.shiftr_spec by lia. change (0 + 3) with 3. destruct (Z.testbit mask 3); [|reflexivity].
        rewrite mod256_bit, Z.shiftr_spec by lia. f_equal; lia.
    - unfold read_header. regcase r 0; [reflexivity|]. regcase r 1; [reflexivity|]. regcase r 2; [reflexivity|]. regcase r 3; [congruence|].
      regcase r 13; [reflexivity|]. regcase r 15; reflexivity. }
  destruct (Z.eqb_spec reg 15) as [->|N15].
  { rewrite bmu_byte by assumption. cbn [bind].
    rewrite bmu_byte by exact H6. cbn [bind].
    eexists. split; [reflexivity|].
    set (c := if Z.testbit mask 0 then _ else s A_intr_line). set (l := if Z.testbit (Z.shiftr mask 1) 0 then _ else _).
    assert (Hc : is_byte c) by (subst c; destruct (Z.testbit mask 0); [apply mod256_byte|assumption]).
    assert (Hl : is_byte l) by (subst l; destruct (Z.testbit (Z.shiftr mask 1) 0); [apply mod256_byte|exact H6]).
    split; [repeat split; apply Hc || apply Hl || apply H1 || apply H2 || apply H3 || apply H4|].
    intros r i [Hi Hbad]. destruct (Z.eqb_spec r 15) as [->|Nr].
    - change (read_header _ 15) with (Z.lor (Z.shiftl l 8) c) at 1.
      change (read_header s 15) with (Z.lor (Z.shiftl (s A_intr_pin) 8) (s A_intr_line)).
      rewrite !reg15_bits by assumption. unfold header_kind, within.
      change (15 =? 1) with false. change (15 =? 3) with false. change (15 =? 15) with true. cbv iota.
      unfold header_bad, within in Hbad. change (15 =? 15) with true in Hbad. cbn [andb] in Hbad.
      destruct (Z.ltb_spec i 8); [|destruct (Z.ltb_spec i 16)].
      + replace ((0 <=? i) && (i <=? 7)) with true by lia. replace (i / 8) with 0 by lia. subst c. cbn [spec_bit].
        destruct (Z.testbit mask 0); [now rewrite mod256_bit by lia|reflexivity].
      + exfalso; lia.
      + replace ((0 <=? i) && (i <=? 7)) with false by lia. reflexivity.
    - unfold read_header. regcase r 0; [reflexivity|]. regcase r 1; [reflexivity|]. regcase r 2; [reflexivity|]. regcase r 3; [reflexivity|].
      regcase r 13; [reflexivity|]. regcase r 15; [congruence|reflexivity]. }
  eexists. split; [reflexivity|]. split; [exact (conj H1 (conj H2 (conj H3 (conj H4 (conj H5 H6)))))|].
  intros r i _. destruct (Z.eqb_spec r reg) as [->|]; [|reflexivity].
  unfold header_kind. apply Z.eqb_neq in N1, N3, N15. now rewrite N1, N3, N15.
Qed.

Lemma header_history ops s : header_ok s -> exists s', run_writes write_header s ops = Ok s' /\ header_ok s' /\
  forall r i, 0 <= i < 32 /\ header_bad r i = false -> Z.testbit (read_header s' r) i = spec_bits header_kind (fun r j => Z.testbit (read_header s r) j) ops r i.
Proof.
  intros Hs. apply (regfile_history read_header write_header header_kind header_ok (fun _ => True) (fun r i => 0 <= i < 32 /\ header_bad r i = false)).
  - intros s0 r d m H0 _. apply header_step, H0.
  - assumption.
  - apply Forall_forall. tauto.
Qed.

(* ---------- MSI ---------- *)
Definition msi_flags (w64 pvm : bool) (s : attrs) : Prop :=
  (s A_msi_64bit_address_capable =? 0) = negb w64 /\ (s A_msi_per_vector_mask_capable =? 0) = negb pvm.
Definition msi_rd (s : attrs) (r : Z) : Z := match read_msi_cap_register s r with Some v => v | None => 0 end.

Lemma lo32_bit x i : 0 <= i < 32 -> Z.testbit (Z.land x 0xfffffffc) i = (2 <=? i) && Z.testbit x i.
Proof. intros. rewrite Z.land_spec. change 0xfffffffc with (2^32 - 2^2). rewrite himask_bit by lia. replace (i <? 32) with true by lia. now rewrite andb_true_r, andb_comm. Qed.
Lemma a64_bit x i : 0 <= i < 64 -> Z.testbit (Z.land x 0xfffffffffffffffc) i = (2 <=? i) && Z.testbit x i.
Proof. intros. rewrite Z.land_spec. change 0xfffffffffffffffc with (2^64 - 2^2). rewrite himask_bit by lia. replace (i <? 64) with true by lia. now rewrite andb_true_r, andb_comm. Qed.
Lemma u32_bit x i : 0 <= i < 32 -> Z.testbit (Z.land x 0xffffffff) i = Z.testbit x i.
Proof. intros. rewrite Z.land_spec. change 0xffffffff with (Z.ones 32). rewrite Z.testbit_ones by lia. replace ((0 <=? i) && (i <? 32)) with true by lia. apply andb_true_r. Qed.
Lemma u16_bit x i : 0 <= i < 32 -> Z.testbit (Z.land x 0xffff) i = (i <? 16) && Z.testbit x i.
Proof. intros. rewrite Z.land_spec. change 0xffff with (Z.ones 16). rewrite Z.testbit_ones by lia. replace (0 <=? i) with true by lia. apply andb_comm. Qed.
Lemma m1_bit i : 0 <= i -> Z.testbit (-1) i = true.
Proof. apply Z.bits_m1. Qed.

(** The reads as functions of the flags. *)
Lemma msi_rd_flags w64 pvm s r : msi_flags w64 pvm s ->
  msi_rd s r =
  (if r =? 0 then read_msi_0 s
   else if r =? 1 then Z.land (s A_msi_message_address) 0xfffffffc
   else if (r =? 2) && w64 then Z.land (Z.shiftr (s A_msi_message_address) 32) 0xffffffff
   else if r =? (if w64 then 3 else 2) then Z.land (s A_msi_message_data) 0xffff
   else if (r =? (if w64 then 4 else 3)) && pvm then Z.land (s A_msi_mask_bits) 0xffffffff
   else if (r =? (if w64 then 5 else 4)) && pvm then Z.land (s A_msi_pending_bits) 0xffffffff
   else 0).
Proof.
  intros [Hw Hp]. unfold msi_rd, read_msi_cap_register. rewrite Hw, Hp, !negb_involutive.
  destruct (r =? 0); [reflexivity|]. destruct (r =? 1); [reflexivity|]. destruct ((r =? 2) && w64); [reflexivity|].
  destruct (r =? (if w64 then 3 else 2)); [reflexivity|]. destruct ((r =? (if w64 then 4 else 3)) && pvm); [reflexivity|].
  now destruct ((r =? (if w64 then 5 else 4)) && pvm).
Qed.
Lemma msi_kind0_eq w64 pvm i : msi_kind w64 pvm 0 i = msi_kind0 0 i.
Proof. reflexivity. Qed.

Lemma msi_step w64 pvm s reg data mask : msi_flags w64 pvm s -> 0 <= mask < 16 ->
  exists s', write_msi_cap_register s reg data mask = Ok s' /\ msi_flags w64 pvm s' /\
  forall r i, 0 <= i < 32 -> Z.testbit (msi_rd s' r) i =
    if r =? reg then spec_bit (msi_kind w64 pvm r i) (Z.testbit mask (i / 8)) (Z.testbit data i) (Z.testbit (msi_rd s r) i)
    else Z.testbit (msi_rd s r) i.
Proof.
  intros Hf Hm. unfold write_msi_cap_register. pose proof Hf as [Hw Hp]. rewrite Hw, Hp, !negb_involutive.
  destruct (Z.eqb_spec reg 0) as [->|N0].
  { assert (Hf' : msi_flags w64 pvm (write_msi_0 s data mask)) by (split; assumption).
    eexists. split; [reflexivity|]. split; [assumption|].
    intros r i Hi. rewrite (msi_rd_flags w64 pvm _ r Hf'), (msi_rd_flags w64 pvm s r Hf).
    destruct (Z.eqb_spec r 0) as [->|]; [apply (msi_0_bits s data mask i Hi eq_refl)|]. reflexivity. }
  destruct (Z.eqb_spec reg 1) as [->|N1].
  { destruct (byte_mask_update_spec (s A_msi_message_address) mask data (-1)) as (v & -> & Hv); [lia|]. cbn [bind].
    set (s' := set_attr s A_msi_message_address _).
    assert (Hf' : msi_flags w64 pvm s') by (split; assumption).
    eexists. split; [reflexivity|]. split; [assumption|].
    intros r i Hi. rewrite (msi_rd_flags w64 pvm _ r Hf'), (msi_rd_flags w64 pvm s r Hf).
    change (s' A_msi_message_address) with (Z.land v 0xfffffffffffffffc). change (read_msi_0 s') with (read_msi_0 s).
    change (s' A_msi_message_data) with (s A_msi_message_data). change (s' A_msi_mask_bits) with (s A_msi_mask_bits).
    change (s' A_msi_pending_bits) with (s A_msi_pending_bits).
    destruct (Z.eqb_spec r 0) as [->|]; [reflexivity|]. destruct (Z.eqb_spec r 1) as [->|Nr].
    - unfold msi_kind, within. change (1 =? 0) with false. change (1 =? 1) with true. cbv iota.
      rewrite !lo32_bit, a64_bit, Hv, m1_bit by lia. replace (i <=? 31) with true by lia. rewrite andb_true_r.
      destruct (2 <=? i); cbn [andb spec_bit]; reflexivity.
    - destruct ((r =? 2) && w64) eqn:E2; [|reflexivity].
      rewrite !u32_bit, !Z.shiftr_spec, a64_bit, Hv by lia. replace (2 <=? i + 32) with true by lia. cbn [andb].
      replace (Z.testbit mask ((i + 32) / 8)) with false; [reflexivity|]. symmetry. apply (testbit_high mask 4); lia. }
  destruct ((reg =? 2) && w64) eqn:E2.
  { apply andb_true_iff in E2 as [E2 ->]. apply Z.eqb_eq in E2 as ->.
    destruct (byte_mask_update_spec (s A_msi_message_address) (Z.shiftl mask 4) (Z.shiftl data 32) (-1)) as (v & -> & Hv); [apply Z.shiftl_nonneg; lia|]. cbn [bind].
    set (s' := set_attr s A_msi_message_address _).
    assert (Hf' : msi_flags true pvm s') by (split; assumption).
    eexists. split; [reflexivity|]. split; [assumption|].
    intros r i Hi. rewrite (msi_rd_flags true pvm _ r Hf'), (msi_rd_flags true pvm s r Hf).
    change (s' A_msi_message_address) with (Z.land v 0xfffffffffffffffc). change (read_msi_0 s') with (read_msi_0 s).
    change (s' A_msi_message_data) with (s A_msi_message_data). change (s' A_msi_mask_bits) with (s A_msi_mask_bits).
    change (s' A_msi_pending_bits) with (s A_msi_pending_bits). rewrite andb_true_r.
    destruct (Z.eqb_spec r 0) as [->|]; [reflexivity|]. destruct (Z.eqb_spec r 1) as [->|Nr].
    - change (1 =? 2) with false. cbv iota. rewrite !lo32_bit, a64_bit, Hv by lia.
      rewrite Z.shiftl_spec by lia. rewrite (Z.testbit_neg_r mask) by lia. destruct (2 <=? i); reflexivity.
    - destruct (Z.eqb_spec r 2) as [->|Nr2]; [|reflexivity].
      change (msi_kind true pvm 2 i) with RW. cbn [spec_bit].
      rewrite !u32_bit, !Z.shiftr_spec, a64_bit, Hv, m1_bit by lia. replace (2 <=? i + 32) with true by lia. cbn [andb].
      rewrite !Z.shiftl_spec by lia. replace ((i + 32) / 8 - 4) with (i / 8) by lia. replace (i + 32 - 32) with i by lia. reflexivity. }
  destruct (reg =? (if w64 then 3 else 2)) eqn:E3.
  { destruct (byte_mask_update_spec (s A_msi_message_data) (Z.land mask 3) data (-1)) as (v & -> & Hv); [apply Z.land_nonneg; lia|]. cbn [bind].
    set (s' := set_attr s A_msi_message_data _).
    assert (Hf' : msi_flags w64 pvm s') by (split; assumption).
    eexists. split; [reflexivity|]. split; [assumption|].
    intros r i Hi. rewrite (msi_rd_flags w64 pvm _ r Hf'), (msi_rd_flags w64 pvm s r Hf).
    change (s' A_msi_message_address) with (s A_msi_message_address). change (read_msi_0 s') with (read_msi_0 s).
    change (s' A_msi_message_data) with (Z.land v 0xffff). change (s' A_msi_mask_bits) with (s A_msi_mask_bits).
    change (s' A_msi_pending_bits) with (s A_msi_pending_bits).
    apply Z.eqb_eq in E3.
    destruct (Z.eqb_spec r reg) as [->|Nr].
    - unfold msi_kind, within. rewrite E2. apply Z.eqb_neq in N0, N1. rewrite N0, N1. subst reg. rewrite Z.eqb_refl.
      rewrite !u16_bit, Hv, m1_bit by lia. replace (0 <=? i) with true by lia.
      destruct (Z.ltb_spec i 16).
      + replace (i <=? 15) with true by lia. cbn [andb spec_bit].
        rewrite Z.land_spec. assert (i / 8 = 0 \/ i / 8 = 1) as [-> | ->] by lia; rewrite andb_true_r; reflexivity.
      + replace (i <=? 15) with false by lia. reflexivity.
    - destruct (r =? 0); [reflexivity|]. destruct (r =? 1); [reflexivity|]. destruct ((r =? 2) && w64); [reflexivity|].
      replace (r =? (if w64 then 3 else 2)) with false by (symmetry; apply Z.eqb_neq; congruence). reflexivity. }
  destruct ((reg =? (if w64 then 4 else 3)) && pvm) eqn:E4.
  { destruct (byte_mask_update_spec (s A_msi_mask_bits) mask data (-1)) as (v & -> & Hv); [lia|]. cbn [bind].
    set (s' := set_attr s A_msi_mask_bits _).
    assert (Hf' : msi_flags w64 pvm s') by (split; assumption).
    eexists. split; [reflexivity|]. split; [assumption|].
    intros r i Hi. rewrite (msi_rd_flags w64 pvm _ r Hf'), (msi_rd_flags w64 pvm s r Hf).
    change (s' A_msi_message_address) with (s A_msi_message_address). change (read_msi_0 s') with (read_msi_0 s).
    change (s' A_msi_message_data) with (s A_msi_message_data). change (s' A_msi_mask_bits) with (Z.land v 0xffffffff).
    change (s' A_msi_pending_bits) with (s A_msi_pending_bits).
    destruct (Z.eqb_spec r reg) as [->|Nr].
    - unfold msi_kind. rewrite E2, E3, E4. apply Z.eqb_neq in N0, N1. rewrite N0, N1.
      rewrite !u32_bit, Hv, m1_bit by lia. reflexivity.
    - destruct (r =? 0); [reflexivity|]. destruct (r =? 1); [reflexivity|]. destruct ((r =? 2) && w64); [reflexivity|].
      destruct (r =? (if w64 then 3 else 2)); [reflexivity|].
      apply andb_true_iff in E4 as [E4 ->]. apply Z.eqb_eq in E4.
      replace (r =? (if w64 then 4 else 3)) with false by (symmetry; apply Z.eqb_neq; congruence). reflexivity. }
  exists s. split; [reflexivity|]. split; [assumption|]. intros r i Hi. destruct (Z.eqb_spec r reg) as [->|]; [|reflexivity].
  unfold msi_kind. apply Z.eqb_neq in N0, N1. now rewrite N0, N1, E2, E3, E4.
Qed.

Lemma msi_history w64 pvm ops s : msi_flags w64 pvm s -> Forall (fun op => 0 <= snd op < 16) ops ->
  exists s', run_writes write_msi_cap_register s ops = Ok s' /\ msi_flags w64 pvm s' /\
  forall r i, 0 <= i < 32 -> Z.testbit (msi_rd s' r) i = spec_bits (msi_kind w64 pvm) (fun r j => Z.testbit (msi_rd s r) j) ops r i.
Proof.
  intros Hs Ho. apply (regfile_history msi_rd write_msi_cap_register (msi_kind w64 pvm) (msi_flags w64 pvm) (fun op => 0 <= snd op < 16) (fun r i => 0 <= i < 32)).
  - intros s0 r d m H0 Hm. apply msi_step; assumption.
  - assumption.
  - assumption.
Qed.

(* ---------- MSI-X ---------- *)
Definition msix_rd (s : attrs) (r : Z) : Z := match read_msix_cap_register s r with Some v => v | None => 0 end.
Lemma msix_history ops s :
  exists s', run_writes (fun s r d m => Ok (write_msix_cap_register s r d m)) s ops = Ok s' /\
  forall r i, 0 <= i < 32 -> Z.testbit (msix_rd s' r) i = spec_bits msix_kind (fun r j => Z.testbit (msix_rd s r) j) ops r i.
Proof.
  destruct (regfile_history msix_rd (fun s r d m => Ok (write_msix_cap_register s r d m)) msix_kind (fun _ => True) (fun _ => True) (fun r i => 0 <= i < 32)) with (ops := ops) (s := s) as (s' & E & _ & H).
  - intros s0 r d m _ _. eexists. split; [reflexivity|]. split; [exact I|]. intros r' i Hi.
    destruct (Z.eqb_spec r' r) as [->|Nr].
    + destruct (Z.eqb_spec r 0) as [->|N0].
      * exact (msix_0_bits s0 d m i Hi eq_refl).
      * unfold write_msix_cap_register, msix_kind. apply Z.eqb_neq in N0. now rewrite N0.
    + unfold write_msix_cap_register. destruct (Z.eqb_spec r 0) as [->|N0]; [|reflexivity].
      unfold msix_rd, read_msix_cap_register. regcase r' 0; [congruence|]. regcase r' 1; [reflexivity|]. regcase r' 2; reflexivity.
  - exact I.
  - apply Forall_forall. tauto.
  - exists s'. tauto.
Qed.
