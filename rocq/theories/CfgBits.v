(** Bit-level proofs about single configuration registers (C19). *)
From Verif Require Import PyBase BitLemmas TlpModel TlpProofs CfgModel CfgSpec.

Lemma has_bit x k : 0 <= k -> has x (Z.shiftl 1 k) = Z.testbit x k.
Proof.
  intros Hk. unfold has. destruct (Z.testbit x k) eqn:E.
  - destruct (Z.land x (Z.shiftl 1 k) =? 0) eqn:F; [|reflexivity]. apply Z.eqb_eq in F.
    assert (Z.testbit (Z.land x (Z.shiftl 1 k)) k = true).
    { rewrite Z.land_spec, E, Z.shiftl_spec by assumption. now rewrite Z.sub_diag. }
    rewrite F, Z.bits_0 in H. discriminate.
  - destruct (Z.land x (Z.shiftl 1 k) =? 0) eqn:F; [reflexivity|]. apply Z.eqb_neq in F. exfalso; apply F.
    apply Z.bits_inj'. intros n Hn. rewrite Z.land_spec, Z.bits_0, Z.shiftl_spec by assumption.
    destruct (Z.eq_dec n k) as [->|Hd]; [now rewrite E|].
    replace (Z.testbit 1 (n - k)) with false; [apply andb_false_r|].
    symmetry. destruct (Z.ltb_spec n k); [apply Z.testbit_neg_r; lia|].
    apply (testbit_high 1 1); cbn; lia.
Qed.

Lemma has_1 x : has x 1 = Z.testbit x 0. Proof. apply (has_bit x 0); lia. Qed.
Lemma has_2 x : has x 2 = Z.testbit x 1. Proof. apply (has_bit x 1); lia. Qed.
Lemma has_4 x : has x 4 = Z.testbit x 2. Proof. apply (has_bit x 2); lia. Qed.
Lemma has_8 x : has x 8 = Z.testbit x 3. Proof. apply (has_bit x 3); lia. Qed.

Definition z0 (x : Z) : bool := x =? 0.
Lemma or_if_bit a v k i : 0 <= k -> 0 <= i -> Z.testbit (or_if a v (Z.shiftl 1 k)) i = Z.testbit v i || (negb (z0 a) && (i =? k)).
Proof.
  intros Hk Hi. unfold or_if, z0. destruct (a =? 0); cbn [negb andb]; [now rewrite orb_false_r|].
  rewrite Z.lor_spec, Z.shiftl_spec by assumption. f_equal. destruct (Z.eqb_spec i k) as [->|Hd].
  - now rewrite Z.sub_diag.
  - destruct (Z.ltb_spec i k); [apply Z.testbit_neg_r; lia|]. apply (testbit_high 1 1); cbn; lia.
Qed.
Lemma or_if_bit1 a v i : 0 <= i -> Z.testbit (or_if a v 1) i = Z.testbit v i || (negb (z0 a) && (i =? 0)).
Proof. apply (or_if_bit a v 0 i); lia. Qed.
Lemma fieldl_bit a m k i : 0 <= i -> Z.testbit (Z.shiftl (Z.land a m) k) i = Z.testbit a (i - k) && Z.testbit m (i - k).
Proof. intros. now rewrite Z.shiftl_spec, Z.land_spec by assumption. Qed.
Lemma fieldr_bit a m k i : 0 <= i -> Z.testbit (Z.shiftr (Z.land a m) k) i = Z.testbit a (i + k) && Z.testbit m (i + k).
Proof. intros. now rewrite Z.shiftr_spec, Z.land_spec by assumption. Qed.
Lemma dfield_bit a m k i : 0 <= i -> Z.testbit (Z.land (Z.shiftr a k) m) i = Z.testbit a (i + k) && Z.testbit m i.
Proof. intros. now rewrite Z.land_spec, Z.shiftr_spec by assumption. Qed.
Lemma bit_set_0 d k : 0 <= k -> z0 (bit_set d k) = negb (Z.testbit d k).
Proof. intros. unfold bit_set, z0. rewrite has_bit by assumption. now destruct (Z.testbit d k). Qed.
Lemma if_eqb0 (c : bool) a b : z0 (if c then a else b) = if c then z0 a else z0 b.
Proof. now destruct c. Qed.
Lemma if_testbit (c : bool) a b i : Z.testbit (if c then a else b) i = if c then Z.testbit a i else Z.testbit b i.
Proof. now destruct c. Qed.

(** Evaluate closed subterms. *)
Ltac zconst x := match x with Z0 => idtac | Zpos ?p => pconst p | Zneg ?p => pconst p end
with pconst p := match p with xH => idtac | xO ?q => pconst q | xI ?q => pconst q end.
Ltac ev :=
  repeat match goal with
  | |- context [Z.testbit ?a ?b] => zconst a; zconst b; let v := eval vm_compute in (Z.testbit a b) in change (Z.testbit a b) with v
  | |- context [?a - ?b] => zconst a; zconst b; let v := eval vm_compute in (a - b) in change (a - b) with v
  | |- context [?a + ?b] => zconst a; zconst b; let v := eval vm_compute in (a + b) in change (a + b) with v
  | |- context [?a / ?b] => zconst a; zconst b; let v := eval vm_compute in (a / b) in change (a / b) with v
  | |- context [?a =? ?b] => zconst a; zconst b; let v := eval vm_compute in (a =? b) in change (a =? b) with v
  | |- context [?a <=? ?b] => zconst a; zconst b; let v := eval vm_compute in (a <=? b) in change (a <=? b) with v
  | |- context [Z.testbit ?a (Zneg ?p)] => rewrite (Z.testbit_neg_r a (Zneg p)) by reflexivity
  end.
Ltac bools :=
  cbn [negb andb orb];
  rewrite ?andb_false_r, ?andb_true_r, ?orb_false_r, ?orb_true_r;
  cbn [negb andb orb].

Ltac bitstep :=
  repeat first [rewrite or_if_bit by lia | rewrite or_if_bit1 by lia | rewrite Z.lor_spec | rewrite fieldl_bit by lia | rewrite fieldr_bit by lia
               | rewrite dfield_bit by lia | rewrite Z.land_spec]; ev; bools.
Ltac attrstep :=
  cbn [set_if set_attr attr_id]; ev; cbv beta iota;
  rewrite ?if_eqb0, ?if_testbit, ?bit_set_0 by lia.

Lemma split32 (P : Z -> Prop) : P 0 -> P 1 -> P 2 -> P 3 -> P 4 -> P 5 -> P 6 -> P 7 -> P 8 -> P 9 -> P 10 -> P 11 -> P 12 -> P 13 -> P 14 -> P 15 ->
  P 16 -> P 17 -> P 18 -> P 19 -> P 20 -> P 21 -> P 22 -> P 23 -> P 24 -> P 25 -> P 26 -> P 27 -> P 28 -> P 29 -> P 30 -> P 31 -> forall i, 0 <= i < 32 -> P i.
Proof.
  intros. assert (K : i = 0 \/ i = 1 \/ i = 2 \/ i = 3 \/ i = 4 \/ i = 5 \/ i = 6 \/ i = 7 \/ i = 8 \/ i = 9 \/ i = 10 \/ i = 11 \/ i = 12 \/ i = 13 \/
     i = 14 \/ i = 15 \/ i = 16 \/ i = 17 \/ i = 18 \/ i = 19 \/ i = 20 \/ i = 21 \/ i = 22 \/ i = 23 \/ i = 24 \/ i = 25 \/ i = 26 \/ i = 27 \/ i = 28 \/
     i = 29 \/ i = 30 \/ i = 31) by lia.
  repeat (destruct K as [->|K]; [assumption|]). now subst.
Qed.


Ltac by_bit := match goal with |- forall i, _ -> @?P i => apply (split32 P) end.
Ltac finish_bits := 
  repeat match goal with |- context [Z.testbit ?a ?b] => destruct (Z.testbit a b) end; bools; try reflexivity;
  repeat match goal with |- context [z0 ?a] => destruct (z0 a) end; reflexivity.


Ltac regproof rdef wdef bad kd :=
  intros s data mask; by_bit; cbv beta; unfold bad, kd, within; ev; bools; intros Hb; try discriminate Hb; clear Hb;
  cbn [spec_bit];
  set (t := wdef s data mask); unfold rdef; cbv zeta; bitstep; subst t; 
  cbv [wdef write_pcie_12 set_if set_attr attr_id Z.eqb Pos.eqb fst snd];
  rewrite ?if_eqb0, ?if_testbit, ?bit_set_0 by lia; bitstep; rewrite ?if_testbit; bitstep;
  rewrite ?has_1, ?has_2, ?has_4, ?has_8, ?has_bit by lia; ev; bools; change (z0 0) with true; bools;
  finish_bits.

Lemma pcie_2_bits : forall s data mask i, 0 <= i < 32 -> pcie_bad 2 i = false ->
  Z.testbit (read_pcie_2 (write_pcie_2 s data mask)) i = spec_bit (pcie_kind 2 i) (Z.testbit mask (i / 8)) (Z.testbit data i) (Z.testbit (read_pcie_2 s) i).
Proof. regproof read_pcie_2 write_pcie_2 pcie_bad pcie_kind. Qed.

Lemma pcie_4_bits : forall s data mask i, 0 <= i < 32 -> pcie_bad 4 i = false ->
  Z.testbit (read_pcie_4 (write_pcie_4 s data mask)) i = spec_bit (pcie_kind 4 i) (Z.testbit mask (i / 8)) (Z.testbit data i) (Z.testbit (read_pcie_4 s) i).
Proof. regproof read_pcie_4 write_pcie_4 pcie_bad pcie_kind. Qed.

Lemma pcie_6_bits : forall s data mask i, 0 <= i < 32 -> pcie_bad 6 i = false ->
  Z.testbit (read_pcie_6 (write_pcie_6 s data mask)) i = spec_bit (pcie_kind 6 i) (Z.testbit mask (i / 8)) (Z.testbit data i) (Z.testbit (read_pcie_6 s) i).
Proof. regproof read_pcie_6 write_pcie_6 pcie_bad pcie_kind. Qed.

Lemma pcie_7_bits : forall s data mask i, 0 <= i < 32 -> pcie_bad 7 i = false ->
  Z.testbit (read_pcie_7 (write_pcie_7 s data mask)) i = spec_bit (pcie_kind 7 i) (Z.testbit mask (i / 8)) (Z.testbit data i) (Z.testbit (read_pcie_7 s) i).
Proof. regproof read_pcie_7 write_pcie_7 pcie_bad pcie_kind. Qed.

Lemma pcie_8_bits : forall s data mask i, 0 <= i < 32 -> pcie_bad 8 i = false ->
  Z.testbit (read_pcie_8 (write_pcie_8 s data mask)) i = spec_bit (pcie_kind 8 i) (Z.testbit mask (i / 8)) (Z.testbit data i) (Z.testbit (read_pcie_8 s) i).
Proof. regproof read_pcie_8 write_pcie_8 pcie_bad pcie_kind. Qed.

Lemma pcie_10_bits : forall s data mask i, 0 <= i < 32 -> pcie_bad 10 i = false ->
  Z.testbit (read_pcie_10 (write_pcie_10 s data mask)) i = spec_bit (pcie_kind 10 i) (Z.testbit mask (i / 8)) (Z.testbit data i) (Z.testbit (read_pcie_10 s) i).
Proof. regproof read_pcie_10 write_pcie_10 pcie_bad pcie_kind. Qed.

Definition wr12 s data mask := fst (write_pcie_12 s data mask).
Lemma pcie_12_bits : forall s data mask i, 0 <= i < 32 -> pcie_bad 12 i = false ->
  Z.testbit (read_pcie_12 (wr12 s data mask)) i = spec_bit (pcie_kind 12 i) (Z.testbit mask (i / 8)) (Z.testbit data i) (Z.testbit (read_pcie_12 s) i).
Proof. regproof read_pcie_12 wr12 pcie_bad pcie_kind. Qed.

Lemma config_1_bits : forall s data mask i, 0 <= i < 32 -> header_bad 1 i = false ->
  Z.testbit (read_config_1 (write_config_1 s data mask)) i = spec_bit (header_kind 1 i) (Z.testbit mask (i / 8)) (Z.testbit data i) (Z.testbit (read_config_1 s) i).
Proof. regproof read_config_1 write_config_1 header_bad header_kind. Qed.

Definition no_bad (reg i : Z) : bool := false.
Definition msi_kind0 := msi_kind false false.
Lemma msi_0_bits : forall s data mask i, 0 <= i < 32 -> no_bad 0 i = false ->
  Z.testbit (read_msi_0 (write_msi_0 s data mask)) i = spec_bit (msi_kind0 0 i) (Z.testbit mask (i / 8)) (Z.testbit data i) (Z.testbit (read_msi_0 s) i).
Proof. unfold msi_kind0. regproof read_msi_0 write_msi_0 no_bad msi_kind. Qed.

Definition wrx0 s data mask := write_msix_cap_register s 0 data mask.
Lemma msix_0_bits : forall s data mask i, 0 <= i < 32 -> no_bad 0 i = false ->
  Z.testbit (read_msix_0 (wrx0 s data mask)) i = spec_bit (msix_kind 0 i) (Z.testbit mask (i / 8)) (Z.testbit data i) (Z.testbit (read_msix_0 s) i).
Proof. unfold wrx0, write_msix_cap_register. cbn [Z.eqb]. regproof read_msix_0 wrx0 no_bad msix_kind. Qed.

