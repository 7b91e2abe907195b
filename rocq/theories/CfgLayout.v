(** Positions of the fields of the PCI Express capability (C46). *)
From Verif Require Import PyBase BitLemmas TlpModel CfgModel CfgSpec CfgBits.

Ltac ev2 := repeat match goal with
  | |- context [?a <? ?b] => zconst a; zconst b; let v := eval vm_compute in (a <? b) in change (a <? b) with v
  end.
Ltac layout rdef :=
  intros s; by_bit; cbv beta; unfold layout_bad; ev; ev2; bools; intros Hb; try discriminate Hb; clear Hb;
  unfold layout_bit, pcie_fields; ev; cbv iota; cbn [existsb field_bit]; ev; ev2; bools;
  unfold rdef; cbv zeta; bitstep; rewrite ?Z.shiftl_spec by lia; ev; bools; unfold z0;
  repeat match goal with |- context [Z.testbit ?a ?b] => destruct (Z.testbit a b) end; bools; try reflexivity;
  repeat match goal with |- context [s ?a =? 0] => destruct (s a =? 0) end; reflexivity.

Lemma layout_0 : forall s i, 0 <= i < 32 -> layout_bad 0 i = false -> Z.testbit (read_pcie_0 s) i = layout_bit s 0 i.
Proof. layout read_pcie_0. Qed.

Lemma layout_1 : forall s i, 0 <= i < 32 -> layout_bad 1 i = false -> Z.testbit (read_pcie_1 s) i = layout_bit s 1 i.
Proof. layout read_pcie_1. Qed.

Lemma layout_2 : forall s i, 0 <= i < 32 -> layout_bad 2 i = false -> Z.testbit (read_pcie_2 s) i = layout_bit s 2 i.
Proof. layout read_pcie_2. Qed.

Lemma layout_3 : forall s i, 0 <= i < 32 -> layout_bad 3 i = false -> Z.testbit (read_pcie_3 s) i = layout_bit s 3 i.
Proof. layout read_pcie_3. Qed.

Lemma layout_4 : forall s i, 0 <= i < 32 -> layout_bad 4 i = false -> Z.testbit (read_pcie_4 s) i = layout_bit s 4 i.
Proof. layout read_pcie_4. Qed.

Lemma layout_5 : forall s i, 0 <= i < 32 -> layout_bad 5 i = false -> Z.testbit (read_pcie_5 s) i = layout_bit s 5 i.
Proof. layout read_pcie_5. Qed.

Lemma layout_6 : forall s i, 0 <= i < 32 -> layout_bad 6 i = false -> Z.testbit (read_pcie_6 s) i = layout_bit s 6 i.
Proof. layout read_pcie_6. Qed.

Lemma layout_7 : forall s i, 0 <= i < 32 -> layout_bad 7 i = false -> Z.testbit (read_pcie_7 s) i = layout_bit s 7 i.
Proof. layout read_pcie_7. Qed.

Lemma layout_8 : forall s i, 0 <= i < 32 -> layout_bad 8 i = false -> Z.testbit (read_pcie_8 s) i = layout_bit s 8 i.
Proof. layout read_pcie_8. Qed.

Lemma layout_9 : forall s i, 0 <= i < 32 -> layout_bad 9 i = false -> Z.testbit (read_pcie_9 s) i = layout_bit s 9 i.
Proof. layout read_pcie_9. Qed.

Lemma layout_10 : forall s i, 0 <= i < 32 -> layout_bad 10 i = false -> Z.testbit (read_pcie_10 s) i = layout_bit s 10 i.
Proof. layout read_pcie_10. Qed.

Lemma layout_11 : forall s i, 0 <= i < 32 -> layout_bad 11 i = false -> Z.testbit (read_pcie_11 s) i = layout_bit s 11 i.
Proof. layout read_pcie_11. Qed.

Lemma layout_12 : forall s i, 0 <= i < 32 -> layout_bad 12 i = false -> Z.testbit (read_pcie_12 s) i = layout_bit s 12 i.
Proof. layout read_pcie_12. Qed.

Lemma pcie_layout s reg i : 0 <= i < 32 -> layout_bad reg i = false -> Z.testbit (read_pcie_cap_register s reg) i = layout_bit s reg i.
Proof.
  intros Hi Hb.
  destruct (Z.eqb_spec reg 0) as [->|N0]; [exact (layout_0 s i Hi Hb)|].
  destruct (Z.eqb_spec reg 1) as [->|N1]; [exact (layout_1 s i Hi Hb)|].
  destruct (Z.eqb_spec reg 2) as [->|N2]; [exact (layout_2 s i Hi Hb)|].
  destruct (Z.eqb_spec reg 3) as [->|N3]; [exact (layout_3 s i Hi Hb)|].
  destruct (Z.eqb_spec reg 4) as [->|N4]; [exact (layout_4 s i Hi Hb)|].
  destruct (Z.eqb_spec reg 5) as [->|N5]; [exact (layout_5 s i Hi Hb)|].
  destruct (Z.eqb_spec reg 6) as [->|N6]; [exact (layout_6 s i Hi Hb)|].
  destruct (Z.eqb_spec reg 7) as [->|N7]; [exact (layout_7 s i Hi Hb)|].
  destruct (Z.eqb_spec reg 8) as [->|N8]; [exact (layout_8 s i Hi Hb)|].
  destruct (Z.eqb_spec reg 9) as [->|N9]; [exact (layout_9 s i Hi Hb)|].
  destruct (Z.eqb_spec reg 10) as [->|N10]; [exact (layout_10 s i Hi Hb)|].
  destruct (Z.eqb_spec reg 11) as [->|N11]; [exact (layout_11 s i Hi Hb)|].
  destruct (Z.eqb_spec reg 12) as [->|N12]; [exact (layout_12 s i Hi Hb)|].
  unfold read_pcie_cap_register, layout_bit, pcie_fields.
  apply Z.eqb_neq in N0, N1, N2, N3, N4, N5, N6, N7, N8, N9, N10, N11, N12.
  rewrite N0, N1, N2, N3, N4, N5, N6, N7, N8, N9, N10, N11, N12. cbn [existsb]. apply Z.bits_0.
Qed.
