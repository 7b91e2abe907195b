(** Property theorems C01-C06 (TLP helpers and codec). *)
From Verif Require Import PyBase TlpModel TlpSpec TlpProofs.

(** C01: every bit of the result of [byte_mask_update]. *)
Theorem C01_byte_mask_update : forall old mask new bitmask, 0 <= mask ->
  exists r, byte_mask_update old mask new bitmask = Ok r /\
  forall i, 0 <= i -> Z.testbit r i =
    if Z.testbit mask (i / 8)
    then (if Z.testbit bitmask i then Z.testbit new i else Z.testbit old i)
    else Z.testbit old i.
Proof. exact byte_mask_update_spec. Qed.
Print Assumptions C01_byte_mask_update.
Example C01_example : byte_mask_update 0xAABBCCDD 0x5 0x11223344 0xFFFFFF0F = Ok 0xAA22CCD4.
Proof. reflexivity. Qed.

(** C02: PCIe IDs and integers are in bijection over their ranges. *)
Theorem C02_pcie_id_roundtrip :
  (forall i, id_ok i -> 0 <= id_to_int i < 65536 /\ id_from_int (id_to_int i) = i) /\
  (forall v, 0 <= v < 65536 -> id_ok (id_from_int v) /\ id_to_int (id_from_int v) = v) /\
  (forall i, id_ok i -> id_to_int i = id_bus i * 256 + id_device i * 8 + id_function i).
Proof.
  exact (conj (fun i H => conj (id_to_int_range i) (id_roundtrip i H))
        (conj (fun v H => conj (id_from_int_ok v) (id_roundtrip_int v H)) id_to_int_eq)).
Qed.
Print Assumptions C02_pcie_id_roundtrip.
Example C02_example : id_ok (mkId 18 7 3) /\ id_to_int (mkId 18 7 3) = 0x123b.
Proof. unfold id_ok; cbn; repeat split; lia. Qed.

(** C03: the byte enables computed for (addr, len) select exactly the bytes
    addr..addr+len-1; the derived byte count is len; nothing else changes. *)
Theorem C03_set_be_selects_range : forall addr len t, 1 <= len ->
  (forall a, tlp_selects (fst (set_be addr len t)) a = true <-> addr <= a < addr + len) /\
  t_address (fst (set_be addr len t)) mod 4 = 0 /\
  get_be_byte_count (fst (set_be addr len t)) = len /\
  same_except_be (fst (set_be addr len t)) t.
Proof. exact set_be_spec. Qed.
Print Assumptions C03_set_be_selects_range.
Example C03_example : let t := fst (set_be 0x1003 6 tlp0) in
  (t_address t, t_length t, t_first_be t, t_last_be t) = (0x1000, 3, 8, 1) /\ 1 <= 6.
Proof. split; [reflexivity|lia]. Qed.

(** C04: the payload built by [set_be_data] carries the data at exactly the
    selected addresses, zero elsewhere, and its DWORDs are consistent. *)
Theorem C04_set_be_data_payload : forall addr data t,
  data <> [] -> Forall is_byte data ->
  exists t' pay, set_be_data addr data t = Ok t' /\ get_data t' = Ok pay /\
    zlen pay = 4 * t_length t' /\ zlen (t_data t') = t_length t' /\
    t_address t' = 4 * (addr / 4) /\ same_except_be t' t /\
    (forall a, tlp_selects t' a = true <-> addr <= a < addr + zlen data) /\
    (forall a, addr <= a < addr + zlen data ->
       nth (Z.to_nat (a - t_address t')) pay 0 = nth (Z.to_nat (a - addr)) data 0) /\
    (forall a, t_address t' <= a -> ~ addr <= a < addr + zlen data ->
       nth (Z.to_nat (a - t_address t')) pay 0 = 0).
Proof. exact set_be_data_spec. Qed.
Print Assumptions C04_set_be_data_payload.
Example C04_example : (let! t' := set_be_data 0x1003 [1;2;3;4;5;6] tlp0 in Ok (t_data t')) =
  Ok [0x01000000; 0x05040302; 0x00000006].
Proof. vm_compute. reflexivity. Qed.

(** C05: the lower address should be the first byte's address modulo 128.
    That is false (the expression drops the byte offset) ... *)
Theorem C05_lower_address_refuted : exists addr len,
  1 <= len /\ get_lower_address (fst (set_be addr len tlp0)) <> addr mod 128.
Proof. exact lower_address_witness. Qed.
Print Assumptions C05_lower_address_refuted.
(** ... what it returns for every request is the DWORD address modulo 128, so it
    is right exactly when the first byte is DWORD aligned. *)
Theorem C05_lower_address_partial : forall addr len t, 1 <= len ->
  get_lower_address (fst (set_be addr len t)) = addr mod 128 - addr mod 4 /\
  (get_lower_address (fst (set_be addr len t)) = addr mod 128 <-> addr mod 4 = 0).
Proof. exact lower_address_exact. Qed.
Print Assumptions C05_lower_address_partial.
Example C05_example : get_lower_address (fst (set_be 0x1043 5 tlp0)) = 0x40 /\ 0x1043 mod 128 = 0x43.
Proof. split; reflexivity. Qed.

(** C06: pack/unpack round trip; true for completions ... *)
Theorem C06_completion_roundtrip_partial : forall t, cpl_ok t ->
  exists p t', pack t = Ok p /\ unpack p = Ok t' /\ same_completion t t'.
Proof. exact cpl_roundtrip. Qed.
Print Assumptions C06_completion_roundtrip_partial.
Example C06_cpl_example :
  let t := mkTlp 2 10 5 1 0 1 6 1 1024 (mkId 255 31 7) 4 1 4096 (mkId 1 2 3) (mkId 0 0 0) 200 0 0 127 0 0 [1;2;3] in
  cpl_ok t /\ (let! p := pack t in unpack p) = Ok t.
Proof.
  split.
  - unfold cpl_ok, hdr_ok, id_ok; cbn. repeat split; try lia. right. repeat split; try lia. left; reflexivity.
  - vm_compute. reflexivity.
Qed.

(** ... and false for requests: a well-formed request that does not survive. *)
Theorem C06_request_roundtrip_refuted : exists t, req_ok t /\
  forall p t', pack t = Ok p -> unpack p = Ok t' -> ~ same_request t t'.
Proof. exact request_witness. Qed.
Print Assumptions C06_request_roundtrip_refuted.
(** Every memory or I/O read makes [unpack] raise IndexError. *)
Theorem C06_read_unpack_raises : forall t, hdr_ok t ->
  In (t_fmt_type t) [(0,0);(1,0);(0,1);(1,1);(0,2)] ->
  exists p, pack t = Ok p /\ unpack p = Err IndexError.
Proof. exact read_unpack_fails. Qed.
Print Assumptions C06_read_unpack_raises.
Example C06_read_example : hdr_ok tlp0 /\ In (t_fmt_type tlp0) [(0,0);(1,0);(0,1);(1,1);(0,2)].
Proof. split; [unfold hdr_ok, id_ok; cbn; repeat split; lia|left; reflexivity]. Qed.
(** Every configuration request loses its register number and nothing else. *)
Theorem C06_config_loses_register : forall t, req_ok t -> t_length t = 1 ->
  In (t_fmt_type t) [(0,4);(2,4);(0,5);(2,5)] -> (t_fmt t = 0 -> t_data t = []) ->
  exists p t', pack t = Ok p /\ unpack p = Ok t' /\ t_register_number t' = 0 /\
    same_request (set_register_number 0 t) t'.
Proof. exact cfg_roundtrip_but_register. Qed.
Print Assumptions C06_config_loses_register.
Example C06_cfg_example :
  let t := mkTlp 2 4 0 0 0 0 0 0 1 (mkId 0 0 0) 0 0 0 (mkId 0 0 0) (mkId 1 2 3) 7 15 0 0 0 0x3c [0xdeadbeef] in
  req_ok t /\ (let! p := pack t in let! t' := unpack p in Ok (t_register_number t')) = Ok 0.
Proof.
  split.
  - unfold req_ok, hdr_ok, id_ok; cbn. repeat split; try lia. right; left; reflexivity.
  - vm_compute. reflexivity.
Qed.
