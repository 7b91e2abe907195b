(** Independent specification vocabulary for TLP properties: which byte
    addresses a request selects (PCIe byte-enable rules), and what it means for
    two TLPs to carry the same information. *)
From Verif Require Import PyBase TlpModel.

(** PCIe byte-enable rule: in a request of [len] DWORDs, lane [lane] of DWORD
    [i] is enabled by the first byte enables for DWORD 0, by the last byte
    enables for DWORD len-1 when len > 1, and always in between. *)
Definition lane_enabled (first_be last_be len i lane : Z) : bool :=
  if i =? 0 then Z.testbit first_be lane
  else if i =? len - 1 then Z.testbit last_be lane
  else true.

(** Byte address [a] is selected by a request starting at DWORD-aligned [addr]. *)
Definition selects (addr len first_be last_be a : Z) : bool :=
  (addr <=? a) && (a <? addr + 4 * len) &&
  lane_enabled first_be last_be len ((a - addr) / 4) ((a - addr) mod 4).

Definition tlp_selects (t : tlp) (a : Z) : bool :=
  selects (t_address t) (t_length t) (t_first_be t) (t_last_be t) a.

(** Fields of a TLP that byte-enable computation must not touch. *)
Definition same_except_be (a b : tlp) : Prop :=
  t_fmt a = t_fmt b /\ t_type a = t_type b /\ t_tc a = t_tc b /\ t_th a = t_th b /\
  t_td a = t_td b /\ t_ep a = t_ep b /\ t_attr a = t_attr b /\ t_at a = t_at b /\
  t_completer_id a = t_completer_id b /\ t_status a = t_status b /\ t_bcm a = t_bcm b /\
  t_byte_count a = t_byte_count b /\ t_requester_id a = t_requester_id b /\
  t_dest_id a = t_dest_id b /\ t_tag a = t_tag b /\ t_lower_address a = t_lower_address b /\
  t_register_number a = t_register_number b.

(** In-range PCIe ID. *)
Definition id_ok (i : pcie_id) : Prop :=
  0 <= id_bus i < 256 /\ 0 <= id_device i < 32 /\ 0 <= id_function i < 8.

(** Common header fields in range. *)
Definition hdr_ok (t : tlp) : Prop :=
  0 <= t_at t < 4 /\ 0 <= t_attr t < 8 /\ 0 <= t_ep t < 2 /\ 0 <= t_td t < 2 /\
  0 <= t_th t < 2 /\ 0 <= t_tc t < 8 /\ 0 <= t_tag t < 256 /\ id_ok (t_requester_id t).

(** A well-formed completion. *)
Definition cpl_ok (t : tlp) : Prop :=
  hdr_ok t /\ id_ok (t_completer_id t) /\ 0 <= t_status t < 8 /\ 0 <= t_bcm t < 2 /\
  1 <= t_byte_count t <= 4096 /\ 0 <= t_lower_address t < 128 /\
  (In (t_fmt_type t) [(0, 10); (0, 11)] /\ 0 <= t_length t < 1024 /\ t_data t = [] \/
   In (t_fmt_type t) [(2, 10); (2, 11)] /\ 1 <= t_length t <= 1024).

(** A well-formed memory, I/O or configuration request. *)
Definition req_ok (t : tlp) : Prop :=
  hdr_ok t /\ 0 <= t_first_be t < 16 /\ 0 <= t_last_be t < 16 /\
  id_ok (t_dest_id t) /\ 0 <= t_register_number t < 1024 /\
  0 <= t_address t < 2^64 /\ t_address t mod 4 = 0 /\
  (t_fmt t = 0 \/ t_fmt t = 2 -> t_address t < 2^32) /\ 1 <= t_length t <= 1024 /\
  (t_fmt t = 2 \/ t_fmt t = 3 -> zlen (t_data t) = t_length t) /\
  In (t_fmt_type t) [(0,4);(2,4);(0,5);(2,5);(0,0);(1,0);(0,1);(1,1);(2,0);(3,0);(0,2);(2,2)].

(** Two completions carry the same information. *)
Definition same_completion (a b : tlp) : Prop :=
  t_fmt_type a = t_fmt_type b /\ t_tc a = t_tc b /\ t_th a = t_th b /\ t_td a = t_td b /\
  t_ep a = t_ep b /\ t_attr a = t_attr b /\ t_at a = t_at b /\ t_length a = t_length b /\
  t_completer_id a = t_completer_id b /\ t_status a = t_status b /\ t_bcm a = t_bcm b /\
  t_byte_count a = t_byte_count b /\ t_requester_id a = t_requester_id b /\
  t_tag a = t_tag b /\ t_lower_address a = t_lower_address b /\ t_data a = t_data b.

(** Two requests carry the same information (the part encoded for their type). *)
Definition same_request (a b : tlp) : Prop :=
  t_fmt_type a = t_fmt_type b /\ t_tc a = t_tc b /\ t_th a = t_th b /\ t_td a = t_td b /\
  t_ep a = t_ep b /\ t_attr a = t_attr b /\ t_at a = t_at b /\ t_length a = t_length b /\
  t_requester_id a = t_requester_id b /\ t_tag a = t_tag b /\
  t_first_be a = t_first_be b /\ t_last_be a = t_last_be b /\ t_data a = t_data b /\
  (snd (t_fmt_type a) = 4 \/ snd (t_fmt_type a) = 5 ->
     t_dest_id a = t_dest_id b /\ t_register_number a = t_register_number b) /\
  (snd (t_fmt_type a) <= 2 -> t_address a = t_address b).

(** Memory effect of a write request as the PCIe specification defines it:
    byte address [a] receives payload byte [a - addr] when it is selected. *)
Definition write_effect (addr len first_be last_be : Z) (payload : list Z) (m : mem) : mem :=
  fun a => if selects addr len first_be last_be a
           then nth (Z.to_nat (a - addr)) payload 0 else m a.
