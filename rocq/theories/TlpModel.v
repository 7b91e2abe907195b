(** Model of the TLP class and integer helpers of /repo/tb/pcie.py. *)
From Verif Require Import PyBase.

(** tb/pcie.py:143-147 [align]. *)
Definition align (val mask : Z) : Z :=
  if negb (Z.land val mask =? 0) then val + mask + 1 - Z.land val mask else val.

(** tb/pcie.py:154-158, body of the [while mask >= m1] loop of
    [byte_mask_update]; [fuel] bounds the iterations, exhaustion is an error. *)
Fixpoint byte_mask_loop (fuel : nat) (old mask new m1 m2 : Z) : result Z :=
  if mask >=? m1 then
    match fuel with
    | O => Err OutOfFuel
    | S f =>
      let old := if negb (Z.land mask m1 =? 0)
                 then Z.lor (Z.land old (Z.lnot m2)) (Z.land new m2) else old in
      byte_mask_loop f old mask new (Z.shiftl m1 1) (Z.shiftl m2 8)
    end
  else Ok old.

(** tb/pcie.py:150-159 [byte_mask_update(old, mask, new, bitmask)].  The
    [while] loop doubles [m1] until it exceeds [mask], so log2(mask)+1
    iterations suffice; the theorems show that the fuel is never exhausted. *)
Definition byte_mask_update (old mask new bitmask : Z) : result Z :=
  let new := Z.lor (Z.land new bitmask) (Z.land old (Z.lnot bitmask)) in
  byte_mask_loop (S (Z.to_nat (Z.log2 mask))) old mask new 1 0xff.

(** tb/pcie.py:166-180 [PcieId] value (bus, device, function). *)
Record pcie_id := mkId { id_bus : Z; id_device : Z; id_function : Z }.

(** tb/pcie.py:182-184 [PcieId.from_int]. *)
Definition id_from_int (val : Z) : pcie_id :=
  mkId (Z.land (Z.shiftr val 8) 0xff) (Z.land (Z.shiftr val 3) 0x1f) (Z.land val 0x7).

(** tb/pcie.py:191-192 [PcieId.__int__]. *)
Definition id_to_int (i : pcie_id) : Z :=
  Z.lor (Z.lor (Z.shiftl (Z.land (id_bus i) 0xff) 8) (Z.shiftl (Z.land (id_device i) 0x1f) 3))
        (Z.land (id_function i) 0x7).

(** tb/pcie.py:186-189 [PcieId.__eq__] on two PcieId values. *)
Definition id_eqb (a b : pcie_id) : bool :=
  (id_bus a =? id_bus b) && (id_device a =? id_device b) && (id_function a =? id_function b).

(** tb/pcie.py:329-352, the attributes of a [TLP] object.  Python's aliasing of
    mutable attributes is not modelled: a TLP is a value. *)
Record tlp := mkTlp {
  t_fmt : Z;
  t_type : Z;
  t_tc : Z;
  t_th : Z;
  t_td : Z;
  t_ep : Z;
  t_attr : Z;
  t_at : Z;
  t_length : Z;
  t_completer_id : pcie_id;
  t_status : Z;
  t_bcm : Z;
  t_byte_count : Z;
  t_requester_id : pcie_id;
  t_dest_id : pcie_id;
  t_tag : Z;
  t_first_be : Z;
  t_last_be : Z;
  t_lower_address : Z;
  t_address : Z;
  t_register_number : Z;
  t_data : list Z
}.

(** tb/pcie.py:331-352 [TLP()] default values. *)
Definition tlp0 : tlp := mkTlp 0 0 0 0 0 0 0 0 0 (mkId 0 0 0) 0 0 0 (mkId 0 0 0) (mkId 0 0 0) 0 0 0 0 0 0 [].

(** tb/pcie.py:331-352: assignment [tlp.fmt = v]. *)
Definition set_fmt (v : Z) (t : tlp) : tlp :=
  mkTlp v (t_type t) (t_tc t) (t_th t) (t_td t) (t_ep t) (t_attr t) (t_at t) (t_length t) (t_completer_id t) (t_status t) (t_bcm t) (t_byte_count t) (t_requester_id t) (t_dest_id t) (t_tag t) (t_first_be t) (t_last_be t) (t_lower_address t) (t_address t) (t_register_number t) (t_data t).
(** tb/pcie.py:331-352: assignment [tlp.type = v]. *)
Definition set_type (v : Z) (t : tlp) : tlp :=
  mkTlp (t_fmt t) v (t_tc t) (t_th t) (t_td t) (t_ep t) (t_attr t) (t_at t) (t_length t) (t_completer_id t) (t_status t) (t_bcm t) (t_byte_count t) (t_requester_id t) (t_dest_id t) (t_tag t) (t_first_be t) (t_last_be t) (t_lower_address t) (t_address t) (t_register_number t) (t_data t).
(** tb/pcie.py:331-352: assignment [tlp.tc = v]. *)
Definition set_tc (v : Z) (t : tlp) : tlp :=
  mkTlp (t_fmt t) (t_type t) v (t_th t) (t_td t) (t_ep t) (t_attr t) (t_at t) (t_length t) (t_completer_id t) (t_status t) (t_bcm t) (t_byte_count t) (t_requester_id t) (t_dest_id t) (t_tag t) (t_first_be t) (t_last_be t) (t_lower_address t) (t_address t) (t_register_number t) (t_data t).
(** tb/pcie.py:331-352: assignment [tlp.th = v]. *)
Definition set_th (v : Z) (t : tlp) : tlp :=
  mkTlp (t_fmt t) (t_type t) (t_tc t) v (t_td t) (t_ep t) (t_attr t) (t_at t) (t_length t) (t_completer_id t) (t_status t) (t_bcm t) (t_byte_count t) (t_requester_id t) (t_dest_id t) (t_tag t) (t_first_be t) (t_last_be t) (t_lower_address t) (t_address t) (t_register_number t) (t_data t).
(** tb/pcie.py:331-352: assignment [tlp.td = v]. *)
Definition set_td (v : Z) (t : tlp) : tlp :=
  mkTlp (t_fmt t) (t_type t) (t_tc t) (t_th t) v (t_ep t) (t_attr t) (t_at t) (t_length t) (t_completer_id t) (t_status t) (t_bcm t) (t_byte_count t) (t_requester_id t) (t_dest_id t) (t_tag t) (t_first_be t) (t_last_be t) (t_lower_address t) (t_address t) (t_register_number t) (t_data t).
(** tb/pcie.py:331-352: assignment [tlp.ep = v]. *)
Definition set_ep (v : Z) (t : tlp) : tlp :=
  mkTlp (t_fmt t) (t_type t) (t_tc t) (t_th t) (t_td t) v (t_attr t) (t_at t) (t_length t) (t_completer_id t) (t_status t) (t_bcm t) (t_byte_count t) (t_requester_id t) (t_dest_id t) (t_tag t) (t_first_be t) (t_last_be t) (t_lower_address t) (t_address t) (t_register_number t) (t_data t).
(** tb/pcie.py:331-352: assignment [tlp.attr = v]. *)
Definition set_attr (v : Z) (t : tlp) : tlp :=
  mkTlp (t_fmt t) (t_type t) (t_tc t) (t_th t) (t_td t) (t_ep t) v (t_at t) (t_length t) (t_completer_id t) (t_status t) (t_bcm t) (t_byte_count t) (t_requester_id t) (t_dest_id t) (t_tag t) (t_first_be t) (t_last_be t) (t_lower_address t) (t_address t) (t_register_number t) (t_data t).
(** tb/pcie.py:331-352: assignment [tlp.at = v]. *)
Definition set_at (v : Z) (t : tlp) : tlp :=
  mkTlp (t_fmt t) (t_type t) (t_tc t) (t_th t) (t_td t) (t_ep t) (t_attr t) v (t_length t) (t_completer_id t) (t_status t) (t_bcm t) (t_byte_count t) (t_requester_id t) (t_dest_id t) (t_tag t) (t_first_be t) (t_last_be t) (t_lower_address t) (t_address t) (t_register_number t) (t_data t).
(** tb/pcie.py:331-352: assignment [tlp.length = v]. *)
Definition set_length (v : Z) (t : tlp) : tlp :=
  mkTlp (t_fmt t) (t_type t) (t_tc t) (t_th t) (t_td t) (t_ep t) (t_attr t) (t_at t) v (t_completer_id t) (t_status t) (t_bcm t) (t_byte_count t) (t_requester_id t) (t_dest_id t) (t_tag t) (t_first_be t) (t_last_be t) (t_lower_address t) (t_address t) (t_register_number t) (t_data t).
(** tb/pcie.py:331-352: assignment [tlp.completer_id = v]. *)
Definition set_completer_id (v : pcie_id) (t : tlp) : tlp :=
  mkTlp (t_fmt t) (t_type t) (t_tc t) (t_th t) (t_td t) (t_ep t) (t_attr t) (t_at t) (t_length t) v (t_status t) (t_bcm t) (t_byte_count t) (t_requester_id t) (t_dest_id t) (t_tag t) (t_first_be t) (t_last_be t) (t_lower_address t) (t_address t) (t_register_number t) (t_data t).
(** tb/pcie.py:331-352: assignment [tlp.status = v]. *)
Definition set_status (v : Z) (t : tlp) : tlp :=
  mkTlp (t_fmt t) (t_type t) (t_tc t) (t_th t) (t_td t) (t_ep t) (t_attr t) (t_at t) (t_length t) (t_completer_id t) v (t_bcm t) (t_byte_count t) (t_requester_id t) (t_dest_id t) (t_tag t) (t_first_be t) (t_last_be t) (t_lower_address t) (t_address t) (t_register_number t) (t_data t).
(** tb/pcie.py:331-352: assignment [tlp.bcm = v]. *)
Definition set_bcm (v : Z) (t : tlp) : tlp :=
  mkTlp (t_fmt t) (t_type t) (t_tc t) (t_th t) (t_td t) (t_ep t) (t_attr t) (t_at t) (t_length t) (t_completer_id t) (t_status t) v (t_byte_count t) (t_requester_id t) (t_dest_id t) (t_tag t) (t_first_be t) (t_last_be t) (t_lower_address t) (t_address t) (t_register_number t) (t_data t).
(** tb/pcie.py:331-352: assignment [tlp.byte_count = v]. *)
Definition set_byte_count (v : Z) (t : tlp) : tlp :=
  mkTlp (t_fmt t) (t_type t) (t_tc t) (t_th t) (t_td t) (t_ep t) (t_attr t) (t_at t) (t_length t) (t_completer_id t) (t_status t) (t_bcm t) v (t_requester_id t) (t_dest_id t) (t_tag t) (t_first_be t) (t_last_be t) (t_lower_address t) (t_address t) (t_register_number t) (t_data t).
(** tb/pcie.py:331-352: assignment [tlp.requester_id = v]. *)
Definition set_requester_id (v : pcie_id) (t : tlp) : tlp :=
  mkTlp (t_fmt t) (t_type t) (t_tc t) (t_th t) (t_td t) (t_ep t) (t_attr t) (t_at t) (t_length t) (t_completer_id t) (t_status t) (t_bcm t) (t_byte_count t) v (t_dest_id t) (t_tag t) (t_first_be t) (t_last_be t) (t_lower_address t) (t_address t) (t_register_number t) (t_data t).
(** tb/pcie.py:331-352: assignment [tlp.dest_id = v]. *)
Definition set_dest_id (v : pcie_id) (t : tlp) : tlp :=
  mkTlp (t_fmt t) (t_type t) (t_tc t) (t_th t) (t_td t) (t_ep t) (t_attr t) (t_at t) (t_length t) (t_completer_id t) (t_status t) (t_bcm t) (t_byte_count t) (t_requester_id t) v (t_tag t) (t_first_be t) (t_last_be t) (t_lower_address t) (t_address t) (t_register_number t) (t_data t).
(** tb/pcie.py:331-352: assignment [tlp.tag = v]. *)
Definition set_tag (v : Z) (t : tlp) : tlp :=
  mkTlp (t_fmt t) (t_type t) (t_tc t) (t_th t) (t_td t) (t_ep t) (t_attr t) (t_at t) (t_length t) (t_completer_id t) (t_status t) (t_bcm t) (t_byte_count t) (t_requester_id t) (t_dest_id t) v (t_first_be t) (t_last_be t) (t_lower_address t) (t_address t) (t_register_number t) (t_data t).
(** tb/pcie.py:331-352: assignment [tlp.first_be = v]. *)
Definition set_first_be (v : Z) (t : tlp) : tlp :=
  mkTlp (t_fmt t) (t_type t) (t_tc t) (t_th t) (t_td t) (t_ep t) (t_attr t) (t_at t) (t_length t) (t_completer_id t) (t_status t) (t_bcm t) (t_byte_count t) (t_requester_id t) (t_dest_id t) (t_tag t) v (t_last_be t) (t_lower_address t) (t_address t) (t_register_number t) (t_data t).
(** tb/pcie.py:331-352: assignment [tlp.last_be = v]. *)
Definition set_last_be (v : Z) (t : tlp) : tlp :=
  mkTlp (t_fmt t) (t_type t) (t_tc t) (t_th t) (t_td t) (t_ep t) (t_attr t) (t_at t) (t_length t) (t_completer_id t) (t_status t) (t_bcm t) (t_byte_count t) (t_requester_id t) (t_dest_id t) (t_tag t) (t_first_be t) v (t_lower_address t) (t_address t) (t_register_number t) (t_data t).
(** tb/pcie.py:331-352: assignment [tlp.lower_address = v]. *)
Definition set_lower_address (v : Z) (t : tlp) : tlp :=
  mkTlp (t_fmt t) (t_type t) (t_tc t) (t_th t) (t_td t) (t_ep t) (t_attr t) (t_at t) (t_length t) (t_completer_id t) (t_status t) (t_bcm t) (t_byte_count t) (t_requester_id t) (t_dest_id t) (t_tag t) (t_first_be t) (t_last_be t) v (t_address t) (t_register_number t) (t_data t).
(** tb/pcie.py:331-352: assignment [tlp.address = v]. *)
Definition set_address (v : Z) (t : tlp) : tlp :=
  mkTlp (t_fmt t) (t_type t) (t_tc t) (t_th t) (t_td t) (t_ep t) (t_attr t) (t_at t) (t_length t) (t_completer_id t) (t_status t) (t_bcm t) (t_byte_count t) (t_requester_id t) (t_dest_id t) (t_tag t) (t_first_be t) (t_last_be t) (t_lower_address t) v (t_register_number t) (t_data t).
(** tb/pcie.py:331-352: assignment [tlp.register_number = v]. *)
Definition set_register_number (v : Z) (t : tlp) : tlp :=
  mkTlp (t_fmt t) (t_type t) (t_tc t) (t_th t) (t_td t) (t_ep t) (t_attr t) (t_at t) (t_length t) (t_completer_id t) (t_status t) (t_bcm t) (t_byte_count t) (t_requester_id t) (t_dest_id t) (t_tag t) (t_first_be t) (t_last_be t) (t_lower_address t) (t_address t) v (t_data t).
(** tb/pcie.py:331-352: assignment [tlp.data = v]. *)
Definition set_data (v : list Z) (t : tlp) : tlp :=
  mkTlp (t_fmt t) (t_type t) (t_tc t) (t_th t) (t_td t) (t_ep t) (t_attr t) (t_at t) (t_length t) (t_completer_id t) (t_status t) (t_bcm t) (t_byte_count t) (t_requester_id t) (t_dest_id t) (t_tag t) (t_first_be t) (t_last_be t) (t_lower_address t) (t_address t) (t_register_number t) v.

(** tb/pcie.py:31-77 TLP format and type constants. *)
Definition FMT_3DW := 0.
(** tb/pcie.py:31-77 constant [FMT_4DW]. *)
Definition FMT_4DW := 1.
(** tb/pcie.py:31-77 constant [FMT_3DW_DATA]. *)
Definition FMT_3DW_DATA := 2.
(** tb/pcie.py:31-77 constant [FMT_4DW_DATA]. *)
Definition FMT_4DW_DATA := 3.
(** tb/pcie.py:31-77 constant [TLP_MEM_READ]. *)
Definition TLP_MEM_READ := (0, 0x00).
(** tb/pcie.py:31-77 constant [TLP_MEM_READ_64]. *)
Definition TLP_MEM_READ_64 := (1, 0x00).
(** tb/pcie.py:31-77 constant [TLP_MEM_READ_LOCKED]. *)
Definition TLP_MEM_READ_LOCKED := (0, 0x01).
(** tb/pcie.py:31-77 constant [TLP_MEM_READ_LOCKED_64]. *)
Definition TLP_MEM_READ_LOCKED_64 := (1, 0x01).
(** tb/pcie.py:31-77 constant [TLP_MEM_WRITE]. *)
Definition TLP_MEM_WRITE := (2, 0x00).
(** tb/pcie.py:31-77 constant [TLP_MEM_WRITE_64]. *)
Definition TLP_MEM_WRITE_64 := (3, 0x00).
(** tb/pcie.py:31-77 constant [TLP_IO_READ]. *)
Definition TLP_IO_READ := (0, 0x02).
(** tb/pcie.py:31-77 constant [TLP_IO_WRITE]. *)
Definition TLP_IO_WRITE := (2, 0x02).
(** tb/pcie.py:31-77 constant [TLP_CFG_READ_0]. *)
Definition TLP_CFG_READ_0 := (0, 0x04).
(** tb/pcie.py:31-77 constant [TLP_CFG_WRITE_0]. *)
Definition TLP_CFG_WRITE_0 := (2, 0x04).
(** tb/pcie.py:31-77 constant [TLP_CFG_READ_1]. *)
Definition TLP_CFG_READ_1 := (0, 0x05).
(** tb/pcie.py:31-77 constant [TLP_CFG_WRITE_1]. *)
Definition TLP_CFG_WRITE_1 := (2, 0x05).
(** tb/pcie.py:31-77 constant [TLP_CPL]. *)
Definition TLP_CPL := (0, 0x0A).
(** tb/pcie.py:31-77 constant [TLP_CPL_DATA]. *)
Definition TLP_CPL_DATA := (2, 0x0A).
(** tb/pcie.py:31-77 constant [TLP_CPL_LOCKED]. *)
Definition TLP_CPL_LOCKED := (0, 0x0B).
(** tb/pcie.py:31-77 constant [TLP_CPL_LOCKED_DATA]. *)
Definition TLP_CPL_LOCKED_DATA := (2, 0x0B).

(** tb/pcie.py:110-113 completion status codes. *)
Definition CPL_STATUS_SC := 0.
(** tb/pcie.py:110-113 constant [CPL_STATUS_UR]. *)
Definition CPL_STATUS_UR := 1.
(** tb/pcie.py:110-113 constant [CPL_STATUS_CRS]. *)
Definition CPL_STATUS_CRS := 2.
(** tb/pcie.py:110-113 constant [CPL_STATUS_CA]. *)
Definition CPL_STATUS_CA := 4.

(** tb/pcie.py:377-383 the [fmt_type] property. *)
Definition t_fmt_type (t : tlp) : Z * Z := (t_fmt t, t_type t).
(** tb/pcie.py:381-383 setter of the [fmt_type] property. *)
Definition set_fmt_type (v : Z * Z) (t : tlp) : tlp := set_type (snd v) (set_fmt (fst v) t).

(** tb/pcie.py:418-436 and throughout: tuple equality [self.fmt_type == X]. *)
Definition ft_eqb (a b : Z * Z) : bool := (fst a =? fst b) && (snd a =? snd b).

(** tb/pcie.py:418-436 and throughout: an [or]-chain over fmt_type. *)
Definition ft_in (a : Z * Z) (l : list (Z * Z)) : bool := existsb (ft_eqb a) l.

(** tb/pcie.py:354-375 copy constructor [TLP(tlp)]: [th] is not copied. *)
Definition tlp_copy (t : tlp) : tlp := set_th 0 t.

(** tb/pcie.py:409-436 [check].  [0 > length > 1024] is the Python chained
    comparison [0 > length and length > 1024]. *)
Definition tlp_check (t : tlp) : bool :=
  let has_data := (t_fmt t =? FMT_3DW_DATA) || (t_fmt t =? FMT_4DW_DATA) in
  let r1 := if has_data then
      negb (negb (t_length t =? zlen (t_data t))) && negb ((0 >? t_length t) && (t_length t >? 1024))
    else true in
  let r2 := if ft_in (t_fmt_type t) [TLP_MEM_READ; TLP_MEM_READ_64; TLP_MEM_READ_LOCKED;
                TLP_MEM_READ_LOCKED_64; TLP_MEM_WRITE; TLP_MEM_WRITE_64]
    then negb (t_length t * 4 >? 0x1000 - Z.land (t_address t) 0xfff) else true in
  let r3 := if ft_in (t_fmt_type t) [TLP_IO_READ; TLP_IO_WRITE]
    then (t_length t =? 1) && (t_last_be t =? 0) else true in
  let r4 := if ft_in (t_fmt_type t) [TLP_CPL_DATA]
    then negb (t_byte_count t + Z.land (t_lower_address t) 3 + 3 <? t_length t * 4) else true in
  r1 && r2 && r3 && r4.

(** tb/pcie.py:438-449 [set_completion] on [self] from request [r]. *)
Definition set_completion (r : tlp) (completer : pcie_id) (has_data : bool) (status : Z) (self : tlp) : tlp :=
  let self := set_fmt_type (if has_data then TLP_CPL_DATA else TLP_CPL) self in
  set_tc (t_tc r) (set_tag (t_tag r) (set_attr (t_attr r) (set_status status
    (set_completer_id completer (set_requester_id (t_requester_id r) self))))).

(** tb/pcie.py:451-453 [set_completion_data]. *)
Definition set_completion_data r c self := set_completion r c true CPL_STATUS_SC self.
(** tb/pcie.py:455-457 [set_ur_completion]. *)
Definition set_ur_completion r c self := set_completion r c false CPL_STATUS_UR self.
(** tb/pcie.py:459-461 [set_crs_completion]. *)
Definition set_crs_completion r c self := set_completion r c false CPL_STATUS_CRS self.
(** tb/pcie.py:463-465 [set_ca_completion]. *)
Definition set_ca_completion r c self := set_completion r c false CPL_STATUS_CA self.

(** tb/pcie.py:467-479 [set_be]; returns (tlp, (first_pad, last_pad)).
    [math.ceil(x/4)] is modelled by exact ceiling division (x is always a
    multiple of 4 here; Python's float division is exact below 2^53). *)
Definition set_be (addr len : Z) (self : tlp) : tlp * (Z * Z) :=
  let self := set_address (Z.land addr (Z.lnot 3)) self in
  let first_pad := addr mod 4 in
  let last_pad := 3 - (addr + len - 1) mod 4 in
  let self := set_length (- (- (len + first_pad + last_pad) / 4)) self in
  let self := set_first_be (Z.land (Z.shiftl 0xf first_pad) 0xf) self in
  let self := set_last_be (Z.shiftr 0xf last_pad) self in
  let self := if t_length self =? 1
              then set_last_be 0 (set_first_be (Z.land (t_first_be self) (t_last_be self)) self)
              else self in
  (self, (first_pad, last_pad)).

(** tb/pcie.py:484-485 the loop [for k in range(0, len(data), 4)]: 4-byte
    chunks; a trailing partial chunk makes struct.unpack raise. *)
Fixpoint dwords_of_bytes (fuel : nat) (data : list Z) : result (list Z) :=
  match data with
  | [] => Ok []
  | _ => match fuel with
    | O => Err OutOfFuel
    | S f => let! v := unpack_u32 (firstn 4 data) in
             let! r := dwords_of_bytes f (skipn 4 data) in Ok (v :: r)
    end
  end.

(** tb/pcie.py:481-486 [set_data]. *)
Definition set_data_bytes (data : list Z) (self : tlp) : result tlp :=
  let! d := dwords_of_bytes (length data) data in
  let self := set_data d self in
  Ok (set_length (zlen d) self).

(** tb/pcie.py:488-492 [set_be_data]. *)
Definition set_be_data (addr : Z) (data : list Z) (self : tlp) : result tlp :=
  let self := set_address (Z.land addr (Z.lnot 3)) self in
  let '(self, (first_pad, last_pad)) := set_be addr (zlen data) self in
  set_data_bytes (zeros first_pad ++ data ++ zeros last_pad) self.

(** tb/pcie.py:496-497, loop of [get_data]. *)
Fixpoint bytes_of_dwords (dws : list Z) : result (list Z) :=
  match dws with
  | [] => Ok []
  | w :: r => let! b := pack_u32 w in let! bs := bytes_of_dwords r in Ok (b ++ bs)
  end.
(** tb/pcie.py:494-498 [get_data]. *)
Definition get_data (self : tlp) : result (list Z) := bytes_of_dwords (t_data self).

(** tb/pcie.py:500-509 [get_first_be_offset]. *)
Definition get_first_be_offset (self : tlp) : Z :=
  if Z.land (t_first_be self) 0x7 =? 0 then 3
  else if Z.land (t_first_be self) 0x3 =? 0 then 2
  else if Z.land (t_first_be self) 0x1 =? 0 then 1
  else 0.

(** tb/pcie.py:511-524 [get_last_be_offset]. *)
Definition get_last_be_offset (self : tlp) : Z :=
  let be := if t_length self =? 1 then t_first_be self else t_last_be self in
  if Z.land be 0xf =? 0x1 then 3
  else if Z.land be 0xe =? 0x2 then 2
  else if Z.land be 0xc =? 0x4 then 1
  else 0.

(** tb/pcie.py:526-528 [get_be_byte_count]. *)
Definition get_be_byte_count (self : tlp) : Z :=
  t_length self * 4 - get_first_be_offset self - get_last_be_offset self.

(** tb/pcie.py:530-532 [get_lower_address]; in Python [+] binds tighter than
    [&], so the expression is [address & (0x7c + offset)]. *)
Definition get_lower_address (self : tlp) : Z :=
  Z.land (t_address self) (0x7c + get_first_be_offset self).

(** tb/pcie.py:534-543 [get_size]; None when fmt is not one of the four. *)
Definition get_size (self : tlp) : option Z :=
  if t_fmt self =? FMT_3DW then Some 12
  else if t_fmt self =? FMT_3DW_DATA then Some (12 + zlen (t_data self) * 4)
  else if t_fmt self =? FMT_4DW then Some 16
  else if t_fmt self =? FMT_4DW_DATA then Some (16 + zlen (t_data self) * 4)
  else None.

(** tb/pcie.py:549-551 [get_data_credits]. *)
Definition get_data_credits (self : tlp) : Z := (zlen (t_data self) + 3) / 4.

(** tb/pcie.py:569-574 request types handled by pack/unpack. *)
Definition ft_cfg : list (Z * Z) := [TLP_CFG_READ_0; TLP_CFG_WRITE_0; TLP_CFG_READ_1; TLP_CFG_WRITE_1].
(** tb/pcie.py:569-574, 629-634 request types of pack/unpack. *)
Definition ft_req : list (Z * Z) := ft_cfg ++
  [TLP_MEM_READ; TLP_MEM_READ_64; TLP_MEM_READ_LOCKED; TLP_MEM_READ_LOCKED_64;
   TLP_MEM_WRITE; TLP_MEM_WRITE_64; TLP_IO_READ; TLP_IO_WRITE].
(** tb/pcie.py:593-594 completion types. *)
Definition ft_cpl : list (Z * Z) := [TLP_CPL; TLP_CPL_DATA; TLP_CPL_LOCKED; TLP_CPL_LOCKED_DATA].

(** tb/pcie.py:557-567, first DWORD built by [pack]. *)
Definition pack_dw0 (t : tlp) : Z :=
  let l := Z.land (t_length t) 0x3ff in
  let l := Z.lor l (Z.shiftl (Z.land (t_at t) 0x3) 10) in
  let l := Z.lor l (Z.shiftl (Z.land (t_attr t) 0x3) 12) in
  let l := Z.lor l (Z.shiftl (Z.land (t_ep t) 1) 14) in
  let l := Z.lor l (Z.shiftl (Z.land (t_td t) 1) 15) in
  let l := Z.lor l (Z.shiftl (Z.land (t_th t) 1) 16) in
  let l := Z.lor l (Z.shiftl (Z.land (t_attr t) 0x4) 16) in
  let l := Z.lor l (Z.shiftl (Z.land (t_tc t) 0x7) 20) in
  let l := Z.lor l (Z.shiftl (Z.land (t_type t) 0x1f) 24) in
  Z.lor l (Z.shiftl (Z.land (t_fmt t) 0x7) 29).

(** tb/pcie.py:553-610 [pack]. *)
Definition pack (t : tlp) : result (list Z) :=
  let pkt := [pack_dw0 t] in
  let! pkt :=
    if ft_in (t_fmt_type t) ft_req then
      let l := Z.land (t_first_be t) 0xf in
      let l := Z.lor l (Z.shiftl (Z.land (t_last_be t) 0xf) 4) in
      let l := Z.lor l (Z.shiftl (Z.land (t_tag t) 0xff) 8) in
      let l := Z.lor l (Z.shiftl (id_to_int (t_requester_id t)) 16) in
      let pkt := pkt ++ [l] in
      if ft_in (t_fmt_type t) ft_cfg then
        let l := Z.shiftl (Z.land (t_register_number t) 0x3ff) 2 in
        let l := Z.lor l (Z.shiftl (id_to_int (t_dest_id t)) 16) in
        Ok (pkt ++ [l])
      else
        let l := 0 in
        let '(l, pkt) :=
          if (t_fmt t =? FMT_4DW) || (t_fmt t =? FMT_4DW_DATA) then
            let l := Z.lor l (Z.land (Z.shiftr (t_address t) 32) 0xffffffff) in (l, pkt ++ [l])
          else (l, pkt) in
        let l := Z.lor l (Z.land (t_address t) 0xfffffffc) in
        Ok (pkt ++ [l])
    else if ft_in (t_fmt_type t) ft_cpl then
      let l := Z.land (t_byte_count t) 0xfff in
      let l := Z.lor l (Z.shiftl (Z.land (t_bcm t) 1) 12) in
      let l := Z.lor l (Z.shiftl (Z.land (t_status t) 0x7) 13) in
      let l := Z.lor l (Z.shiftl (id_to_int (t_completer_id t)) 16) in
      let pkt := pkt ++ [l] in
      let l := Z.land (t_lower_address t) 0x7f in
      let l := Z.lor l (Z.shiftl (Z.land (t_tag t) 0xff) 8) in
      let l := Z.lor l (Z.shiftl (id_to_int (t_requester_id t)) 16) in
      Ok (pkt ++ [l])
    else Err (PyException 605) in
  if (t_fmt t =? FMT_3DW_DATA) || (t_fmt t =? FMT_4DW_DATA)
  then Ok (pkt ++ t_data t) else Ok pkt.

(** tb/pcie.py:612-668 [unpack] applied to a fresh [TLP()]. *)
Definition unpack (pkt : list Z) : result tlp :=
  let! w0 := py_index pkt 0 in
  let t := set_length (Z.land w0 0x3ff) tlp0 in
  let t := set_at (Z.land (Z.shiftr w0 10) 0x3) t in
  let t := set_attr (Z.land (Z.shiftr w0 12) 0x3) t in
  let t := set_ep (Z.land (Z.shiftr w0 14) 1) t in
  let t := set_td (Z.land (Z.shiftr w0 15) 1) t in
  let t := set_th (Z.land (Z.shiftr w0 16) 1) t in
  let t := set_attr (Z.lor (t_attr t) (Z.land (Z.shiftr w0 16) 0x4)) t in
  let t := set_tc (Z.land (Z.shiftr w0 20) 0x7) t in
  let t := set_type (Z.land (Z.shiftr w0 24) 0x1f) t in
  let t := set_fmt (Z.land (Z.shiftr w0 29) 0x7) t in
  let t := if (t_fmt t =? FMT_3DW_DATA) || (t_fmt t =? FMT_4DW_DATA)
           then (if t_length t =? 0 then set_length 1024 t else t) else t in
  let! t :=
    if ft_in (t_fmt_type t) ft_req then
      let! w1 := py_index pkt 1 in
      let t := set_first_be (Z.land w1 0xf) t in
      let t := set_last_be (Z.land (Z.shiftr w1 4) 0xf) t in
      let t := set_tag (Z.land (Z.shiftr w1 8) 0xff) t in
      let t := set_requester_id (id_from_int (Z.shiftr w1 16)) t in
      if ft_in (t_fmt_type t) ft_cfg then
        let! w2 := py_index pkt 2 in
        let t := set_register_number (Z.shiftr (Z.shiftr w2 2) 0x3ff) t in
        Ok (set_dest_id (id_from_int (Z.shiftr w2 16)) t)
      else if (t_fmt t =? FMT_3DW) || (t_fmt t =? FMT_3DW_DATA) then
        let! w3 := py_index pkt 3 in
        Ok (set_address (Z.land w3 0xfffffffc) t)
      else if (t_fmt t =? FMT_4DW) || (t_fmt t =? FMT_4DW_DATA) then
        let! w4 := py_index pkt 4 in
        Ok (set_address (Z.lor (Z.shiftl (Z.land w4 0xffffffff) 32) (Z.land w4 0xfffffffc)) t)
      else Ok t
    else if ft_in (t_fmt_type t) ft_cpl then
      let! w1 := py_index pkt 1 in
      let t := set_byte_count (Z.land w1 0xfff) t in
      let t := set_bcm (Z.land (Z.shiftr w1 12) 1) t in
      let t := set_status (Z.land (Z.shiftr w1 13) 0x7) t in
      let t := set_completer_id (id_from_int (Z.shiftr w1 16)) t in
      let! w2 := py_index pkt 2 in
      let t := set_lower_address (Z.land w2 0x7f) t in
      let t := set_tag (Z.land (Z.shiftr w2 8) 0xff) t in
      let t := set_requester_id (id_from_int (Z.shiftr w2 16)) t in
      Ok (if t_byte_count t =? 0 then set_byte_count 4096 t else t)
    else Err (PyException 661) in
  if t_fmt t =? FMT_3DW_DATA then Ok (set_data (skipn 3 pkt) t)
  else if t_fmt t =? FMT_4DW_DATA then Ok (set_data (skipn 4 pkt) t)
  else Ok t.

(** tb/pcie.py:673, Python list equality of [data]. *)
Fixpoint zlist_eqb (a b : list Z) : bool :=
  match a, b with
  | [], [] => true
  | x :: a, y :: b => (x =? y) && zlist_eqb a b
  | _, _ => false
  end.
(** tb/pcie.py:670-695 [TLP.__eq__] ([th] is not compared). *)
Definition tlp_eqb (a b : tlp) : bool :=
  zlist_eqb (t_data a) (t_data b) && (t_fmt a =? t_fmt b) && (t_type a =? t_type b)
  && (t_tc a =? t_tc b) && (t_td a =? t_td b) && (t_ep a =? t_ep b) && (t_attr a =? t_attr b)
  && (t_at a =? t_at b) && (t_length a =? t_length b) && id_eqb (t_completer_id a) (t_completer_id b)
  && (t_status a =? t_status b) && (t_bcm a =? t_bcm b) && (t_byte_count a =? t_byte_count b)
  && id_eqb (t_requester_id a) (t_requester_id b) && id_eqb (t_dest_id a) (t_dest_id b)
  && (t_tag a =? t_tag b) && (t_first_be a =? t_first_be b) && (t_last_be a =? t_last_be b)
  && (t_lower_address a =? t_lower_address b) && (t_address a =? t_address b)
  && (t_register_number a =? t_register_number b).
