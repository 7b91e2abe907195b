(** Model of the UltraScale descriptor codecs (TLP_us and USPcieFrame in
    /repo/tb/pcie_us.py). *)
From Verif Require Import PyBase TlpModel.

(** tb/pcie_us.py:59-67 [dword_parity]. *)
Definition dword_parity (d : Z) : Z :=
  let d := Z.lxor d (Z.shiftr d 4) in
  let d := Z.lxor d (Z.shiftr d 2) in
  let d := Z.lxor d (Z.shiftr d 1) in
  let p := Z.land d 0x1 in
  let p := Z.lor p (Z.shiftr (Z.land d 0x100) 7) in
  let p := Z.lor p (Z.shiftr (Z.land d 0x10000) 14) in
  Z.lor p (Z.shiftr (Z.land d 0x1000000) 21).

(** tb/pcie_us.py:70-87 [USPcieFrame]. *)
Record us_frame := mkFrame {
  f_data : list Z; f_byte_en : list Z; f_parity : list Z;
  f_first_be : Z; f_last_be : Z; f_discontinue : bool; f_seq_num : Z }.

(** tb/pcie_us.py:71-78: an empty frame. *)
Definition frame0 : us_frame := mkFrame [] [] [] 0 0 false 0.

(** tb/pcie_us.py:89-90 [update_parity]: the parity list of the data. *)
Definition parity_of (data : list Z) : list Z := map (fun d => Z.lxor (dword_parity d) 0xf) data.

(** tb/pcie_us.py:93, 263: equality of lists of integers. *)
Fixpoint zlist_eqb (a b : list Z) : bool :=
  match a, b with [], [] => true | x :: a, y :: b => (x =? y) && zlist_eqb a b | _, _ => false end.

(** tb/pcie_us.py:92-93 [check_parity]. *)
Definition check_parity (f : us_frame) : bool := zlist_eqb (f_parity f) (parity_of (f_data f)).

(** tb/pcie_us.py:120-138 [TLP_us]: a TLP with the additional attributes. *)
Record tlp_us := mkUs {
  u_tlp : tlp; u_bar_id : Z; u_bar_aperture : Z; u_completer_id_enable : bool; u_requester_id_enable : bool;
  u_discontinue : bool; u_seq_num : Z; u_error_code : Z }.
(** tb/pcie_us.py:121-129: default values. *)
Definition us0 : tlp_us := mkUs tlp0 0 0 false false false 0 0.

(** tb/pcie_us.py:95-106: what an object compared with [USPcieFrame.__eq__] can
    be: another frame, a [TLP_us] or something else. *)
Inductive us_object := OFrame (f : us_frame) | OTlp (u : tlp_us) | OOther.

(** tb/pcie_us.py:95-106 [USPcieFrame.__eq__]: only a [TLP_us] passes the
    isinstance test; it has no attribute [byte_en]. *)
Definition frame_eq (self : us_frame) (other : us_object) : result bool :=
  match other with
  | OTlp u => if zlist_eqb (f_data self) (t_data (u_tlp u)) then Err AttributeError else Ok false
  | _ => Ok false
  end.

(** tb/pcie.py:31-77 constant [TLP_FETCH_ADD]. *)
Definition TLP_FETCH_ADD := (2, 0x0C).
(** tb/pcie.py:31-77 constant [TLP_SWAP]. *)
Definition TLP_SWAP := (2, 0x0D).
(** tb/pcie.py:31-77 constant [TLP_CAS]. *)
Definition TLP_CAS := (2, 0x0E).

(** tb/pcie_us.py:143-145, 349-351: memory and I/O request types. *)
Definition ft_mem_io : list (Z * Z) := [TLP_IO_READ; TLP_IO_WRITE; TLP_MEM_READ; TLP_MEM_READ_64; TLP_MEM_WRITE; TLP_MEM_WRITE_64].
(** tb/pcie_us.py:357-358: configuration request types. *)
Definition ft_cfg_us : list (Z * Z) := [TLP_CFG_READ_0; TLP_CFG_READ_1; TLP_CFG_WRITE_0; TLP_CFG_WRITE_1].
(** tb/pcie_us.py:274-275, 487-488: completion types. *)
Definition ft_cpl_us : list (Z * Z) := [TLP_CPL; TLP_CPL_DATA; TLP_CPL_LOCKED; TLP_CPL_LOCKED_DATA].

(** tb/pcie_us.py:153-168 and 363-386 with 32-43: request type code.  The
    atomic and locked cases cannot be reached because of the guard at 143-145
    (343-347) and are left out. *)
Definition req_type_of (ft : Z * Z) : Z :=
  if ft_in ft [TLP_MEM_READ; TLP_MEM_READ_64] then 0
  else if ft_in ft [TLP_MEM_WRITE; TLP_MEM_WRITE_64] then 1
  else if ft_eqb ft TLP_IO_READ then 2
  else if ft_eqb ft TLP_IO_WRITE then 3
  else if ft_eqb ft TLP_CFG_READ_0 then 8
  else if ft_eqb ft TLP_CFG_READ_1 then 9
  else if ft_eqb ft TLP_CFG_WRITE_0 then 10
  else if ft_eqb ft TLP_CFG_WRITE_1 then 11
  else 0.

(** tb/pcie_us.py:188-195, 253-260 (lead 4) and 514, 526-531, 565, 577-582
    (lead 3): byte enables of a frame. *)
Definition be_list (lead first last n : Z) : list Z :=
  zeros lead ++ (if n >=? 1 then [first] else []) ++ (if n >? 2 then repeat 0xf (Z.to_nat (n - 2)) else []) ++
  (if n >? 1 then [last] else []).

(** tb/pcie_us.py:140-202 [pack_us_cq]. *)
Definition pack_us_cq (u : tlp_us) : result us_frame :=
  let t := u_tlp u in
  if ft_in (t_fmt_type t) ft_mem_io then
    let w0 := Z.lor (Z.land (t_at t) 0x3) (Z.land (t_address t) 0xfffffffc) in
    let w1 := Z.shiftr (Z.land (t_address t) 0xffffffff00000000) 32 in
    let w2 := Z.lor (Z.lor (Z.land (t_length t) 0x7ff) (Z.shiftl (req_type_of (t_fmt_type t)) 11))
                    (Z.shiftl (id_to_int (t_requester_id t)) 16) in
    let w3 := Z.lor (Z.lor (Z.lor (Z.lor (Z.lor (Z.land (t_tag t) 0xff) (Z.shiftl (Z.land (id_function (t_completer_id t)) 0xff) 8))
                (Z.shiftl (Z.land (u_bar_id u) 0x7) 16)) (Z.shiftl (Z.land (u_bar_aperture u) 0x3f) 19))
                (Z.shiftl (Z.land (t_tc t) 0x7) 25)) (Z.shiftl (Z.land (t_attr t) 0x7) 28) in
    let data := [w0; w1; w2; w3] ++ t_data t in
    Ok (mkFrame data (be_list 4 (t_first_be t) (t_last_be t) (zlen (t_data t))) (parity_of data)
                (t_first_be t) (t_last_be t) (u_discontinue u) 0)
  else Err (PyException 200).

(** tb/pcie_us.py:207-224: type of the unpacked request. *)
Definition ft_of_req (req : Z) : option (Z * Z) :=
  if req =? 0 then Some TLP_MEM_READ else if req =? 1 then Some TLP_MEM_WRITE
  else if req =? 2 then Some TLP_IO_READ else if req =? 3 then Some TLP_IO_WRITE
  else if req =? 4 then Some TLP_FETCH_ADD else if req =? 5 then Some TLP_SWAP
  else if req =? 6 then Some TLP_CAS else if req =? 7 then Some TLP_MEM_READ_LOCKED
  else None.

(** tb/pcie_us.py:236-240, 457-461: 64-bit addresses get a four DWORD format. *)
Definition fix_fmt (t : tlp) : tlp :=
  if t_address t >? 0xffffffff then
    if t_fmt t =? FMT_3DW then set_fmt FMT_4DW t
    else if t_fmt t =? FMT_3DW_DATA then set_fmt FMT_4DW_DATA t else t
  else t.

(** tb/pcie_us.py:204-269 [unpack_us_cq] into [self].  A request type below 8
    always satisfies the test at line 232. *)
Definition unpack_us_cq (self : tlp_us) (f : us_frame) (check : bool) : result tlp_us :=
  let! w2 := py_index (f_data f) 2 in
  let req := Z.land (Z.shiftr w2 11) 0xf in
  match ft_of_req req with
  | None => Err (PyException 224)
  | Some ft =>
    let t := set_fmt_type ft (u_tlp self) in
    let! w3 := py_index (f_data f) 3 in
    let! w0 := py_index (f_data f) 0 in
    let! w1 := py_index (f_data f) 1 in
    let t := set_length (Z.land w2 0x7ff) t in
    let t := set_requester_id (id_from_int (Z.shiftr w2 16)) t in
    let t := set_tag (Z.land w3 0xff) t in
    let t := set_tc (Z.land (Z.shiftr w3 25) 0x7) t in
    let t := set_attr (Z.land (Z.shiftr w3 28) 0x7) t in
    let t := set_at (Z.land w0 3) t in
    let t := fix_fmt (set_address (Z.lor (Z.shiftl w1 32) (Z.land w0 0xfffffffc)) t) in
    let t := set_completer_id (mkId 0 0 (Z.land (Z.shiftr w3 8) 0xff)) t in
    let t := set_first_be (f_first_be f) t in
    let t := set_last_be (f_last_be f) t in
    let t := set_data (skipn 4 (f_data f)) t in
    if negb (zlist_eqb (be_list 4 (t_first_be t) (t_last_be t) (zlen (t_data t))) (f_byte_en f)) then Err AssertionError
    else if check && negb (check_parity f) then Err AssertionError
    else Ok (mkUs t (Z.land (Z.shiftr w3 16) 7) (Z.land (Z.shiftr w3 19) 0x3f) (u_completer_id_enable self)
                  (u_requester_id_enable self) (f_discontinue f) (u_seq_num self) (u_error_code self))
  end.

(** tb/pcie_us.py:280-282, 493-494: the locked completion bit. *)
Definition locked_bit (t : tlp) : Z := if ft_in (t_fmt_type t) [TLP_CPL_LOCKED; TLP_CPL_LOCKED_DATA] then Z.shiftl 1 29 else 0.

(** tb/pcie_us.py:271-307 [pack_us_cc]. *)
Definition pack_us_cc (u : tlp_us) : result us_frame :=
  let t := u_tlp u in
  if ft_in (t_fmt_type t) ft_cpl_us then
    let w0 := Z.lor (Z.lor (Z.lor (Z.land (t_lower_address t) 0x7f) (Z.shiftl (Z.land (t_at t) 3) 8))
                (Z.shiftl (Z.land (t_byte_count t) 0x1fff) 16)) (locked_bit t) in
    let w1 := Z.lor (Z.lor (Z.land (t_length t) 0x7ff) (Z.shiftl (Z.land (t_status t) 0x7) 11))
                (Z.shiftl (id_to_int (t_requester_id t)) 16) in
    let w2 := Z.lor (Z.lor (Z.lor (Z.lor (Z.land (t_tag t) 0xff) (Z.shiftl (id_to_int (t_completer_id t)) 8))
                (if u_completer_id_enable u then Z.shiftl 1 24 else 0))
                (Z.shiftl (Z.land (t_tc t) 0x7) 25)) (Z.shiftl (Z.land (t_attr t) 0x7) 28) in
    let data := [w0; w1; w2] ++ t_data t in
    Ok (mkFrame data [] (parity_of data) 0 0 (u_discontinue u) 0)
  else Err (PyException 305).

(** tb/pcie_us.py:309-338 [unpack_us_cc] into [self]. *)
Definition unpack_us_cc (self : tlp_us) (f : us_frame) (check : bool) : result tlp_us :=
  let t := set_fmt_type TLP_CPL (u_tlp self) in
  let! w0 := py_index (f_data f) 0 in
  let t := set_lower_address (Z.land w0 0x7f) t in
  let t := set_at (Z.land (Z.shiftr w0 8) 3) t in
  let t := set_byte_count (Z.land (Z.shiftr w0 16) 0x1fff) t in
  let t := if negb (Z.land w0 (Z.shiftl 1 29) =? 0) then set_fmt_type TLP_CPL_LOCKED t else t in
  let! w1 := py_index (f_data f) 1 in
  let t := set_length (Z.land w1 0x7ff) t in
  let t := if t_length t >? 0 then set_fmt FMT_3DW_DATA t else t in
  let t := set_status (Z.land (Z.shiftr w1 11) 7) t in
  let t := set_requester_id (id_from_int (Z.shiftr w1 16)) t in
  let! w2 := py_index (f_data f) 2 in
  let t := set_completer_id (id_from_int (Z.shiftr w2 8)) t in
  let cie := negb (Z.land (Z.shiftr w2 24) 1 =? 0) in
  let t := set_tag (Z.land w2 0xff) t in
  let t := set_tc (Z.land (Z.shiftr w2 25) 0x7) t in
  let t := set_attr (Z.land (Z.shiftr w2 28) 0x7) t in
  let t := if t_length t >? 0 then set_data (slice (f_data f) 3 (3 + t_length t)) t else t in
  if check && negb (check_parity f) then Err AssertionError
  else Ok (mkUs t (u_bar_id self) (u_bar_aperture self) cie (u_requester_id_enable self) (f_discontinue f)
                (u_seq_num self) (u_error_code self)).

(** tb/pcie_us.py:340-413 [pack_us_rq]. *)
Definition pack_us_rq (u : tlp_us) : result us_frame :=
  let t := u_tlp u in
  if ft_in (t_fmt_type t) (ft_mem_io ++ ft_cfg_us) then
    let '(w0, w1) :=
      if ft_in (t_fmt_type t) ft_mem_io then
        (Z.lor (Z.land (t_at t) 0x3) (Z.land (t_address t) 0xfffffffc), Z.shiftr (Z.land (t_address t) 0xffffffff00000000) 32)
      else (Z.shiftl (Z.land (t_register_number t) 0x3ff) 2, 0) in
    let w2 := Z.lor (Z.lor (Z.land (t_length t) 0x7ff) (Z.shiftl (req_type_of (t_fmt_type t)) 11))
                    (Z.shiftl (id_to_int (t_requester_id t)) 16) in
    let w3 := Z.lor (Z.lor (Z.lor (Z.lor (Z.land (t_tag t) 0xff) (Z.shiftl (id_to_int (t_completer_id t)) 8))
                (if u_requester_id_enable u then Z.shiftl 1 24 else 0))
                (Z.shiftl (Z.land (t_tc t) 0x7) 25)) (Z.shiftl (Z.land (t_attr t) 0x7) 28) in
    let data := [w0; w1; w2; w3] ++ t_data t in
    Ok (mkFrame data [] (parity_of data) (t_first_be t) (t_last_be t) (u_discontinue u) (u_seq_num u))
  else Err (PyException 411).

(** tb/pcie_us.py:418-443: type of the unpacked request. *)
Definition ft_of_req_rq (req : Z) : option (Z * Z) :=
  if req <? 8 then ft_of_req req
  else if req =? 8 then Some TLP_CFG_READ_0 else if req =? 9 then Some TLP_CFG_READ_1
  else if req =? 10 then Some TLP_CFG_WRITE_0 else if req =? 11 then Some TLP_CFG_WRITE_1
  else None.

(** tb/pcie_us.py:415-482 [unpack_us_rq] into [self].  A request type that
    passed 418-443 is below 12, so the [raise] at 480 is unreachable. *)
Definition unpack_us_rq (self : tlp_us) (f : us_frame) (check : bool) : result tlp_us :=
  let! w2 := py_index (f_data f) 2 in
  let req := Z.land (Z.shiftr w2 11) 0xf in
  match ft_of_req_rq req with
  | None => Err (PyException 443)
  | Some ft =>
    let t := set_fmt_type ft (u_tlp self) in
    let! w3 := py_index (f_data f) 3 in
    let! w0 := py_index (f_data f) 0 in
    let! w1 := py_index (f_data f) 1 in
    let t := set_length (Z.land w2 0x7ff) t in
    let t := set_requester_id (id_from_int (Z.shiftr w2 16)) t in
    let t := set_tag (Z.land w3 0xff) t in
    let t := set_tc (Z.land (Z.shiftr w3 25) 0x7) t in
    let t := set_attr (Z.land (Z.shiftr w3 28) 0x7) t in
    let t := if req <? 8 then
               fix_fmt (set_address (Z.lor (Z.shiftl w1 32) (Z.land w0 0xfffffffc)) (set_at (Z.land w0 3) t))
             else set_register_number (Z.land (Z.shiftr w0 2) 0x3ff) t in
    let t := set_completer_id (id_from_int (Z.shiftr w3 8)) t in
    let rie := negb (Z.land (Z.shiftr w3 24) 1 =? 0) in
    let t := set_first_be (f_first_be f) t in
    let t := set_last_be (f_last_be f) t in
    let t := set_data (skipn 4 (f_data f)) t in
    if check && negb (check_parity f) then Err AssertionError
    else Ok (mkUs t (u_bar_id self) (u_bar_aperture self) (u_completer_id_enable self) rie
                  (f_discontinue f) (f_seq_num f) (u_error_code self))
  end.

(** tb/pcie_us.py:513-531, 564-582: byte enables of a requester completion. *)
Definition rc_byte_en (lower_address byte_count length n : Z) : list Z :=
  let first_be := Z.land (Z.shiftl 0xf (Z.land lower_address 3)) 0xf in
  let last_be := if byte_count + Z.land lower_address 3 >? length * 4 then 0xf
                 else Z.shiftr 0xf (Z.land (4 - byte_count - lower_address) 3) in
  let '(first_be, last_be) := if n =? 1 then (Z.land first_be last_be, 0) else (first_be, last_be) in
  be_list 3 first_be last_be n.

(** tb/pcie_us.py:484-538 [pack_us_rc]. *)
Definition pack_us_rc (u : tlp_us) : result us_frame :=
  let t := u_tlp u in
  if ft_in (t_fmt_type t) ft_cpl_us then
    let w0 := Z.lor (Z.lor (Z.lor (Z.land (t_lower_address t) 0xfff) (Z.shiftl (Z.land (u_error_code u) 0xf) 12))
                (Z.shiftl (Z.land (t_byte_count t) 0x1fff) 16)) (locked_bit t) in
    let w1 := Z.lor (Z.lor (Z.land (t_length t) 0x7ff) (Z.shiftl (Z.land (t_status t) 0x7) 11))
                (Z.shiftl (id_to_int (t_requester_id t)) 16) in
    let w2 := Z.lor (Z.lor (Z.lor (Z.land (t_tag t) 0xff) (Z.shiftl (id_to_int (t_completer_id t)) 8))
                (Z.shiftl (Z.land (t_tc t) 0x7) 25)) (Z.shiftl (Z.land (t_attr t) 0x7) 28) in
    let data := [w0; w1; w2] ++ t_data t in
    Ok (mkFrame data (rc_byte_en (t_lower_address t) (t_byte_count t) (t_length t) (zlen (t_data t)))
                (parity_of data) 0 0 (u_discontinue u) 0)
  else Err (PyException 536).

(** tb/pcie_us.py:540-591 [unpack_us_rc] into [self]. *)
Definition unpack_us_rc (self : tlp_us) (f : us_frame) (check : bool) : result tlp_us :=
  let t := set_fmt_type TLP_CPL (u_tlp self) in
  let! w0 := py_index (f_data f) 0 in
  let t := set_lower_address (Z.land w0 0xfff) t in
  let err := Z.land (Z.shiftr w0 12) 0xf in
  let t := set_byte_count (Z.land (Z.shiftr w0 16) 0x1fff) t in
  let t := if negb (Z.land w0 (Z.shiftl 1 29) =? 0) then set_fmt_type TLP_CPL_LOCKED t else t in
  let! w1 := py_index (f_data f) 1 in
  let t := set_length (Z.land w1 0x7ff) t in
  let t := if t_length t >? 0 then set_fmt FMT_3DW_DATA t else t in
  let t := set_status (Z.land (Z.shiftr w1 11) 7) t in
  let t := set_requester_id (id_from_int (Z.shiftr w1 16)) t in
  let! w2 := py_index (f_data f) 2 in
  let t := set_completer_id (id_from_int (Z.shiftr w2 8)) t in
  let t := set_tag (Z.land w2 0xff) t in
  let t := set_tc (Z.land (Z.shiftr w2 25) 0x7) t in
  let t := set_attr (Z.land (Z.shiftr w2 28) 0x7) t in
  let t := if t_length t >? 0 then set_data (slice (f_data f) 3 (3 + t_length t)) t else t in
  if negb (zlist_eqb (rc_byte_en (t_lower_address t) (t_byte_count t) (t_length t) (zlen (t_data t))) (f_byte_en f))
  then Err AssertionError
  else if check && negb (check_parity f) then Err AssertionError
  else Ok (mkUs t (u_bar_id self) (u_bar_aperture self) (u_completer_id_enable self) (u_requester_id_enable self)
                (f_discontinue f) (u_seq_num self) err).
