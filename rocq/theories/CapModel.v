(** Model of the capability lists (PcieCap, PcieExtCap, PcieCapList,
    PcieExtCapList in /repo/tb/pcie.py) and of the configuration registers that
    reach them. *)
From Verif Require Import PyBase TlpModel.

(** tb/pcie.py:201-209 [PcieCap].  [read] is the callback's value per register;
    it is a function of the register only (the callbacks' own state is modelled
    in CfgModel).  [write] is omitted: no list operation calls it. *)
Record cap := mkCap {
  c_id : Z; c_ver : Z; c_length : Z; c_read : Z -> Z; c_offset : option Z; c_next : option Z }.

(** tb/pcie.py:232-236: the offset of a capability that is in a list (always an
    integer there). *)
Definition c_off (c : cap) : Z := match c_offset c with Some o => o | None => 0 end.

(** tb/pcie.py:207, 299, 303: assignment of [offset]. *)
Definition set_offset (o : option Z) (c : cap) : cap :=
  mkCap (c_id c) (c_ver c) (c_length c) (c_read c) o (c_next c).
(** tb/pcie.py:313-314: assignment of [next_cap]. *)
Definition set_next (n : option Z) (c : cap) : cap :=
  mkCap (c_id c) (c_ver c) (c_length c) (c_read c) (c_offset c) n.

(** tb/pcie.py:211-215 [PcieCap.read_register]; [None & 0xff] raises. *)
Definition cap_read_register (c : cap) (reg : Z) : result Z :=
  let val := c_read c reg in
  if reg =? 0 then
    match c_next c with
    | None => Err TypeError
    | Some n => Ok (Z.lor (Z.lor (Z.land val 0xffff0000) (Z.shiftl (Z.land n 0xff) 8)) (Z.land (c_id c) 0xff))
    end
  else Ok val.

(** tb/pcie.py:225-228 [PcieExtCap.read_register]. *)
Definition extcap_read_register (c : cap) (reg : Z) : result Z :=
  if reg =? 0 then
    match c_next c with
    | None => Err TypeError
    | Some n => Ok (Z.lor (Z.lor (Z.shiftl (Z.land n 0xfff) 20) (Z.shiftl (Z.land (c_ver c) 0xf) 16)) (Z.land (c_id c) 0xffff))
    end
  else Ok (c_read c reg).

(** tb/pcie.py:238-242 [find_by_id]. *)
Fixpoint find_by_id (l : list cap) (id : Z) : option cap :=
  match l with
  | [] => None
  | c :: l => if c_id c =? id then Some c else find_by_id l id
  end.

(** tb/pcie.py:244-248 [find_by_reg]. *)
Fixpoint find_by_reg (l : list cap) (reg : Z) : option cap :=
  match l with
  | [] => None
  | c :: l => if (c_off c <=? reg) && (reg <? c_off c + c_length c) then Some c else find_by_reg l reg
  end.

(** tb/pcie.py:250-254 [read_register] of the list. *)
Definition list_read_register (rd : cap -> Z -> result Z) (l : list cap) (reg : Z) : result Z :=
  match find_by_reg l reg with
  | Some c => rd c (reg - c_off c)
  | None => Ok 0
  end.

(** tb/pcie.py:270 [self.list.remove(new_cap)] of the capability found by id:
    its first occurrence. *)
Fixpoint remove_id (l : list cap) (id : Z) : list cap :=
  match l with
  | [] => []
  | c :: l => if c_id c =? id then l else c :: remove_id l id
  end.

(** tb/pcie.py:296: the overlap test of an explicitly placed capability. *)
Definition bump_test (n c : cap) : bool :=
  (c_off c <=? c_off n + c_length n - 1) && (c_off n <=? c_off c + c_length c - 1).

(** tb/pcie.py:302-305: the placement scan of a capability without offset. *)
Fixpoint auto_scan (off len : Z) (l : list cap) : Z :=
  match l with
  | [] => off
  | c :: l =>
    if (c_off c <? off + len - 1) && (off <=? c_off c + c_length c - 1)
    then auto_scan (c_off c + c_length c) len l else auto_scan off len l
  end.

(** tb/pcie.py:307-310: append followed by the stable sort by offset, on a list
    that is already sorted. *)
Fixpoint insert_cap (n : cap) (l : list cap) : list cap :=
  match l with
  | [] => [n]
  | c :: l' => if c_off c <=? c_off n then c :: insert_cap n l' else n :: l
  end.

(** tb/pcie.py:312-315: the next pointers; a list of one is left alone. *)
Fixpoint link_from (l : list cap) : list cap :=
  match l with
  | [] => []
  | c :: l' => set_next (Some (match l' with [] => 0 | d :: _ => c_off d * 4 end)) c :: link_from l'
  end.
(** tb/pcie.py:312-315. *)
Definition link_caps (l : list cap) : list cap :=
  match l with [] | [_] => l | _ => link_from l end.

(** tb/pcie.py:285-286, 300-320: [register] of a capability object without an
    offset (a new one, or a bumped one). *)
Definition place_auto (start : Z) (n : cap) (l : list cap) : result (list cap) :=
  if c_length n =? 0 then Err (PyException 286) else
  let n := set_offset (Some (auto_scan start (c_length n) l)) n in
  Ok (link_caps (insert_cap n l)).

(** tb/pcie.py:318-320: re-insertion of the bumped capabilities. *)
Fixpoint reinsert (start : Z) (bumped : list cap) (l : list cap) : result (list cap) :=
  match bumped with
  | [] => Ok l
  | c :: b => let! l := place_auto start (set_offset None c) l in reinsert start b l
  end.

(** tb/pcie.py:285-320: [register] of a capability object.  A zero offset
    counts as no offset. *)
Definition place (start : Z) (n : cap) (l : list cap) : result (list cap) :=
  if c_length n =? 0 then Err (PyException 286) else
  match c_offset n with
  | None => place_auto start n l
  | Some o =>
    if o =? 0 then place_auto start n l else
    let bumped := filter (bump_test n) l in
    let l := filter (fun c => negb (bump_test n c)) l in
    reinsert start bumped (link_caps (insert_cap n l))
  end.

(** tb/pcie.py:261-320 [PcieCapList.register(cap_id, cap_ver, length, read,
    write, offset)] with [read]/[write] given.  [length], [offset] and [read]
    are None when absent; a zero length or offset is the same as absent when
    re-registering (lines 275-282). *)
Definition register (start : Z) (l : list cap) (id ver : Z) (length : option Z) (rd : Z -> Z) (offset : option Z) : result (list cap) :=
  match find_by_id l id with
  | Some old =>
    let len := match length with Some n => if n =? 0 then c_length old else n | None => c_length old end in
    let off := match offset with Some o => if o =? 0 then c_offset old else Some o | None => c_offset old end in
    place start (mkCap (c_id old) ver len rd off (c_next old)) (remove_id l id)
  | None =>
    place start (mkCap id ver (match length with Some n => n | None => 0 end) rd offset None) l
  end.

(** tb/pcie.py:231-236 [PcieCapList.start]. *)
Definition CAP_START : Z := 0x10.
(** tb/pcie.py:323-328 [PcieExtCapList.start]. *)
Definition EXT_CAP_START : Z := 0x40.


(** tb/pcie.py:1694-1699, 1707-1708: arguments of [register_capability] and
    [register_extended_capability]. *)
Record regop := mkRegop { ro_id : Z; ro_ver : Z; ro_length : option Z; ro_read : Z -> Z; ro_offset : option Z }.

(** tb/pcie.py:1694-1708: a sequence of registrations. *)
Fixpoint register_all (start : Z) (l : list cap) (ops : list regop) : result (list cap) :=
  match ops with
  | [] => Ok l
  | o :: ops => let! l := register start l (ro_id o) (ro_ver o) (ro_length o) (ro_read o) (ro_offset o) in
                register_all start l ops
  end.

(** tb/pcie.py:1695-1699: [cap_ptr] after a registration. *)
Definition cap_ptr (l : list cap) : Z := match l with [] => 0 | c :: _ => c_off c * 4 end.

(** tb/pcie.py:1638-1665 [read_config_register] as far as the capability
    pointer (13) and the capability register ranges go; the header registers
    are modelled in CfgModel. *)
Definition read_config_cap (caps ext : list cap) (reg : Z) : result Z :=
  if reg =? 13 then Ok (cap_ptr caps)
  else if (16 <=? reg) && (reg <? 256) then list_read_register cap_read_register caps reg
  else if (256 <=? reg) && (reg <? 4096) then list_read_register extcap_read_register ext reg
  else Ok 0.
