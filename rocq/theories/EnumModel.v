(** Model of bus enumeration (RootComplex.enumerate_segment), of the bridge
    configuration registers it programs
    (Bridge in /repo/tb/pcie.py). *)
From Verif Require Import PyBase TlpModel BarModel.

(** tb/pcie.py:2496-2508: the bus number and window registers of a [Bridge]. *)
Record bridge_regs := mkBr {
  br_pri : Z; br_sec : Z; br_sub : Z; br_sec_lat : Z;
  br_io_base : Z; br_io_limit : Z; br_sec_status : Z;
  br_mem_base : Z; br_mem_limit : Z; br_pf_base : Z; br_pf_limit : Z }.

(** tb/pcie.py:2496-2508: values after construction. *)
Definition bridge0 : bridge_regs := mkBr 0 0 0 0 0x0000 0x0fff 0 0 0x000fffff 0 0x000fffff.

(** tb/pcie.py:2584-2604 [Bridge.write_config_register], registers 6 to 12.
    Other registers (BARs, interrupt line, ...) are not part of this record and
    leave it unchanged.  [byte_mask_update] without a bit mask uses -1. *)
Definition bridge_write (r : bridge_regs) (reg data mask : Z) : result bridge_regs :=
  if reg =? 6 then
    let! pri := byte_mask_update (br_pri r) (Z.land mask 0x1) data (-1) in
    let! sec := byte_mask_update (br_sec r) (Z.land (Z.shiftr mask 1) 1) (Z.shiftr data 8) (-1) in
    let! sub := byte_mask_update (br_sub r) (Z.land (Z.shiftr mask 2) 1) (Z.shiftr data 16) (-1) in
    let! lat := byte_mask_update (br_sec_lat r) (Z.land (Z.shiftr mask 3) 1) (Z.shiftr data 24) (-1) in
    Ok (mkBr pri sec sub lat (br_io_base r) (br_io_limit r) (br_sec_status r)
             (br_mem_base r) (br_mem_limit r) (br_pf_base r) (br_pf_limit r))
  else if reg =? 7 then
    let! iob := byte_mask_update (br_io_base r) (Z.shiftl (Z.land mask 0x1) 1) (Z.shiftl data 8) 0xf000 in
    let! iol := byte_mask_update (br_io_limit r) (Z.land mask 0x2) data 0xf000 in
    let! sst := byte_mask_update (br_sec_status r) (Z.land (Z.shiftr mask 2) 1) 0x0000
                  (Z.land (Z.shiftr data 16) 0xf900) in
    Ok (mkBr (br_pri r) (br_sec r) (br_sub r) (br_sec_lat r) iob (Z.lor iol 0xfff) sst
             (br_mem_base r) (br_mem_limit r) (br_pf_base r) (br_pf_limit r))
  else if reg =? 8 then
    let! mb := byte_mask_update (br_mem_base r) (Z.shiftl (Z.land mask 0x3) 2) (Z.shiftl data 16) 0xfff00000 in
    let! ml := byte_mask_update (br_mem_limit r) (Z.land mask 0xc) data 0xfff00000 in
    Ok (mkBr (br_pri r) (br_sec r) (br_sub r) (br_sec_lat r) (br_io_base r) (br_io_limit r) (br_sec_status r)
             mb (Z.lor ml 0xfffff) (br_pf_base r) (br_pf_limit r))
  else if reg =? 9 then
    let! pb := byte_mask_update (br_pf_base r) (Z.shiftl (Z.land mask 0x3) 2) (Z.shiftl data 16) 0xfff00000 in
    let! pl := byte_mask_update (br_pf_limit r) (Z.land mask 0xc) data 0xfff00000 in
    Ok (mkBr (br_pri r) (br_sec r) (br_sub r) (br_sec_lat r) (br_io_base r) (br_io_limit r) (br_sec_status r)
             (br_mem_base r) (br_mem_limit r) pb (Z.lor pl 0xfffff))
  else if reg =? 10 then
    let! pb := byte_mask_update (br_pf_base r) (Z.shiftl mask 4) (Z.shiftl data 32) (-1) in
    Ok (mkBr (br_pri r) (br_sec r) (br_sub r) (br_sec_lat r) (br_io_base r) (br_io_limit r) (br_sec_status r)
             (br_mem_base r) (br_mem_limit r) pb (br_pf_limit r))
  else if reg =? 11 then
    let! pl := byte_mask_update (br_pf_limit r) (Z.shiftl mask 4) (Z.shiftl data 32) (-1) in
    Ok (mkBr (br_pri r) (br_sec r) (br_sub r) (br_sec_lat r) (br_io_base r) (br_io_limit r) (br_sec_status r)
             (br_mem_base r) (br_mem_limit r) (br_pf_base r) pl)
  else if reg =? 12 then
    let! iob := byte_mask_update (br_io_base r) (Z.shiftl (Z.land mask 0x3) 2) (Z.shiftl data 16) (-1) in
    let! iol := byte_mask_update (br_io_limit r) (Z.land mask 0xc) data (-1) in
    Ok (mkBr (br_pri r) (br_sec r) (br_sub r) (br_sec_lat r) iob iol (br_sec_status r)
             (br_mem_base r) (br_mem_limit r) (br_pf_base r) (br_pf_limit r))
  else Ok r.

(** tb/pcie.py:2560-2567 [Bridge.read_config_register], registers 6 to 12. *)
Definition bridge_read (r : bridge_regs) (reg : Z) : Z :=
  if reg =? 6 then Z.lor (Z.lor (Z.lor (Z.shiftl (br_sec_lat r) 24) (Z.shiftl (br_sub r) 16)) (Z.shiftl (br_sec r) 8)) (br_pri r)
  else if reg =? 7 then Z.lor (Z.lor (Z.shiftl (br_sec_status r) 16) (Z.land (br_io_limit r) 0xf000))
                              (Z.shiftr (Z.land (br_io_base r) 0xf000) 8)
  else if reg =? 8 then Z.lor (Z.land (br_mem_limit r) 0xfff00000) (Z.shiftr (Z.land (br_mem_base r) 0xfff00000) 16)
  else if reg =? 9 then Z.lor (Z.land (br_pf_limit r) 0xfff00000) (Z.shiftr (Z.land (br_pf_base r) 0xfff00000) 16)
  else if reg =? 10 then Z.shiftr (br_pf_base r) 32
  else if reg =? 11 then Z.shiftr (br_pf_limit r) 32
  else if reg =? 12 then Z.lor (Z.land (br_io_limit r) 0xffff0000) (Z.shiftr (Z.land (br_io_base r) 0xffff0000) 16)
  else 0.

(** tb/pcie.py:3712-3734, body of the [while n < len(data)] loop of
    [RootComplex.config_write]: the (register number, first DWORD, first byte
    enables) of every TLP sent.  [fuel] bounds the iterations.  Simplification:
    tags and the wait for the completion are left out. *)
Fixpoint config_write_ops (fuel : nat) (addr : Z) (data : list Z) : result (list (Z * Z * Z)) :=
  match data with
  | [] => Ok []
  | _ =>
    match fuel with
    | O => Err OutOfFuel
    | S fuel =>
      let first_pad := addr mod 4 in
      let byte_length := Z.min (zlen data) (4 - first_pad) in
      let! t := set_be_data addr (slice data 0 byte_length) tlp0 in
      let! dw := py_index (t_data t) 0 in
      let! r := config_write_ops fuel (addr + byte_length) (skipn (Z.to_nat byte_length) data) in
      Ok ((Z.shiftr addr 2, dw, t_first_be t) :: r)
    end
  end.

(** tb/pcie.py:1845-1847 with 2182-2195 (endpoint) or 2579-2604 (bridge): the
    effect of the delivered configuration writes on the BAR registers and the
    bridge registers of the target function.  [bridge] tells the two classes
    apart.  Simplification: every write reaches its target function (delivery
    is the subject of C23), registers other than the BARs and the bridge
    registers are not represented. *)
Fixpoint apply_writes (bridge : bool) (b : bars) (r : bridge_regs) (ops : list (Z * Z * Z)) : result (bars * bridge_regs) :=
  match ops with
  | [] => Ok (b, r)
  | ((reg, data), be) :: ops =>
    if (4 <=? reg) && (reg <? (if bridge then 6 else 10)) then
      let! b := write_bar b (reg - 4) data be in apply_writes bridge b r ops
    else if bridge then let! r := bridge_write r reg data be in apply_writes bridge b r ops
    else apply_writes bridge b r ops
  end.

(** tb/pcie.py:3712-3734 [config_write] to a function. *)
Definition config_write (bridge : bool) (br : bars * bridge_regs) (addr : Z) (data : list Z) : result (bars * bridge_regs) :=
  let! ops := config_write_ops (length data) addr data in
  apply_writes bridge (fst br) (snd br) ops.

(** tb/pcie.py:3736-3745, 3756-3757 [config_write_dword]: [w.to_bytes(4, 'little')]
    raises OverflowError when the value does not fit. *)
Definition config_write_dword (bridge : bool) (br : bars * bridge_regs) (addr w : Z) : result (bars * bridge_regs) :=
  if (0 <=? w) && (w <? 2^32) then config_write bridge br addr (le_bytes 4 w) else Err OverflowError.

(** tb/pcie.py:3245-3250: the three allocation cursors of the root complex. *)
Record limits := mkLim { l_io : Z; l_mem : Z; l_pf : Z }.

(** tb/pcie.py:4218-4220 and 4463-4465: alignment to the bridge register granularity. *)
Definition align_limits (s : limits) : limits :=
  mkLim (align (l_io s) 0xfff) (align (l_mem s) 0xfffff) (align (l_pf s) 0xfffff).

(** tb/pcie.py:4281-4391 the [while bar < bar_cnt] loop: sizing, allocation and
    programming of the BARs of one function.  Returns the final BAR registers,
    the entries [ti.bar]/[ti.bar_size] as (index, value, size), and the
    cursors.  [fuel] bounds the iterations. *)
Fixpoint bar_loop (fuel : nat) (bridge : bool) (bar bar_cnt : Z) (br : bars * bridge_regs) (s : limits)
  : result ((bars * bridge_regs) * list (Z * Z * Z) * limits) :=
  if bar <? bar_cnt then
    match fuel with
    | O => Err OutOfFuel
    | S fuel =>
      let! br := config_write_dword bridge br (0x010 + bar * 4) 0xffffffff in
      let val := read_bar (fst br) bar in
      if val =? 0 then bar_loop fuel bridge (bar + 1) bar_cnt br s
      else if negb (Z.land val 1 =? 0) then
        let mask := Z.lor (Z.land (Z.lnot val) 0xffffffff) 3 in
        let size := mask + 1 in
        let io := align (l_io s) mask in
        let val := Z.lor (Z.land val 3) io in
        let s := mkLim (io + size) (l_mem s) (l_pf s) in
        let! br := config_write_dword bridge br (0x010 + bar * 4) val in
        let! (br, ti, s) := bar_loop fuel bridge (bar + 1) bar_cnt br s in
        Ok (br, (bar, val, size) :: ti, s)
      else if negb (Z.land val 4 =? 0) then
        if bar >=? bar_cnt - 1 then Err (PyException 4331) else
        let! br := config_write_dword bridge br (0x010 + (bar + 1) * 4) 0xffffffff in
        let val2 := read_bar (fst br) (bar + 1) in
        let val := Z.lor val (Z.shiftl val2 32) in
        let mask := Z.lor (Z.land (Z.lnot val) 0xffffffffffffffff) 15 in
        let size := mask + 1 in
        let '(val, s) :=
          if negb (Z.land val 8 =? 0) then
            let pf := align (l_pf s) mask in
            (Z.lor (Z.land val 15) pf, mkLim (l_io s) (l_mem s) (pf + size))
          else
            let m := align (l_mem s) mask in
            (Z.lor (Z.land val 15) m, mkLim (l_io s) (m + size) (l_pf s)) in
        let! br := config_write_dword bridge br (0x010 + bar * 4) (Z.land val 0xffffffff) in
        let! br := config_write_dword bridge br (0x010 + (bar + 1) * 4) (Z.land (Z.shiftr val 32) 0xffffffff) in
        let! (br, ti, s) := bar_loop fuel bridge (bar + 2) bar_cnt br s in
        Ok (br, (bar, val, size) :: ti, s)
      else
        let mask := Z.lor (Z.land (Z.lnot val) 0xffffffff) 15 in
        let size := mask + 1 in
        let m := align (l_mem s) mask in
        let val := Z.lor (Z.land val 15) m in
        let s := mkLim (l_io s) (m + size) (l_pf s) in
        let! br := config_write_dword bridge br (0x010 + bar * 4) val in
        let! (br, ti, s) := bar_loop fuel bridge (bar + 1) bar_cnt br s in
        Ok (br, (bar, val, size) :: ti, s)
    end
  else Ok (br, [], s).

(** The hardware below a bus segment: every function present with its device
    and function number, header type byte (tb/pcie.py:1568, 2491: bit 0..6 = 1
    for a bridge, bit 7 = multi-function device), BAR registers, bridge
    registers and, for a bridge, the functions on its secondary bus
    (tb/pcie.py:2922-3114). *)
Inductive pfunc := PFunc (dev fn hdr : Z) (b : bars) (r : bridge_regs) (sub : list pfunc).

(** tb/pcie.py:1572-1574, 3184-3186: device, function number and header type. *)
Definition p_dev (p : pfunc) : Z := match p with PFunc d _ _ _ _ _ => d end.
(** tb/pcie.py:1572-1574: function number. *)
Definition p_fn (p : pfunc) : Z := match p with PFunc _ f _ _ _ _ => f end.
(** tb/pcie.py:1568: header type byte. *)
Definition p_hdr (p : pfunc) : Z := match p with PFunc _ _ h _ _ _ => h end.

(** tb/pcie.py:2807-2811, 2978-2992: the function that answers a type 0
    configuration request; [None] stands for the all-ones answer. *)
Definition find_func (seg : list pfunc) (d f : Z) : option pfunc :=
  find (fun p => (p_dev p =? d) && (p_fn p =? f)) seg.

(** tb/pcie.py:4258-4263: [for f in range(fc)], the functions that answer. *)
Definition scan_dev (seg : list pfunc) (d fc : Z) : list pfunc :=
  flat_map (fun f => match find_func seg d (Z.of_nat f) with Some p => [p] | None => [] end) (seq 0 (Z.to_nat fc)).

(** tb/pcie.py:4232-4256: [for d in range(32)], skipping device 0 on bus 0 and
    devices whose function 0 does not answer. *)
Definition scan (seg : list pfunc) (bus : Z) : list pfunc :=
  flat_map (fun d =>
    let d := Z.of_nat d in
    if (bus =? 0) && (d =? 0) then [] else
    match find_func seg d 0 with
    | None => []
    | Some p => scan_dev seg d (if negb (Z.land (p_hdr p) 0x80 =? 0) then 8 else 1)
    end) (seq 0 32).

(** tb/pcie.py:3131-3148: bus numbers and windows of a [TreeItem]. *)
Record node := mkNode {
  n_sec : Z; n_sub : Z; n_io_base : Z; n_io_limit : Z;
  n_mem_base : Z; n_mem_limit : Z; n_pf_base : Z; n_pf_limit : Z }.

(** tb/pcie.py:3117-3158: [TreeItem] for a function, together with the final
    register contents of that function: id, [bar]/[bar_size], registers, and
    for a bridge the node data and the children. *)
Inductive titem := TItem (bus dev fn : Z) (tibar : list (Z * Z * Z)) (b : bars) (r : bridge_regs)
                         (below : option (node * list titem)).

(** tb/pcie.py:4425, 4432: [bytearray([bus, sec, sub])], ValueError unless all
    fit in a byte. *)
Definition bus_bytes (bus sec sub : Z) : result (list Z) :=
  if is_byteb bus && is_byteb sec && is_byteb sub then Ok [bus; sec; sub] else Err ValueError.

(** tb/pcie.py:4439, 4445: [struct.pack('<HH', a, b)]. *)
Definition pack_hh (a b : Z) : result (list Z) :=
  if (0 <=? a) && (a <? 65536) && (0 <=? b) && (b <? 65536) then Ok (le_bytes 2 a ++ le_bytes 2 b) else Err StructError.

(** tb/pcie.py:4427-4452: final programming of the bridge registers after the
    secondary bus has been enumerated. *)
Definition program_bridge (br : bars * bridge_regs) (bus sec sub : Z) (n : node) : result (bars * bridge_regs) :=
  let! d := bus_bytes bus sec sub in
  let! br := config_write true br 0x018 d in
  let! br := config_write true br 0x01C [Z.land (Z.shiftr (n_io_base n) 8) 0xf0; Z.land (Z.shiftr (n_io_limit n) 8) 0xf0] in
  let! d := pack_hh (Z.shiftr (n_io_base n) 16) (Z.shiftr (n_io_limit n) 16) in
  let! br := config_write true br 0x030 d in
  let! d := pack_hh (Z.land (Z.shiftr (n_mem_base n) 16) 0xfff0) (Z.land (Z.shiftr (n_mem_limit n) 16) 0xfff0) in
  let! br := config_write true br 0x020 d in
  let! d := pack_hh (Z.land (Z.shiftr (n_pf_base n) 16) 0xfff0) (Z.land (Z.shiftr (n_pf_limit n) 16) 0xfff0) in
  let! br := config_write true br 0x024 d in
  let! d := pack_u32 (Z.shiftr (n_pf_base n) 32) in
  let! br := config_write true br 0x028 d in
  let! d := pack_u32 (Z.shiftr (n_pf_limit n) 32) in
  config_write true br 0x02c d.

(** tb/pcie.py:4258-4454, the loop over the functions found on the bus;
    [rec] is the recursive call of [enumerate_segment], the loop carries
    [sec_bus], [sub_bus] and the cursors.  Simplification: the capability walk,
    device control programming, bus mastering and MSI set-up (4393-4416) are
    left out (C16, C17, C19, C24 cover them). *)
Fixpoint enum_funcs (rec : list pfunc -> Z -> limits -> result (node * list titem * limits * Z))
    (fs : list pfunc) (bus sec sub : Z) (s : limits) : result (list titem * limits * Z) :=
  match fs with
  | [] => Ok ([], s, sub)
  | PFunc d f hdr b r below :: fs =>
    let bridge := Z.land hdr 0x7f =? 0x01 in
    let bar_cnt := if bridge then 2 else 6 in
    let! (br, tibar, s) := bar_loop 6 bridge 0 bar_cnt (b, r) s in
    if bridge then
      let! dd := bus_bytes bus sec 255 in
      let! br := config_write true br 0x018 dd in
      let! (n, kids, s, sub) := rec below sec s in
      let! br := program_bridge br bus sec sub n in
      let! (items, s, sub') := enum_funcs rec fs bus (sub + 1) sub s in
      Ok (TItem bus d f tibar (fst br) (snd br) (Some (n, kids)) :: items, s, sub')
    else
      let! (items, s, sub') := enum_funcs rec fs bus sec sub s in
      Ok (TItem bus d f tibar (fst br) (snd br) None :: items, s, sub')
  end.

(** tb/pcie.py:4211-4474 [enumerate_segment]; [fuel] bounds the depth of the
    recursion.  Returns the tree node data, its children, the cursors and the
    last bus number used. *)
Fixpoint enum_seg (fuel : nat) (seg : list pfunc) (bus : Z) (s : limits) : result (node * list titem * limits * Z) :=
  match fuel with
  | O => Err OutOfFuel
  | S fuel =>
    let s0 := align_limits s in
    let! (items, s1, sub) := enum_funcs (enum_seg fuel) (scan seg bus) bus (bus + 1) bus s0 in
    let s2 := align_limits s1 in
    Ok (mkNode bus sub (l_io s0) (l_io s2 - 1) (l_mem s0) (l_mem s2 - 1) (l_pf s0) (l_pf s2 - 1), items, s2, sub)
  end.

(** tb/pcie.py:4476-4493 [enumerate]: cursors start at the bases, and the host
    bridge windows are set afterwards from the bases and the final cursors. *)
Definition enumerate (fuel : nat) (seg : list pfunc) (base : limits) (host : bridge_regs)
  : result (node * list titem * limits * bridge_regs) :=
  let! (n, items, s, _) := enum_seg fuel seg 0 base in
  Ok (n, items, s,
      mkBr (br_pri host) (br_sec host) (br_sub host) (br_sec_lat host) (l_io base) (l_io s) (br_sec_status host)
           (l_mem base) (l_mem s) (l_pf base) (l_pf s)).
