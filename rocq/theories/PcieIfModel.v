(** Model of /repo/tb/pcie_if.py: the frame codec, parity, tag allocation, the
    DMA operations and the request handler of PcieIfTestDevice, and the routing of
    PcieIfDevice.  The [Tlp] class it uses belongs to the external package
    cocotbext.pcie; its methods are represented by the functions of the same
    meaning in TlpModel (tb/pcie.py), its packed header by an argument. *)
From Verif Require Import PyBase TlpModel SplitModel.

(** ---- parity ---- *)

(** tb/pcie_if.py:77-79 and 91-93: [d ^= d >> 4; d ^= d >> 2; d ^= d >> 1]. *)
Definition fold_parity (d : Z) : Z :=
  let d := Z.lxor d (Z.shiftr d 4) in
  let d := Z.lxor d (Z.shiftr d 2) in
  Z.lxor d (Z.shiftr d 1).

(** tb/pcie_if.py:76-87 [dword_parity]. *)
Definition dword_parity (d : Z) : Z :=
  let d := fold_parity d in
  let p := Z.land d 0x1 in
  let p := if negb (Z.land d 0x100 =? 0) then Z.lor p 0x2 else p in
  let p := if negb (Z.land d 0x10000 =? 0) then Z.lor p 0x4 else p in
  if negb (Z.land d 0x1000000 =? 0) then Z.lor p 0x8 else p.

(** tb/pcie_if.py:96-100, the [while d] loop of [parity]; a negative [d] would
    loop forever, which shows as OutOfFuel. *)
Fixpoint parity_loop (fuel : nat) (d b p : Z) : result Z :=
  if d =? 0 then Ok p else
  match fuel with
  | O => Err OutOfFuel
  | S f => parity_loop f (Z.shiftr d 8) (Z.shiftl b 1) (if negb (Z.land d 0x1 =? 0) then Z.lor p b else p)
  end.

(** tb/pcie_if.py:90-101 [parity]; log2(d)+1 iterations are enough. *)
Definition parity (d : Z) : result Z :=
  let d := fold_parity d in
  parity_loop (S (Z.to_nat (Z.log2 d))) d 0x1 0.

(** ---- frames ---- *)

(** tb/pcie_if.py:104-117, the attributes of [PcieIfFrame]. *)
Record frame := mkFrame {
  f_tlp_prfx : Z; f_hdr : Z; f_data : list Z;
  f_tlp_prfx_par : Z; f_hdr_par : Z; f_parity : list Z;
  f_func_num : Z; f_vf_num : option Z; f_bar_id : Z; f_tlp_abort : Z; f_error : Z; f_seq : Z }.

(** tb/pcie_if.py:105-117 [PcieIfFrame()]. *)
Definition frame0 : frame := mkFrame 0 0 [] 0 0 [] 0 None 0 0 0 0.

(** tb/pcie_if.py:170-173 [update_parity]. *)
Definition update_parity (f : frame) : result frame :=
  let par := map (fun d => Z.lxor (dword_parity d) 0xf) (f_data f) in
  let! hp := parity (f_hdr f) in
  Ok (mkFrame (f_tlp_prfx f) (f_hdr f) (f_data f) (dword_parity (f_tlp_prfx f)) hp par
        (f_func_num f) (f_vf_num f) (f_bar_id f) (f_tlp_abort f) (f_error f) (f_seq f)).

(** tb/pcie_if.py:175-180 [check_parity]; the conjunction short-circuits, which
    matters only when [parity] does not return. *)
Definition check_parity (f : frame) : result bool :=
  if negb (zlist_eqb (f_parity f) (map (fun d => Z.lxor (dword_parity d) 0xf) (f_data f))) then Ok false else
  let! hp := parity (f_hdr f) in
  Ok ((f_hdr_par f =? hp) && (f_tlp_prfx_par f =? dword_parity (f_tlp_prfx f))).

(** tb/pcie_if.py:146 [int.from_bytes(b, 'big')]. *)
Definition be_int (l : list Z) : Z := fold_left (fun a b => a * 256 + b) l 0.

(** tb/pcie_if.py:157 [v.to_bytes(n, 'big')]: OverflowError when it does not fit. *)
Definition to_bytes_be (n : nat) (v : Z) : result (list Z) :=
  if (0 <=? v) && (v <? 2^(8 * Z.of_nat n)) then Ok (rev (le_bytes n v)) else Err OverflowError.

(** tb/pcie_if.py:140-142: the types whose address is widened (FETCH_ADD, SWAP and
    CAS are (2, 0x0c..0x0e) in cocotbext.pcie). *)
Definition force_types : list (Z * Z) :=
  [TLP_MEM_READ; TLP_MEM_READ_LOCKED; TLP_MEM_WRITE; TLP_IO_READ; TLP_IO_WRITE; (2, 0x0c); (2, 0x0d); (2, 0x0e)].

(** tb/pcie_if.py:134-154 [from_tlp]: [ft] is tlp.fmt_type, [hdr] the bytes of
    tlp.pack_header(), [data] those of tlp.get_data().  [hdr[0]] of an empty
    header raises IndexError. *)
Definition from_tlp (ft : Z * Z) (hdr data : list Z) (force : bool) : result frame :=
  let! hdr := if force && ft_in ft force_types then
      let! b0 := py_index hdr 0 in
      Ok ([Z.lor b0 0x20] ++ slice hdr 1 8 ++ zeros 4 ++ slice hdr 8 12)
    else Ok hdr in
  let h := be_int (hdr ++ zeros (16 - zlen hdr)) in
  let! dws := dwords_of_bytes (length data) data in
  update_parity (mkFrame 0 h dws 0 0 [] 0 None 0 0 0 0).

(** tb/pcie_if.py:156-168 [to_tlp]: the bytes handed to Tlp.unpack_header and
    the payload bytes. *)
Definition to_tlp (f : frame) : result (list Z * list Z) :=
  let! hdr := to_bytes_be 16 (f_hdr f) in
  let! b0 := py_index hdr 0 in
  let hdr := if (b0 =? 0x22) || (b0 =? 0x62)
             then [Z.land b0 0xdf] ++ slice hdr 1 8 ++ slice hdr 12 16 else hdr in
  let! data := bytes_of_dwords (f_data f) in
  Ok (hdr, data).

(** tb/pcie_if.py:182-198 [__eq__] on two frames. *)
Definition frame_eqb (a b : frame) : bool :=
  (f_tlp_prfx a =? f_tlp_prfx b) && (f_hdr a =? f_hdr b) && zlist_eqb (f_data a) (f_data b) &&
  (f_tlp_prfx_par a =? f_tlp_prfx_par b) && (f_hdr_par a =? f_hdr_par b) && zlist_eqb (f_parity a) (f_parity b) &&
  (f_func_num a =? f_func_num b) &&
  match f_vf_num a, f_vf_num b with Some x, Some y => x =? y | None, None => true | _, _ => false end &&
  (f_bar_id a =? f_bar_id b) && (f_tlp_abort a =? f_tlp_abort b) && (f_error a =? f_error b) && (f_seq a =? f_seq b).

(** ---- tags ---- *)

(** tb/pcie_if.py:1358-1360: current_tag and tag_active. *)
Record tagstate := mkTags { tg_cur : Z; tg_active : list bool }.

(** tb/pcie_if.py:1358-1360: initial state. *)
Definition tags0 : tagstate := mkTags 0 (repeat false 256).

(** tb/pcie_if.py:1491-1496, the [for k in range(tag_count)] loop of [alloc_tag]. *)
Fixpoint alloc_loop (fuel : nat) (tag_count tag : Z) (s : tagstate) : result (option (Z * tagstate)) :=
  match fuel with
  | O => Ok None
  | S f =>
    let tag := (tag + 1) mod tag_count in
    let! act := py_index (tg_active s) tag in
    if negb act then Ok (Some (tag, mkTags tag (set_nth (tg_active s) (Z.to_nat tag) true)))
    else alloc_loop f tag_count tag s
  end.

(** tb/pcie_if.py:1486-1499, one attempt of [alloc_tag]: None means that it waits
    for a release and tries again. *)
Definition alloc_tag (tag_count : Z) (s : tagstate) : result (option (Z * tagstate)) :=
  let tag_count := Z.min 256 tag_count in
  alloc_loop (Z.to_nat tag_count) tag_count (tg_cur s) s.

(** tb/pcie_if.py:1501-1504 [release_tag] (for a non-negative tag). *)
Definition release_tag (tag : Z) (s : tagstate) : result tagstate :=
  let! act := py_index (tg_active s) tag in
  if act then Ok (mkTags (tg_cur s) (set_nth (tg_active s) (Z.to_nat tag) false)) else Err AssertionError.

(** tb/pcie_if.py:1486-1504: requests made of the allocator, in any order; the tag
    count in force is given with each allocation (self.tag_count may be changed). *)
Inductive tagop := TAlloc (tag_count : Z) | TRelease (tag : Z).
(** tb/pcie_if.py:1486-1504: outcomes: tag granted, caller kept waiting, released,
    exception. *)
Inductive tagres := RTag (tag : Z) | RWait | RReleased | RExn (e : pyexn).

(** tb/pcie_if.py:1486-1504: one call. *)
Definition tag_step (s : tagstate) (o : tagop) : tagstate * tagres :=
  match o with
  | TAlloc n => match alloc_tag n s with
                | Ok (Some (t, s')) => (s', RTag t) | Ok None => (s, RWait) | Err e => (s, RExn e) end
  | TRelease t => match release_tag t s with Ok s' => (s', RReleased) | Err e => (s, RExn e) end
  end.

(** tb/pcie_if.py:1486-1504: a history of calls. *)
Fixpoint tag_run (s : tagstate) (ops : list tagop) : list (tagop * tagres) :=
  match ops with
  | [] => []
  | o :: ops => let '(s', r) := tag_step s o in (o, r) :: tag_run s' ops
  end.

(** tb/pcie.py:1816-1824: n successive [get_free_tag] calls with no completion
    arriving or being consumed in between. *)
Fixpoint free_tags (ext : bool) (n : nat) (s : rqstate) : list (option Z) :=
  match n with O => [] | S m => let '(s', r) := get_free_tag ext s in r :: free_tags ext m s' end.

(** ---- DMA operations ---- *)

(** tb/pcie_if.py:1518-1540, the loop of [perform_nonposted_operation]: [q] is what
    arrives for the tag; its end is the timeout of [recv_cpl].  Returns the
    completions collected and those left over. *)
Fixpoint np_collect (ft : Z * Z) (q : list tlp) : list tlp * list tlp :=
  match q with
  | [] => ([], [])
  | c :: q' =>
    if negb (t_status c =? CPL_STATUS_SC) then ([c], q')
    else if ft_in ft [TLP_MEM_READ; TLP_MEM_READ_64] then
      if t_byte_count c <=? t_length c * 4 - Z.land (t_lower_address c) 0x3 then ([c], q')
      else if ft_in (t_fmt_type c) [TLP_CPL; TLP_CPL_LOCKED] then ([c], q')
      else let '(cs, r) := np_collect ft q' in (c :: cs, r)
    else ([c], q')
  end.

(** tb/pcie_if.py:1633-1655, the loop of [dma_mem_write]; TLPs sent in order. *)
Fixpoint dma_mem_write_loop (fuel : nat) (rid : pcie_id) (mps : Z) (zero_len : bool) (addr : Z) (data : list Z) (n : Z) : result (list tlp) :=
  if n <? zlen data then
    match fuel with
    | O => Err OutOfFuel
    | S f =>
      let t := set_fmt_type (if addr >? 0xffffffff then TLP_MEM_WRITE_64 else TLP_MEM_WRITE) tlp0 in
      let t := set_requester_id rid t in
      let first_pad := addr mod 4 in
      let byte_length := zlen data - n in
      if mps <? 0 then Err ValueError else
      let byte_length := Z.min byte_length (Z.shiftl 128 mps - first_pad) in
      let byte_length := Z.min byte_length (0x1000 - Z.land addr 0xfff) in
      let! t := set_be_data addr (slice data n (n + byte_length)) t in
      let t := if zero_len then set_first_be 0 t else t in
      let! r := dma_mem_write_loop f rid mps zero_len (addr + byte_length) data (n + byte_length) in
      Ok (t :: r)
    end
  else Ok [].

(** tb/pcie_if.py:1626-1655 [dma_mem_write]. *)
Definition dma_mem_write (rid : pcie_id) (mps addr : Z) (data : list Z) : result (list tlp) :=
  let zero_len := zlen data =? 0 in
  let data := if zero_len then [0] else data in
  dma_mem_write_loop (length data) rid mps zero_len addr data 0.

(** tb/pcie_if.py:1723-1749 [issue_msi_interrupt]: same splitting of the four
    bytes of the message ([to_bytes(4, 'little')] raises when it does not fit);
    the loop runs at least once, which it also does in dma_mem_write_loop. *)
Definition issue_msi (rid : pcie_id) (mps addr data : Z) : result (list tlp) :=
  if (0 <=? data) && (data <? 2^32) then dma_mem_write_loop 4 rid mps false addr (le_bytes 4 data) 0
  else Err OverflowError.

(** tb/pcie_if.py:1667-1692, the request loop of [dma_mem_read]: (byte_length,
    request) for every operation started.  [tag k] is the tag the k-th operation
    gets from alloc_tag. *)
Fixpoint dma_read_reqs (fuel : nat) (rid : pcie_id) (mrrs : Z) (zero_len : bool) (tag : Z -> Z) (k addr len n : Z) : result (list (Z * tlp)) :=
  if n <? len then
    match fuel with
    | O => Err OutOfFuel
    | S f =>
      let t := set_fmt_type (if addr >? 0xffffffff then TLP_MEM_READ_64 else TLP_MEM_READ) tlp0 in
      let t := set_requester_id rid t in
      let first_pad := addr mod 4 in
      let byte_length := len - n in
      if mrrs <? 0 then Err ValueError else
      let byte_length := if byte_length >? Z.shiftl 128 mrrs - first_pad
                         then Z.min byte_length (Z.shiftl 128 mrrs - Z.land addr 0x7f) else byte_length in
      let byte_length := Z.min byte_length (0x1000 - Z.land addr 0xfff) in
      let t := fst (set_be addr byte_length t) in
      let t := if zero_len then set_first_be 0 t else t in
      let t := set_tag (tag k) t in
      let! r := dma_read_reqs f rid mrrs zero_len tag (k + 1) (addr + byte_length) len (n + byte_length) in
      Ok ((byte_length, t) :: r)
    end
  else Ok [].

(** tb/pcie_if.py:1697-1716, the [while m < byte_length] loop. *)
Fixpoint dma_recv_loop (byte_length m : Z) (cs : list tlp) (data : list Z) : result (list Z) :=
  if m <? byte_length then
    match cs with
    | [] => Err (PyException 1701)
    | c :: cs' =>
      if negb (t_status c =? CPL_STATUS_SC) then Err (PyException 1706) else
      if negb (t_byte_count c + 3 + Z.land (t_lower_address c) 3 >=? t_length c * 4) then Err AssertionError else
      if negb (t_byte_count c =? Z.max (byte_length - m) 1) then Err AssertionError else
      let! d := get_data c in
      let offset := Z.land (t_lower_address c) 3 in
      dma_recv_loop byte_length (m + (zlen d - offset)) cs' (data ++ slice d offset (offset + t_byte_count c))
    end
  else Ok data.

(** tb/pcie_if.py:1694-1716: operations joined in order; [respond] gives the
    completions that arrive for a request before its timeout. *)
Fixpoint dma_join (respond : tlp -> list tlp) (ops : list (Z * tlp)) (data : list Z) : result (list Z) :=
  match ops with
  | [] => Ok data
  | (bl, t) :: ops =>
    let! data := dma_recv_loop bl 0 (fst (np_collect (t_fmt_type t) (respond t))) data in
    dma_join respond ops data
  end.

(** tb/pcie_if.py:1657-1721 [dma_mem_read]: requests sent and data returned. *)
Definition dma_mem_read (rid : pcie_id) (mrrs : Z) (tag : Z -> Z) (respond : tlp -> list tlp) (addr len : Z) : result (list tlp * list Z) :=
  let zero_len := len <=? 0 in
  let len := if zero_len then 1 else len in
  let! ops := dma_read_reqs (Z.to_nat len) rid mrrs zero_len tag 0 addr len 0 in
  let! data := dma_join respond ops [] in
  Ok (map snd ops, if zero_len then [] else slice data 0 len).

(** tb/pcie_if.py:1555-1570, the request loop of [dma_io_write]. *)
Fixpoint dma_io_write_reqs (fuel : nat) (rid : pcie_id) (zero_len : bool) (tag : Z -> Z) (k addr : Z) (data : list Z) (n : Z) : result (list tlp) :=
  if n <? zlen data then
    match fuel with
    | O => Err OutOfFuel
    | S f =>
      let t := set_requester_id rid (set_fmt_type TLP_IO_WRITE tlp0) in
      let first_pad := addr mod 4 in
      let byte_length := Z.min (zlen data - n) (4 - first_pad) in
      let! t := set_be_data addr (slice data n (n + byte_length)) t in
      let t := if zero_len then set_first_be 0 t else t in
      let t := set_tag (tag k) t in
      let! r := dma_io_write_reqs f rid zero_len tag (k + 1) (addr + byte_length) data (n + byte_length) in
      Ok (t :: r)
    end
  else Ok [].

(** tb/pcie_if.py:1572-1578: the completions of the write operations are checked. *)
Fixpoint io_write_join (respond : tlp -> list tlp) (ts : list tlp) : result unit :=
  match ts with
  | [] => Ok tt
  | t :: ts => match fst (np_collect (t_fmt_type t) (respond t)) with
               | [] => Err (PyException 1576)
               | c :: _ => if negb (t_status c =? CPL_STATUS_SC) then Err (PyException 1578) else io_write_join respond ts
               end
  end.

(** tb/pcie_if.py:1546-1578 [dma_io_write]: the requests sent. *)
Definition dma_io_write (rid : pcie_id) (tag : Z -> Z) (respond : tlp -> list tlp) (addr : Z) (data : list Z) : result (list tlp) :=
  let zero_len := zlen data =? 0 in
  let data := if zero_len then [0] else data in
  let! ts := dma_io_write_reqs (length data) rid zero_len tag 0 addr data 0 in
  let! _ := io_write_join respond ts in Ok ts.

(** tb/pcie_if.py:1590-1605, the request loop of [dma_io_read]: (first_pad, request). *)
Fixpoint dma_io_read_reqs (fuel : nat) (rid : pcie_id) (zero_len : bool) (tag : Z -> Z) (k addr len n : Z) : result (list (Z * tlp)) :=
  if n <? len then
    match fuel with
    | O => Err OutOfFuel
    | S f =>
      let t := set_requester_id rid (set_fmt_type TLP_IO_READ tlp0) in
      let first_pad := addr mod 4 in
      let byte_length := Z.min (len - n) (4 - first_pad) in
      let t := fst (set_be addr byte_length t) in
      let t := if zero_len then set_first_be 0 t else t in
      let t := set_tag (tag k) t in
      let! r := dma_io_read_reqs f rid zero_len tag (k + 1) (addr + byte_length) len (n + byte_length) in
      Ok ((first_pad, t) :: r)
    end
  else Ok [].

(** tb/pcie_if.py:1607-1619: the read operations joined in order. *)
Fixpoint io_read_join (respond : tlp -> list tlp) (ops : list (Z * tlp)) (data : list Z) : result (list Z) :=
  match ops with
  | [] => Ok data
  | (first_pad, t) :: ops =>
    match fst (np_collect (t_fmt_type t) (respond t)) with
    | [] => Err (PyException 1611)
    | c :: _ =>
      if negb (t_status c =? CPL_STATUS_SC) then Err (PyException 1614) else
      if negb (t_length c =? 1) then Err AssertionError else
      let! d := get_data c in
      io_read_join respond ops (data ++ skipn (Z.to_nat first_pad) d)
    end
  end.

(** tb/pcie_if.py:1580-1624 [dma_io_read]. *)
Definition dma_io_read (rid : pcie_id) (tag : Z -> Z) (respond : tlp -> list tlp) (addr len : Z) : result (list tlp * list Z) :=
  let zero_len := len <=? 0 in
  let len := if zero_len then 1 else len in
  let! ops := dma_io_read_reqs (Z.to_nat len) rid zero_len tag 0 addr len 0 in
  let! data := io_read_join respond ops [] in
  Ok (map snd ops, if zero_len then [] else slice data 0 len).

(** ---- requests received by the test device ---- *)

(** tb/pcie_if.py:1356, 1427-1441: an entry of [regions]: None or (size, mmap).
    Callback regions are not modelled. *)
Inductive ifregion := IRNone | IRMem (size : Z) (l : list Z).

(** tb/pcie_if.py:1771, 1806: [self.regions[region][0]] (None is not subscriptable). *)
Definition ifr_size (rs : list ifregion) (i : Z) : result Z :=
  let! r := py_index rs i in
  match r with IRNone => Err TypeError | IRMem size _ => Ok size end.

(** tb/pcie_if.py:1452-1458 [read_region]. *)
Definition ifr_read (rs : list ifregion) (i addr len : Z) : result (list Z) :=
  let! r := py_index rs i in
  match r with IRNone => Err (PyException 1454) | IRMem _ l => Ok (slice l addr (addr + len)) end.

(** tb/pcie_if.py:1460-1466 [write_region]; the mmap raises when the slice is clipped. *)
Definition ifr_write (rs : list ifregion) (i addr : Z) (data : list Z) : result (list ifregion) :=
  let! r := py_index rs i in
  match r with
  | IRNone => Err (PyException 1462)
  | IRMem size l => let! l' := mmap_set l addr data in Ok (set_nth rs (Z.to_nat i) (IRMem size l'))
  end.

(** tb/pcie_if.py:1776-1792: the byte-enable scan of an I/O read; the bytes read are
    stored into [data].  be_dword hands each run [start_offset, offset) to its
    callback together with that slice of a 4-byte buffer, whose length is
    [offset - start_offset]. *)
Definition io_read_scan (rs : list ifregion) (region addr mask : Z) : result (list Z) :=
  let rd := fun data so d => let! r := ifr_read rs region (addr + so) (zlen d) in Ok (slice_set data so r) in
  let! st := be_dword rd (zeros 4) mask (0, None, zeros 4) in
  be_flush rd (zeros 4) st.

(** tb/pcie_if.py:1765-1798: I/O read: the completion sent. *)
Definition rx_io_read (rs : list ifregion) (dev : pcie_id) (bar : Z) (t : tlp) : result tlp :=
  let cpl := set_completion_data t dev tlp0 in
  let! size := ifr_size rs bar in
  let addr := t_address t mod size in
  let! data := io_read_scan rs bar addr (t_first_be t) in
  let! cpl := set_data_bytes data cpl in
  Ok (set_length 1 (set_byte_count 4 cpl)).

(** tb/pcie_if.py:1800-1829: I/O write: regions and the completion sent. *)
Definition rx_io_write (rs : list ifregion) (dev : pcie_id) (bar : Z) (t : tlp) : result (list ifregion * tlp) :=
  let cpl := set_completion t dev false CPL_STATUS_SC tlp0 in
  let! size := ifr_size rs bar in
  let addr := t_address t mod size in
  let! data := get_data t in
  let wr := fun rs so d => ifr_write rs bar (addr + so) d in
  let! st := be_dword wr data (t_first_be t) (0, None, rs) in
  let! rs := be_flush wr data st in
  Ok (rs, cpl).

(** tb/pcie_if.py:1843-1871: completions of a memory read. *)
Fixpoint rx_cpl_loop (fuel : nat) (req : tlp) (completer : pcie_id) (mps : Z) (data : list Z)
    (dw_length byte_length m n addr : Z) : result (list tlp) :=
  if m <? dw_length then
    match fuel with
    | O => Err OutOfFuel
    | S f =>
      let cpl := set_completion_data req completer tlp0 in
      let cpl_dw_length := dw_length - m in
      let cpl_byte_length := byte_length - n in
      let cpl := set_byte_count cpl_byte_length cpl in
      if mps <? 0 then Err ValueError else
      let cpl_dw_length :=
        if cpl_dw_length >? Z.shiftl 32 mps
        then Z.shiftl 32 mps - Z.shiftr (Z.land addr 0x7c) 2 else cpl_dw_length in
      let cpl := set_lower_address (Z.land addr 0x7f) cpl in
      let! cpl := set_data_bytes (slice data (m * 4) ((m + cpl_dw_length) * 4)) cpl in
      let step := cpl_dw_length * 4 - Z.land addr 3 in
      let! r := rx_cpl_loop f req completer mps data dw_length byte_length (m + cpl_dw_length) (n + step) (addr + step) in
      Ok (cpl :: r)
    end
  else Ok [].

(** tb/pcie_if.py:1831-1871: memory read: the completions sent. *)
Definition rx_mem_read (rs : list ifregion) (dev : pcie_id) (mps bar : Z) (t : tlp) : result (list tlp) :=
  let! size := ifr_size rs bar in
  let addr := t_address t mod size in
  let! data := ifr_read rs bar addr (t_length t * 4) in
  rx_cpl_loop (Z.to_nat (t_length t)) t dev mps data (t_length t) (get_be_byte_count t)
    0 0 (t_address t + get_first_be_offset t).

(** tb/pcie_if.py:1873-1921: memory write. *)
Definition rx_mem_write (rs : list ifregion) (bar : Z) (t : tlp) : result (list ifregion) :=
  let! size := ifr_size rs bar in
  let addr := t_address t mod size in
  let! data := get_data t in
  be_write (fun rs so d => ifr_write rs bar (addr + so) d) t data rs.

(** tb/pcie_if.py:1751-1921, one iteration of [_run_rx_req_tlp] on a request frame
    (completions received here are only queued): regions and completions sent;
    other types are ignored. *)
Definition rx_req (rs : list ifregion) (dev : pcie_id) (mps bar : Z) (t : tlp) : result (list ifregion * list tlp) :=
  if ft_in (t_fmt_type t) [TLP_CPL; TLP_CPL_DATA; TLP_CPL_LOCKED; TLP_CPL_LOCKED_DATA] then Ok (rs, [])
  else if ft_in (t_fmt_type t) [TLP_IO_READ] then let! c := rx_io_read rs dev bar t in Ok (rs, [c])
  else if ft_in (t_fmt_type t) [TLP_IO_WRITE] then let! (rs, c) := rx_io_write rs dev bar t in Ok (rs, [c])
  else if ft_in (t_fmt_type t) [TLP_MEM_READ; TLP_MEM_READ_64] then let! cs := rx_mem_read rs dev mps bar t in Ok (rs, cs)
  else if ft_in (t_fmt_type t) [TLP_MEM_WRITE; TLP_MEM_WRITE_64] then let! rs := rx_mem_write rs bar t in Ok (rs, [])
  else Ok (rs, []).

(** ---- PcieIfDevice ---- *)

(** tb/pcie_if.py:988-1057: a function of the device as the router sees it: its ID
    and [match_bar(address, io)] of cocotbext.pcie, giving (bar, offset). *)
Record iffn := mkIfFn { ff_id : pcie_id; ff_match : Z -> bool -> option (Z * Z) }.

(** tb/pcie_if.py:1078-1174: what [upstream_recv] does with a TLP: hand it to
    function [k], queue a completion or request frame with (bar_id, func_num),
    answer UR, or discard. *)
Inductive ifaction := ToFn (k : nat) | ToCpl (func : Z) | ToReq (bar func : Z) | ReplyUR | Discard.

(** tb/pcie_if.py:1088-1091, 1105-1106, 1125-1127, 1146-1148: [for f in self.functions] until the
    condition holds. *)
Fixpoint first_fn {A} (p : iffn -> option A) (fs : list iffn) (k : nat) : option (nat * A) :=
  match fs with
  | [] => None
  | f :: fs => match p f with Some a => Some (k, a) | None => first_fn p fs (S k) end
  end.

(** tb/pcie_if.py:1078-1174 [upstream_recv]. *)
Definition if_upstream_recv (fs : list iffn) (t : tlp) : result ifaction :=
  let ft := t_fmt_type t in
  if ft_in ft [TLP_CFG_READ_0; TLP_CFG_WRITE_0] then
    match first_fn (fun f => if id_eqb (ff_id f) (t_dest_id t) then Some tt else None) fs 0 with
    | Some (k, _) => Ok (ToFn k) | None => Ok ReplyUR end
  else if ft_in ft [TLP_CFG_READ_1; TLP_CFG_WRITE_1] then Ok ReplyUR
  else if ft_in ft [TLP_CPL; TLP_CPL_DATA; TLP_CPL_LOCKED; TLP_CPL_LOCKED_DATA] then
    match first_fn (fun f => if id_eqb (ff_id f) (t_requester_id t) then Some tt else None) fs 0 with
    | Some _ => Ok (ToCpl (id_function (t_requester_id t))) | None => Ok Discard end
  else if ft_in ft [TLP_IO_READ; TLP_IO_WRITE] then
    match first_fn (fun f => ff_match f (t_address t) true) fs 0 with
    | Some (_, (bar, _)) => Ok (ToReq bar (id_function (t_requester_id t))) | None => Ok ReplyUR end
  else if ft_in ft [TLP_MEM_READ; TLP_MEM_READ_64; TLP_MEM_WRITE; TLP_MEM_WRITE_64] then
    match first_fn (fun f => ff_match f (t_address t) false) fs 0 with
    | Some (_, (bar, _)) => Ok (ToReq bar (id_function (t_requester_id t)))
    | None => if ft_in ft [TLP_MEM_WRITE; TLP_MEM_WRITE_64] then Ok Discard else Ok ReplyUR end
  else Err (PyException 1169).

(** tb/pcie_if.py:993, 1010, 1027, 1044: [int.bit_length] (of the absolute value). *)
Definition bit_length (x : Z) : Z := if x =? 0 then 0 else Z.log2 (Z.abs x) + 1.

(** tb/pcie_if.py:993, 1010, 1027, 1044: multiple_message_capable of function [pf]
    configured with [count] vectors: functions 0 and 1 use count-1, function 2
    count-2, function 3 count-3. *)
Definition if_msi_mmc (pf count : Z) : Z :=
  bit_length (if pf <=? 1 then count - 1 else if pf =? 2 then count - 2 else count - 3).
