(** Model of memory request generation and handling in /repo/tb/pcie.py:
    mem_read / mem_write of Function and RootComplex, and the request handlers
    of MemoryEndpoint and RootComplex. *)
From Verif Require Import PyBase TlpModel BarModel.

(** tb/pcie.py:1772-1778 [Function.upstream_send], 3374-3380
    [RootComplex.downstream_send]: the [assert tlp.check()] before a TLP is handed
    to the link.  The link itself is not part of this file. *)
Definition send (t : tlp) : result tlp :=
  if tlp_check t then Ok t else Err AssertionError.

(** ---- memory writes ---- *)

(** tb/pcie.py:2070-2087 and 4061-4078, body of the [while n < len(data)] loop;
    [rid] is self.get_id() (Function) or PcieId(0,0,0) (root complex).  Returns
    the TLPs sent, in order.  A negative [max_payload_size] makes [<<] raise. *)
Fixpoint mem_write_loop (fuel : nat) (rid : pcie_id) (mps attr tc : Z) (addr : Z) (data : list Z) (n : Z) : result (list tlp) :=
  if n <? zlen data then
    match fuel with
    | O => Err OutOfFuel
    | S f =>
      let t := set_fmt_type (if addr >? 0xffffffff then TLP_MEM_WRITE_64 else TLP_MEM_WRITE) tlp0 in
      let t := set_tc tc (set_attr attr (set_requester_id rid t)) in
      let first_pad := addr mod 4 in
      let byte_length := zlen data - n in
      if mps <? 0 then Err ValueError else
      let byte_length := Z.min byte_length (Z.shiftl 128 mps - first_pad) in
      let byte_length := Z.min byte_length (0x1000 - Z.land addr 0xfff) in
      let! t := set_be_data addr (slice data n (n + byte_length)) t in
      let! t := send t in
      let! r := mem_write_loop f rid mps attr tc (addr + byte_length) data (n + byte_length) in
      Ok (t :: r)
    end
  else Ok [].

(** tb/pcie.py:2063-2087 [Function.mem_write]. *)
Definition function_mem_write (bus_master_enable : bool) (rid : pcie_id) (mps addr : Z) (data : list Z) (attr tc : Z) : result (list tlp) :=
  if negb bus_master_enable then Ok [] else
  mem_write_loop (length data) rid mps attr tc addr data 0.

(** tb/pcie.py:3282-3294: an entry of [RootComplex.regions] backed by an mmap:
    (base, size, contents).  Callback regions are not modelled. *)
Record region := mkRegion { r_base : Z; r_size : Z; r_mem : list Z }.

(** tb/pcie.py:3310-3314 [find_region]: first match; the index is returned so
    that a write can update it. *)
Fixpoint find_region (rs : list region) (addr : Z) : option (nat * region) :=
  match rs with
  | [] => None
  | r :: rs' => if (r_base r <=? addr) && (addr <? r_base r + r_size r) then Some (O, r)
                else match find_region rs' addr with Some (i, x) => Some (S i, x) | None => None end
  end.

(** tb/pcie.py:2256, 3345: replace entry [i] of a list (the mmap object is mutated in place). *)
Fixpoint set_nth {A} (l : list A) (i : nat) (v : A) : list A :=
  match l, i with
  | [], _ => []
  | _ :: l', O => v :: l'
  | x :: l', S i' => x :: set_nth l' i' v
  end.

(** tb/pcie.py:3322-3332 [read_region] (mmap case). *)
Definition rc_read_region (rs : list region) (addr len : Z) : result (list Z) :=
  match find_region rs addr with
  | None => Err (PyException 3325)
  | Some (_, r) => let offset := addr - r_base r in Ok (slice (r_mem r) offset (offset + len))
  end.

(** tb/pcie.py:3334-3345 [write_region] (mmap case). *)
Definition rc_write_region (rs : list region) (addr : Z) (data : list Z) : result (list region) :=
  match find_region rs addr with
  | None => Err (PyException 3337)
  | Some (i, r) =>
    let! m := mmap_set (r_mem r) (addr - r_base r) data in
    Ok (set_nth rs i (mkRegion (r_base r) (r_size r) m))
  end.

(** tb/pcie.py:4054-4078 [RootComplex.mem_write]: a local region is written
    directly, otherwise TLPs are sent.  Returns (regions, TLPs sent). *)
Definition rc_mem_write (rs : list region) (mps addr : Z) (data : list Z) (attr tc : Z) : result (list region * list tlp) :=
  match find_region rs addr with
  | Some _ => let! rs' := rc_write_region rs addr data in Ok (rs', [])
  | None => let! ts := mem_write_loop (length data) (mkId 0 0 0) mps attr tc addr data 0 in Ok (rs, ts)
  end.

(** ---- memory reads ---- *)

(** tb/pcie.py:1557-1561, 3247-3250: requester state: [current_tag] and the
    per-tag completion queues. *)
Record rqstate := mkRq { rq_tag : Z; rq_queues : Z -> list tlp }.

(** tb/pcie.py:1816-1824 and 3416-3424, the [for k in range(tag_count)] loop of
    [get_free_tag]; None when every queue holds a completion. *)
Fixpoint free_tag_loop (fuel : nat) (tag_count cur : Z) (q : Z -> list tlp) : Z * option Z :=
  match fuel with
  | O => (cur, None)
  | S f =>
    let cur := (cur + 1) mod tag_count in
    match q cur with
    | [] => (cur, Some cur)
    | _ => free_tag_loop f tag_count cur q
    end
  end.

(** tb/pcie.py:1816-1824 and 3416-3424 [get_free_tag]; the root complex always
    uses 32 tags. *)
Definition get_free_tag (extended : bool) (s : rqstate) : rqstate * option Z :=
  let tag_count := if extended then 256 else 32 in
  let '(cur, r) := free_tag_loop (Z.to_nat tag_count) tag_count (rq_tag s) (rq_queues s) in
  (mkRq cur (rq_queues s), r).

(** tb/pcie.py:2019-2020, 4010-4011: [for k in range(cpl.length)
    d.extend(struct.pack('<L', cpl.data[k]))]. *)
Definition cpl_bytes (c : tlp) : result (list Z) :=
  if t_length c <=? zlen (t_data c) then bytes_of_dwords (firstn (Z.to_nat (t_length c)) (t_data c))
  else let! _ := bytes_of_dwords (t_data c) in Err IndexError.

(** tb/pcie.py:2005-2025, 3996-4016: the [while m < byte_length] loop consuming
    completions for one request.  [q] is the tag's queue; an empty queue is the
    timeout ([recv_cpl] returning None; waiting is not modelled).  Returns the
    accumulated data and the unconsumed completions. *)
Fixpoint cpl_recv_loop (fuel : nat) (byte_length m : Z) (q : list tlp) (data : list Z) : result (list Z * list tlp) :=
  if m <? byte_length then
    match fuel with
    | O => Err OutOfFuel
    | S f =>
      match q with
      | [] => Err (PyException 2009)
      | c :: q' =>
        if negb (t_status c =? CPL_STATUS_SC) then Err (PyException 2011) else
        if negb (t_byte_count c + 3 + Z.land (t_lower_address c) 3 >=? t_length c * 4) then Err AssertionError else
        if negb (t_byte_count c =? byte_length - m) then Err AssertionError else
        let! d := cpl_bytes c in
        let offset := Z.land (t_lower_address c) 3 in
        let data := data ++ slice d offset (offset + t_byte_count c) in
        cpl_recv_loop f byte_length (m + (zlen d - offset)) q' data
      end
    end
  else Ok (data, q).

(** tb/pcie.py:1984-2028 ([Function.mem_read]) and 3975-4019
    ([RootComplex.mem_read]): the [while n < length] loop.  The two differ only
    in the argument of [set_be]: line 1999 passes [length] (flag [whole] true),
    line 3990 passes [byte_length].  [respond] is the completer: the completions
    delivered to the tag's queue for a request.  Returns requester state, data
    and the requests sent. *)
Fixpoint mem_read_loop (fuel : nat) (whole ext : bool) (rid : pcie_id) (mrrs attr tc : Z) (respond : tlp -> list tlp)
    (s : rqstate) (addr len n : Z) (data : list Z) : result (rqstate * list Z * list tlp) :=
  if n <? len then
    match fuel with
    | O => Err OutOfFuel
    | S f =>
      let t := set_fmt_type (if addr >? 0xffffffff then TLP_MEM_READ_64 else TLP_MEM_READ) tlp0 in
      let '(s, tag) := get_free_tag ext s in
      match tag with
      | None => Err TypeError  (* tag None: formatting the TLP for the log raises *)
      | Some tag =>
        let t := set_tc tc (set_attr attr (set_tag tag (set_requester_id rid t))) in
        let first_pad := addr mod 4 in
        let byte_length := len - n in
        if mrrs <? 0 then Err ValueError else
        let byte_length := Z.min byte_length (Z.shiftl 128 mrrs - first_pad) in
        let byte_length := Z.min byte_length (0x1000 - Z.land addr 0xfff) in
        let t := fst (set_be addr (if whole then len else byte_length) t) in
        let! t := send t in
        let cpls := respond t in
        let! dq := cpl_recv_loop (S (length cpls)) byte_length 0 (rq_queues s tag ++ cpls) data in
        let s := mkRq (rq_tag s) (fun k => if k =? tag then snd dq else rq_queues s k) in
        let! r := mem_read_loop f whole ext rid mrrs attr tc respond s (addr + byte_length) len (n + byte_length) (fst dq) in
        Ok (fst (fst r), snd (fst r), t :: snd r)
      end
    end
  else Ok (s, data, []).

(** tb/pcie.py:1976-2028 [Function.mem_read]; None when bus mastering is off. *)
Definition function_mem_read (bus_master_enable ext : bool) (rid : pcie_id) (mrrs attr tc : Z) (respond : tlp -> list tlp)
    (s : rqstate) (addr len : Z) : result (rqstate * option (list Z) * list tlp) :=
  if negb bus_master_enable then Ok (s, None, []) else
  let! r := mem_read_loop (Z.to_nat len) true ext rid mrrs attr tc respond s addr len 0 [] in
  Ok (fst (fst r), Some (snd (fst r)), snd r).

(** tb/pcie.py:3967-4019 [RootComplex.mem_read]. *)
Definition rc_mem_read (rs : list region) (mrrs attr tc : Z) (respond : tlp -> list tlp)
    (s : rqstate) (addr len : Z) : result (rqstate * list Z * list tlp) :=
  match find_region rs addr with
  | Some _ => let! d := rc_read_region rs addr len in Ok (s, d, [])
  | None => mem_read_loop (Z.to_nat len) false false (mkId 0 0 0) mrrs attr tc respond s addr len 0 []
  end.

(** ---- request handlers ---- *)

(** tb/pcie.py:2382-2407 and 3550-3575: the [while m < dw_length] loop building
    the completions of a read request [req]; [addr] is the byte address, [data]
    the DWORDs read.  Returns the completions sent.  When the limit is reached
    [cpl_dw_length] is positive, so dw_length iterations suffice. *)
Fixpoint cpl_loop (fuel : nat) (req : tlp) (completer : pcie_id) (mps : Z) (data : list Z)
    (dw_length byte_length m n addr : Z) : result (list tlp) :=
  if m <? dw_length then
    match fuel with
    | O => Err OutOfFuel
    | S f =>
      let cpl := set_completion_data req completer tlp0 in
      let cpl_dw_length := dw_length - m in
      let cpl_byte_length := byte_length - n in
      let cpl := set_byte_count cpl_byte_length cpl in
      if mps <? 0 then Err ValueError else
      let cpl_dw_length :=
        if cpl_dw_length >? Z.shiftl 32 mps
        then Z.shiftl 32 mps - Z.shiftr (Z.land addr 0x7c) 2 else cpl_dw_length in
      let cpl := set_lower_address (Z.land addr 0x7f) cpl in
      let! cpl := set_data_bytes (slice data (m * 4) ((m + cpl_dw_length) * 4)) cpl in
      let! cpl := send cpl in
      let step := cpl_dw_length * 4 - Z.land addr 3 in
      let! r := cpl_loop f req completer mps data dw_length byte_length (m + cpl_dw_length) (n + step) (addr + step) in
      Ok (cpl :: r)
    end
  else Ok [].

(** tb/pcie.py:2375-2407: completions for request [req] given the data read. *)
Definition complete_read (req : tlp) (completer : pcie_id) (mps : Z) (data : list Z) : result (list tlp) :=
  cpl_loop (Z.to_nat (t_length req)) req completer mps data (t_length req) (get_be_byte_count req)
    0 0 (t_address req + get_first_be_offset req).

(** tb/pcie.py:2205, 2221-2226: an entry of [MemoryEndpoint.regions]: None, a
    bytearray, or a (read, write) callback pair (only its read function matters:
    line 2254 raises NameError before calling write). *)
Inductive epregion := ENone | EMem (l : list Z) | ECb (rd : Z -> Z -> list Z).

(** tb/pcie.py:2241-2247 [read_region]; [not regions[region]] also holds for an
    empty bytearray. *)
Definition ep_read_region (rs : list epregion) (i addr len : Z) : result (list Z) :=
  match nth (Z.to_nat i) rs ENone with
  | ENone | EMem [] => Err (PyException 2243)
  | EMem l => Ok (slice l addr (addr + len))
  | ECb rd => Ok (rd addr len)
  end.

(** tb/pcie.py:2249-2256 [write_region]. *)
Definition ep_write_region (rs : list epregion) (i addr : Z) (data : list Z) : result (list epregion) :=
  match nth (Z.to_nat i) rs ENone with
  | ENone | EMem [] => Err (PyException 2251)
  | EMem l => Ok (set_nth rs (Z.to_nat i) (EMem (slice_set l addr data)))
  | ECb _ => Err NameError
  end.

(** tb/pcie.py:2445-2454, 3605-3614: one iteration of [for k in range(4)] over a
    byte-enable nibble.  [wr s o d] is write_region at offset [o] from the
    request address.  State: (offset, start_offset, store). *)
Definition be_lane {S} (wr : S -> Z -> list Z -> result S) (data : list Z) (mask : Z)
    (st : Z * option Z * S) (k : Z) : result (Z * option Z * S) :=
  let '(offset, start, s) := st in
  if negb (Z.land mask (Z.shiftl 1 k) =? 0) then
    Ok (offset + 1, match start with None => Some offset | Some _ => start end, s)
  else
    let! s := match start with
              | Some so => if negb (offset =? so) then wr s so (slice data so offset) else Ok s
              | None => Ok s
              end in
    Ok (offset + 1, None, s).

(** tb/pcie.py:2445-2454: the four lanes of one DWORD. *)
Definition be_dword {S} (wr : S -> Z -> list Z -> result S) (data : list Z) (mask : Z) (st : Z * option Z * S) : result (Z * option Z * S) :=
  let! st := be_lane wr data mask st 0 in
  let! st := be_lane wr data mask st 1 in
  let! st := be_lane wr data mask st 2 in
  be_lane wr data mask st 3.

(** tb/pcie.py:2474-2475: final write of the pending run. *)
Definition be_flush {S} (wr : S -> Z -> list Z -> result S) (data : list Z) (st : Z * option Z * S) : result S :=
  let '(offset, start, s) := st in
  match start with
  | Some so => if negb (offset =? so) then wr s so (slice data so offset) else Ok s
  | None => Ok s
  end.

(** tb/pcie.py:2441-2475 and 3601-3635: the data phase of handle_mem_write_tlp. *)
Definition be_write {S} (wr : S -> Z -> list Z -> result S) (t : tlp) (data : list Z) (s : S) : result S :=
  let! st := be_dword wr data (t_first_be t) (0, None, s) in
  let st := if t_length t >? 2 then
      let '(offset, start, s) := st in
      (offset + (t_length t - 2) * 4, match start with None => Some offset | Some _ => start end, s)
    else st in
  let! st := if t_length t >? 1 then be_dword wr data (t_last_be t) st else Ok st in
  be_flush wr data st.

(** tb/pcie.py:2118-2127, 2201-2206: endpoint state used by the handlers. *)
Record endpoint := mkEp { ep_id : pcie_id; ep_mps : Z; ep_bars : bars; ep_regions : list epregion }.

(** tb/pcie.py:2256: assignment of the regions (mutation in place of the bytearray). *)
Definition set_regions (e : endpoint) (rs : list epregion) : endpoint :=
  mkEp (ep_id e) (ep_mps e) (ep_bars e) rs.

(** tb/pcie.py:2364-2420 [MemoryEndpoint.handle_mem_read_tlp]: the TLPs sent. *)
Definition ep_handle_mem_read (e : endpoint) (t : tlp) : result (list tlp) :=
  let! m := match_bar (ep_bars e) (t_address t) false in
  match m with
  | [(rg, addr)] =>
    if t_length t * 4 >? 0x1000 - Z.land addr 0xfff then Ok [] else
    let! data := ep_read_region (ep_regions e) rg addr (t_length t * 4) in
    complete_read t (ep_id e) (ep_mps e) data
  | _ => let! c := send (set_ur_completion t (ep_id e) tlp0) in Ok [c]
  end.

(** tb/pcie.py:2422-2483 [MemoryEndpoint.handle_mem_write_tlp]. *)
Definition ep_handle_mem_write (e : endpoint) (t : tlp) : result endpoint :=
  let! m := match_bar (ep_bars e) (t_address t) false in
  match m with
  | [(rg, addr)] =>
    if t_length t * 4 >? 0x1000 - Z.land addr 0xfff then Ok e else
    let! data := get_data t in
    let! rs := be_write (fun rs o d => ep_write_region rs rg (addr + o) d) t data (ep_regions e) in
    Ok (set_regions e rs)
  | _ => Ok e
  end.

(** tb/pcie.py:3528-3584 [RootComplex.handle_mem_read_tlp]. *)
Definition rc_handle_mem_read (rs : list region) (mps : Z) (t : tlp) : result (list tlp) :=
  match find_region rs (t_address t) with
  | Some _ =>
    if t_length t * 4 >? 0x1000 - Z.land (t_address t) 0xfff then Ok [] else
    let! data := rc_read_region rs (t_address t) (t_length t * 4) in
    complete_read t (mkId 0 0 0) mps data
  | None => let! c := send (set_ur_completion t (mkId 0 0 0) tlp0) in Ok [c]
  end.

(** tb/pcie.py:3586-3645 [RootComplex.handle_mem_write_tlp]. *)
Definition rc_handle_mem_write (rs : list region) (t : tlp) : result (list region) :=
  match find_region rs (t_address t) with
  | Some _ =>
    if t_length t * 4 >? 0x1000 - Z.land (t_address t) 0xfff then Ok rs else
    let! data := get_data t in
    be_write (fun rs o d => rc_write_region rs (t_address t + o) d) t data rs
  | None => Ok rs
  end.

(** tb/pcie.py:1784-1800 [Function.upstream_recv]/[handle_tlp] as far as memory
    requests go: assert check(), then dispatch.  State update for writes. *)
Definition ep_recv_write (e : endpoint) (t : tlp) : result endpoint :=
  if tlp_check t then
    (if ft_in (t_fmt_type t) [TLP_MEM_WRITE; TLP_MEM_WRITE_64] then ep_handle_mem_write e t else Err (PyException 1799))
  else Err AssertionError.

(** tb/pcie.py:1784-1800: a read request delivered to the endpoint. *)
Definition ep_recv_read (e : endpoint) (t : tlp) : result (list tlp) :=
  if tlp_check t then
    (if ft_in (t_fmt_type t) [TLP_MEM_READ; TLP_MEM_READ_64] then ep_handle_mem_read e t else Err (PyException 1799))
  else Err AssertionError.

(** tb/pcie.py:724-817 (links are FIFOs): a sequence of write TLPs delivered in
    order. *)
Fixpoint ep_recv_writes (e : endpoint) (ts : list tlp) : result endpoint :=
  match ts with
  | [] => Ok e
  | t :: ts => let! e := ep_recv_write e t in ep_recv_writes e ts
  end.

(** tb/pcie.py:4054 ff. issued by a test: memory operations performed by the
    root complex. *)
Inductive mop := MWrite (addr : Z) (data : list Z) | MRead (addr len : Z).

(** tb/pcie.py:3967-4019, 4054-4078: one operation executed against a directly connected endpoint: the write
    TLPs are delivered in order (2616-2704 forwards them unchanged), the read
    requests are answered by the endpoint's handler.  Simplification: an
    exception raised inside the endpoint during a read appears as a missing
    completion. *)
Definition exec_mop (mps mrrs : Z) (st : endpoint * rqstate) (o : mop) : result (endpoint * rqstate * list Z) :=
  let '(e, s) := st in
  match o with
  | MWrite addr data =>
    let! r := rc_mem_write [] mps addr data 0 0 in
    let! e := ep_recv_writes e (snd r) in Ok (e, s, [])
  | MRead addr len =>
    let! r := rc_mem_read [] mrrs 0 0 (fun t => match ep_recv_read e t with Ok cs => cs | Err _ => [] end) s addr len in
    Ok (e, fst (fst r), snd (fst r))
  end.

(** tb/pcie.py:3967-4106: a sequence of operations; the data returned by each. *)
Fixpoint exec_mops (mps mrrs : Z) (st : endpoint * rqstate) (ops : list mop) : result (endpoint * rqstate * list (list Z)) :=
  match ops with
  | [] => Ok (st, [])
  | o :: ops =>
    let! r := exec_mop mps mrrs st o in
    let! rr := exec_mops mps mrrs (fst r) ops in
    Ok (fst rr, snd r :: snd rr)
  end.
