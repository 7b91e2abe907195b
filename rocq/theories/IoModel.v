(** Model of the non-posted accesses of /repo/tb/pcie.py: I/O and configuration
    reads and writes of Function and RootComplex, the handlers answering them,
    the word-sized helpers, and regions served by callbacks. *)
From Verif Require Import PyBase TlpModel BarModel SplitModel.

(** ---- delivery of completions ---- *)

(** tb/pcie.py:1783-1794 (Function) and 3385-3396 (RootComplex): a completion
    arriving at the requester: [assert tlp.check()], then appended to the queue
    of its tag. *)
Definition deliver (q : Z -> list tlp) (c : tlp) : result (Z -> list tlp) :=
  if tlp_check c then
    if ft_in (t_fmt_type c) [TLP_CPL; TLP_CPL_DATA; TLP_CPL_LOCKED; TLP_CPL_LOCKED_DATA]
    then Ok (fun k => if k =? t_tag c then q k ++ [c] else q k)
    else Err (PyException 1799)
  else Err AssertionError.

(** tb/pcie.py:1783-1794, 3385-3396: the completions sent for one request, in order. *)
Fixpoint deliver_all (q : Z -> list tlp) (cs : list tlp) : result (Z -> list tlp) :=
  match cs with
  | [] => Ok q
  | c :: cs => let! q := deliver q c in deliver_all q cs
  end.

(** tb/pcie.py:1803-1814, 3402-3413 [recv_cpl]: the oldest completion of the tag;
    None when the wait ends without one.  Waiting is not modelled: everything the
    completer sends has been delivered. *)
Definition recv_cpl (q : Z -> list tlp) (tag : Z) : option tlp * (Z -> list tlp) :=
  match q tag with
  | [] => (None, q)
  | c :: r => (Some c, fun k => if k =? tag then r else q k)
  end.

(** ---- the request loops ---- *)

(** tb/pcie.py:1862-1886 ([Function.io_read]), 3853-3877 ([RootComplex.io_read])
    and 3651-3676 ([config_read]): the [while n < length] loop.  The three differ
    in the header ([mk tag]), in the register number set after [set_be] ([fin])
    and in what a completion is turned into ([take]).  [serve] is the completer:
    new state and completions sent.  Returns the completer's and the requester's
    state, the data before the final [data[:length]], and the requests sent. *)
Fixpoint np_read_loop {S} (fuel : nat) (ext : bool) (mk : Z -> tlp) (fin : Z -> tlp -> tlp) (take : option tlp -> result (list Z))
    (serve : S -> tlp -> result (S * list tlp)) (st : S) (s : rqstate) (addr len n : Z) (data : list Z)
    : result (S * rqstate * list Z * list tlp) :=
  if n <? len then
    match fuel with
    | O => Err OutOfFuel
    | Datatypes.S f =>
      let '(s, tag) := get_free_tag ext s in
      match tag with
      | None => Err TypeError  (* tag None: formatting the TLP for the log raises *)
      | Some tag =>
        let first_pad := addr mod 4 in
        let byte_length := Z.min (len - n) (4 - first_pad) in
        let t := fin addr (fst (set_be addr byte_length (mk tag))) in
        let! t := send t in
        let! r := serve st t in
        let! q := deliver_all (rq_queues s) (snd r) in
        let cq := recv_cpl q tag in
        let! d := take (fst cq) in
        let! rr := np_read_loop f ext mk fin take serve (fst r) (mkRq (rq_tag s) (snd cq)) (addr + byte_length) len
                     (n + byte_length) (data ++ skipn (Z.to_nat first_pad) d) in
        Ok (fst (fst (fst rr)), snd (fst (fst rr)), snd (fst rr), t :: snd rr)
      end
    end
  else Ok (st, s, data, []).

(** tb/pcie.py:1929-1948 ([Function.io_write]), 3920-3939 ([RootComplex.io_write])
    and 3715-3732 ([config_write]): the [while n < len(data)] loop, with the same
    parameters; [take] raises or goes on. *)
Fixpoint np_write_loop {S} (fuel : nat) (ext : bool) (mk : Z -> tlp) (fin : Z -> tlp -> tlp) (take : option tlp -> result unit)
    (serve : S -> tlp -> result (S * list tlp)) (st : S) (s : rqstate) (addr : Z) (data : list Z) (n : Z)
    : result (S * rqstate * list tlp) :=
  if n <? zlen data then
    match fuel with
    | O => Err OutOfFuel
    | Datatypes.S f =>
      let '(s, tag) := get_free_tag ext s in
      match tag with
      | None => Err TypeError
      | Some tag =>
        let first_pad := addr mod 4 in
        let byte_length := Z.min (zlen data - n) (4 - first_pad) in
        let! t := set_be_data addr (slice data n (n + byte_length)) (mk tag) in
        let t := fin addr t in
        let! t := send t in
        let! r := serve st t in
        let! q := deliver_all (rq_queues s) (snd r) in
        let cq := recv_cpl q tag in
        let! _ := take (fst cq) in
        let! rr := np_write_loop f ext mk fin take serve (fst r) (mkRq (rq_tag s) (snd cq)) (addr + byte_length) data (n + byte_length) in
        Ok (fst (fst rr), snd (fst rr), t :: snd rr)
      end
    end
  else Ok (st, s, []).

(** tb/pcie.py:1863-1866, 1930-1933, 3854-3857, 3921-3924: the header of an I/O
    request; [rid] is self.get_id() or PcieId(0,0,0). *)
Definition io_req (wr : bool) (rid : pcie_id) (tag : Z) : tlp :=
  set_tag tag (set_requester_id rid (set_fmt_type (if wr then TLP_IO_WRITE else TLP_IO_READ) tlp0)).

(** tb/pcie.py:3652-3656, 3716-3720: the header of a configuration request. *)
Definition cfg_req (wr : bool) (dev : pcie_id) (tag : Z) : tlp :=
  set_dest_id dev (set_tag tag (set_requester_id (mkId 0 0 0) (set_fmt_type (if wr then TLP_CFG_WRITE_1 else TLP_CFG_READ_1) tlp0))).

(** tb/pcie.py:1873-1881, 3864-3872: the completion of an I/O read. *)
Definition io_take (c : option tlp) : result (list Z) :=
  match c with
  | None => Err (PyException 1874)
  | Some c =>
    if negb (t_status c =? CPL_STATUS_SC) then Err (PyException 1876) else
    if negb (t_length c =? 1) then Err AssertionError else
    let! w := py_index (t_data c) 0 in pack_u32 w
  end.

(** tb/pcie.py:1941-1945, 3932-3936: the completion of an I/O write. *)
Definition io_takew (c : option tlp) : result unit :=
  match c with
  | None => Err (PyException 1942)
  | Some c => if negb (t_status c =? CPL_STATUS_SC) then Err (PyException 1944) else Ok tt
  end.

(** tb/pcie.py:3667-3671: the completion of a configuration read; all ones when
    it is missing or unsuccessful. *)
Definition cfg_take (c : option tlp) : result (list Z) :=
  match c with
  | None => Ok [0xff; 0xff; 0xff; 0xff]
  | Some c =>
    if negb (t_status c =? CPL_STATUS_SC) then Ok [0xff; 0xff; 0xff; 0xff] else
    if negb (t_length c =? 1) then Err AssertionError else
    let! w := py_index (t_data c) 0 in pack_u32 w
  end.

(** tb/pcie.py:3729: [config_write] ignores the completion. *)
Definition cfg_takew (c : option tlp) : result unit := Ok tt.

(** tb/pcie.py:1854-1888 [Function.io_read]; None when bus mastering is off. *)
Definition function_io_read {S} (bus_master_enable ext : bool) (rid : pcie_id) (serve : S -> tlp -> result (S * list tlp))
    (st : S) (s : rqstate) (addr len : Z) : result (S * rqstate * option (list Z) * list tlp) :=
  if negb bus_master_enable then Ok (st, s, None, []) else
  let! r := np_read_loop (Z.to_nat len) ext (io_req false rid) (fun _ t => t) io_take serve st s addr len 0 [] in
  Ok (fst (fst (fst r)), snd (fst (fst r)), Some (slice (snd (fst r)) 0 len), snd r).

(** tb/pcie.py:1922-1948 [Function.io_write]. *)
Definition function_io_write {S} (bus_master_enable ext : bool) (rid : pcie_id) (serve : S -> tlp -> result (S * list tlp))
    (st : S) (s : rqstate) (addr : Z) (data : list Z) : result (S * rqstate * list tlp) :=
  if negb bus_master_enable then Ok (st, s, []) else
  np_write_loop (length data) ext (io_req true rid) (fun _ t => t) io_takew serve st s addr data 0.

(** tb/pcie.py:3348-3359 [read_io_region] (mmap case); [find_io_region] (3316-3320)
    is [find_region] on the I/O regions. *)
Definition rc_read_io_region (ios : list region) (addr len : Z) : result (list Z) :=
  match find_region ios addr with
  | None => Err (PyException 3351)
  | Some (_, r) => let offset := addr - r_base r in Ok (slice (r_mem r) offset (offset + len))
  end.

(** tb/pcie.py:3361-3372 [write_io_region] (mmap case). *)
Definition rc_write_io_region (ios : list region) (addr : Z) (data : list Z) : result (list region) :=
  match find_region ios addr with
  | None => Err (PyException 3364)
  | Some (i, r) =>
    let! m := mmap_set (r_mem r) (addr - r_base r) data in
    Ok (set_nth ios i (mkRegion (r_base r) (r_size r) m))
  end.

(** tb/pcie.py:3845-3879 [RootComplex.io_read]: line 3849 tests [find_region],
    i.e. the memory regions [rs], before reading the I/O region. *)
Definition rc_io_read {S} (rs ios : list region) (serve : S -> tlp -> result (S * list tlp))
    (st : S) (s : rqstate) (addr len : Z) : result (S * rqstate * list Z * list tlp) :=
  match find_region rs addr with
  | Some _ => let! d := rc_read_io_region ios addr len in Ok (st, s, d, [])
  | None =>
    let! r := np_read_loop (Z.to_nat len) false (io_req false (mkId 0 0 0)) (fun _ t => t) io_take serve st s addr len 0 [] in
    Ok (fst (fst r), slice (snd (fst r)) 0 len, snd r)
  end.

(** tb/pcie.py:3913-3939 [RootComplex.io_write]. *)
Definition rc_io_write {S} (rs ios : list region) (serve : S -> tlp -> result (S * list tlp))
    (st : S) (s : rqstate) (addr : Z) (data : list Z) : result (list region * S * rqstate * list tlp) :=
  match find_region rs addr with
  | Some _ => let! ios := rc_write_io_region ios addr data in Ok (ios, st, s, [])
  | None =>
    let! r := np_write_loop (length data) false (io_req true (mkId 0 0 0)) (fun _ t => t) io_takew serve st s addr data 0 in
    Ok (ios, fst (fst r), snd (fst r), snd r)
  end.

(** tb/pcie.py:3647-3678 [config_read]. *)
Definition config_read {S} (dev : pcie_id) (serve : S -> tlp -> result (S * list tlp))
    (st : S) (s : rqstate) (addr len : Z) : result (S * rqstate * list Z * list tlp) :=
  let! r := np_read_loop (Z.to_nat len) false (cfg_req false dev) (fun a t => set_register_number (Z.shiftr a 2) t) cfg_take serve st s addr len 0 [] in
  Ok (fst (fst r), slice (snd (fst r)) 0 len, snd r).

(** tb/pcie.py:3712-3732 [config_write]. *)
Definition config_write {S} (dev : pcie_id) (serve : S -> tlp -> result (S * list tlp))
    (st : S) (s : rqstate) (addr : Z) (data : list Z) : result (S * rqstate * list tlp) :=
  np_write_loop (length data) false (cfg_req true dev) (fun a t => set_register_number (Z.shiftr a 2) t) cfg_takew serve st s addr data 0.

(** ---- the handlers ---- *)

(** tb/pcie.py:2275-2294 and 3438-3457: the byte-enable scan of an I/O read.
    be_dword hands each run [start_offset, offset) to its callback together with
    that slice of a 4-byte buffer; [rd so n] is read_region at [addr+so]. *)
Definition io_scan (rd : Z -> Z -> result (list Z)) (mask : Z) : result (list Z) :=
  let step := fun data so d =>
    let! r := rd so (zlen d) in Ok (firstn (Z.to_nat so) data ++ r ++ skipn (Z.to_nat (so + zlen d)) data) in
  let! st := be_dword step (zeros 4) mask (0, None, zeros 4) in
  be_flush step (zeros 4) st.

(** tb/pcie.py:2266-2302 and 3432-3465: the successful answer to an I/O read. *)
Definition io_read_answer (completer : pcie_id) (rd : Z -> Z -> result (list Z)) (t : tlp) : result (list tlp) :=
  if negb (t_length t =? 1) then Err AssertionError else
  let cpl := set_completion_data t completer tlp0 in
  let! data := io_scan rd (t_first_be t) in
  let! cpl := set_data_bytes data cpl in
  let! c := send (set_length 1 (set_byte_count 4 cpl)) in
  Ok [c].

(** tb/pcie.py:2319-2350 and 3482-3514: the successful answer to an I/O write;
    [wr] is write_region at an offset from the request address. *)
Definition io_write_answer {S} (completer : pcie_id) (wr : S -> Z -> list Z -> result S) (t : tlp) (s : S) : result (S * list tlp) :=
  if negb (t_length t =? 1) then Err AssertionError else
  let cpl := set_completion t completer false CPL_STATUS_SC tlp0 in
  let! data := get_data t in
  let! st := be_dword wr data (t_first_be t) (0, None, s) in
  let! s := be_flush wr data st in
  let! c := send (set_byte_count 4 cpl) in
  Ok (s, [c]).

(** tb/pcie.py:2258-2311 [MemoryEndpoint.handle_io_read_tlp]. *)
Definition ep_handle_io_read (e : endpoint) (t : tlp) : result (list tlp) :=
  let! m := match_bar (ep_bars e) (t_address t) true in
  match m with
  | [(rg, addr)] => io_read_answer (ep_id e) (fun so n => ep_read_region (ep_regions e) rg (addr + so) n) t
  | _ => let! c := send (set_ur_completion t (ep_id e) tlp0) in Ok [c]
  end.

(** tb/pcie.py:2313-2362 [MemoryEndpoint.handle_io_write_tlp]. *)
Definition ep_handle_io_write (e : endpoint) (t : tlp) : result (endpoint * list tlp) :=
  let! m := match_bar (ep_bars e) (t_address t) true in
  match m with
  | [(rg, addr)] =>
    let! r := io_write_answer (ep_id e) (fun rs o d => ep_write_region rs rg (addr + o) d) t (ep_regions e) in
    Ok (set_regions e (fst r), snd r)
  | _ => let! c := send (set_ur_completion t (ep_id e) tlp0) in Ok (e, [c])
  end.

(** tb/pcie.py:1783-1800 [Function.upstream_recv]/[handle_tlp] for I/O requests. *)
Definition ep_serve_io (e : endpoint) (t : tlp) : result (endpoint * list tlp) :=
  if tlp_check t then
    if ft_in (t_fmt_type t) [TLP_IO_READ] then let! cs := ep_handle_io_read e t in Ok (e, cs)
    else if ft_in (t_fmt_type t) [TLP_IO_WRITE] then ep_handle_io_write e t
    else Err (PyException 1799)
  else Err AssertionError.

(** tb/pcie.py:3426-3476 [RootComplex.handle_io_read_tlp]. *)
Definition rc_handle_io_read (ios : list region) (t : tlp) : result (list tlp) :=
  match find_region ios (t_address t) with
  | Some _ => io_read_answer (mkId 0 0 0) (fun so n => rc_read_io_region ios (t_address t + so) n) t
  | None => let! c := send (set_ur_completion t (mkId 0 0 0) tlp0) in Ok [c]
  end.

(** tb/pcie.py:3478-3526 [RootComplex.handle_io_write_tlp]. *)
Definition rc_handle_io_write (ios : list region) (t : tlp) : result (list region * list tlp) :=
  match find_region ios (t_address t) with
  | Some _ => io_write_answer (mkId 0 0 0) (fun rs o d => rc_write_io_region rs (t_address t + o) d) t ios
  | None => let! c := send (set_ur_completion t (mkId 0 0 0) tlp0) in Ok (ios, [c])
  end.

(** tb/pcie.py:3385-3400 [RootComplex.downstream_recv]/[handle_tlp] for I/O requests. *)
Definition rc_serve_io (ios : list region) (t : tlp) : result (list region * list tlp) :=
  if tlp_check t then
    if ft_in (t_fmt_type t) [TLP_IO_READ] then let! cs := rc_handle_io_read ios t in Ok (ios, cs)
    else if ft_in (t_fmt_type t) [TLP_IO_WRITE] then rc_handle_io_write ios t
    else Err (PyException 1799)
  else Err AssertionError.

(** tb/pcie.py:1521-1524: what handle_config_0_tlp uses of a function: its
    numbers and its registers (an arbitrary state). *)
Record cfgfn (R : Type) := mkFn { fn_bus : Z; fn_dev : Z; fn_func : Z; fn_regs : R }.
Arguments mkFn {R} _ _ _ _.
Arguments fn_bus {R} _.
Arguments fn_dev {R} _.
Arguments fn_func {R} _.
Arguments fn_regs {R} _.

(** tb/pcie.py:1826-1852 [handle_config_0_tlp]: [rd] and [wr] are
    read_config_register and write_config_register of the function (1588-1694 and
    their overrides; arbitrary here).  Any other fmt_type leaves the empty
    completion [TLP()], which is sent. *)
Definition fn_handle_config_0 {R} (rd : R -> Z -> result Z) (wr : R -> Z -> Z -> Z -> result R) (f : cfgfn R) (t : tlp) : result (cfgfn R * list tlp) :=
  if (id_device (t_dest_id t) =? fn_dev f) && (id_function (t_dest_id t) =? fn_func f) then
    let bus := id_bus (t_dest_id t) in
    let id := mkId bus (fn_dev f) (fn_func f) in
    if ft_in (t_fmt_type t) [TLP_CFG_READ_0] then
      let! w := rd (fn_regs f) (t_register_number t) in
      let! c := send (set_length 1 (set_byte_count 4 (set_data [w] (set_completion_data t id tlp0)))) in
      Ok (mkFn bus (fn_dev f) (fn_func f) (fn_regs f), [c])
    else if ft_in (t_fmt_type t) [TLP_CFG_WRITE_0] then
      let! w := py_index (t_data t) 0 in
      let! regs := wr (fn_regs f) (t_register_number t) w (t_first_be t) in
      let! c := send (set_completion t id false CPL_STATUS_SC tlp0) in
      Ok (mkFn bus (fn_dev f) (fn_func f) regs, [c])
    else let! c := send tlp0 in Ok (mkFn bus (fn_dev f) (fn_func f) (fn_regs f), [c])
  else Ok (f, []).

(** tb/pcie.py:2625-2633: the bridge owning the bus of the target turns a type 1
    configuration request into a type 0 one. *)
Definition to_type_0 (t : tlp) : tlp :=
  if ft_in (t_fmt_type t) [TLP_CFG_READ_1] then set_fmt_type TLP_CFG_READ_0 t
  else if ft_in (t_fmt_type t) [TLP_CFG_WRITE_1] then set_fmt_type TLP_CFG_WRITE_0 t
  else t.

(** tb/pcie.py:2616-2634, 1783-1800, 1570-1571: a configuration request of the root
    complex at the function whose bus it names.  Routing to that bus is not part
    of this file (RouteModel). *)
Definition fn_serve_cfg {R} (rd : R -> Z -> result Z) (wr : R -> Z -> Z -> Z -> result R) (f : cfgfn R) (t : tlp) : result (cfgfn R * list tlp) :=
  let t := to_type_0 t in
  if tlp_check t then
    if ft_in (t_fmt_type t) [TLP_CFG_READ_0; TLP_CFG_WRITE_0] then fn_handle_config_0 rd wr f t else Err (PyException 1799)
  else Err AssertionError.

(** tb/pcie.py:3845, 3913, 1854, 1922: an I/O operation issued by a test. *)
Inductive ioop := IoWrite (addr : Z) (data : list Z) | IoRead (addr len : Z).

(** tb/pcie.py:3845-3939: one operation of the root complex against a directly
    connected endpoint (2660-2671 forwards I/O requests unchanged). *)
Definition rc_exec_io (rs ios : list region) (st : endpoint * rqstate) (o : ioop) : result (endpoint * rqstate * list Z) :=
  match o with
  | IoWrite addr data => let! r := rc_io_write rs ios ep_serve_io (fst st) (snd st) addr data in Ok (snd (fst (fst r)), snd (fst r), [])
  | IoRead addr len => let! r := rc_io_read rs ios ep_serve_io (fst st) (snd st) addr len in Ok (fst r)
  end.

(** tb/pcie.py:3845-3939: operations one after the other; the data returned by each. *)
Fixpoint rc_exec_ios (rs ios : list region) (st : endpoint * rqstate) (ops : list ioop) : result (endpoint * rqstate * list (list Z)) :=
  match ops with
  | [] => Ok (st, [])
  | o :: ops =>
    let! r := rc_exec_io rs ios st o in
    let! rr := rc_exec_ios rs ios (fst r) ops in
    Ok (fst rr, snd r :: snd rr)
  end.

(** tb/pcie.py:1854-1948: one operation of a function against the root complex;
    None when bus mastering is off. *)
Definition fn_exec_io (bme ext : bool) (rid : pcie_id) (st : list region * rqstate) (o : ioop) : result (list region * rqstate * option (list Z)) :=
  match o with
  | IoWrite addr data => let! r := function_io_write bme ext rid rc_serve_io (fst st) (snd st) addr data in Ok (fst r, Some [])
  | IoRead addr len => let! r := function_io_read bme ext rid rc_serve_io (fst st) (snd st) addr len in Ok (fst r)
  end.

(** tb/pcie.py:1854-1948: operations one after the other. *)
Fixpoint fn_exec_ios (bme ext : bool) (rid : pcie_id) (st : list region * rqstate) (ops : list ioop) : result (list region * rqstate * list (option (list Z))) :=
  match ops with
  | [] => Ok (st, [])
  | o :: ops =>
    let! r := fn_exec_io bme ext rid st o in
    let! rr := fn_exec_ios bme ext rid (fst r) ops in
    Ok (fst rr, snd r :: snd rr)
  end.

(** ---- word-sized helpers ---- *)

(** tb/pcie.py:1894-1896, 2034-2036, 3684-3686, 3777-3779, 4025-4027:
    [for k in range(count): words.append(int.from_bytes(data[ws*k:ws*(k+1)], 'little'))]. *)
Definition words_of_bytes (ws count : Z) (data : list Z) : list Z :=
  map (fun k => le_val (slice data (ws * Z.of_nat k) (ws * (Z.of_nat k + 1)))) (seq 0 (Z.to_nat count)).

(** tb/pcie.py:1954-1955, 2093-2094, 3738-3739, 3818-3819, 4086-4087:
    [for w in words: data += w.to_bytes(ws, 'little')]; OverflowError when a word
    does not fit. *)
Fixpoint bytes_of_words (ws : Z) (words : list Z) : result (list Z) :=
  match words with
  | [] => Ok []
  | w :: r =>
    if (0 <=? w) && (w <? 2 ^ (8 * ws)) then let! d := bytes_of_words ws r in Ok (le_bytes (Z.to_nat ws) w ++ d)
    else Err OverflowError
  end.

(** tb/pcie.py:1891, 2031 etc.: [assert ws in (1, 2, 4, 8)]. *)
Definition ws_ok (ws : Z) : bool := (ws =? 1) || (ws =? 2) || (ws =? 4) || (ws =? 8).

(** tb/pcie.py:3680-3687, 3773-3780, 4021-4028 (and 2030-2037 with bus mastering
    on): [X_read_words]; [read] is the byte function on a length, returning some
    context and the data. *)
Definition read_words {A} (read : Z -> result (A * list Z)) (ws count : Z) : result (A * list Z) :=
  if ws_ok ws then let! r := read (count * ws) in Ok (fst r, words_of_bytes ws count (snd r)) else Err AssertionError.

(** tb/pcie.py:2089-2095, 3734-3740, 3814-3820, 4082-4088: [X_write_words]. *)
Definition write_words {A} (write : list Z -> result A) (ws : Z) (words : list Z) : result A :=
  if ws_ok ws then let! d := bytes_of_words ws words in write d else Err AssertionError.

(** tb/pcie.py:2047-2049, 3697-3699 etc.: [X_read_byte]: one byte, [data[0]]. *)
Definition read_byte {A} (read : Z -> result (A * list Z)) : result (A * Z) :=
  let! r := read 1 in let! b := py_index (snd r) 0 in Ok (fst r, b).

(** tb/pcie.py:2051-2061, 3701-3711 etc.: [X_read_word], [_dword], [_qword] for
    [ws] 2, 4, 8. *)
Definition read_word {A} (read : Z -> result (A * list Z)) (ws : Z) : result (A * Z) :=
  let! r := read_words read ws 1 in let! w := py_index (snd r) 0 in Ok (fst r, w).

(** tb/pcie.py:2106-2116, 3751-3758 etc.: [X_write_word], [_dword], [_qword]. *)
Definition write_word {A} (write : list Z -> result A) (ws w : Z) : result A := write_words write ws [w].

(** A Python argument that is a bytes object or a list of integers; tb/pcie.py:2104,
    3749, 3834, 4097 pass the list [[data]]. *)
Inductive pybuf := PBytes (l : list Z) | PList (l : list Z).

(** tb/pcie.py:491 [bytearray(first_pad)+data+bytearray(last_pad)] and the slice
    assignments to an mmap of lines 3340 and 3367: all raise TypeError for a list. *)
Definition buf_bytes (b : pybuf) : result (list Z) :=
  match b with PBytes l => Ok l | PList _ => Err TypeError end.

(** tb/pcie.py:2103-2104, 3748-3749, 3833-3834, 4096-4097: [X_write_byte]; the
    byte function reaches one of the expressions of [buf_bytes] because the data is
    not empty (for a Function: with bus mastering on). *)
Definition write_byte {A} (write : list Z -> result A) (b : Z) : result A :=
  let! d := buf_bytes (PList [b]) in write d.

(** A Python call passing [n] positional arguments to a method that takes from
    [lo] to [hi] of them (tb/pcie.py:1854, 1922, 3845, 3913 take addr, length or
    data, and optionally timeout). *)
Definition py_call {A} (lo hi n : Z) (r : result A) : result A :=
  if (lo <=? n) && (n <=? hi) then r else Err TypeError.

(** tb/pcie.py:1890-1896 and 3881-3887 [io_read_words]: io_read is called with
    addr, count*ws, timeout, attr, tc. *)
Definition io_read_words {A} (read : Z -> result (A * list Z)) (ws count : Z) : result (A * list Z) :=
  if ws_ok ws then let! r := py_call 2 3 5 (read (count * ws)) in Ok (fst r, words_of_bytes ws count (snd r)) else Err AssertionError.

(** tb/pcie.py:1950-1956 and 3941-3947 [io_write_words]. *)
Definition io_write_words {A} (write : list Z -> result A) (ws : Z) (words : list Z) : result A :=
  if ws_ok ws then let! d := bytes_of_words ws words in py_call 2 3 5 (write d) else Err AssertionError.

(** tb/pcie.py:1906-1908, 3897-3899 [io_read_byte]. *)
Definition io_read_byte {A} (read : Z -> result (A * list Z)) : result (A * Z) :=
  let! r := py_call 2 3 5 (read 1) in let! b := py_index (snd r) 0 in Ok (fst r, b).

(** tb/pcie.py:1964-1965, 3955-3956 [io_write_byte]. *)
Definition io_write_byte {A} (write : list Z -> result A) (b : Z) : result A :=
  py_call 2 3 5 (let! d := buf_bytes (PList [b]) in write d).

(** ---- capability accesses ---- *)

(** tb/pcie.py:3158-3162 [TreeItem.get_capability_offset]: [capabilities] is a
    list of (id, offset). *)
Fixpoint get_capability_offset (caps : list (Z * Z)) (cap_id : Z) : option Z :=
  match caps with
  | [] => None
  | c :: r => if fst c =? cap_id then Some (snd c) else get_capability_offset r cap_id
  end.

(** tb/pcie.py:3760-3771, 3801-3812: the address of a capability access; [ti] is
    the result of [self.tree.find_dev(dev)]: None or the capabilities of the
    device.  [not offset] also holds for offset 0. *)
Definition capability_addr (ti : option (list (Z * Z))) (cap_id addr : Z) : result Z :=
  match ti with
  | None => Err (PyException 3764)
  | Some caps =>
    match get_capability_offset caps cap_id with
    | None => Err (PyException 3769)
    | Some o => if o =? 0 then Err (PyException 3769) else Ok (addr + o)
    end
  end.

(** tb/pcie.py:3760-3772 [capability_read]. *)
Definition capability_read {S} (ti : option (list (Z * Z))) (dev : pcie_id) (serve : S -> tlp -> result (S * list tlp))
    (st : S) (s : rqstate) (cap_id addr len : Z) : result (S * rqstate * list Z * list tlp) :=
  let! a := capability_addr ti cap_id addr in config_read dev serve st s a len.

(** tb/pcie.py:3801-3812 [capability_write]. *)
Definition capability_write {S} (ti : option (list (Z * Z))) (dev : pcie_id) (serve : S -> tlp -> result (S * list tlp))
    (st : S) (s : rqstate) (cap_id addr : Z) (data : list Z) : result (S * rqstate * list tlp) :=
  let! a := capability_addr ti cap_id addr in config_write dev serve st s a data.

(** ---- regions served by callbacks ---- *)

(** tb/pcie.py:3282-3308: an entry of [regions] or [io_regions]: memory, or a pair
    of callbacks.  [rd] gives the value the read callback returns; calls of the
    write callback are recorded in [log]. *)
Inductive anyregion :=
| RMem (base size : Z) (mem : list Z)
| RCb (base size : Z) (rd : Z -> Z -> list Z) (log : list (Z * list Z)).

(** tb/pcie.py:3312, 3318: [region[0]] and [region[1]]. *)
Definition any_base (r : anyregion) : Z := match r with RMem b _ _ => b | RCb b _ _ _ => b end.
(** tb/pcie.py:3312, 3318: [region[1]]. *)
Definition any_size (r : anyregion) : Z := match r with RMem _ n _ => n | RCb _ n _ _ => n end.

(** tb/pcie.py:3310-3320 [find_region], [find_io_region]. *)
Fixpoint any_find (rs : list anyregion) (addr : Z) : option (nat * anyregion) :=
  match rs with
  | [] => None
  | r :: rs' => if (any_base r <=? addr) && (addr <? any_base r + any_size r) then Some (O, r)
                else match any_find rs' addr with Some (i, x) => Some (Datatypes.S i, x) | None => None end
  end.

(** tb/pcie.py:3322-3332 [read_region]: the callback's value is dropped, the
    method then ends and returns None. *)
Definition any_read (rs : list anyregion) (addr len : Z) : result (option (list Z)) :=
  match any_find rs addr with
  | None => Err (PyException 3325)
  | Some (_, RMem b _ m) => let offset := addr - b in Ok (Some (slice m offset (offset + len)))
  | Some (_, RCb b _ rd _) => let _ := rd (addr - b) len in Ok None
  end.

(** tb/pcie.py:3334-3346 [write_region] and 3361-3372 [write_io_region]. *)
Definition any_write (rs : list anyregion) (addr : Z) (data : list Z) : result (list anyregion) :=
  match any_find rs addr with
  | None => Err (PyException 3337)
  | Some (i, RMem b n m) => let! m := mmap_set m (addr - b) data in Ok (set_nth rs i (RMem b n m))
  | Some (i, RCb b n rd log) => Ok (set_nth rs i (RCb b n rd (log ++ [(addr - b, data)])))
  end.

(** tb/pcie.py:3348-3359 [read_io_region]: the callback is called with [data],
    a name that is not defined there. *)
Definition any_read_io (rs : list anyregion) (addr len : Z) : result (option (list Z)) :=
  match any_find rs addr with
  | None => Err (PyException 3351)
  | Some (_, RMem b _ m) => let offset := addr - b in Ok (Some (slice m offset (offset + len)))
  | Some (_, RCb _ _ _ _) => Err NameError
  end.

(** tb/pcie.py:3528-3584 [RootComplex.handle_mem_read_tlp] over such regions: with
    [data] None the slice [data[m*4:...]] of line 3565 raises TypeError. *)
Definition any_handle_mem_read (rs : list anyregion) (mps : Z) (t : tlp) : result (list tlp) :=
  match any_find rs (t_address t) with
  | Some _ =>
    if t_length t * 4 >? 0x1000 - Z.land (t_address t) 0xfff then Ok [] else
    let! data := any_read rs (t_address t) (t_length t * 4) in
    match data with
    | Some data => complete_read t (mkId 0 0 0) mps data
    | None => if 0 <? t_length t then (if mps <? 0 then Err ValueError else Err TypeError) else Ok []
    end
  | None => let! c := send (set_ur_completion t (mkId 0 0 0) tlp0) in Ok [c]
  end.
