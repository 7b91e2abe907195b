(** Model of the device containers: Device (tb/pcie.py) and UltrascalePCIe
    (tb/pcie_us.py).  Logging is left out; [yield from] of a send is the value
    sent. *)
From Verif Require Import PyBase TlpModel BarModel RouteModel UsModel.

(** tb/pcie.py:1536-1590, 2119-2135: the parts of a function that its device uses. *)
Record fn := mkFn { fn_num : Z; fn_bus : Z; fn_hdr : Z; fn_bars : bars; fn_bme : bool; fn_rcb : bool; fn_int_dis : bool;
                    fn_msi_en : bool; fn_mme : Z; fn_msix_en : bool; fn_msix_mask : bool }.
(** tb/pcie.py:2924-2933: a device. *)
Record dev := mkDev { dv_bus : Z; dv_num : Z; dv_fns : list fn }.

(** tb/pcie.py:2989-2990: [f.bus_num = self.bus_num]. *)
Definition set_fn_bus (b : Z) (f : fn) : fn :=
  mkFn (fn_num f) b (fn_hdr f) (fn_bars f) (fn_bme f) (fn_rcb f) (fn_int_dis f) (fn_msi_en f) (fn_mme f) (fn_msix_en f) (fn_msix_mask f).
(** tb/pcie.py:2965: [f.header_type |= 0x80]. *)
Definition set_multi (f : fn) : fn :=
  mkFn (fn_num f) (fn_bus f) (Z.lor (fn_hdr f) 0x80) (fn_bars f) (fn_bme f) (fn_rcb f) (fn_int_dis f) (fn_msi_en f) (fn_mme f) (fn_msix_en f) (fn_msix_mask f).
(** tb/pcie.py:2969: [function.function_num = n]. *)
Definition set_fn_num (n : Z) (f : fn) : fn :=
  mkFn n (fn_bus f) (fn_hdr f) (fn_bars f) (fn_bme f) (fn_rcb f) (fn_int_dis f) (fn_msi_en f) (fn_mme f) (fn_msix_en f) (fn_msix_mask f).

(** tb/pcie.py:2993-2996, 3014-3017: the first function with the given number. *)
Fixpoint find_num (n : Z) (k : nat) (l : list fn) : option nat :=
  match l with
  | [] => None
  | f :: r => if fn_num f =? n then Some k else find_num n (S k) r
  end.

(** tb/pcie.py:3025-3028, 3042-3045: the first function one of whose BARs matches. *)
Fixpoint find_bar (a : Z) (io : bool) (k : nat) (l : list fn) : result (option nat) :=
  match l with
  | [] => Ok None
  | f :: r => let! m := match_bar (fn_bars f) a io in
              match m with [] => find_bar a io (S k) r | _ => Ok (Some k) end
  end.

(** tb/pcie.py:2978-3057: what a device does with a TLP from upstream: pass it to
    its [k]-th function, answer with a completion, or drop it. *)
Inductive dev_out := DFn (k : nat) | DReply (c : tlp) | DDrop.

(** tb/pcie.py:3003-3008, 3032-3037, 3050-3055: the answer to a request nobody claims. *)
Definition ur_reply (bus num : Z) (t : tlp) : tlp := set_ur_completion t (mkId bus num 0) tlp0.

(** tb/pcie.py:2978-3057 [Device.upstream_recv]. *)
Definition dev_recv (d : dev) (t : tlp) : result (dev * dev_out) :=
  if negb (tlp_check t) then Err AssertionError
  else if is_cfg0 t then
    let id := t_dest_id t in
    if id_device id =? dv_num d then
      let d' := mkDev (id_bus id) (dv_num d) (map (set_fn_bus (id_bus id)) (dv_fns d)) in
      match find_num (id_function id) 0 (dv_fns d') with
      | Some k => Ok (d', DFn k)
      | None => Ok (d', DReply (ur_reply (dv_bus d') (dv_num d') t))
      end
    else Ok (d, DReply (ur_reply (dv_bus d) (dv_num d) t))
  else if is_cpl t then
    let id := t_requester_id t in
    if (id_bus id =? dv_bus d) && (id_device id =? dv_num d) then
      match find_num (id_function id) 0 (dv_fns d) with
      | Some k => Ok (d, DFn k)
      | None => Ok (d, DDrop)
      end
    else Ok (d, DDrop)
  else if is_io t then
    let! m := find_bar (t_address t) true 0 (dv_fns d) in
    match m with
    | Some k => Ok (d, DFn k)
    | None => Ok (d, DReply (ur_reply (dv_bus d) (dv_num d) t))
    end
  else if is_mem t then
    let! m := find_bar (t_address t) false 0 (dv_fns d) in
    match m with
    | Some k => Ok (d, DFn k)
    | None => if ft_in (t_fmt_type t) [TLP_MEM_READ; TLP_MEM_READ_64]
              then Ok (d, DReply (ur_reply (dv_bus d) (dv_num d) t)) else Ok (d, DDrop)
    end
  else Err (PyException 3057).

(** Function numbers. *)

(** tb/pcie.py:2946, 2962 [functions.sort(key=function_num)]: insertion into a
    list already sorted (Python's sort is stable). *)
Fixpoint insert_fn (f : fn) (l : list fn) : list fn :=
  match l with
  | [] => [f]
  | g :: r => if fn_num f <? fn_num g then f :: g :: r else g :: insert_fn f r
  end.
(** tb/pcie.py:2946, 2962: the whole sort. *)
Definition sort_fns (l : list fn) : list fn := fold_left (fun acc f => insert_fn f acc) l [].

(** tb/pcie.py:2949-2951 [for x in range(len(self.functions))]: the first gap. *)
Fixpoint first_gap (x : Z) (l : list fn) : option Z :=
  match l with
  | [] => None
  | f :: r => if fn_num f =? x then first_gap (x + 1) r else Some x
  end.

(** tb/pcie.py:2945-2954 [next_free_function_number] on the sorted list. *)
Definition next_free (l : list fn) : option Z :=
  match l with
  | [] => Some 0
  | _ => match first_gap 0 l with
         | Some x => Some x
         | None => if zlen l <? 8 then Some (zlen l) else None
         end
  end.

(** tb/pcie.py:2956-2966 [add_function]. *)
Definition add_function (l : list fn) (f : fn) : result (list fn) :=
  if existsb (fun g => fn_num g =? fn_num f) l then Err (PyException 2959)
  else
    let l' := sort_fns (l ++ [f]) in
    Ok (if zlen l' >? 1 then map set_multi l' else l').

(** tb/pcie.py:2968-2970 [append_function].  When no number is free the function
    gets the number None, and sorting it among integers raises TypeError. *)
Definition append_function (l : list fn) (f : fn) : result (list fn) :=
  let l := sort_fns l in
  match next_free l with
  | Some n => add_function l (set_fn_num n f)
  | None => Err TypeError
  end.

(** tb/pcie.py:2956-2970: calls of [add_function] and [append_function] in turn. *)
Inductive fn_op := AddFn (f : fn) | AppendFn (f : fn).
(** tb/pcie.py:2956-2970: one call. *)
Definition fn_op_step (l : list fn) (o : fn_op) : result (list fn) :=
  match o with AddFn f => add_function l f | AppendFn f => append_function l f end.
(** tb/pcie.py:2956-2970: calls in turn. *)
Fixpoint fn_ops (l : list fn) (os : list fn_op) : result (list fn) :=
  match os with
  | [] => Ok l
  | o :: r => let! l' := fn_op_step l o in fn_ops l' r
  end.

(** UltrascalePCIe. *)

(** tb/pcie_us.py:1853-1855, 1877-1879: the first function with exactly one matching BAR. *)
Fixpoint find_bar1 (a : Z) (io : bool) (k : nat) (l : list fn) : result (option (nat * Z)) :=
  match l with
  | [] => Ok None
  | f :: r => let! m := match_bar (fn_bars f) a io in
              match m with [(i, _)] => Ok (Some (k, i)) | _ => find_bar1 a io (S k) r end
  end.

(** tb/pcie_us.py:1859, 1886 [int(math.log2((~mask & 0xffffffff) + 1))].
    Simplification: the logarithm is exact. *)
Definition aperture32 (mask : Z) : Z := Z.log2 (Z.land (Z.lnot mask) 0xffffffff + 1).
(** tb/pcie_us.py:1884: the same for a 64-bit BAR. *)
Definition aperture64 (lo hi : Z) : Z := Z.log2 (Z.land (Z.lnot (Z.lor lo (Z.shiftl hi 32))) 0xffffffffffffffff + 1).

(** tb/pcie_us.py:1859: aperture reported for an I/O request, read from function 0. *)
Definition io_aperture (fns : list fn) (i : Z) : result Z :=
  let! f0 := py_index fns 0 in
  let! m := py_index (b_mask (fn_bars f0)) i in
  Ok (aperture32 m).
(** tb/pcie_us.py:1883-1886: for a memory request, read from function 0. *)
Definition mem_aperture (fns : list fn) (i : Z) : result Z :=
  let! f0 := py_index fns 0 in
  let! v := py_index (b_bar (fn_bars f0)) i in
  let! m := py_index (b_mask (fn_bars f0)) i in
  if negb (Z.land v 4 =? 0) then
    let! h := py_index (b_mask (fn_bars f0)) (i + 1) in
    Ok (aperture64 m h)
  else Ok (aperture32 m).

(** tb/pcie_us.py:1789-1902: outcomes: to the configuration space of function
    [k], answered, dropped, queued for the CQ interface or for the RC interface. *)
Inductive us_out := UFn (k : nat) | UReply (c : tlp) | UDrop | UCq (u : tlp_us) | URc (u : tlp_us).

(** tb/pcie_us.py:120-138 [TLP_us(tlp)] with the assignments of 1857-1860, 1881-1887. *)
Definition us_request (t : tlp) (d : dev) (k : nat) (i ap : Z) : tlp_us :=
  let num := match nth_error (dv_fns d) k with Some f => fn_num f | None => 0 end in
  mkUs (set_completer_id (mkId (dv_bus d) (dv_num d) num) (tlp_copy t)) i ap false false false 0 0.

(** tb/pcie_us.py:1836-1843: a completion for the RC interface.  The error of a
    bad status is assigned to an attribute [error] that nothing reads. *)
Definition us_completion (t : tlp) : tlp_us := mkUs (tlp_copy t) 0 0 false false false 0 0.

(** tb/pcie_us.py:1789-1902 [UltrascalePCIe.upstream_recv]; [en] is
    [config_space_enable]. *)
Definition us_recv (d : dev) (en : bool) (t : tlp) : result (dev * us_out) :=
  if is_cfg0 t then
    let id := t_dest_id t in
    if negb en then Ok (d, UReply (set_crs_completion t (mkId (dv_bus d) (dv_num d) 0) tlp0))
    else if id_device id =? dv_num d then
      let d' := mkDev (id_bus id) (dv_num d) (map (set_fn_bus (id_bus id)) (dv_fns d)) in
      match find_num (id_function id) 0 (dv_fns d') with
      | Some k => Ok (d', UFn k)
      | None => Ok (d', UReply (ur_reply (dv_bus d') (dv_num d') t))
      end
    else Ok (d, UReply (ur_reply (dv_bus d) (dv_num d) t))
  else if is_cpl t then
    let id := t_requester_id t in
    if (id_bus id =? dv_bus d) && (id_device id =? dv_num d) then
      match find_num (id_function id) 0 (dv_fns d) with
      | Some _ => Ok (d, URc (us_completion t))
      | None => Ok (d, UDrop)
      end
    else Ok (d, UDrop)
  else if is_io t then
    let! m := find_bar1 (t_address t) true 0 (dv_fns d) in
    match m with
    | Some (k, i) => let! ap := io_aperture (dv_fns d) i in Ok (d, UCq (us_request t d k i ap))
    | None => Ok (d, UReply (ur_reply (dv_bus d) (dv_num d) t))
    end
  else if is_mem t then
    let! m := find_bar1 (t_address t) false 0 (dv_fns d) in
    match m with
    | Some (k, i) => let! ap := mem_aperture (dv_fns d) i in Ok (d, UCq (us_request t d k i ap))
    | None => if ft_in (t_fmt_type t) [TLP_MEM_READ; TLP_MEM_READ_64]
              then Ok (d, UReply (ur_reply (dv_bus d) (dv_num d) t)) else Ok (d, UDrop)
    end
  else Err (PyException 1902).

(** tb/pcie_us.py:2450-2451: requests that need a credit. *)
Definition needs_credit (u : tlp_us) : bool :=
  ft_in (t_fmt_type (u_tlp u)) [TLP_IO_READ; TLP_IO_WRITE; TLP_MEM_READ; TLP_MEM_READ_64].

(** tb/pcie_us.py:2441-2444 [while self.cq_np_queue and self.cq_np_req_count > 0]:
    requests sent, requests left, credits left. *)
Fixpoint drain_np (q : list tlp_us) (cnt : Z) : list tlp_us * list tlp_us * Z :=
  match q with
  | x :: r => if cnt >? 0 then let '(s, q', c) := drain_np r (cnt - 1) in (x :: s, q', c) else ([], q, cnt)
  | [] => ([], [], cnt)
  end.

(** tb/pcie_us.py:2447-2462 [while self.cq_queue]. *)
Fixpoint new_reqs (l npq : list tlp_us) (cnt : Z) : list tlp_us * list tlp_us * Z :=
  match l with
  | [] => ([], npq, cnt)
  | x :: r =>
    if needs_credit x then
      if cnt >? 0 then let '(s, q', c) := new_reqs r npq (cnt - 1) in (x :: s, q', c)
      else new_reqs r (npq ++ [x]) cnt
    else let '(s, q', c) := new_reqs r npq cnt in (x :: s, q', c)
  end.

(** tb/pcie_us.py:1772-1773: the waiting requests and the credit counter. *)
Record np_state := mkNp { np_queue : list tlp_us; np_cnt : Z }.
(** One edge: reset (active low in the code, here true when asserted), the credit
    request input (tb/pcie_us.py:2433-2437), and the requests that arrived on
    [cq_queue] since the edge before (tb/pcie_us.py:1861, 1888). *)
Record np_in := mkNpIn { ni_reset : bool; ni_req : bool; ni_arrive : list tlp_us }.

(** tb/pcie_us.py:2430-2464: one edge; the list is what is sent to the CQ source
    (packed by [pack_us_cq], C25). *)
Definition np_step (s : np_state) (i : np_in) : np_state * list tlp_us :=
  let cnt := if ni_reset i then 0
             else if ni_req i then (if np_cnt s <? 32 then np_cnt s + 1 else np_cnt s) else np_cnt s in
  let '(s1, q1, c1) := drain_np (np_queue s) cnt in
  let '(s2, q2, c2) := new_reqs (ni_arrive i) q1 c1 in
  (mkNp q2 c2, s1 ++ s2).

(** tb/pcie_us.py:2430: edges in turn; everything sent. *)
Fixpoint np_run (s : np_state) (l : list np_in) : np_state * list tlp_us :=
  match l with
  | [] => (s, [])
  | i :: r => let '(s', o) := np_step s i in let '(s'', o') := np_run s' r in (s'', o ++ o')
  end.

(** tb/pcie_us.py:2467-2476: a completion from user logic; [None] is dropped.  The send
    asserts [check] (tb/pcie.py:3062). *)
Definition cc_forward (d : dev) (u : tlp_us) : result (option tlp) :=
  let t := if u_completer_id_enable u then u_tlp u
           else set_completer_id (mkId (dv_bus d) (dv_num d) (id_function (t_completer_id (u_tlp u)))) (u_tlp u) in
  if u_discontinue u then Ok None else if tlp_check (tlp_copy t) then Ok (Some (tlp_copy t)) else Err AssertionError.

(** tb/pcie_us.py:2480-2492: a request from user logic: the TLP sent upstream and its
    sequence number, or nothing. *)
Definition rq_forward (d : dev) (u : tlp_us) : result (option (tlp * Z)) :=
  let t := if u_requester_id_enable u then u_tlp u
           else set_requester_id (mkId (dv_bus d) (dv_num d) (id_function (t_requester_id (u_tlp u)))) (u_tlp u) in
  if u_discontinue u then Ok None
  else
    let! f := py_index (dv_fns d) (id_function (t_requester_id t)) in
    if fn_bme f then
      if tlp_check (tlp_copy t) then Ok (Some (tlp_copy t, u_seq_num u)) else Err AssertionError
    else Ok None.

(** tb/pcie_us.py:2479-2494 [while not self.rq_sink.empty()]: the TLPs sent and the
    queue of sequence numbers. *)
Fixpoint rq_loop (d : dev) (l : list tlp_us) (sq : list Z) : result (list tlp * list Z) :=
  match l with
  | [] => Ok ([], sq)
  | u :: r =>
    let! o := rq_forward d u in
    match o with
    | Some (t, n) => let! (ts, sq') := rq_loop d r (sq ++ [n]) in Ok (t :: ts, sq')
    | None => rq_loop d r sq
    end
  end.

(** tb/pcie_us.py:2479-2500: one edge: TLPs sent, sequence number shown
    ([pcie_rq_seq_num_vld]), queue left. *)
Definition rq_step (d : dev) (sq : list Z) (l : list tlp_us) : result (list tlp * option Z * list Z) :=
  let! (ts, sq') := rq_loop d l sq in
  match sq' with [] => Ok (ts, None, []) | n :: r => Ok (ts, Some n, r) end.

(** tb/pcie_us.py:2430, 2479-2500: edges in turn. *)
Fixpoint rq_run (d : dev) (sq : list Z) (l : list (list tlp_us)) : result (list tlp * list Z * list Z) :=
  match l with
  | [] => Ok ([], [], sq)
  | i :: r =>
    let! (ts, o, sq') := rq_step d sq i in
    let! (ts', os, sq'') := rq_run d sq' r in
    Ok (ts ++ ts', (match o with Some n => [n] | None => [] end) ++ os, sq'')
  end.

(** tb/pcie_us.py:2553-2563: [cfg_function_status]. *)
Definition cfg_function_status (fns : list fn) : result Z :=
  let! f0 := py_index fns 0 in
  let st := Z.lor (if fn_bme f0 then 0x07 else 0) (if fn_int_dis f0 then 0x08 else 0) in
  match fns with
  | _ :: f1 :: _ => Ok (Z.lor (Z.lor st (if fn_bme f1 then 0x70 else 0)) (if fn_int_dis f1 then 0x80 else 0))
  | _ => Ok st
  end.
(** tb/pcie_us.py:2575-2581: [cfg_rcb_status]. *)
Definition cfg_rcb_status (fns : list fn) : result Z :=
  let! f0 := py_index fns 0 in
  let st := if fn_rcb f0 then 1 else 0 in
  match fns with
  | _ :: _ :: _ => Ok (Z.lor st (if fn_rcb f0 then 2 else 0))
  | _ => Ok st
  end.
(** tb/pcie_us.py:2713-2719: [cfg_interrupt_msi_enable]. *)
Definition cfg_msi_enable (fns : list fn) : result Z :=
  let! f0 := py_index fns 0 in
  let st := if fn_msi_en f0 then 1 else 0 in
  match fns with
  | _ :: f1 :: _ => Ok (Z.lor st (if fn_msi_en f1 then 2 else 0))
  | _ => Ok st
  end.
(** tb/pcie_us.py:2733-2737: [cfg_interrupt_msi_mmenable]. *)
Definition cfg_mmenable (fns : list fn) : result Z :=
  let! f0 := py_index fns 0 in
  let st := Z.land (fn_mme f0) 7 in
  match fns with
  | _ :: f1 :: _ => Ok (Z.lor st (Z.shiftl (Z.land (fn_mme f1) 7) 3))
  | _ => Ok st
  end.
(** tb/pcie_us.py:2753-2759: [cfg_interrupt_msix_enable]. *)
Definition cfg_msix_enable (fns : list fn) : result Z :=
  let! f0 := py_index fns 0 in
  let st := if fn_msix_en f0 then 1 else 0 in
  match fns with
  | _ :: f1 :: _ => Ok (Z.lor st (if fn_msix_en f1 then 2 else 0))
  | _ => Ok st
  end.
(** tb/pcie_us.py:2760-2766: [cfg_interrupt_msix_mask]. *)
Definition cfg_msix_mask (fns : list fn) : result Z :=
  let! f0 := py_index fns 0 in
  let st := if fn_msix_mask f0 then 1 else 0 in
  match fns with
  | _ :: f1 :: _ => Ok (Z.lor st (if fn_msix_mask f1 then 2 else 0))
  | _ => Ok st
  end.
