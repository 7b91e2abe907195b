(** Model of TLP routing by bridges and switches (Bridge, SwitchUpstreamPort,
    Device in /repo/tb/pcie.py). *)
From Verif Require Import PyBase TlpModel BarModel EnumModel.

(** tb/pcie.py:50 constant [TLP_MSG_TO_RC]. *)
Definition TLP_MSG_TO_RC := (1, 0x10).
(** tb/pcie.py:52 constant [TLP_MSG_ID]. *)
Definition TLP_MSG_ID := (1, 0x12).
(** tb/pcie.py:53 constant [TLP_MSG_BCAST]. *)
Definition TLP_MSG_BCAST := (1, 0x13).
(** tb/pcie.py:54 constant [TLP_MSG_LOCAL]. *)
Definition TLP_MSG_LOCAL := (1, 0x14).
(** tb/pcie.py:55 constant [TLP_MSG_GATHER]. *)
Definition TLP_MSG_GATHER := (1, 0x15).
(** tb/pcie.py:56 constant [TLP_MSG_DATA_TO_RC]. *)
Definition TLP_MSG_DATA_TO_RC := (3, 0x10).
(** tb/pcie.py:58 constant [TLP_MSG_DATA_ID]. *)
Definition TLP_MSG_DATA_ID := (3, 0x12).
(** tb/pcie.py:59 constant [TLP_MSG_DATA_BCAST]. *)
Definition TLP_MSG_DATA_BCAST := (3, 0x13).
(** tb/pcie.py:60 constant [TLP_MSG_DATA_LOCAL]. *)
Definition TLP_MSG_DATA_LOCAL := (3, 0x14).
(** tb/pcie.py:61 constant [TLP_MSG_DATA_GATHER]. *)
Definition TLP_MSG_DATA_GATHER := (3, 0x15).

(** tb/pcie.py:2623-2626: the [or]-chains over [fmt_type] used for routing. *)
Definition is_cpl (t : tlp) : bool := ft_in (t_fmt_type t) [TLP_CPL; TLP_CPL_DATA; TLP_CPL_LOCKED; TLP_CPL_LOCKED_DATA].
(** tb/pcie.py:2646, 2727, 2824. *)
Definition is_msg_id (t : tlp) : bool := ft_in (t_fmt_type t) [TLP_MSG_ID; TLP_MSG_DATA_ID].
(** tb/pcie.py:2656, 2739, 2831. *)
Definition is_io (t : tlp) : bool := ft_in (t_fmt_type t) [TLP_IO_READ; TLP_IO_WRITE].
(** tb/pcie.py:2666-2667, 2748-2749, 2839-2840. *)
Definition is_mem (t : tlp) : bool := ft_in (t_fmt_type t) [TLP_MEM_READ; TLP_MEM_READ_64; TLP_MEM_WRITE; TLP_MEM_WRITE_64].
(** tb/pcie.py:2620, 2805. *)
Definition is_cfg0 (t : tlp) : bool := ft_in (t_fmt_type t) [TLP_CFG_READ_0; TLP_CFG_WRITE_0].
(** tb/pcie.py:2622, 2810. *)
Definition is_cfg1 (t : tlp) : bool := ft_in (t_fmt_type t) [TLP_CFG_READ_1; TLP_CFG_WRITE_1].

(** What a bridge does with a TLP: process it itself, pass it on to the
    secondary side ([ADown], possibly rewritten), pass it to the primary side,
    drop it, or raise (tb/pcie.py:2616-2777). *)
Inductive action := AHandle | ADown (t : tlp) | AUp (t : tlp) | ADrop | ARaise (e : pyexn).

(** tb/pcie.py:1572-1585, 2493-2510: the state of a bridge that routing looks
    at: the [root] flag, its own ID, BARs and bridge registers. *)
Record bridge := mkBridge { g_root : bool; g_id : pcie_id; g_bars : bars; g_regs : bridge_regs }.

(** tb/pcie.py:2624, 2637, 2649: [sec_bus_num <= bus <= sub_bus_num]. *)
Definition in_bus_range (r : bridge_regs) (bus : Z) : bool := (br_sec r <=? bus) && (bus <=? br_sub r).
(** tb/pcie.py:2660: I/O window test. *)
Definition in_io_range (r : bridge_regs) (a : Z) : bool := (br_io_base r <=? a) && (a <=? br_io_limit r).
(** tb/pcie.py:2671: memory window test. *)
Definition in_mem_range (r : bridge_regs) (a : Z) : bool :=
  (br_mem_base r <=? a) && (a <=? br_mem_limit r) || (br_pf_base r <=? a) && (a <=? br_pf_limit r).

(** tb/pcie.py:2658, 2669: truth of the list returned by [match_bar]; an
    exception is passed on by the continuation style. *)
Definition if_bar (b : bars) (a : Z) (io : bool) (yes no : action) : action :=
  match match_bar b a io with Ok [] => no | Ok _ => yes | Err e => ARaise e end.

(** tb/pcie.py:2616-2695 [Bridge.upstream_recv], a TLP arriving at the primary
    side.  [route_downstream_tlp(tlp, False)] is [ADown]. *)
Definition upstream_recv (g : bridge) (t : tlp) : action :=
  let r := g_regs g in
  if negb (tlp_check t) then ARaise AssertionError else
  if is_cfg0 t then AHandle
  else if is_cfg1 t then
    if in_bus_range r (id_bus (t_dest_id t)) then
      if id_bus (t_dest_id t) =? br_sec r then
        ADown (if ft_eqb (t_fmt_type t) TLP_CFG_READ_1 then set_fmt_type TLP_CFG_READ_0 t
               else if ft_eqb (t_fmt_type t) TLP_CFG_WRITE_1 then set_fmt_type TLP_CFG_WRITE_0 t else t)
      else ADown t
    else ADrop
  else if is_cpl t then
    if negb (g_root g) && id_eqb (t_requester_id t) (g_id g) then AHandle
    else if in_bus_range r (id_bus (t_requester_id t)) then ADown t else ADrop
  else if is_msg_id t then
    if negb (g_root g) && id_eqb (t_dest_id t) (g_id g) then AHandle
    else if in_bus_range r (id_bus (t_dest_id t)) then ADown t else ADrop
  else if is_io t then
    if_bar (g_bars g) (t_address t) true AHandle
      (if in_io_range r (t_address t) then ADown t else ADrop)
  else if is_mem t then
    if_bar (g_bars g) (t_address t) false AHandle
      (if in_mem_range r (t_address t) then ADown t else ADrop)
  else if ft_in (t_fmt_type t) [TLP_MSG_TO_RC; TLP_MSG_DATA_TO_RC] then ADrop
  else if ft_in (t_fmt_type t) [TLP_MSG_BCAST; TLP_MSG_DATA_BCAST] then ADown t
  else if ft_in (t_fmt_type t) [TLP_MSG_LOCAL; TLP_MSG_DATA_LOCAL] then ADrop
  else if ft_in (t_fmt_type t) [TLP_MSG_GATHER; TLP_MSG_DATA_GATHER] then ADrop
  else ARaise (PyException 2695).

(** tb/pcie.py:2706-2774 [Bridge.downstream_recv], a TLP arriving at the
    secondary side.  [route_downstream_tlp(tlp, True)] is [ADown]. *)
Definition downstream_recv (g : bridge) (t : tlp) : action :=
  let r := g_regs g in
  if negb (tlp_check t) then ARaise AssertionError else
  if is_cfg0 t || is_cfg1 t then ADrop
  else if is_cpl t then
    let i := t_requester_id t in
    if negb (g_root g) && id_eqb i (g_id g) then AHandle
    else if in_bus_range r (id_bus i) then
      if g_root g && (id_bus i =? br_pri r) && (id_device i =? 0) then AUp t else ADown t
    else AUp t
  else if is_msg_id t then
    let i := t_dest_id t in
    if negb (g_root g) && id_eqb i (g_id g) then AHandle
    else if in_bus_range r (id_bus i) then
      if g_root g && (id_bus i =? br_pri r) && (id_device i =? 0) then AUp t else ADown t
    else AUp t
  else if is_io t then
    if_bar (g_bars g) (t_address t) true AHandle
      (if in_io_range r (t_address t) then ADown t else AUp t)
  else if is_mem t then
    if_bar (g_bars g) (t_address t) false AHandle
      (if in_mem_range r (t_address t) then ADown t else AUp t)
  else if ft_in (t_fmt_type t) [TLP_MSG_TO_RC; TLP_MSG_DATA_TO_RC] then AUp t
  else if ft_in (t_fmt_type t) [TLP_MSG_BCAST; TLP_MSG_DATA_BCAST] then ADrop
  else if ft_in (t_fmt_type t) [TLP_MSG_LOCAL; TLP_MSG_DATA_LOCAL] then ADrop
  else if ft_in (t_fmt_type t) [TLP_MSG_GATHER; TLP_MSG_DATA_GATHER] then ARaise (PyException 2772)
  else ARaise (PyException 2774).

(** tb/pcie.py:2800-2802: a function connected to the internal bus of a switch:
    its ID, BARs and, when it is a [Bridge], its bridge registers. *)
Record peer := mkPeer { q_id : pcie_id; q_bars : bars; q_bridge : option bridge_regs }.

(** tb/pcie.py:2803-2862, one iteration of the [for p in ...other] loop of
    [SwitchUpstreamPort.route_downstream_tlp]: does the loop deliver a copy to
    this peer?  [DStop] delivers and returns, [DCopy] delivers and continues,
    [DNo] continues, [DRaise] raises. *)
Inductive decision := DStop | DCopy | DNo | DRaise (e : pyexn).

(** tb/pcie.py:2813, 2820: [isinstance(dev, Bridge) and ...]. *)
Definition peer_br (p : peer) (f : bridge_regs -> bool) : bool := match q_bridge p with Some r => f r | None => false end.

(** tb/pcie.py:2834, 2842: [dev.match_bar(...)], then the bridge window. *)
Definition peer_bar (p : peer) (a : Z) (io : bool) (w : bridge_regs -> bool) : decision :=
  match match_bar (q_bars p) a io with
  | Err e => DRaise e
  | Ok [] => if peer_br p w then DStop else DNo
  | Ok _ => DStop
  end.

(** tb/pcie.py:2803-2862, the loop body.  Line 2829 tests [requester_id.bus]
    for an ID routed message. *)
Definition offer (p : peer) (t : tlp) : decision :=
  if is_cfg0 t then
    if (id_device (t_dest_id t) =? id_device (q_id p)) && (id_function (t_dest_id t) =? id_function (q_id p)) then DStop else DNo
  else if is_cfg1 t then
    if peer_br p (fun r => in_bus_range r (id_bus (t_dest_id t))) then DStop else DNo
  else if is_cpl t then
    if id_eqb (t_requester_id t) (q_id p) then DStop
    else if peer_br p (fun r => in_bus_range r (id_bus (t_requester_id t))) then DStop else DNo
  else if is_msg_id t then
    if id_eqb (t_dest_id t) (q_id p) then DStop
    else if peer_br p (fun r => in_bus_range r (id_bus (t_requester_id t))) then DStop else DNo
  else if is_io t then peer_bar p (t_address t) true (fun r => in_io_range r (t_address t))
  else if is_mem t then peer_bar p (t_address t) false (fun r => in_mem_range r (t_address t))
  else if ft_in (t_fmt_type t) [TLP_MSG_TO_RC; TLP_MSG_DATA_TO_RC] then DNo
  else if ft_in (t_fmt_type t) [TLP_MSG_BCAST; TLP_MSG_DATA_BCAST] then DCopy
  else if ft_in (t_fmt_type t) [TLP_MSG_LOCAL; TLP_MSG_DATA_LOCAL] then DNo
  else if ft_in (t_fmt_type t) [TLP_MSG_GATHER; TLP_MSG_DATA_GATHER] then DNo
  else DRaise (PyException 2864).

(** tb/pcie.py:2799-2862, the loop: indices of the peers that receive a copy of
    the TLP and whether the "unsupported request" tail runs. *)
Fixpoint offer_all (i : Z) (peers : list peer) (t : tlp) (ok : bool) : result (list Z * bool) :=
  match peers with
  | [] => Ok ([], negb ok)
  | p :: ps =>
    match offer p t with
    | DRaise e => Err e
    | DStop => Ok ([i], false)
    | DCopy => let! (l, ur) := offer_all (i + 1) ps t true in Ok (i :: l, ur)
    | DNo => offer_all (i + 1) ps t ok
    end
  end.

(** tb/pcie.py:2795-2875 [SwitchUpstreamPort.route_downstream_tlp]: receivers,
    and the completion generated when nobody took the TLP (sent back into the
    switch when the TLP came from below, upstream otherwise). *)
Definition route_downstream (self : pcie_id) (peers : list peer) (t : tlp) : result (list Z * option tlp) :=
  if negb (tlp_check t) then Err AssertionError else
  let! (l, ur) := offer_all 0 peers t false in
  Ok (l, if ur then Some (set_ur_completion t (mkId (id_bus self) (id_device self) 0) tlp0) else None).

(** * Address routing through an enumerated tree *)

(** tb/pcie.py:2656-2675, 3007-3028: fate of a memory or I/O request offered to
    a function: not for it, taken by
    the function with this ID, or accepted by a bridge and then lost below it
    (unsupported request or silent drop). *)
Inductive fate := NotMine | Taken (bus dev fn : Z) | Lost.

(** tb/pcie.py:2656-2675 and 2831-2846 (bridges and switches), 3007-3013 and
    3022-3028 (devices), followed down the tree: the first function of a bus
    whose BAR matches takes the request, the first bridge whose window matches
    passes it to its secondary bus.  Simplification: which of silent drop and
    unsupported request follows when nothing matches is not distinguished. *)
Fixpoint route_item (t : titem) (a : Z) (io : bool) : result fate :=
  match t with
  | TItem bus d f _ b r below =>
    let! m := match_bar b a io in
    match m with
    | _ :: _ => Ok (Taken bus d f)
    | [] =>
      match below with
      | None => Ok NotMine
      | Some (_, kids) =>
        if (if io then in_io_range r a else in_mem_range r a) then
          (fix go (ks : list titem) : result fate :=
             match ks with
             | [] => Ok Lost
             | k :: ks => let! x := route_item k a io in match x with NotMine => go ks | _ => Ok x end
             end) kids
        else Ok NotMine
      end
    end
  end.

(** tb/pcie.py:3374-3378, 2616, 2656-2675, 2795-2846: a request sent by the root
    complex enters the host bridge (which has no BARs) and is offered to the
    functions on bus 0. *)
Fixpoint route_items (ks : list titem) (a : Z) (io : bool) : result fate :=
  match ks with
  | [] => Ok Lost
  | k :: ks => let! x := route_item k a io in match x with NotMine => route_items ks a io | _ => Ok x end
  end.
(** tb/pcie.py:2656-2675 on the host bridge. *)
Definition route_root (host : bridge_regs) (ks : list titem) (a : Z) (io : bool) : result fate :=
  if (if io then in_io_range host a else in_mem_range host a) then route_items ks a io else Ok Lost.
