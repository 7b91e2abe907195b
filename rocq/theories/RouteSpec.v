(** Independent specification of TLP routing: packet kinds by PCIe format and
    type codes, and where a packet belongs relative to a bridge. *)
From Verif Require Import PyBase TlpModel BarModel BarSpec EnumModel RouteModel.

(** Packet kinds by the PCIe type code (5 bits) and format. *)
Inductive kind := KMem | KIo | KCfg0 | KCfg1 | KCpl | KMsgId | KMsgRc | KMsgBcast | KMsgLocal | KMsgGather | KOther.
Definition kind_of (t : tlp) : kind :=
  let three := (t_fmt t =? 0) || (t_fmt t =? 2) in      (* three DWORD header *)
  let four := (t_fmt t =? 1) || (t_fmt t =? 3) in       (* four DWORD header *)
  match t_type t with
  | 0x00 => if three || four then KMem else KOther
  | 0x02 => if three then KIo else KOther
  | 0x04 => if three then KCfg0 else KOther
  | 0x05 => if three then KCfg1 else KOther
  | 0x0a | 0x0b => if three then KCpl else KOther
  | 0x10 => if four then KMsgRc else KOther
  | 0x12 => if four then KMsgId else KOther
  | 0x13 => if four then KMsgBcast else KOther
  | 0x14 => if four then KMsgLocal else KOther
  | 0x15 => if four then KMsgGather else KOther
  | _ => KOther
  end.

(** Where a routed packet belongs: to the bridge itself, below it, or
    elsewhere. *)
Inductive place := PSelf | PBelow | PElse.
Definition win (lo hi a : Z) : bool := (lo <=? a) && (a <=? hi).
Definition by_id (root : bool) (own : pcie_id) (r : bridge_regs) (i : pcie_id) : place :=
  if negb root && ((id_bus i =? id_bus own) && (id_device i =? id_device own) && (id_function i =? id_function own)) then PSelf
  else if win (br_sec r) (br_sub r) (id_bus i) then PBelow else PElse.
Definition belongs (root : bool) (own : pcie_id) (L : list barent) (r : bridge_regs) (t : tlp) : place :=
  match kind_of t with
  | KMem => if existsb (fun e => bar_hit e (t_address t) false) L then PSelf
            else if win (br_mem_base r) (br_mem_limit r) (t_address t) || win (br_pf_base r) (br_pf_limit r) (t_address t) then PBelow else PElse
  | KIo => if existsb (fun e => bar_hit e (t_address t) true) L then PSelf
           else if win (br_io_base r) (br_io_limit r) (t_address t) then PBelow else PElse
  | KCpl => by_id root own r (t_requester_id t)
  | KMsgId => by_id root own r (t_dest_id t)
  | _ => PElse
  end.

(** A type 1 configuration request becomes type 0 on the bus it is for. *)
Definition to_type0 (t : tlp) : tlp := set_fmt_type (t_fmt t, 4) t.

(** From the primary side.  What belongs elsewhere is dropped. *)
Definition spec_from_above (root : bool) (own : pcie_id) (L : list barent) (r : bridge_regs) (t : tlp) : action :=
  match kind_of t with
  | KCfg0 => AHandle
  | KCfg1 => if win (br_sec r) (br_sub r) (id_bus (t_dest_id t))
             then ADown (if id_bus (t_dest_id t) =? br_sec r then to_type0 t else t) else ADrop
  | KMsgRc | KMsgLocal | KMsgGather => ADrop
  | KMsgBcast => ADown t
  | KOther => ARaise (PyException 2695)
  | _ => match belongs root own L r t with PSelf => AHandle | PBelow => ADown t | PElse => ADrop end
  end.

(** From the secondary side: the mirror image.  What belongs elsewhere goes up;
    the host bridge hands packets for the root complex itself (bus of its
    primary side, device 0) up. *)
Definition for_root (root : bool) (r : bridge_regs) (t : tlp) : bool :=
  match kind_of t with
  | KCpl => root && (id_bus (t_requester_id t) =? br_pri r) && (id_device (t_requester_id t) =? 0)
  | KMsgId => root && (id_bus (t_dest_id t) =? br_pri r) && (id_device (t_dest_id t) =? 0)
  | _ => false
  end.
Definition spec_from_below (root : bool) (own : pcie_id) (L : list barent) (r : bridge_regs) (t : tlp) : action :=
  match kind_of t with
  | KCfg0 | KCfg1 | KMsgBcast | KMsgLocal => ADrop
  | KMsgRc => AUp t
  | KMsgGather => ARaise (PyException 2772)
  | KOther => ARaise (PyException 2774)
  | _ => match belongs root own L r t with
         | PSelf => AHandle
         | PBelow => if for_root root r t then AUp t else ADown t
         | PElse => AUp t
         end
  end.

(** Routing on the internal bus of a switch: does a peer claim the packet? *)
Record speer := mkSpeer { sp_id : pcie_id; sp_ents : list barent; sp_regs : option bridge_regs }.
Definition behind (p : speer) (f : bridge_regs -> bool) : bool := match sp_regs p with Some r => f r | None => false end.
Definition same_id (a b : pcie_id) : bool := (id_bus a =? id_bus b) && (id_device a =? id_device b) && (id_function a =? id_function b).
Definition claims (p : speer) (t : tlp) : bool :=
  match kind_of t with
  | KCfg0 => (id_device (t_dest_id t) =? id_device (sp_id p)) && (id_function (t_dest_id t) =? id_function (sp_id p))
  | KCfg1 => behind p (fun r => win (br_sec r) (br_sub r) (id_bus (t_dest_id t)))
  | KCpl => same_id (t_requester_id t) (sp_id p) || behind p (fun r => win (br_sec r) (br_sub r) (id_bus (t_requester_id t)))
  | KMsgId => same_id (t_dest_id t) (sp_id p) || behind p (fun r => win (br_sec r) (br_sub r) (id_bus (t_dest_id t)))
  | KIo => existsb (fun e => bar_hit e (t_address t) true) (sp_ents p) ||
           behind p (fun r => win (br_io_base r) (br_io_limit r) (t_address t))
  | KMem => existsb (fun e => bar_hit e (t_address t) false) (sp_ents p) ||
            behind p (fun r => win (br_mem_base r) (br_mem_limit r) (t_address t) || win (br_pf_base r) (br_pf_limit r) (t_address t))
  | _ => false
  end.
Definition peer_of (p : speer) : peer := mkPeer (sp_id p) (regs_of (sp_ents p)) (sp_regs p).

(** The completion a switch answers an unclaimed request with. *)
Definition is_ur_for (self : pcie_id) (t c : tlp) : Prop :=
  t_fmt_type c = (0, 0x0a) /\ t_status c = 1 /\ t_requester_id c = t_requester_id t /\ t_tag c = t_tag t /\
  t_tc c = t_tc t /\ t_attr c = t_attr t /\ t_completer_id c = mkId (id_bus self) (id_device self) 0.

(** First peer that claims the packet. *)
Fixpoint first_claim (i : Z) (ps : list speer) (t : tlp) : option Z :=
  match ps with [] => None | p :: ps => if claims p t then Some i else first_claim (i + 1) ps t end.
