(** Model of the root complex's MSI bookkeeping over several devices
    (/repo/tb/pcie.py). *)
From Verif Require Import PyBase TlpModel PcieIfModel SplitModel CfgModel MsiModel IoModel.

(** tb/pcie.py:3117-3147: the fields of [TreeItem] that the MSI functions use: ID,
    capabilities found by enumeration (ID, offset), children.  The fields
    [msi_addr] and [msi_data] are assigned after the tree was built; they are kept
    in [host], keyed by the position of the item in the tree (its identity). *)
Inductive titem := TItem (ti_id : pcie_id) (ti_caps : list (Z * Z)) (ti_children : list titem).
(** tb/pcie.py:3119-3121, 3198-3199 [bus_num], [device_num], [function_num] ([get_id]). *)
Definition ti_id (t : titem) : pcie_id := match t with TItem i _ _ => i end.
(** tb/pcie.py:3141 [capabilities]. *)
Definition ti_caps (t : titem) : list (Z * Z) := match t with TItem _ c _ => c end.

(** tb/pcie.py:3149-3156 [TreeItem.find_dev]: the item and its position. *)
Fixpoint find_dev (t : titem) (id : pcie_id) {struct t} : option (list nat * titem) :=
  match t with
  | TItem i caps ch =>
    if id_eqb id i then Some ([], t)
    else (fix go (l : list titem) (k : nat) : option (list nat * titem) :=
      match l with
      | [] => None
      | c :: r => match find_dev c id with Some (p, x) => Some (k :: p, x) | None => go r (S k) end
      end) ch O
  end.

(** tb/pcie.py:116 [MSI_CAP_ID]. *)
Definition MSI_CAP_ID := 0x05.

(** tb/pcie.py:4169, 4187-4197: a signal is the one made by [configure_msi] for a message
    number, or one passed to [msi_register_signal]. *)
Inductive sigid := Auto (n : Z) | User (s : Z).
(** tb/pcie.py:4117-4123: what [msi_region_write] does. *)
Inductive event := Toggle (s : sigid) | Call (cb : Z).

(** tb/pcie.py:1422-1462, 2122: a device: its MSI registers, the low half of its MSI capability
    header (capability ID and next pointer), and its maximum payload size. *)
Record mdev := mkMdev { md_regs : attrs; md_low : Z; md_mps : Z }.

(** tb/pcie.py:3236, 3266-3269 [RootComplex.__init__]: [msi_addr], [msi_msg_limit], [msi_signals],
    [msi_callbacks] and [tree]; the MSI fields of the tree items by position; the
    devices by the ID that configuration requests carry; the events so far. *)
Record host := mkHost {
  h_addr : option Z;
  h_limit : Z;
  h_sigs : Z -> option (list sigid);
  h_cbs : Z -> option (list Z);
  h_tree : option titem;
  h_item_addr : list nat -> option Z;
  h_item_data : list nat -> option Z;
  h_devs : pcie_id -> mdev;
  h_log : list event }.

(** tb/pcie.py:4169-4170: a dictionary entry is set. *)
Definition upd_z {A} (f : Z -> option A) (k : Z) (v : A) : Z -> option A := fun x => if x =? k then Some v else f x.
(** tb/pcie.py:4165-4166: positions of tree items are compared. *)
Fixpoint path_eqb (p q : list nat) : bool :=
  match p, q with
  | [], [] => true
  | a :: p, b :: q => (a =? b)%nat && path_eqb p q
  | _, _ => false
  end.
(** tb/pcie.py:4165-4166: a field of a tree item is set. *)
Definition upd_p (f : list nat -> option Z) (k : list nat) (v : Z) : list nat -> option Z := fun p => if path_eqb p k then Some v else f p.
(** tb/pcie.py:4147-4163: the registers of the device with ID [k] change. *)
Definition upd_d (f : pcie_id -> mdev) (k : pcie_id) (v : mdev) : pcie_id -> mdev := fun i => if id_eqb i k then v else f i.

(** tb/pcie.py:4168-4171: the loop over 32 numbers. *)
Fixpoint add_numbers (n : nat) (limit : Z) (sg : Z -> option (list sigid)) (cb : Z -> option (list Z)) : Z * (Z -> option (list sigid)) * (Z -> option (list Z)) :=
  match n with
  | O => (limit, sg, cb)
  | S n => add_numbers n (limit + 1) (upd_z sg limit [Auto limit]) (upd_z cb limit [])
  end.

(** tb/pcie.py:4125-4173 [RootComplex.configure_msi]; [base] is the address that [alloc_region] returns
    at the first call.  Returns the new state and the return value. *)
Definition host_configure_msi (base : Z) (h : host) (dev : pcie_id) : result (host * bool) :=
  let addr := match h_addr h with None => base | Some a => a end in
  let h := mkHost (Some addr) (h_limit h) (h_sigs h) (h_cbs h) (h_tree h) (h_item_addr h) (h_item_data h) (h_devs h) (h_log h) in
  match h_tree h with
  | None => Ok (h, false)
  | Some tree =>
    match find_dev tree dev with
    | None => Ok (h, false)
    | Some (p, ti) =>
      match get_capability_offset (ti_caps ti) MSI_CAP_ID with
      | None => Ok (h, false)
      | Some _ =>
        match h_item_addr h p, h_item_data h p with
        | Some _, Some _ => Ok (h, true)
        | _, _ =>
          let d := h_devs h dev in
          let! regs := configure_msi (md_regs d) (md_low d) addr (h_limit h) in
          let '(limit, sg, cb) := add_numbers 32 (h_limit h) (h_sigs h) (h_cbs h) in
          Ok (mkHost (h_addr h) limit sg cb (h_tree h) (upd_p (h_item_addr h) p addr) (upd_p (h_item_data h) p (h_limit h))
                (upd_d (h_devs h) dev (mkMdev regs (md_low d) (md_mps d))) (h_log h), true)
        end
      end
    end
  end.

(** tb/pcie.py:4176-4182, 4188-4194, 4200-4206: the lookup shared by the three functions below. *)
Definition dev_data (h : host) (dev : pcie_id) : option Z :=
  match h_tree h with
  | None => None
  | Some tree => match find_dev tree dev with None => None | Some (p, _) => h_item_data h p end
  end.

(** tb/pcie.py:4175-4185 [msi_get_signal]: None, or the first signal of the list ([IndexError] if
    the list is empty). *)
Definition msi_get_signal (h : host) (dev : pcie_id) (number : Z) : result (option sigid) :=
  match dev_data h dev with
  | None => Ok None
  | Some data =>
    match h_sigs h (data + number) with
    | None => Ok None
    | Some (s :: _) => Ok (Some s)
    | Some [] => Err IndexError
    end
  end.

(** tb/pcie.py:4187-4197 [msi_register_signal]. *)
Definition msi_register_signal (h : host) (dev : pcie_id) (sg : Z) (number : Z) : host :=
  match dev_data h dev with
  | None => h
  | Some data =>
    match h_sigs h (data + number) with
    | None => h
    | Some l => mkHost (h_addr h) (h_limit h) (upd_z (h_sigs h) (data + number) (l ++ [User sg])) (h_cbs h) (h_tree h) (h_item_addr h) (h_item_data h) (h_devs h) (h_log h)
    end
  end.

(** tb/pcie.py:4199-4209 [msi_register_callback]. *)
Definition msi_register_callback (h : host) (dev : pcie_id) (cb : Z) (number : Z) : host :=
  match dev_data h dev with
  | None => h
  | Some data =>
    match h_cbs h (data + number) with
    | None => h
    | Some l => mkHost (h_addr h) (h_limit h) (h_sigs h) (upd_z (h_cbs h) (data + number) (l ++ [cb])) (h_tree h) (h_item_addr h) (h_item_data h) (h_devs h) (h_log h)
    end
  end.

(** tb/pcie.py:4116-4123, the end of [msi_region_write]: the events of one message number.  The
    membership test of msi_signals is in [MsiModel.msi_region_write]; a missing entry of
    msi_callbacks would be a KeyError. *)
Definition message_events (h : host) (number : Z) : result (list event) :=
  match h_sigs h number, h_cbs h number with
  | Some sg, Some cb => Ok (map Toggle sg ++ map Call cb)
  | None, _ => Err AssertionError
  | _, None => Err IndexError
  end.

(** tb/pcie.py:4116-4123, for each message number received. *)
Fixpoint messages_events (h : host) (l : list Z) : result (list event) :=
  match l with
  | [] => Ok []
  | n :: r => let! e := message_events h n in let! e' := messages_events h r in Ok (e ++ e')
  end.

(** tb/pcie.py:3586-3645: each TLP of an interrupt is handled by the root complex; without an MSI region
    (no [configure_msi] so far) it has nowhere to go and is ignored. *)
Fixpoint rc_handle_msis (h : host) (l : list tlp) (fired : list Z) : result (list Z) :=
  match l with
  | [] => Ok fired
  | t :: r =>
    match h_addr h with
    | None => rc_handle_msis h r fired
    | Some base =>
      let! fired := rc_handle_msi_write (fun n => match h_sigs h n with Some _ => true | None => false end) base t fired in
      rc_handle_msis h r fired
    end
  end.

(** tb/pcie.py:1464-1473, 4111-4123: device [dev] issues interrupt [number] and the root complex receives it.
    The TLPs are taken to arrive (C21, C78 treat routing and links). *)
Definition host_issue (h : host) (dev : pcie_id) (number : Z) : result host :=
  let d := h_devs h dev in
  let! ts := issue_msi_interrupt (md_regs d) dev (md_mps d) number 0 0 in
  let! ns := rc_handle_msis h ts [] in
  let! e := messages_events h ns in
  Ok (mkHost (h_addr h) (h_limit h) (h_sigs h) (h_cbs h) (h_tree h) (h_item_addr h) (h_item_data h) (h_devs h) (h_log h ++ e)).

(** tb/pcie.py:1464, 4125, 4187, 4199: the calls a test makes. *)
Inductive hop := Configure (d : pcie_id) | RegSignal (d : pcie_id) (s n : Z) | RegCallback (d : pcie_id) (cb n : Z) | Issue (d : pcie_id) (n : Z).

(** tb/pcie.py:1464, 4125, 4187, 4199: one call. *)
Definition hstep (base : Z) (h : host) (o : hop) : result host :=
  match o with
  | Configure d => let! r := host_configure_msi base h d in Ok (fst r)
  | RegSignal d s n => Ok (msi_register_signal h d s n)
  | RegCallback d cb n => Ok (msi_register_callback h d cb n)
  | Issue d n => host_issue h d n
  end.

(** tb/pcie.py:1464, 4125, 4187, 4199: calls one after the other. *)
Fixpoint hrun (base : Z) (h : host) (l : list hop) : result host :=
  match l with
  | [] => Ok h
  | o :: r => let! h := hstep base h o in hrun base h r
  end.

(** tb/pcie.py:3236, 3266-3269: the state before any MSI call, after enumeration gave [tree]. *)
Definition host0 (tree : titem) (devs : pcie_id -> mdev) : host :=
  mkHost None 0 (fun _ => None) (fun _ => None) (Some tree) (fun _ => None) (fun _ => None) devs [].
