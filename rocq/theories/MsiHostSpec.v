(** What the MSI registry of the root complex must do (C80). *)
From Verif Require Import PyBase TlpModel PcieIfModel CfgModel MsiHostModel.

(** All items of a device tree. *)
Fixpoint items (t : titem) : list titem :=
  match t with TItem _ _ ch => t :: flat_map items ch end.

(** The tree has a device with this ID and an MSI capability (capability ID 5). *)
Definition has_msi (tree : titem) (d : pcie_id) : bool :=
  existsb (fun it => id_eqb (ti_id it) d && existsb (fun c => fst c =? 5) (ti_caps it)) (items tree).

(** A registration is for a vector of a device. *)
Definition for_vec (d : pcie_id) (n : Z) (r : pcie_id * Z * Z) : bool := let '(d', n', _) := r in id_eqb d' d && (n' =? n).
Definition regs_of (d : pcie_id) (n : Z) (l : list (pcie_id * Z * Z)) : list Z := map snd (filter (for_vec d n) l).

Inductive sevent := SOwn (d : pcie_id) (n : Z) | SToggle (s : Z) | SCall (cb : Z).

(** The registry as a user sees it: the configured devices, what was registered for which vector of
    which device, and what has happened. *)
Record reg := mkReg { r_conf : list pcie_id; r_sig : list (pcie_id * Z * Z); r_cb : list (pcie_id * Z * Z); r_log : list sevent }.
Definition reg0 := mkReg [] [] [] [].

Definition conf (r : reg) (d : pcie_id) : bool := existsb (id_eqb d) (r_conf r).

(** [cap d] is the number of vectors of device [d]. *)
Definition rstep (tree : titem) (cap : pcie_id -> Z) (r : reg) (o : hop) : reg :=
  match o with
  | Configure d => if has_msi tree d && negb (conf r d) then mkReg (r_conf r ++ [d]) (r_sig r) (r_cb r) (r_log r) else r
  | RegSignal d s n => if conf r d then mkReg (r_conf r) (r_sig r ++ [(d, n, s)]) (r_cb r) (r_log r) else r
  | RegCallback d cb n => if conf r d then mkReg (r_conf r) (r_sig r) (r_cb r ++ [(d, n, cb)]) (r_log r) else r
  | Issue d n => if conf r d && (0 <=? n) && (n <? cap d)
                 then mkReg (r_conf r) (r_sig r) (r_cb r) (r_log r ++ SOwn d n :: map SToggle (regs_of d n (r_sig r)) ++ map SCall (regs_of d n (r_cb r)))
                 else r
  end.
Definition rrun (tree : titem) (cap : pcie_id -> Z) (l : list hop) : reg := fold_left (rstep tree cap) l reg0.

(** Events as the model logs them, given the signal made for each vector. *)
Definition conc (own : pcie_id -> Z -> sigid) (e : sevent) : event :=
  match e with SOwn d n => Toggle (own d n) | SToggle s => Toggle (User s) | SCall cb => Call cb end.

(** Registrations name vectors 0 to 31. *)
Definition op_ok (o : hop) : Prop :=
  match o with RegSignal _ _ n | RegCallback _ _ n => 0 <= n < 32 | _ => True end.

(** A device before MSI is configured: bus mastering is on, MSI off, and if it takes 32 bit addresses
    the MSI region is below 4 GB. *)
Definition dev_ok (base : Z) (d : mdev) : Prop :=
  md_regs d A_msi_enable = 0 /\ md_regs d A_bus_master_enable <> 0 /\ 0 <= md_mps d /\ 0 <= md_low d < 2^16 /\
  0 <= md_regs d A_msi_multiple_message_capable <= 5 /\ 0 <= md_regs d A_msi_message_address /\
  (md_regs d A_msi_64bit_address_capable = 0 -> base < 2^32 /\ md_regs d A_msi_message_address < 2^32).
Definition vectors (devs : pcie_id -> mdev) (d : pcie_id) : Z := 2 ^ md_regs (devs d) A_msi_multiple_message_capable.
