(** Independent specification of BAR decode: what a function's BAR registers
    are supposed to mean. *)
From Verif Require Import PyBase BarModel.

(** One BAR as the host sees it: window size 2^k, programmed base. *)
Inductive barent :=
| BNone
| BIo (k base : Z)
| BMem32 (k base : Z) (prefetch : bool)
| BMem64 (k base : Z) (prefetch : bool).

Definition bar_slots (e : barent) : Z := match e with BMem64 _ _ _ => 2 | _ => 1 end.

(** Naturally aligned window inside the BAR's address space. *)
Definition bar_ok (e : barent) : Prop :=
  match e with
  | BNone => True
  | BIo k b => 2 <= k < 32 /\ 0 <= b < 2^32 /\ b mod 2^k = 0
  | BMem32 k b _ => 4 <= k < 32 /\ 0 <= b < 2^32 /\ b mod 2^k = 0
  | BMem64 k b _ => 4 <= k < 32 /\ 0 <= b < 2^64 /\ b mod 2^k = 0
  end.

Definition in_window (base k addr : Z) : bool := (base <=? addr) && (addr <? base + 2^k).

(** BARs of the request's address space whose window contains the address,
    with the offset into the window, in index order. *)
Fixpoint spec_match (i : Z) (L : list barent) (addr : Z) (io : bool) : list (Z * Z) :=
  match L with
  | [] => []
  | e :: r =>
    let rest := spec_match (i + bar_slots e) r addr io in
    match e with
    | BNone => rest
    | BIo k b => if io && in_window b k addr then (i, addr - b) :: rest else rest
    | BMem32 k b _ => if negb io && in_window b k addr then (i, addr - b) :: rest else rest
    | BMem64 k b _ => if negb io && in_window b k addr then (i, addr - b) :: rest else rest
    end
  end.

(** Register image of a BAR layout (PCI specification: type bits in the low
    nibble, base address above). *)
Definition reg_bars (e : barent) : list Z :=
  match e with
  | BNone => [0]
  | BIo _ b => [b + 1]
  | BMem32 _ b pf => [b + (if pf then 8 else 0)]
  | BMem64 _ b pf => [b mod 2^32 + 4 + (if pf then 8 else 0); b / 2^32]
  end.
(** Writable address bits of a BAR register. *)
Definition reg_masks (e : barent) : list Z :=
  match e with
  | BNone => [0]
  | BIo k _ | BMem32 k _ _ => [2^32 - 2^k]
  | BMem64 k _ _ => [2^32 - 2^k; 2^32 - 1]
  end.

(** Register state of a layout; [slots] is the number of 32-bit registers used. *)
Definition regs_of (L : list barent) : bars := mkBars (flat_map reg_bars L) (flat_map reg_masks L).
Definition slots (L : list barent) : Z := fold_right (fun e n => bar_slots e + n) 0 L.

(** Addresses for which decode is not subject to the 4 GiB aliasing finding. *)
Definition addr_ok (L : list barent) (addr : Z) : Prop :=
  0 <= addr < 2^64 /\
  (2^32 <= addr -> forall e, In e L -> match e with BMem64 _ _ _ | BNone => True | _ => False end).

(** Accessors. *)
Definition set_base (e : barent) (b : Z) : barent :=
  match e with BNone => BNone | BIo k _ => BIo k b | BMem32 k _ p => BMem32 k b p | BMem64 k _ p => BMem64 k b p end.
Definition get_base (e : barent) : Z :=
  match e with BNone => 0 | BIo _ b | BMem32 _ b _ | BMem64 _ b _ => b end.
Definition get_k (e : barent) : Z :=
  match e with BNone => 0 | BIo k _ | BMem32 k _ _ | BMem64 k _ _ => k end.

(** Kind and size of a BAR, without its base. *)
Definition bar_shape (e : barent) : barent := set_base e 0.

(** What the decode really does: 32-bit and I/O BARs compare the address modulo
    2^32 and report the full distance from the base. *)
Definition bar_hit (e : barent) (addr : Z) (io : bool) : bool :=
  match e with
  | BNone => false
  | BIo k b => io && in_window b k (addr mod 2^32)
  | BMem32 k b _ => negb io && in_window b k (addr mod 2^32)
  | BMem64 k b _ => negb io && in_window b k addr
  end.
Fixpoint real_match (i : Z) (L : list barent) (addr : Z) (io : bool) : list (Z * Z) :=
  match L with
  | [] => []
  | e :: r => let rest := real_match (i + bar_slots e) r addr io in
              if bar_hit e addr io then (i, addr - get_base e) :: rest else rest
  end.
