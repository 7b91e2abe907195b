(** Model of the root complex's host memory and I/O region allocator
    (RootComplex in /repo/tb/pcie.py). *)
From Verif Require Import PyBase TlpModel BarModel.

(** tb/pcie.py:3257-3264: [region_base]/[region_limit] (or [io_region_base]/
    [io_region_limit]) and the list of (addr, size) of the regions handed out.
    Simplification: the mmap object or the callbacks of a region are left out. *)
Record alloc_state := mkAlloc { al_limit : Z; al_regions : list (Z * Z) }.

(** tb/pcie.py:3257-3264: initial state; the base is 0. *)
Definition alloc0 : alloc_state := mkAlloc 0 [].

(** tb/pcie.py:3282-3294 [alloc_region]; [math.log] of a non-positive size
    raises ValueError, [size_mask] is [2**math.ceil(math.log(size, 2))-1]. *)
Definition alloc_region (s : alloc_state) (size : Z) : result (alloc_state * Z) :=
  if size <=? 0 then Err ValueError else
  let addr := align (al_limit s) (size_mask size) in
  Ok (mkAlloc (addr + size - 1) (al_regions s ++ [(addr, size)]), addr).

(** tb/pcie.py:3296-3308 [alloc_io_region]: the same arithmetic on the I/O
    limit. *)
Definition alloc_io_region (s : alloc_state) (size : Z) : result (alloc_state * Z) :=
  if size <=? 0 then Err ValueError else
  let addr := align (al_limit s) (size_mask size) in
  Ok (mkAlloc (addr + size - 1) (al_regions s ++ [(addr, size)]), addr).

(** A sequence of calls of tb/pcie.py:3282-3294 or of 3296-3308 on one root
    complex. *)
Fixpoint alloc_all (f : alloc_state -> Z -> result (alloc_state * Z)) (s : alloc_state) (sizes : list Z) : result alloc_state :=
  match sizes with
  | [] => Ok s
  | n :: r => let! (s, _) := f s n in alloc_all f s r
  end.

(** tb/pcie.py:3310-3314 [find_region] (3316-3320 [find_io_region]): first
    region containing the address, with the offset. *)
Fixpoint find_region (regions : list (Z * Z)) (addr : Z) : option (Z * Z * Z) :=
  match regions with
  | [] => None
  | (base, size) :: r =>
    if (base <=? addr) && (addr <? base + size) then Some (base, size, addr - base)
    else find_region r addr
  end.
