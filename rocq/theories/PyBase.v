(** Shared vocabulary for the Python models: exceptions as values, byte
    strings as [list Z], slices, little-endian conversion.  Nothing in this
    file models a particular function of /repo; it fixes the meaning of the
    Python primitives that the model files use. *)
From Coq Require Export ZArith List Bool Lia.
Export ListNotations.
#[global] Open Scope Z_scope.

(** Python exceptions that the modelled code can raise. *)
Inductive pyexn : Type :=
| IndexError | TypeError | NameError | UnboundLocalError | AttributeError
| ValueError | StructError | AssertionError | OverflowError
| PyException (code : Z)   (* raise Exception("..."), code identifies the site *)
| OutOfFuel.               (* model artefact: a loop bound was exhausted *)

Inductive result (A : Type) : Type :=
| Ok (a : A)
| Err (e : pyexn).
Arguments Ok {A} a.
Arguments Err {A} e.

Definition bind {A B} (r : result A) (f : A -> result B) : result B :=
  match r with Ok a => f a | Err e => Err e end.
Notation "'let!' x := r 'in' k" := (bind r (fun x => k))
  (at level 200, x pattern, right associativity).

Definition is_ok {A} (r : result A) : bool :=
  match r with Ok _ => true | Err _ => false end.

(** [len(l)] as an integer. *)
Definition zlen {A} (l : list A) : Z := Z.of_nat (length l).

(** Python [l[a:b]] for 0 <= a (Python clips both ends to len). *)
Definition slice {A} (l : list A) (a b : Z) : list A :=
  firstn (Z.to_nat (b - a)) (skipn (Z.to_nat a) l).

(** Python [l[i]] for a non-negative index: IndexError when out of range. *)
Definition py_index {A} (l : list A) (i : Z) : result A :=
  if i <? 0 then Err IndexError else
  match nth_error l (Z.to_nat i) with Some x => Ok x | None => Err IndexError end.

(** Python [bytearray(n)]: n zero bytes. *)
Definition zeros (n : Z) : list Z := repeat 0 (Z.to_nat n).

(** A byte. *)
Definition is_byte (b : Z) : Prop := 0 <= b < 256.
Definition is_byteb (b : Z) : bool := (0 <=? b) && (b <? 256).

(** Little-endian value of a byte string. *)
Fixpoint le_val (l : list Z) : Z :=
  match l with [] => 0 | b :: r => b + 256 * le_val r end.

(** The n low bytes of v, least significant first. *)
Fixpoint le_bytes (n : nat) (v : Z) : list Z :=
  match n with O => [] | S m => (v mod 256) :: le_bytes m (v / 256) end.

(** struct.pack('<L', v): 4 bytes, struct.error when v does not fit. *)
Definition pack_u32 (v : Z) : result (list Z) :=
  if (0 <=? v) && (v <? 2^32) then Ok (le_bytes 4 v) else Err StructError.

(** struct.unpack('<L', b)[0]: struct.error unless exactly 4 bytes. *)
Definition unpack_u32 (b : list Z) : result Z :=
  if (length b =? 4)%nat then Ok (le_val b) else Err StructError.

(** Byte-addressed memory as a total function; regions with a size check
    their bounds separately. *)
Definition mem := Z -> Z.

(** Store a byte string at an address. *)
Definition mem_store (m : mem) (a : Z) (d : list Z) : mem :=
  fun x => if (a <=? x) && (x <? a + zlen d) then nth (Z.to_nat (x - a)) d 0 else m x.

(** Load n bytes from an address. *)
Definition mem_load (m : mem) (a n : Z) : list Z :=
  map (fun k => m (a + Z.of_nat k)) (seq 0 (Z.to_nat n)).

(** Python [l[a:a+len(d)] = d] on a bytearray, 0 <= a: the slice bounds are
    clipped to the length, so an assignment past the end extends the list. *)
Definition slice_set {A} (l : list A) (a : Z) (d : list A) : list A :=
  firstn (Z.to_nat a) l ++ d ++ skipn (Z.to_nat (a + zlen d)) l.

(** The same on an mmap: the size is fixed, a clipped slice raises. *)
Definition mmap_set {A} (l : list A) (a : Z) (d : list A) : result (list A) :=
  if zlen (slice l a (a + zlen d)) =? zlen d then Ok (slice_set l a d) else Err IndexError.
