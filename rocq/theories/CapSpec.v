(** Independent specification of capability lists. *)
From Verif Require Import PyBase CapModel.

(** Register [r] belongs to the capability. *)
Definition occupies (c : cap) (r : Z) : Prop := c_off c <= r < c_off c + c_length c.

(** No two capabilities of the list occupy a common register. *)
Definition no_overlap (l : list cap) : Prop :=
  forall i j c d r, (i < j)%nat -> nth_error l i = Some c -> nth_error l j = Some d -> occupies c r -> ~ occupies d r.

(** Any register common to two capabilities of the list is the last register of
    one and the first of the other. *)
Definition overlap_at_ends (l : list cap) : Prop :=
  forall i j c d r, i <> j -> nth_error l i = Some c -> nth_error l j = Some d -> occupies c r -> occupies d r ->
    (r = c_off c + c_length c - 1 /\ r = c_off d) \/ (r = c_off d + c_length d - 1 /\ r = c_off c).

(** What a host does: read the capability pointer, then follow the next
    pointers (bits 15:8 of each header), recording (byte offset, id). *)
Fixpoint walk (fuel : nat) (rd : Z -> result Z) (ptr : Z) : result (list (Z * Z)) :=
  if ptr =? 0 then Ok [] else
  match fuel with
  | O => Err OutOfFuel
  | S f => let! v := rd (ptr / 4) in
           let! r := walk f rd ((v / 256) mod 256) in Ok ((ptr, v mod 256) :: r)
  end.
Definition host_walk (rd : Z -> result Z) : result (list (Z * Z)) :=
  let! p := rd 13 in walk 64 rd (p mod 256).

(** Strictly increasing first components. *)
Fixpoint increasing (prev : Z) (l : list (Z * Z)) : Prop :=
  match l with [] => True | (p, _) :: r => prev < p /\ increasing p r end.

(** Registrations that never name an offset, each of a different capability and
    at least two registers long. *)
Definition auto_op (o : regop) : Prop :=
  ro_offset o = None /\ match ro_length o with Some n => 2 <= n | None => False end.

(** Positive lengths wherever a length is given, non-negative offsets. *)
Definition regop_ok (o : regop) : Prop :=
  match ro_length o with Some n => 1 <= n | None => True end /\
  match ro_offset o with Some n => 0 <= n | None => True end.

(** The capability [id] stands at [o]; a register it shares with another capability is
    its first one and the last one of the other. *)
Definition placed_at (id o : Z) (l : list cap) : Prop :=
  exists l1 n l2, l = l1 ++ n :: l2 /\ c_id n = id /\ c_off n = o /\
    Forall (fun d => forall r, occupies n r -> occupies d r -> r = o /\ r = c_off d + c_length d - 1) (l1 ++ l2).
