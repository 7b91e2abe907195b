(** What the AXI-Stream endpoints must do (C36, C37, C66). *)
From Verif Require Import PyBase AxisModel.

(** Number of beats for [n] words over [m] lanes. *)
Definition n_beats (m : nat) (n : nat) : nat := ((n + m - 1) / m)%nat.

(** Value of a field on each of [n] beats. *)
Definition spread (n : nat) (t : tfield) : list Z :=
  match t with TNone => repeat 0 n | TInt z => repeat z n | TList l => l end.

(** A field that fits a frame of [n] beats. *)
Definition field_fits (n : nat) (t : tfield) : Prop := match t with TList l => length l = n | _ => True end.

(** keep for [n] words over [m] lanes: full on all but the last beat, the remaining words
    in the low lanes of the last. *)
Definition full_keep (m n : nat) : list Z :=
  repeat (2 ^ Z.of_nat m - 1) (n_beats m n - 1) ++ [2 ^ Z.of_nat (n - (n_beats m n - 1) * m) - 1].

(** A frame that can be sent: not empty, words of [wl] bits, a keep (when given) that
    keeps exactly the data, fields that fit. *)
Definition frame_ok (m : nat) (wl : Z) (f : aframe) : Prop :=
  let n := n_beats m (length (af_data f)) in
  af_data f <> [] /\ Forall (fun x => 0 <= x < 2 ^ wl) (af_data f) /\
  (af_keep f = None \/ af_keep f = Some (full_keep m (length (af_data f)))) /\
  field_fits n (af_id f) /\ field_fits n (af_dest f) /\ field_fits n (af_user f).

(** user with last_cycle_user (when given and not 0) on the last beat. *)
Definition with_last (u : option Z) (l : list Z) : list Z :=
  match u with Some x => if x =? 0 then l else removelast l ++ [x] | None => l end.

(** What has to arrive for a frame: the same words, the fields on every beat, keep full
    on all but the last beat. *)
Definition arrives (m : nat) (f g : aframe) : Prop :=
  let n := n_beats m (length (af_data f)) in
  af_data g = af_data f /\
  af_keep g = Some (full_keep m (length (af_data f))) /\
  af_id g = TList (spread n (af_id f)) /\ af_dest g = TList (spread n (af_dest f)) /\
  af_user g = TList (with_last (af_lcu f) (spread n (af_user f))) /\
  af_lcu g = Some (last (with_last (af_lcu f) (spread n (af_user f))) 0).

(** Frames handed to the source in a run. *)
Fixpoint sends (evs : list aevent) : list aframe :=
  match evs with
  | [] => []
  | ASend f :: evs => f :: sends evs
  | _ :: evs => sends evs
  end.

(** [n] clock edges without pause. *)
Definition free_clocks (n : nat) : list aevent := repeat (AEdge false false) n.
