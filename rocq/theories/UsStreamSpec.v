(** Independent specification of the UltraScale stream link. *)
From Verif Require Import PyBase UsModel UsStreamModel.

Definition nib (x : Z) : Prop := 0 <= x < 16.
Definition dword (x : Z) : Prop := 0 <= x < 2^32.

(** Frames that the interface can carry: at least one DWORD, with parity (and
    byte enables where the interface has them) for each. *)
Definition frame_ok (i : us_if) (f : us_frame) : Prop :=
  f_data f <> [] /\ Forall dword (f_data f) /\
  length (f_parity f) = length (f_data f) /\ Forall nib (f_parity f) /\
  match i with CQ | RC => length (f_byte_en f) = length (f_data f) /\ Forall nib (f_byte_en f) | _ => True end /\
  match i with CQ | RQ => nib (f_first_be f) /\ nib (f_last_be f) | _ => True end.

(** What arrives of a frame: all DWORDs and their parity; byte enables on CQ and
    RC; first and last byte enables on CQ and RQ; the discontinue flag; on RQ the
    sequence number, as far as the side-band has room for it. *)
Definition delivered (b : us_bus) (f : us_frame) : us_frame :=
  mkFrame (f_data f)
    (match b_if b with CQ | RC => f_byte_en f | _ => [] end)
    (f_parity f)
    (match b_if b with CQ | RQ => f_first_be f | _ => 0 end)
    (match b_if b with CQ | RQ => f_last_be f | _ => 0 end)
    (f_discontinue f)
    (match b_if b with RQ => f_seq_num f mod (if (b_user b =? 60) then 16 else 64) | _ => 0 end).

(** Everything sent during a schedule. *)
Definition sent (l : list us_in) : list us_frame := flat_map i_send l.

(** Transfers needed for a frame. *)
Definition transfers (b : us_bus) (f : us_frame) : Z := (zlen (f_data f) + Z.of_nat (b_lanes b) - 1) / Z.of_nat (b_lanes b).
Definition all_transfers (b : us_bus) (l : list us_frame) : Z := fold_right (fun f n => transfers b f + n) 0 l.

(** Nothing left to send. *)
Definition src_idle (s : us_src) : Prop := s_queue s = [] /\ s_data s = [] /\ s_active s = false.

(** Edges at which neither side pauses. *)
Definition unpaused (l : list us_in) : Z := zlen (filter (fun i => negb (i_pause_src i) && negb (i_pause_snk i)) l).
