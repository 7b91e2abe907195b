(** Independent specification of the user-side interfaces of the UltraScale and
    UltraScale+ cores. *)
From Verif Require Import PyBase TlpModel SplitSpec CfgModel UspModel.

(** The sequence numbers shown at one edge, slot 0 first. *)
Definition seqs (p : option Z * option Z) : list Z :=
  match p with (Some a, Some b) => [a; b] | (Some a, None) => [a] | (None, Some b) => [b] | (None, None) => [] end.
(** Slot 1 is used only when slot 0 is. *)
Definition slots_ok (p : option Z * option Z) : Prop := fst p = None -> snd p = None.

(** Field number [k] of [w] bits of a vector. *)
Definition field (w k v : Z) : Z := (v / 2 ^ (w * k)) mod 2 ^ w.
(** What the field of function [k] should show. *)
Definition shows {A} (f : A -> Z) (fns : list A) (k : nat) : Z := match nth_error fns k with Some x => f x | None => 0 end.

(** A function able to send MSI message [k]. *)
Definition msi_able (s : attrs) (k : Z) : Prop :=
  s A_msi_enable <> 0 /\ s A_bus_master_enable <> 0 /\ 0 <= s A_msi_multiple_message_enable <= 5 /\
  0 <= k < 2 ^ s A_msi_multiple_message_enable /\ k < 2 ^ s A_msi_multiple_message_capable /\
  0 <= s A_msi_message_data < 2 ^ 16 /\ s A_msi_message_address mod 4 = 0.
(** The data of message [k]: the programmed data with its low bits replaced. *)
Definition msi_value (s : attrs) (k : Z) : Z :=
  s A_msi_message_data - s A_msi_message_data mod 2 ^ s A_msi_multiple_message_enable + k.
(** [t] is a legal write of the DWORD [v] to [a] by function [f]. *)
Definition dword_msg (f : ifn) (attr a v : Z) (t : tlp) : Prop :=
  t_address t = a /\ t_length t = 1 /\ t_first_be t = 15 /\ t_last_be t = 0 /\ t_data t = [v] /\
  mem_write_legal (128 * 2 ^ if_mps f) t /\ from_transfer (if_id f) attr 0 t /\ tlp_check t = true.

(** Configuration management: an access to a register of a function. *)
Inductive access := ARead (function reg : Z) | AWrite (function reg data be : Z).
Definition acc_fn (a : access) : Z := match a with ARead f _ => f | AWrite f _ _ _ => f end.
(** Its effect on the functions and the value returned. *)
Definition acc_do {R} (rd : R -> Z -> Z) (wr : R -> Z -> Z -> Z -> R) (d : R) (fs : list R) (a : access) : list R * option Z :=
  match a with
  | ARead f reg => (fs, Some (rd (nth (Z.to_nat f) fs d) reg))
  | AWrite f reg data be =>
    (firstn (Z.to_nat f) fs ++ wr (nth (Z.to_nat f) fs d) reg data be :: skipn (S (Z.to_nat f)) fs, None)
  end.
Fixpoint acc_run {R} (rd : R -> Z -> Z) (wr : R -> Z -> Z -> Z -> R) (d : R) (fs : list R) (l : list access) : list R * list (option Z) :=
  match l with
  | [] => (fs, [])
  | a :: r => let '(fs', v) := acc_do rd wr d fs a in let '(fs'', vs) := acc_run rd wr d fs' r in (fs'', v :: vs)
  end.

(** User logic: waits some edges, then holds the request until it samples
    cfg_mgmt_read_write_done; the value of a read is taken at that edge.  [step]
    is one edge of the core; [fuel] bounds the edges waited for done. *)
Section user.
  Context {R : Type} (step : list R -> mgmt_st -> mgmt_in -> result (list R * mgmt_st)) (drive : access -> mgmt_in) (idle : mgmt_in).
  Fixpoint user_wait (n : nat) (fs : list R) (s : mgmt_st) : result (list R * mgmt_st) :=
    match n with O => Ok (fs, s) | S m => let! (fs', s') := step fs s idle in user_wait m fs' s' end.
  Fixpoint user_hold (fuel : nat) (a : access) (fs : list R) (s : mgmt_st) : result (list R * mgmt_st * option Z) :=
    match fuel with
    | O => Err OutOfFuel
    | S m => let! (fs', s') := step fs s (drive a) in
             if mg_done s then Ok (fs', s', match a with ARead _ _ => Some (mg_rdata s) | _ => None end)
             else user_hold m a fs' s'
    end.
  Fixpoint user_run (l : list (nat * access)) (fs : list R) (s : mgmt_st) : result (list R * mgmt_st * list (option Z)) :=
    match l with
    | [] => Ok (fs, s, [])
    | (n, a) :: r =>
      let! (fs1, s1) := user_wait n fs s in
      let! (fs2, s2, v) := user_hold 2 a fs1 s1 in
      let! (fs3, s3, vs) := user_run r fs2 s2 in
      Ok (fs3, s3, v :: vs)
    end.
End user.
(** The inputs that request an access. *)
Definition us_drive (a : access) : mgmt_in :=
  match a with
  | ARead f reg => mkMgmt (f * 1024 + reg) 0 true false 0 0
  | AWrite f reg data be => mkMgmt (f * 1024 + reg) 0 false true data be
  end.
Definition usp_drive (a : access) : mgmt_in :=
  match a with
  | ARead f reg => mkMgmt reg f true false 0 0
  | AWrite f reg data be => mkMgmt reg f false true data be
  end.
(** An access to an existing function. *)
Definition acc_ok {R} (fs : list R) (a : access) : Prop :=
  match a with ARead f reg | AWrite f reg _ _ => 0 <= f < zlen fs /\ 0 <= reg < 1024 end.
