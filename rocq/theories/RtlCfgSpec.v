(** What the reader of the device control registers should do (C101, C102), in terms of what is seen at its ports. *)
From Verif Require Import PyBase RtlModel RtlCfgModel.

(** At least one physical function; at most 256 functions; the numbers of the virtual functions and the address of the register fit. *)
Definition uc_ok (p : uc_param) : Prop := 1 <= uc_pf p /\ 0 <= uc_vf p /\ uc_pf p + uc_vf p <= 256 /\ 0 <= uc_voff p /\ uc_voff p + uc_vf p <= 256 /\ 0 <= uc_cap p /\ uc_cap p + 8 < 4096.
(** The number of a function. *)
Definition fnum (p : uc_param) (k : Z) : Z := if k <? uc_pf p then k else uc_voff p + (k - uc_pf p).

(** The monitor: the function read next; the answer to the present read; the clocks since the last read or reset; the last answer for each function; the number of reads. *)
Record uc_mon := mkUm { um_k : Z; um_v : option Z; um_n : Z; um_tab : Z -> Z; um_reads : Z }.
Definition um0 : uc_mon := mkUm 0 None 0 (fun _ => 0) 0.
Definition um_next (p : uc_param) (m : uc_mon) (e : uc_ev) : uc_mon :=
  if ui_rst (uv_in e) then um0 else
  if uv_read e then
    match um_v m with
    | Some v => mkUm ((um_k m + 1) mod (uc_pf p + uc_vf p)) None 0 (fun f => if f =? um_k m then v else um_tab m f) (um_reads m + 1)
    | None => mkUm (um_k m) (if ui_done (uv_in e) then Some (ui_data (uv_in e)) else None) (um_n m) (um_tab m) (um_reads m)
    end
  else mkUm (um_k m) None (um_n m + 1) (um_tab m) (um_reads m).
(** The core answers only while it is asked. *)
Definition asked (e : uc_ev) : Prop := ui_done (uv_in e) = true -> uv_read e = true.
(** In each clock: no write; a read after 256 clocks, of the device control register (capability + 8, in words) of the function that is due; the outputs are the bits
    extended tag enable (8), max read request size (14:12) and max payload size (7:5) of the last answer for each function. *)
Definition uc_shows (p : uc_param) (m : uc_mon) (e : uc_ev) : Prop :=
  uv_write e = false /\ (uv_read e = true <-> 256 <= um_n m) /\
  (uv_read e = true -> uv_addr e = (uc_cap p + 8) / 4 /\ uv_fn e = fnum p (um_k m)) /\
  forall f, 0 <= f < uc_pf p + uc_vf p ->
    uv_ext e f = (um_tab m f / 2 ^ 8) mod 2 /\ uv_mrrs e f = (um_tab m f / 2 ^ 12) mod 8 /\ uv_mps e f = (um_tab m f / 2 ^ 5) mod 8.
Fixpoint uc_follows (p : uc_param) (m : uc_mon) (tr : list uc_ev) : Prop :=
  match tr with [] => True | e :: r => asked e -> uc_shows p m e /\ uc_follows p (um_next p m e) r end.
Definition um_after (p : uc_param) (tr : list uc_ev) : uc_mon := fold_left (um_next p) tr um0.
(** A clock in which the core does not keep the module waiting for an answer. *)
Definition uc_good (m : uc_mon) (e : uc_ev) : Z := if uv_read e && negb (ui_done (uv_in e)) && match um_v m with None => true | Some _ => false end then 0 else 1.
Fixpoint uc_goods (p : uc_param) (m : uc_mon) (tr : list uc_ev) : Z :=
  match tr with [] => 0 | e :: r => uc_good m e + uc_goods p (um_next p m e) r end.
