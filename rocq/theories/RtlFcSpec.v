(** What the flow control counters must count (C81, C82). *)
From Verif Require Import PyBase RtlModel RtlFcModel.

(** Flow control classes of the PCIe specification, by {fmt, type}. *)
Definition known (ft : Z) : bool :=
  let f := ft / 32 in let t := ft mod 32 in
  ((f <=? 1) && (t <=? 1)) ||                                (* memory reads *)
  ((2 <=? f) && (f <=? 3) && (t =? 0)) ||                    (* memory writes *)
  (((f =? 0) || (f =? 2)) && ((t =? 2) || (t =? 4) || (t =? 5))) || (* I/O, configuration *)
  (((f =? 1) || (f =? 3)) && (16 <=? t) && (t <=? 21)) ||    (* messages *)
  (((f =? 0) || (f =? 2)) && ((t =? 10) || (t =? 11))) ||    (* completions *)
  ((2 <=? f) && (f <=? 3) && (12 <=? t) && (t <=? 14)).      (* atomics *)
Definition posted (ft : Z) : bool := known ft && (((2 <=? ft / 32) && (ft mod 32 =? 0)) || (16 <=? ft mod 32)).
Definition completion (ft : Z) : bool := known ft && ((ft mod 32 =? 10) || (ft mod 32 =? 11)).
Definition nonposted (ft : Z) : bool := known ft && negb (posted ft) && negb (completion ft).

(** Payload in DWORDs of a header with this length field: 0 means 1024. *)
Definition dwords (len : Z) : Z := if len =? 0 then 1024 else len.
(** Data credits: one per 4 DWORDs or part of them, if the TLP has data (fmt[1]). *)
Definition credits (h : Z * Z) : Z := let '(ft, len) := h in if Z.testbit ft 6 then (dwords len + 3) / 4 else 0.

(** {fmt, type} and length of the TLPs that start in this cycle. *)
Fixpoint starts (hdr valid sop : Z) (ready : bool) (n : nat) : list (Z * Z) :=
  match n with
  | O => []
  | S m => let s := Z.of_nat m in
           starts hdr valid sop ready m ++
           (if Z.testbit sop s && Z.testbit valid s && ready then [(psel hdr (128 * s + 120) 8, psel hdr (128 * s + 96) 10)] else [])
  end.

Definition zsum (l : list Z) : Z := fold_right Z.add 0 l.
Definition count_of (cls : Z -> bool) (l : list (Z * Z)) : Z := zlen (filter (fun h => cls (fst h)) l).
Definition data_of (cls : Z -> bool) (l : list (Z * Z)) : Z := zsum (map credits (filter (fun h => cls (fst h)) l)).
Definition counts_of (l : list (Z * Z)) : fc_counts :=
  mkFc (count_of posted l) (data_of posted l) (count_of nonposted l) (data_of nonposted l) (count_of completion l) (data_of completion l).

(** Counts in 4 bit (headers) and 9 bit (data) outputs. *)
Definition fc_mod (c : fc_counts) : fc_counts :=
  mkFc (fc_ph c mod 16) (fc_pd c mod 512) (fc_nph c mod 16) (fc_npd c mod 512) (fc_cplh c mod 16) (fc_cpld c mod 512).

(** A credit account (all numbers unbounded): limit one cycle ago, limit announced so far, credits used
    so far, first limit announced.  Each cycle announces [delta] more credits and uses [dec]. *)
Record acct := mkAcct { a_old : Z; a_lim : Z; a_used : Z; a_cap : Z }.
Definition acct0 := mkAcct 0 0 0 0.
Definition acct_step (a : acct) (x : Z * Z) : acct :=
  mkAcct (a_lim a) (a_lim a + fst x) (a_used a + snd x) (if a_cap a =? 0 then fst x else a_cap a).
(** The sender uses at most the credits announced up to the cycle before; the receiver never announces more
    than the first limit beyond what has been used. *)
Definition acct_ok (w : Z) (a : acct) (x : Z * Z) : Prop :=
  0 <= fst x < 2 ^ w /\ 0 <= snd x <= a_old a - a_used a /\
  a_lim (acct_step a x) <= a_used (acct_step a x) + a_cap (acct_step a x).
Fixpoint acct_run_ok (w : Z) (a : acct) (l : list (Z * Z)) : Prop :=
  match l with [] => True | x :: r => acct_ok w a x /\ acct_run_ok w (acct_step a x) r end.
(** The core shows the running limit modulo 2^w, under the counter's own index in every cycle. *)
Fixpoint shown (w index lim : Z) (l : list (Z * Z)) : list pt_in :=
  match l with
  | [] => []
  | x :: r => mkPtIn false ((lim + fst x) mod 2 ^ w) index (snd x) :: shown w index (lim + fst x) r
  end.
