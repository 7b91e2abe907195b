(** Models of rtl/pcie_tlp_fc_count.v and rtl/pcie_ptile_fc_counter.v.  A Verilog
    vector of width w is an integer in [0, 2^w). *)
From Verif Require Import PyBase RtlModel.

(** rtl/pcie_tlp_fc_count.v:72-75: FC_TYPE_P, FC_TYPE_NP, FC_TYPE_CPL; the default 2'bxx of line 114
    is [FcX]: comparisons with it are not true. *)
Inductive fc_type := FcP | FcNP | FcCPL | FcX.

(** rtl/pcie_tlp_fc_count.v:77-116 [tlp_fc_type]: the case items in order; the argument is {fmt, type}. *)
Definition tlp_fc_type (fmt_type : Z) : fc_type :=
  match fmt_type with
  | 0x00 => FcNP  | 0x20 => FcNP  | 0x01 => FcNP  | 0x21 => FcNP
  | 0x40 => FcP   | 0x60 => FcP
  | 0x02 => FcNP  | 0x42 => FcNP  | 0x04 => FcNP  | 0x44 => FcNP  | 0x05 => FcNP  | 0x45 => FcNP
  | 0x30 => FcP   | 0x31 => FcP   | 0x32 => FcP   | 0x33 => FcP   | 0x34 => FcP   | 0x35 => FcP
  | 0x70 => FcP   | 0x71 => FcP   | 0x72 => FcP   | 0x73 => FcP   | 0x74 => FcP   | 0x75 => FcP
  | 0x0a => FcCPL | 0x4a => FcCPL | 0x0b => FcCPL | 0x4b => FcCPL
  | 0x4c => FcNP  | 0x6c => FcNP  | 0x4d => FcNP  | 0x6d => FcNP  | 0x4e => FcNP  | 0x6e => FcNP
  | _ => FcX
  end.

(** rtl/pcie_tlp_fc_count.v:121-126: the six counters. *)
Record fc_counts := mkFc { fc_ph : Z; fc_pd : Z; fc_nph : Z; fc_npd : Z; fc_cplh : Z; fc_cpld : Z }.
(** rtl/pcie_tlp_fc_count.v:121-126, 138-143: all zero. *)
Definition fc0 : fc_counts := mkFc 0 0 0 0 0 0.

(** rtl/pcie_tlp_fc_count.v:147-150 [seg_fc_d] (12 bits; the addition is done in 32 bits). *)
Definition seg_fc_d (hdr seg : Z) : Z :=
  if bsel hdr (seg * 128 + 126) =? 0 then 0
  else
    let l := psel hdr (seg * 128 + 96) 9 in
    (((if l =? 0 then 1 else 0) * 2 ^ 9 + l + 3) / 4) mod 2 ^ 12.

(** rtl/pcie_tlp_fc_count.v:145-164: one turn of the loop; header counters have 4 bits, data
    counters 9. *)
Definition fc_seg (hdr valid sop : Z) (ready : bool) (seg : Z) (c : fc_counts) : fc_counts :=
  let t := tlp_fc_type (psel hdr (seg * 128 + 120) 8) in
  let d := seg_fc_d hdr seg in
  if negb (bsel sop seg =? 0) && negb (bsel valid seg =? 0) && ready then
    match t with
    | FcP => mkFc ((fc_ph c + 1) mod 2 ^ 4) ((fc_pd c + d) mod 2 ^ 9) (fc_nph c) (fc_npd c) (fc_cplh c) (fc_cpld c)
    | FcNP => mkFc (fc_ph c) (fc_pd c) ((fc_nph c + 1) mod 2 ^ 4) ((fc_npd c + d) mod 2 ^ 9) (fc_cplh c) (fc_cpld c)
    | FcCPL => mkFc (fc_ph c) (fc_pd c) (fc_nph c) (fc_npd c) ((fc_cplh c + 1) mod 2 ^ 4) ((fc_cpld c + d) mod 2 ^ 9)
    | FcX => c
    end
  else c.

(** rtl/pcie_tlp_fc_count.v:145-164: the loop over the first [n] segments. *)
Fixpoint fc_next (hdr valid sop : Z) (ready : bool) (n : nat) : fc_counts :=
  match n with
  | O => fc0
  | S m => fc_seg hdr valid sop ready (Z.of_nat m) (fc_next hdr valid sop ready m)
  end.

(** rtl/pcie_tlp_fc_count.v:167-183: the counters (and outputs, 128-133) after a clock edge. *)
Definition fc_step (segs : nat) (rst : bool) (hdr valid sop : Z) (ready : bool) : fc_counts :=
  if rst then fc0 else fc_next hdr valid sop ready segs.

(** rtl/pcie_ptile_fc_counter.v:49-52: registers. *)
Record pt_state := mkPt { pt_cap : Z; pt_limit : Z; pt_inc : Z; pt_av : Z }.
(** rtl/pcie_ptile_fc_counter.v:49-52, 73-78: all zero. *)
Definition pt0 : pt_state := mkPt 0 0 0 0.
(** rtl/pcie_ptile_fc_counter.v:40-45: inputs of one clock. *)
Record pt_in := mkPtIn { pi_rst : bool; pi_limit : Z; pi_idx : Z; pi_dec : Z }.

(** rtl/pcie_ptile_fc_counter.v:56-79: one clock edge, [w] the WIDTH and [index] the INDEX.  The first comparison
    is signed (32 bits), the second unsigned in w+1 bits, where the value fits. *)
Definition pt_step (w index : Z) (s : pt_state) (i : pt_in) : pt_state :=
  if pi_rst i then pt0
  else
    let hit := pi_idx i =? index in
    let v := pt_av s - pi_dec i + pt_inc s in
    mkPt (if hit && (pt_cap s =? 0) then pi_limit i else pt_cap s)
         (if hit then pi_limit i else pt_limit s)
         (if hit then (pi_limit i - pt_limit s) mod 2 ^ w else pt_inc s)
         (if v <? 0 then 0 else if v mod 2 ^ (w + 1) >? pt_cap s then pt_cap s else v mod 2 ^ w).

(** rtl/pcie_ptile_fc_counter.v:56-79: clock edges in turn. *)
Definition pt_run (w index : Z) (s : pt_state) (l : list pt_in) : pt_state := fold_left (pt_step w index) l s.
