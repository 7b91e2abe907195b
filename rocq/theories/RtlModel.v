(** Models of rtl/priority_encoder.v, rtl/arbiter.v and rtl/pulse_merge.v.  A
    Verilog vector of width w is an integer in [0, 2^w); undriven bits are 0. *)
From Verif Require Import PyBase.

(** Part select [v[lo+w-1:lo]], used throughout rtl/priority_encoder.v:61-80. *)
Definition psel (v lo w : Z) : Z := (v / 2 ^ lo) mod 2 ^ w.
(** Bit select [v[i]], rtl/priority_encoder.v:61-80, rtl/pulse_merge.v:65. *)
Definition bsel (v i : Z) : Z := psel v i 1.

(** A generate loop of [n] assignments to consecutive slices of width [w]
    (rtl/priority_encoder.v:60-69, 73-82). *)
Fixpoint gen_slices (n : nat) (w : Z) (f : Z -> Z) : Z :=
  match n with
  | O => 0
  | S m => gen_slices m w f + (f (Z.of_nat m) mod 2 ^ w) * 2 ^ (Z.of_nat m * w)
  end.

(** [$clog2], used in rtl/priority_encoder.v:47. *)
Definition clog2 (n : Z) : Z := Z.log2_up n.
(** rtl/priority_encoder.v:47 [LEVELS]. *)
Definition pe_levels (width : Z) : Z := if width >? 2 then clog2 width else 1.
(** rtl/priority_encoder.v:48 [W]. *)
Definition pe_w (width : Z) : Z := 2 ^ pe_levels width.

(** rtl/priority_encoder.v:60-69: [stage_valid[0]] and [stage_enc[0]]. *)
Definition pe_in (lsb : bool) (W x : Z) : Z * Z :=
  let cnt := Z.to_nat (W / 2) in
  (gen_slices cnt 1 (fun n => if psel x (n * 2) 2 =? 0 then 0 else 1),
   gen_slices cnt 1 (fun n => if lsb then (if bsel x (n * 2 + 0) =? 0 then 1 else 0) else bsel x (n * 2 + 1))).

(** rtl/priority_encoder.v:72-83: [stage_valid[l]] and [stage_enc[l]] from level l-1.  The
    concatenation of one bit and an l-bit slice is a sum. *)
Definition pe_level (lsb : bool) (W l : Z) (s : Z * Z) : Z * Z :=
  let '(v, e) := s in
  let cnt := Z.to_nat (W / (2 * 2 ^ l)) in
  (gen_slices cnt 1 (fun n => if psel v (n * 2) 2 =? 0 then 0 else 1),
   gen_slices cnt (l + 1) (fun n =>
     if lsb then
       (if bsel v (n * 2 + 0) =? 0 then 1 * 2 ^ l + psel e ((n * 2 + 1) * l) l else 0 * 2 ^ l + psel e ((n * 2 + 0) * l) l)
     else
       (if bsel v (n * 2 + 1) =? 0 then 0 * 2 ^ l + psel e ((n * 2 + 0) * l) l else 1 * 2 ^ l + psel e ((n * 2 + 1) * l) l))).

(** rtl/priority_encoder.v:56-84: levels 0 to [k]. *)
Fixpoint pe_stage (lsb : bool) (W x : Z) (k : nat) : Z * Z :=
  match k with
  | O => pe_in lsb W x
  | S m => pe_level lsb W (Z.of_nat k) (pe_stage lsb W x m)
  end.

(** rtl/priority_encoder.v:34-90: outputs valid, encoded and unencoded, truncated
    to their widths (the padding of line 51 adds zero bits). *)
Definition priority_encoder (width : Z) (lsb : bool) (x : Z) : Z * Z * Z :=
  let '(v, e) := pe_stage lsb (pe_w width) x (Z.to_nat (pe_levels width - 1)) in
  let enc := e mod 2 ^ clog2 width in
  (v mod 2, enc, Z.shiftl 1 enc mod 2 ^ width).

(** rtl/arbiter.v:36-44: parameters. *)
Record arb_param := mkArb { ap_ports : Z; ap_rr : bool; ap_block : bool; ap_block_ack : bool; ap_lsb : bool }.
(** rtl/arbiter.v:58-60, 81: registers, initially zero. *)
Record arb_state := mkArbS { as_grant : Z; as_valid : bool; as_enc : Z; as_mask : Z }.
(** rtl/arbiter.v:58-60, 81. *)
Definition arb0 : arb_state := mkArbS 0 false 0 0.
(** rtl/arbiter.v:47-51: inputs of one clock. *)
Record arb_in := mkArbIn { ai_rst : bool; ai_req : Z; ai_ack : Z }.

(** rtl/arbiter.v:120-124, 129-133: the mask after granting port [i]: the all-ones
    vector shifted, in [ap_ports] bits. *)
Definition arb_mask (p : arb_param) (i : Z) : Z :=
  if ap_lsb p then Z.shiftl (2 ^ ap_ports p - 1) (i + 1) mod 2 ^ ap_ports p
  else Z.shiftr (2 ^ ap_ports p - 1) (ap_ports p - i).

(** rtl/arbiter.v:104-113: does the combinational block hold the grant? *)
Definition arb_hold (p : arb_param) (s : arb_state) (i : arb_in) : bool :=
  (ap_block p && negb (ap_block_ack p) && negb (Z.land (as_grant s) (ai_req i) =? 0))
  || (ap_block p && ap_block_ack p && as_valid s && (Z.land (as_grant s) (ai_ack i) =? 0)).

(** rtl/arbiter.v:98-141: the next state. *)
Definition arb_next (p : arb_param) (s : arb_state) (i : arb_in) : arb_state :=
  if arb_hold p s i then mkArbS (as_grant s) (as_valid s) (as_enc s) (as_mask s)
  else
    let '(rv, ri, rm) := priority_encoder (ap_ports p) (ap_lsb p) (ai_req i) in
    let '(mv, mi, mm) := priority_encoder (ap_ports p) (ap_lsb p) (Z.land (ai_req i) (as_mask s)) in
    if negb (rv =? 0) then
      if ap_rr p then
        if negb (mv =? 0) then mkArbS mm true mi (arb_mask p mi)
        else mkArbS rm true ri (arb_mask p ri)
      else mkArbS rm true ri (as_mask s)
    else mkArbS 0 false 0 (as_mask s).

(** rtl/arbiter.v:143-155: one clock edge. *)
Definition arb_step (p : arb_param) (s : arb_state) (i : arb_in) : arb_state :=
  if ai_rst i then arb0 else arb_next p s i.

(** rtl/arbiter.v:143-155: clock edges in turn. *)
Definition arb_run (p : arb_param) (s : arb_state) (l : list arb_in) : arb_state := fold_left (arb_step p) l s.

(** rtl/pulse_merge.v:48-49: registers. *)
Record pm_state := mkPm { pm_count : Z; pm_pulse : bool }.

(** rtl/pulse_merge.v:64-66: the additions, each truncated to [cw] bits. *)
Fixpoint pm_add (cw : Z) (n : nat) (c x : Z) : Z :=
  match n with
  | O => c
  | S m => (pm_add cw m c x + bsel x (Z.of_nat m)) mod 2 ^ cw
  end.

(** rtl/pulse_merge.v:56-77: one clock edge; [iw], [cw] are the input and counter
    widths. *)
Definition pm_step (iw cw : Z) (s : pm_state) (i : bool * Z) : pm_state :=
  let '(rst, x) := i in
  if rst then mkPm 0 false
  else
    let c := if pm_count s >? 0 then (pm_count s - 1) mod 2 ^ cw else pm_count s in
    mkPm (pm_add cw (Z.to_nat iw) c x) (pm_count s >? 0).

(** rtl/pulse_merge.v:69-77: clock edges in turn; the second component is the pulse
    output after each edge. *)
Fixpoint pm_run (iw cw : Z) (s : pm_state) (l : list (bool * Z)) : pm_state * list bool :=
  match l with
  | [] => (s, [])
  | i :: r => let s' := pm_step iw cw s i in let '(s'', o) := pm_run iw cw s' r in (s'', pm_pulse s' :: o)
  end.
