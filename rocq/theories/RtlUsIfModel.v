(** The adapters from the UltraScale completer request and requester completion streams to TLPs (rtl/pcie_us_if_cq.v, rtl/pcie_us_if_rc.v), without straddling
    (CQ_STRADDLE or RC_STRADDLE 0, or narrow streams), that is with one segment (INT_TLP_SEG_COUNT 1). The FIFO behind (lines 193-242, 195-243) is not part of the model: its
    ready output is an input, and what goes in is seen. A model for both modules: up_rc tells them apart. *)
From Verif Require Import PyBase RtlModel RtlAxmModel.

(** rtl/pcie_us_if_cq.v:36-52, rtl/pcie_us_if_rc.v:36-52: the parameters: module, log2 of the data width in double words (1 to 4). *)
Record ui_param := mkUp { up_rc : bool; up_lw : Z }.
(** rtl/pcie_us_if_cq.v:45-47, rtl/pcie_us_if_rc.v:45-47: the data width in double words. *)
Definition up_w (p : ui_param) : Z := 2 ^ up_lw p.
(** rtl/pcie_us_if_cq.v:457, 465, 472; rtl/pcie_us_if_rc.v:430, 438, 445: the double words of the descriptor. *)
Definition up_k (p : ui_param) : Z := if up_rc p then 3 else 4.

(** rtl/pcie_us_if_cq.v:54-66, 219; rtl/pcie_us_if_rc.v:54-66, 221: the inputs, the last one from the FIFO. *)
Record ui_in := mkUi { ui_rst : bool; ui_data : Z; ui_keep : Z; ui_valid : bool; ui_last : bool; ui_user : Z; ui_ready : bool }.
(** rtl/pcie_us_if_cq.v:147-149, rtl/pcie_us_if_rc.v:156-157: header, BAR, function (of requests), error (of completions). *)
Record ui_meta := mkUt { ut_hdr : Z; ut_bar : Z; ut_func : Z; ut_err : Z }.
(** rtl/pcie_us_if_cq.v:145-179, rtl/pcie_us_if_rc.v:154-182: the registers: to the FIFO; frames of the output (64 bits only) and of the input; the last beat of the input. *)
Record ui_state := mkUs {
  us_data : Z; us_strb : Z; us_meta : ui_meta; us_valid : bool; us_sop : bool; us_eop : bool; us_tframe : bool; us_frame : bool;
  us_id : Z; us_is : Z; us_ibe : Z; us_iv : bool; us_ise : Z; us_isop : bool; us_ieop : bool }.
(** rtl/pcie_us_if_cq.v:145-179, rtl/pcie_us_if_rc.v:154-182. *)
Definition us0 : ui_state := mkUs 0 0 (mkUt 0 0 0 0) false false false false false 0 0 0 false 0 false false.

(** rtl/pcie_us_if_cq.v:301, rtl/pcie_us_if_rc.v:323. *)
Definition ui_strb (p : ui_param) (i : ui_in) : Z := if ui_valid i then ui_keep i mod 2 ^ up_w p else 0.
(** rtl/pcie_us_if_cq.v:302-306: the byte enables (requests only). *)
Definition ui_be (p : ui_param) (i : ui_in) : Z := if 16 <=? up_w p then psel (ui_user i) 8 4 * 16 + psel (ui_user i) 0 4 else psel (ui_user i) 0 8.
(** rtl/pcie_us_if_cq.v:312-317, rtl/pcie_us_if_rc.v:328-333: a bit for the last lane that is used, in the last beat. *)
Definition ui_seop (p : ui_param) (i : ui_in) : Z :=
  fold_left (fun a l => if Z.testbit (ui_strb p i) l then Z.b2z (ui_last i) * 2 ^ l else a) (map Z.of_nat (seq 0 (Z.to_nat (up_w p)))) 0.
(** rtl/pcie_us_if_cq.v:181, rtl/pcie_us_if_rc.v:184. *)
Definition ui_full (p : ui_param) (s : ui_state) (i : ui_in) : Z := ui_data i mod 2 ^ (32 * up_w p) * 2 ^ (32 * up_w p) + us_id s.
(** rtl/pcie_us_if_cq.v:182, rtl/pcie_us_if_rc.v:185. *)
Definition ui_sfull (p : ui_param) (s : ui_state) (i : ui_in) : Z := ui_strb p i * 2 ^ up_w p + us_is s.

(** rtl/pcie_us_if_cq.v:326-386: format and type, from the request type, the length and the routing of messages. *)
Definition cq_type (t n r : Z) : Z * Z :=
  if t =? 0 then (1, 0) else if t =? 1 then (3, 0) else if t =? 2 then (1, 2) else if t =? 3 then (3, 2) else if t =? 4 then (3, 12) else if t =? 5 then (3, 13) else if t =? 6 then (3, 14)
  else if t =? 7 then (1, 1) else if (t =? 12) || (t =? 13) || (t =? 14) then ((if n =? 0 then 1 else 3), 16 + r) else (1, 0).
(** rtl/pcie_us_if_cq.v:323-410: the header of a request, and BAR and function. *)
Definition cq_meta (d be : Z) : ui_meta :=
  let '(f, t) := cq_type (psel d 75 4) (psel d 64 11) (psel d 112 3) in
  mkUt (cat [(3, f); (5, t); (1, 0); (3, psel d 121 3); (1, 0); (1, bsel d 126); (4, 0); (2, psel d 124 2); (2, psel d 0 2); (10, psel d 64 11);
             (16, psel d 80 16); (8, psel d 96 8); (4, psel be 4 4); (4, psel be 0 4); (62, psel d 2 62); (2, 0)])
    (psel d 112 3) (psel d 104 8) 0.
(** rtl/pcie_us_if_rc.v:377-389: the error code. *)
Definition rc_err (e : Z) : Z :=
  if e =? 0 then 0 else if e =? 1 then 1 else if e =? 2 then 2 else if e =? 3 then 4 else if e =? 4 then 3 else if e =? 5 then 5 else if e =? 6 then 6 else if e =? 8 then 8 else if e =? 9 then 15 else 0.
(** rtl/pcie_us_if_rc.v:344-390: the header of a completion, and the error. *)
Definition rc_meta (d : Z) : ui_meta :=
  mkUt (cat [(3, if negb (psel d 32 11 =? 0) then 2 else 0); (4, 5); (1, bsel d 29); (1, 0); (3, psel d 89 3); (1, 0); (1, bsel d 94); (3, 0); (1, bsel d 46); (2, psel d 92 2); (2, 0); (10, psel d 32 11);
             (16, psel d 72 16); (3, psel d 43 3); (1, 0); (12, psel d 16 13); (16, psel d 48 16); (8, psel d 64 8); (1, 0); (7, psel d 0 7); (32, 0)])
    0 0 (rc_err (psel d 12 4)).
(** rtl/pcie_us_if_cq.v:323-410, rtl/pcie_us_if_rc.v:344-390. *)
Definition ui_meta_of (p : ui_param) (s : ui_state) (i : ui_in) : ui_meta := if up_rc p then rc_meta (ui_full p s i) else cq_meta (ui_full p s i) (us_ibe s).

(** rtl/pcie_us_if_cq.v:412-416, rtl/pcie_us_if_rc.v:392-396: what is given to the FIFO next: data, strobe, header, valid, first and last beat, frame; and the saved beat is done. *)
Record ui_gen := mkUg { ug_data : Z; ug_strb : Z; ug_meta : ui_meta; ug_valid : bool; ug_sop : bool; ug_eop : bool; ug_tframe : bool; ug_clear : bool }.
(** rtl/pcie_us_if_cq.v:412-416, rtl/pcie_us_if_rc.v:392-396. *)
Definition ui_none (s : ui_state) : ui_gen := mkUg (us_data s) 0 (us_meta s) false false false (us_tframe s) false.
(** rtl/pcie_us_if_cq.v:417-449: requests, 64 bits. *)
Definition ui_gen_cq64 (p : ui_param) (s : ui_state) (i : ui_in) : ui_gen :=
  let d := psel (ui_full p s i) 64 64 in let st := psel (ui_sfull p s i) 2 2 in
  if us_iv s then
    if us_isop s then
      if us_ieop s then mkUg d st (ui_meta_of p s i) false false false false true
      else if ui_valid i then
        if ui_last i then mkUg d 0 (ui_meta_of p s i) true true true false true else mkUg d st (ui_meta_of p s i) false false false false true
      else mkUg d st (ui_meta_of p s i) false false false false false
    else
      if us_ieop s then mkUg d st (us_meta s) false (negb (us_tframe s)) false (us_tframe s) true
      else if ui_valid i then mkUg d st (us_meta s) true (negb (us_tframe s)) (ui_last i) true true
      else mkUg d st (us_meta s) false (negb (us_tframe s)) false (us_tframe s) false
  else ui_none s.
(** rtl/pcie_us_if_rc.v:397-424: completions, 64 bits. *)
Definition ui_gen_rc64 (p : ui_param) (s : ui_state) (i : ui_in) : ui_gen :=
  let d := psel (ui_full p s i) 32 64 in let st := psel (ui_sfull p s i) 1 2 in
  if us_iv s then
    if us_isop s then mkUg d st (ui_meta_of p s i) false false false false (us_ieop s || ui_valid i)
    else
      if us_ieop s then mkUg d (bsel (ui_sfull p s i) 1) (us_meta s) true (negb (us_tframe s)) true (us_tframe s) true
      else if ui_valid i then mkUg d st (us_meta s) true (negb (us_tframe s)) false true true
      else mkUg d st (us_meta s) false (negb (us_tframe s)) false (us_tframe s) false
  else ui_none s.
(** rtl/pcie_us_if_cq.v:450-477, rtl/pcie_us_if_rc.v:425-452: from 128 bits on, one segment. *)
Definition ui_gen_wide (p : ui_param) (s : ui_state) (i : ui_in) : ui_gen :=
  let d := psel (ui_full p s i) (32 * up_k p) (32 * up_w p) in let mt := if us_isop s then ui_meta_of p s i else us_meta s in
  if us_iv s then
    if us_ieop s then
      let fin := us_isop s || negb (us_ise s / 2 ^ up_k p =? 0) in
      mkUg d (us_is s / 2 ^ up_k p) mt fin (us_isop s) fin (us_tframe s) true
    else
      let st := psel (ui_sfull p s i) (up_k p) (up_w p) in
      if ui_valid i then mkUg d st mt true (us_isop s) (negb (ui_seop p i mod 2 ^ up_k p =? 0)) (us_tframe s) true
      else mkUg d st mt false (us_isop s) false (us_tframe s) false
  else ui_none s.
(** rtl/pcie_us_if_cq.v:412-479, rtl/pcie_us_if_rc.v:392-454: what is done if the FIFO is ready. *)
Definition ui_gen_of (p : ui_param) (s : ui_state) (i : ui_in) : ui_gen :=
  if up_lw p =? 1 then (if up_rc p then ui_gen_rc64 p s i else ui_gen_cq64 p s i) else ui_gen_wide p s i.
(** rtl/pcie_us_if_cq.v:191, 481-489; rtl/pcie_us_if_rc.v:193, 456-463: one clock without reset. If the FIFO is not ready nothing changes, and nothing is taken. *)
Definition ui_next (p : ui_param) (s : ui_state) (i : ui_in) : ui_state :=
  if ui_ready i then
    let g := ui_gen_of p s i in
    if ui_valid i then
      mkUs (ug_data g) (ug_strb g) (ug_meta g) (ug_valid g) (ug_sop g) (ug_eop g) (ug_tframe g) (negb (ui_last i))
        (ui_data i mod 2 ^ (32 * up_w p)) (ui_strb p i) (ui_be p i) true (ui_seop p i) (negb (us_frame s)) (ui_last i)
    else
      mkUs (ug_data g) (ug_strb g) (ug_meta g) (ug_valid g) (ug_sop g) (ug_eop g) (ug_tframe g) (us_frame s)
        (us_id s) (us_is s) (us_ibe s) (us_iv s && negb (ug_clear g)) (us_ise s) (us_isop s) (us_ieop s)
  else s.
(** rtl/pcie_us_if_cq.v:491-518, rtl/pcie_us_if_rc.v:464-489: one clock. *)
Definition ui_step (p : ui_param) (s : ui_state) (i : ui_in) : ui_state :=
  let n := ui_next p s i in
  if ui_rst i then mkUs (us_data n) (us_strb n) (us_meta n) false (us_sop n) (us_eop n) (us_tframe n) false (us_id n) (us_is n) (us_ibe n) false (us_ise n) (us_isop n) (us_ieop n) else n.

(** rtl/pcie_us_if_cq.v:191-219, rtl/pcie_us_if_rc.v:193-221: what is seen in one clock: inputs, and what is shown to the FIFO (the stream is ready if the FIFO is). *)
Record ui_ev := mkUv { uv_in : ui_in; uv_valid : bool; uv_data : Z; uv_strb : Z; uv_meta : ui_meta; uv_sop : bool; uv_eop : bool }.
(** rtl/pcie_us_if_cq.v:191-219, rtl/pcie_us_if_rc.v:193-221. *)
Definition ui_event (s : ui_state) (i : ui_in) : ui_ev := mkUv i (us_valid s) (us_data s) (us_strb s) (us_meta s) (us_sop s) (us_eop s).
(** rtl/pcie_us_if_cq.v:491-518, rtl/pcie_us_if_rc.v:464-489: clock after clock. *)
Fixpoint ui_trace (p : ui_param) (s : ui_state) (l : list ui_in) : list ui_ev := match l with [] => [] | i :: r => ui_event s i :: ui_trace p (ui_step p s i) r end.
(** rtl/pcie_us_if_cq.v:491-518, rtl/pcie_us_if_rc.v:464-489: the last state. *)
Definition ui_run (p : ui_param) (s : ui_state) (l : list ui_in) : ui_state := fold_left (ui_step p) l s.
