(** The adapters from TLPs to the UltraScale completer completion and requester request streams (rtl/pcie_us_if_cc.v, rtl/pcie_us_if_rq.v), without straddling
    (CC_STRADDLE or RQ_STRADDLE 0, or narrow streams), that is with one segment (INT_TLP_SEG_COUNT 1, segment offset 0). The FIFOs in front (pcie_us_if_cc.v:190-253, pcie_us_if_rq.v:313-446)
    are not part of the model: what they show is an input, and the read enables are seen. A model for both modules: tp_rq tells them apart. The completion FIFO takes the
    place of the FIFO for write requests (port 1). *)
From Verif Require Import PyBase RtlModel RtlAxmModel.

(** rtl/pcie_us_if_cc.v:36-52, rtl/pcie_us_if_rq.v:36-58: the parameters: module, log2 of the data width in double words (1 to 4), AXIS_PCIE_RQ_USER_WIDTH is 62 (and not 60). *)
Record tx_param := mkTp { tp_rq : bool; tp_lw : Z; tp_u62 : bool }.
(** rtl/pcie_us_if_cc.v:45-47, rtl/pcie_us_if_rq.v:46-49: the data width in double words. *)
Definition tp_w (p : tx_param) : Z := 2 ^ tp_lw p.
(** rtl/pcie_us_if_rq.v:44-45: the width of sequence numbers. *)
Definition tp_sw (p : tx_param) : Z := if (tp_lw p =? 4) || tp_u62 p then 6 else 4.
(** rtl/pcie_us_if_cc.v:330, 414, 437; rtl/pcie_us_if_rq.v:508, 712: by how many lanes data is shifted. *)
Definition tp_k (p : tx_param) : Z := if tp_rq p then 4 else if tp_lw p =? 1 then 1 else 3.

(** rtl/pcie_us_if_cc.v:179-184, rtl/pcie_us_if_rq.v:297-303: what a FIFO shows. *)
Record tx_beat := mkTb { tb_valid : bool; tb_eop : bool; tb_data : Z; tb_strb : Z; tb_hdr : Z; tb_seq : Z }.
(** rtl/pcie_us_if_cc.v:53-80, rtl/pcie_us_if_rq.v:59-124: the inputs: both FIFOs (read requests; write requests or completions), ready of the stream, credits, maximum payload size. *)
Record tx_in := mkTi { ti_rst : bool; ti_rd : tx_beat; ti_wr : tx_beat; ti_ready : bool; ti_ph : Z; ti_pd : Z; ti_nph : Z; ti_mps : Z }.
(** rtl/pcie_us_if_cc.v:136-171, rtl/pcie_us_if_rq.v:223-271: the registers: frame, parts of the header, split; port (true is 1); shift register; credits; the stream. *)
Record tx_state := mkTs {
  ts_frame : bool; ts_h1 : bool; ts_h2 : bool; ts_s1 : bool; ts_s2 : bool; ts_port : bool; ts_shd : Z; ts_shs : Z; ts_mps : Z; ts_pc : bool; ts_npc : bool;
  ts_data : Z; ts_keep : Z; ts_valid : bool; ts_last : bool; ts_user : Z }.
(** rtl/pcie_us_if_cc.v:136-171, rtl/pcie_us_if_rq.v:223-271. *)
Definition ts0 : tx_state := mkTs false false false false false false 0 0 0 false false 0 0 false false 0.

(** rtl/pcie_us_if_rq.v:377-378: the FIFO of read requests has no data. *)
Definition tx_port (i : tx_in) (b : bool) : tx_beat := if b then ti_wr i else mkTb (tb_valid (ti_rd i)) (tb_eop (ti_rd i)) 0 0 (tb_hdr (ti_rd i)) (tb_seq (ti_rd i)).
(** rtl/pcie_us_if_cc.v:303-311, rtl/pcie_us_if_rq.v:521-544: frame, parts of the header, split, and port, for this clock. Read requests come first. *)
Record tx_cyc := mkTc { tc_frame : bool; tc_h1 : bool; tc_h2 : bool; tc_s1 : bool; tc_s2 : bool; tc_port : bool }.
(** rtl/pcie_us_if_cc.v:303-311, rtl/pcie_us_if_rq.v:521-544. *)
Definition tx_sel (p : tx_param) (s : tx_state) (i : tx_in) : tx_cyc :=
  if ts_frame s then mkTc true (ts_h1 s) (ts_h2 s) (ts_s1 s) (ts_s2 s) (ts_port s)
  else if negb (tp_rq p) then mkTc (tb_valid (ti_wr i)) true false false false true
  else if tb_valid (ti_rd i) && ts_npc s then mkTc true true false false false false
  else if tb_valid (ti_wr i) && ts_pc s then mkTc true true false false false true
  else mkTc false true false false false (ts_port s).

(** rtl/pcie_us_if_cc.v:326-357, rtl/pcie_us_if_rq.v:560-615: what the beat is used for: frame, parts of the header, split afterwards; last beat of the TLP; the beat is done. *)
Record tx_rt := mkTr { tr_frame : bool; tr_h1 : bool; tr_h2 : bool; tr_s1 : bool; tr_s2 : bool; tr_eop : bool; tr_read : bool }.
(** rtl/pcie_us_if_cc.v:326-357: completions. *)
Definition cc_route (p : tx_param) (c : tx_cyc) (b : tx_beat) : tx_rt :=
  if (tp_lw p =? 1) && tc_h1 c then mkTr (tc_frame c) false true (tc_s1 c) (tc_s2 c) false false
  else if tb_eop b && negb (tb_strb b / 2 ^ (tp_w p - tp_k p) =? 0) then
    if tc_s1 c then mkTr false false false false true true true else mkTr (tc_frame c) false false true (tc_s2 c) false false
  else mkTr (tc_frame c && negb (tb_eop b)) false false (tc_s1 c) (tc_s2 c) (tb_eop b) true.
(** rtl/pcie_us_if_rq.v:505-510, 560-615: requests. *)
Definition rq_route (p : tx_param) (c : tx_cyc) (b : tx_beat) : tx_rt :=
  if (tp_lw p =? 1) && tc_h1 c then mkTr (tc_frame c) false true (tc_s1 c) (tc_s2 c) false false
  else if (tp_lw p =? 2) && tc_h1 c || (tp_lw p =? 1) && tc_h2 c then
    if tb_eop b && (tb_strb b =? 0) then mkTr false false false (tc_s1 c) (tc_s2 c) true true else mkTr (tc_frame c) false false (tc_s1 c) (tc_s2 c) false false
  else if (2 <? tp_lw p) && (tb_eop b && negb (tb_strb b / 2 ^ (tp_w p - 4) =? 0)) then
    if tc_s1 c then mkTr false false false false true true true else mkTr (tc_frame c) false false true (tc_s2 c) false false
  else mkTr (tc_frame c && negb (tb_eop b)) false false (tc_s1 c) (tc_s2 c) (tb_eop b) true.
(** rtl/pcie_us_if_cc.v:326-357, rtl/pcie_us_if_rq.v:560-615. *)
Definition tx_route (p : tx_param) (c : tx_cyc) (b : tx_beat) : tx_rt := if tp_rq p then rq_route p c b else cc_route p c b.

(** rtl/pcie_us_if_cc.v:387-407: the descriptor of a completion. *)
Definition cc_desc (h : Z) : Z :=
  cat [(1, 0); (1, bsel h 114); (2, psel h 108 2); (3, psel h 116 3); (1, 0); (16, psel h 80 16); (8, psel h 40 8); (16, psel h 48 16); (1, 0); (1, bsel h 110); (3, psel h 77 3); (11, psel h 96 10);
       (2, 0); (1, 0); (13, psel h 64 12); (6, 0); (2, psel h 106 2); (1, 0); (7, psel h 32 7)].
(** rtl/pcie_us_if_rq.v:657-671: the kind of a request, from format and type. *)
Definition rq_kind (f t : Z) : Z :=
  let nd := (f =? 0) || (f =? 1) in let dt := (f =? 2) || (f =? 3) in
  if nd && (t =? 0) then 0 else if nd && (t =? 1) then 7 else if dt && (t =? 0) then 1 else if nd && (t =? 2) then 2 else if dt && (t =? 2) then 3
  else if (f =? 0) && (t =? 4) then 8 else if (f =? 2) && (t =? 4) then 10 else if (f =? 0) && (t =? 5) then 9 else if (f =? 2) && (t =? 5) then 11
  else if dt && (t =? 12) then 4 else if dt && (t =? 13) then 5 else if dt && (t =? 14) then 6 else 1.
(** rtl/pcie_us_if_rq.v:652-679: the descriptor of a request. *)
Definition rq_desc (h : Z) : Z :=
  cat [(1, 0); (1, bsel h 114); (2, psel h 108 2); (3, psel h 116 3); (1, 0); (16, 0); (8, psel h 72 8); (16, psel h 80 16); (1, bsel h 110); (4, rq_kind (psel h 125 3) (psel h 120 5));
       (11, (if psel h 96 10 =? 0 then 1024 else 0) + psel h 96 10); (62, psel h 2 62); (2, psel h 106 2)].
(** rtl/pcie_us_if_cc.v:387-407, rtl/pcie_us_if_rq.v:652-679. *)
Definition tx_desc (p : tx_param) (h : Z) : Z := if tp_rq p then rq_desc h else cc_desc h.

(** rtl/pcie_us_if_rq.v:685-703: requests, 64 and 128 bits: the data, not shifted. *)
Definition rqn_data (p : tx_param) (c : tx_cyc) (b : tx_beat) : Z :=
  let d := rq_desc (tb_hdr b) in
  if tp_lw p =? 1 then if tc_h1 c then psel d 0 64 else if tc_h2 c then psel d 64 64 else psel (tb_data b) 0 64
  else if tc_h1 c then d else psel (tb_data b) 0 128.
(** rtl/pcie_us_if_rq.v:685-703. *)
Definition rqn_strb (p : tx_param) (c : tx_cyc) (b : tx_beat) : Z :=
  if tp_lw p =? 1 then if tc_h1 c || tc_h2 c then 3 else tb_strb b else if tc_h1 c then 15 else tb_strb b.
(** rtl/pcie_us_if_cc.v:410-424: completions, 64 bits. *)
Definition cc64_data (s : tx_state) (c : tx_cyc) (b : tx_beat) : Z :=
  let d := cc_desc (tb_hdr b) in
  if tc_h1 c then psel d 0 64 else psel (tb_data b) 0 32 * 2 ^ 32 + (if tc_h2 c then psel d 64 32 else psel (ts_shd s) 0 32).
(** rtl/pcie_us_if_cc.v:410-424: split2 is the value after routing. *)
Definition cc64_strb (s : tx_state) (c : tx_cyc) (r : tx_rt) (b : tx_beat) : Z :=
  if tc_h1 c then 3 else (if tr_s2 r then bsel (ts_shs s) 1 else bsel (tb_strb b) 0) * 2 + (if tc_h2 c then 1 else bsel (ts_shs s) 0).
(** rtl/pcie_us_if_cc.v:434-445, rtl/pcie_us_if_rq.v:709-720: the other widths, shifted. *)
Definition wide_data (p : tx_param) (s : tx_state) (c : tx_cyc) (b : tx_beat) : Z :=
  psel (tb_data b) 0 (32 * (tp_w p - tp_k p)) * 2 ^ (32 * tp_k p) + (if tc_h1 c then tx_desc p (tb_hdr b) else ts_shd s).
(** rtl/pcie_us_if_cc.v:434-445, rtl/pcie_us_if_rq.v:709-720. *)
Definition wide_strb (p : tx_param) (s : tx_state) (c : tx_cyc) (r : tx_rt) (b : tx_beat) : Z :=
  (if tr_s2 r then 0 else psel (tb_strb b) 0 (tp_w p - tp_k p)) * 2 ^ tp_k p + (if tc_h1 c then 2 ^ tp_k p - 1 else ts_shs s).
(** rtl/pcie_us_if_rq.v:685: requests at 64 or 128 bits. *)
Definition tp_narrow (p : tx_param) : bool := tp_rq p && (tp_lw p <=? 2).
(** rtl/pcie_us_if_cc.v:409-455, rtl/pcie_us_if_rq.v:685-732. *)
Definition tx_data (p : tx_param) (s : tx_state) (c : tx_cyc) (b : tx_beat) : Z :=
  if tp_narrow p then rqn_data p c b else if tp_lw p =? 1 then cc64_data s c b else wide_data p s c b.
(** rtl/pcie_us_if_cc.v:409-455, rtl/pcie_us_if_rq.v:685-732. *)
Definition tx_strb (p : tx_param) (s : tx_state) (c : tx_cyc) (r : tx_rt) (b : tx_beat) : Z :=
  if tp_narrow p then rqn_strb p c b else if tp_lw p =? 1 then cc64_strb s c r b else wide_strb p s c r b.

(** rtl/pcie_us_if_cc.v:458-465: the last lane that is used; 3 bits. *)
Definition tx_eop_index (p : tx_param) (st : Z) : Z := fold_left (fun a l => if Z.testbit st l then l mod 8 else a) (map Z.of_nat (seq 0 (Z.to_nat (tp_w p)))) 0.
(** rtl/pcie_us_if_cc.v:481-531: the user signal of completions. *)
Definition cc_user (p : tx_param) (sop eop : bool) (st : Z) : Z :=
  if tp_lw p =? 4 then cat [(64, 0); (1, 0); (4, 0); (4, if eop then tx_eop_index p st else 0); (2, if eop then 1 else 0); (2, 0); (2, 0); (2, if sop then 1 else 0)] else 0.
(** rtl/pcie_us_if_rq.v:708, 726: the sequence number; those of read requests are marked. *)
Definition rq_seq (p : tx_param) (port : bool) (b : tx_beat) : Z := Z.lor (tb_seq b) (if port then 0 else 2 ^ (tp_sw p - 1)).
(** rtl/pcie_us_if_rq.v:682-683, 757-866: the user signal of requests. *)
Definition rq_user (p : tx_param) (port : bool) (b : tx_beat) : Z :=
  let h := tb_hdr b in let sq := rq_seq p port b in
  if tp_lw p =? 4 then cat [(64, 0); (6, 0); (6, sq); (25, 0); (16, 0); (4, 0); (4, 0); (4, psel h 68 4); (4, 0); (4, psel h 64 4)]
  else if tp_u62 p then cat [(2, sq / 16); (32, 0); (4, sq); (16, 0); (4, psel h 68 4); (4, psel h 64 4)]
  else cat [(32, 0); (4, sq); (16, 0); (4, psel h 68 4); (4, psel h 64 4)].
(** rtl/pcie_us_if_cc.v:481-531, rtl/pcie_us_if_rq.v:757-866: the user signal, given that something is put out. *)
Definition tx_user (p : tx_param) (c : tx_cyc) (r : tx_rt) (b : tx_beat) (st : Z) : Z := if tp_rq p then rq_user p (tc_port c) b else cc_user p (tc_h1 c) (tr_eop r) st.

(** rtl/pcie_us_if_cc.v:359-377, rtl/pcie_us_if_rq.v:617-638: the beat is put out in this clock. *)
Definition tx_commit (p : tx_param) (s : tx_state) (i : tx_in) : bool :=
  let c := tx_sel p s i in tc_frame c && tb_valid (tx_port i (tc_port c)) && (negb (ts_valid s) || ti_ready i).
(** rtl/pcie_us_if_cc.v:430-433, 451-454; rtl/pcie_us_if_rq.v:728-731: the shift register. *)
Definition tx_shift (p : tx_param) (s : tx_state) (b : tx_beat) : Z * Z :=
  if tp_narrow p then (ts_shd s, ts_shs s) else (psel (tb_data b) (32 * (tp_w p - tp_k p)) (32 * tp_k p), psel (tb_strb b) (tp_w p - tp_k p) (tp_k p)).
(** rtl/pcie_us_if_rq.v:871: credits for data in a TLP of the maximum payload size. *)
Definition tx_mps (i : tx_in) : Z := 8 * 2 ^ (if 5 <? ti_mps i then 5 else ti_mps i).
(** rtl/pcie_us_if_rq.v:872: credits for two writes or more. *)
Definition tx_pc (s : tx_state) (i : tx_in) : bool := (8 <? ti_ph i) && (ts_mps s * 2 <? ti_pd i).
(** rtl/pcie_us_if_rq.v:873. *)
Definition tx_npc (i : tx_in) : bool := 8 <? ti_nph i.
(** rtl/pcie_us_if_cc.v:257-556, rtl/pcie_us_if_rq.v:452-893: one clock without reset. If nothing is put out the user signal of an invalid beat is not modelled (kept). *)
Definition tx_next (p : tx_param) (s : tx_state) (i : tx_in) : tx_state :=
  let c := tx_sel p s i in let b := tx_port i (tc_port c) in let r := tx_route p c b in
  if tx_commit p s i then
    let st := tx_strb p s c r b in let '(shd, shs) := tx_shift p s b in
    mkTs (tr_frame r) (tr_h1 r) (tr_h2 r) (tr_s1 r) (tr_s2 r) (tc_port c) shd shs (tx_mps i) (tx_pc s i) (tx_npc i) (tx_data p s c b) st true (tr_eop r) (tx_user p c r b st)
  else if negb (ts_valid s) || ti_ready i then
    mkTs (ts_frame s) (ts_h1 s) (ts_h2 s) (ts_s1 s) (ts_s2 s) (ts_port s) (ts_shd s) (ts_shs s) (tx_mps i) (tx_pc s i) (tx_npc i) (tx_data p s c b) 0 false false (ts_user s)
  else mkTs (ts_frame s) (ts_h1 s) (ts_h2 s) (ts_s1 s) (ts_s2 s) (ts_port s) (ts_shd s) (ts_shs s) (tx_mps i) (tx_pc s i) (tx_npc i) (ts_data s) (ts_keep s) true (ts_last s) (ts_user s).
(** rtl/pcie_us_if_cc.v:537-558, rtl/pcie_us_if_rq.v:870-899: one clock. *)
Definition tx_step (p : tx_param) (s : tx_state) (i : tx_in) : tx_state :=
  let n := tx_next p s i in
  if ti_rst i then mkTs false (ts_h1 n) (ts_h2 n) (ts_s1 n) (ts_s2 n) false (ts_shd n) (ts_shs n) (ts_mps n) (ts_pc n) (ts_npc n) (ts_data n) (ts_keep n) false (ts_last n) (ts_user n) else n.
(** rtl/pcie_us_if_cc.v:371, rtl/pcie_us_if_rq.v:632: the read enable of a port. *)
Definition tx_read (p : tx_param) (s : tx_state) (i : tx_in) (b : bool) : bool :=
  let c := tx_sel p s i in tx_commit p s i && tr_read (tx_route p c (tx_port i (tc_port c))) && Bool.eqb (tc_port c) b.

(** rtl/pcie_us_if_cc.v:173-177, 235; rtl/pcie_us_if_rq.v:291-295, 358, 428: what is seen in one clock: inputs, read enables, the stream. *)
Record tx_ev := mkTv { tv_in : tx_in; tv_rd : bool; tv_wr : bool; tv_valid : bool; tv_data : Z; tv_keep : Z; tv_last : bool; tv_user : Z }.
(** rtl/pcie_us_if_cc.v:173-177, 235; rtl/pcie_us_if_rq.v:291-295, 358, 428. *)
Definition tx_event (p : tx_param) (s : tx_state) (i : tx_in) : tx_ev :=
  mkTv i (tx_read p s i false) (tx_read p s i true) (ts_valid s) (ts_data s) (ts_keep s) (ts_last s) (ts_user s).
(** rtl/pcie_us_if_cc.v:537-558, rtl/pcie_us_if_rq.v:870-899: clock after clock. *)
Fixpoint tx_trace (p : tx_param) (s : tx_state) (l : list tx_in) : list tx_ev := match l with [] => [] | i :: r => tx_event p s i :: tx_trace p (tx_step p s i) r end.
(** rtl/pcie_us_if_cc.v:537-558, rtl/pcie_us_if_rq.v:870-899: the last state. *)
Definition tx_run (p : tx_param) (s : tx_state) (l : list tx_in) : tx_state := fold_left (tx_step p) l s.

(** rtl/pcie_us_if_rq.v:277-280, 283-286: a sequence number that comes back: for read requests, for write requests (valid, and the number cut to TX_SEQ_NUM_WIDTH). *)
Definition rq_back (p : tx_param) (tw : Z) (v : bool) (q : Z) : (bool * Z) * (bool * Z) :=
  let f := Z.land q (2 ^ (tp_sw p - 1)) in ((v && negb (f =? 0), q mod 2 ^ tw), (v && (f =? 0), q mod 2 ^ tw)).
