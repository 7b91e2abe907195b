(** Segmented TLP interface: PcieIfSource and PcieIfSink (tb/pcie_if.py). *)
From Verif Require Import PyBase TlpModel SplitModel PcieIfModel.

(** tb/pcie_if.py:269-323: interface parameters: seg_count, seg_byte_lanes, seq_width,
    and which optional signals the bus has ([hasattr(self.bus, ...)]; source and sink
    use the same bus).  tlp_abort is neither driven nor read by the code below. *)
Record icfg := mkCfg {
  ic_segs : nat; ic_lanes : nat; ic_seqw : Z;
  pr_data : bool; pr_strb : bool; pr_error : bool; pr_prfx : bool; pr_seq : bool;
  pr_vfa : bool; pr_func : bool; pr_vfn : bool; pr_bar : bool;
  pr_dpar : bool; pr_hpar : bool; pr_ppar : bool }.

(** tb/pcie_if.py:218-231: [PcieIfTransaction]. *)
Record trans := mkTr {
  tr_data : Z; tr_strb : Z; tr_sop : Z; tr_eop : Z; tr_valid : Z; tr_error : Z; tr_hdr : Z; tr_prfx : Z; tr_seq : Z;
  tr_vfa : Z; tr_func : Z; tr_vfn : Z; tr_bar : Z; tr_dpar : Z; tr_hpar : Z; tr_ppar : Z }.

(** tb/pcie_if.py:223-231: all signals 0. *)
Definition tr0 : trans := mkTr 0 0 0 0 0 0 0 0 0 0 0 0 0 0 0 0.

(** tb/pcie_if.py:492-497, 503-506: frame being sent: frame, frame_offset, first. *)
Definition scur : Set := option (frame * Z * bool).

(** tb/pcie_if.py:510-518: first segment of a frame. *)
Definition src_first (seg : Z) (f : frame) (t : trans) : trans :=
  mkTr (tr_data t) (tr_strb t) (Z.lor (tr_sop t) (Z.shiftl 1 seg)) (tr_eop t) (Z.lor (tr_valid t) (Z.shiftl 1 seg)) (tr_error t)
    (Z.lor (tr_hdr t) (Z.shiftl (f_hdr f) (seg * 128))) (Z.lor (tr_prfx t) (Z.shiftl (f_tlp_prfx f) (seg * 32))) (tr_seq t)
    (tr_vfa t) (tr_func t) (tr_vfn t) (tr_bar t) (tr_dpar t)
    (Z.lor (tr_hpar t) (Z.shiftl (f_hdr_par f) (seg * 16))) (Z.lor (tr_ppar t) (Z.shiftl (f_tlp_prfx_par f) (seg * 4))).

(** tb/pcie_if.py:520-526: per-segment sideband signals. *)
Definition src_side (cfg : icfg) (seg : Z) (f : frame) (t : trans) : trans :=
  mkTr (tr_data t) (tr_strb t) (tr_sop t) (tr_eop t) (tr_valid t)
    (Z.lor (tr_error t) (Z.shiftl (f_error f) (seg * 4))) (tr_hdr t) (tr_prfx t)
    (Z.lor (tr_seq t) (Z.shiftl (f_seq f) (seg * ic_seqw cfg)))
    (match f_vf_num f with Some _ => Z.lor (tr_vfa t) (Z.shiftl 1 seg) | None => tr_vfa t end)
    (Z.lor (tr_func t) (Z.shiftl (f_func_num f) (seg * 8)))
    (match f_vf_num f with Some v => Z.lor (tr_vfn t) (Z.shiftl v (seg * 11)) | None => tr_vfn t end)
    (Z.lor (tr_bar t) (Z.shiftl (f_bar_id f) (seg * 3)))
    (tr_dpar t) (tr_hpar t) (tr_ppar t).

(** tb/pcie_if.py:531-535: the lane loop; [n] lanes remain, [k] is the lane, [off]
    frame_offset. *)
Fixpoint src_lanes (n : nat) (cfg : icfg) (seg k : Z) (f : frame) (off : Z) (t : trans) : result (trans * Z) :=
  match n with
  | O => Ok (t, off)
  | S n =>
    let lane := k + seg * Z.of_nat (ic_lanes cfg) in
    let! d := py_index (f_data f) off in
    let! p := py_index (f_parity f) off in
    let t := mkTr (Z.lor (tr_data t) (Z.shiftl d (32 * lane))) (Z.lor (tr_strb t) (Z.shiftl 1 lane)) (tr_sop t) (tr_eop t) (tr_valid t) (tr_error t)
      (tr_hdr t) (tr_prfx t) (tr_seq t) (tr_vfa t) (tr_func t) (tr_vfn t) (tr_bar t)
      (Z.lor (tr_dpar t) (Z.shiftl p (4 * lane))) (tr_hpar t) (tr_ppar t) in
    src_lanes n cfg seg (k + 1) f (off + 1) t
  end.

(** tb/pcie_if.py:529: [transaction.valid |= 1 << seg]. *)
Definition set_valid_bit (seg : Z) (t : trans) : trans :=
  mkTr (tr_data t) (tr_strb t) (tr_sop t) (tr_eop t) (Z.lor (tr_valid t) (Z.shiftl 1 seg)) (tr_error t) (tr_hdr t) (tr_prfx t) (tr_seq t)
    (tr_vfa t) (tr_func t) (tr_vfn t) (tr_bar t) (tr_dpar t) (tr_hpar t) (tr_ppar t).
(** tb/pcie_if.py:538: [transaction.eop |= 1 << seg]. *)
Definition set_eop_bit (seg : Z) (t : trans) : trans :=
  mkTr (tr_data t) (tr_strb t) (tr_sop t) (Z.lor (tr_eop t) (Z.shiftl 1 seg)) (tr_valid t) (tr_error t) (tr_hdr t) (tr_prfx t) (tr_seq t)
    (tr_vfa t) (tr_func t) (tr_vfn t) (tr_bar t) (tr_dpar t) (tr_hpar t) (tr_ppar t).

(** tb/pcie_if.py:510-540: one segment with a frame in progress. *)
Definition src_seg (cfg : icfg) (seg : Z) (f : frame) (off : Z) (first : bool) (t : trans) : result (trans * scur) :=
  let t := if first then src_first seg f t else t in
  let t := src_side cfg seg f t in
  let! (t, off) :=
    if negb (zlen (f_data f) =? 0) then
      src_lanes (Z.to_nat (Z.min (Z.of_nat (ic_lanes cfg)) (zlen (f_data f) - off))) cfg seg 0 f off (set_valid_bit seg t)
    else Ok (t, off) in
  if zlen (f_data f) <=? off then Ok (set_eop_bit seg t, None) else Ok (t, Some (f, off, false)).

(** tb/pcie_if.py:500-540: [for seg in range(seg_count)], [n] segments remain. *)
Fixpoint src_segs (n : nat) (cfg : icfg) (seg : Z) (cur : scur) (q : list frame) (t : trans) : result (trans * scur * list frame) :=
  match n with
  | O => Ok (t, cur, q)
  | S n =>
    match cur with
    | Some (f, off, first) =>
      let! (t, cur) := src_seg cfg seg f off first t in src_segs n cfg (seg + 1) cur q t
    | None =>
      match q with
      | f :: q => let! (t, cur) := src_seg cfg seg f 0 true t in src_segs n cfg (seg + 1) cur q t
      | [] => Ok (t, None, [])
      end
    end
  end.

(** tb/pcie_if.py:633-636: what the sink reads of a bus: absent signals stay 0 in
    the sampled transaction. *)
Definition sample (cfg : icfg) (t : trans) : trans :=
  let on (b : bool) (v : Z) := if b then v else 0 in
  mkTr (on (pr_data cfg) (tr_data t)) (on (pr_strb cfg) (tr_strb t)) (tr_sop t) (tr_eop t) (tr_valid t) (on (pr_error cfg) (tr_error t))
    (tr_hdr t) (on (pr_prfx cfg) (tr_prfx t)) (on (pr_seq cfg) (tr_seq t)) (on (pr_vfa cfg) (tr_vfa t)) (on (pr_func cfg) (tr_func t))
    (on (pr_vfn cfg) (tr_vfn t)) (on (pr_bar cfg) (tr_bar t)) (on (pr_dpar cfg) (tr_dpar t)) (on (pr_hpar cfg) (tr_hpar t)) (on (pr_ppar cfg) (tr_ppar t)).

(** tb/pcie_if.py:662-665, 673-678, 683-685: bits [i*w, i*w+w) of a signal. *)
Definition ext (w t i : Z) : Z := Z.land (Z.shiftr t (i * w)) (2 ^ w - 1).
(** tb/pcie_if.py:655, 658, 666, 675, 701: [signal & (1 << seg)] tested. *)
Definition has_bit (t i : Z) : bool := negb (Z.land t (Z.shiftl 1 i) =? 0).

(** tb/pcie_if.py:660-678: start of a frame: the frame and its dword_count. *)
Definition snk_start (cfg : icfg) (seg : Z) (s : trans) : frame * Z :=
  let hdr := ext 128 (tr_hdr s) seg in
  let count := if has_bit hdr 126 then let c := Z.land (Z.shiftr hdr 96) 0x3ff in if c =? 0 then 1024 else c else 0 in
  (mkFrame (ext 32 (tr_prfx s) seg) hdr [] (ext 4 (tr_ppar s) seg) (ext 16 (tr_hpar s) seg) []
     (ext 8 (tr_func s) seg) (if has_bit (tr_vfa s) seg then Some (ext 11 (tr_vfn s) seg) else None)
     (ext 3 (tr_bar s) seg) 0 (ext 4 (tr_error s) seg) (ext (ic_seqw cfg) (tr_seq s) seg), count).

(** tb/pcie_if.py:688-689: append a DWORD and its parity. *)
Definition push_dw (f : frame) (d p : Z) : frame :=
  mkFrame (f_tlp_prfx f) (f_hdr f) (f_data f ++ [d]) (f_tlp_prfx_par f) (f_hdr_par f) (f_parity f ++ [p])
    (f_func_num f) (f_vf_num f) (f_bar_id f) (f_tlp_abort f) (f_error f) (f_seq f).

(** tb/pcie_if.py:686-695: the lane loop. *)
Fixpoint snk_lanes (n : nat) (cfg : icfg) (k data par strb : Z) (f : frame) (count : Z) : result (frame * Z) :=
  match n with
  | O => Ok (f, count)
  | S n =>
    if count >? 0 then
      if pr_strb cfg && negb (Z.odd (Z.shiftr strb k)) then Err AssertionError
      else snk_lanes n cfg (k + 1) data par strb (push_dw f (Z.land (Z.shiftr data (32 * k)) 0xffffffff) (Z.land (Z.shiftr par (4 * k)) 0xf)) (count - 1)
    else
      if pr_strb cfg && Z.odd (Z.shiftr strb k) then Err AssertionError
      else snk_lanes n cfg (k + 1) data par strb f count
  end.

(** tb/pcie_if.py:640-643, 708-713: state of the sink process: frame,
    dword_count, received frames. *)
Record snk := mkSnk { k_frame : option frame; k_count : Z; k_out : list frame }.

(** tb/pcie_if.py:655-706: one segment of a sampled transaction. *)
Definition snk_seg (cfg : icfg) (s : trans) (seg : Z) (st : snk) : result snk :=
  if negb (has_bit (tr_valid s) seg) then Ok st else
  let! (fr, count) :=
    (if has_bit (tr_sop s) seg then
       match k_frame st with
       | Some _ => Err AssertionError
       | None => let '(f, c) := snk_start cfg seg s in Ok (Some f, c)
       end
     else Ok (k_frame st, k_count st)) in
  match fr with
  | None => Err AssertionError
  | Some f =>
    let L := Z.of_nat (ic_lanes cfg) in
    let! (f, count) :=
      (if count >? 0 then
         snk_lanes (ic_lanes cfg) cfg 0 (ext (32 * L) (tr_data s) seg) (ext (4 * L) (tr_dpar s) seg) (ext L (tr_strb s) seg) f count
       else if pr_strb cfg && negb (ext L (tr_strb s) seg =? 0) then Err AssertionError
       else Ok (f, count)) in
    if has_bit (tr_eop s) seg then
      if negb (count =? 0) then Err AssertionError
      else Ok (mkSnk None count (k_out st ++ [f]))
    else Ok (mkSnk (Some f) count (k_out st))
  end.

(** tb/pcie_if.py:654-706: [for seg in range(seg_count)]. *)
Fixpoint snk_segs (n : nat) (cfg : icfg) (s : trans) (seg : Z) (st : snk) : result snk :=
  match n with
  | O => Ok st
  | S n => let! st := snk_seg cfg s seg st in snk_segs n cfg s (seg + 1) st
  end.

(** tb/pcie_if.py:364-713: state of source, bus and sink.  [if_pend] is a
    transaction for which [_run] waits in [_drive]. *)
Record ifstate := mkIf {
  if_queue : list frame; if_cur : scur; if_pend : option trans; if_drive : option trans;
  if_bus : trans; if_ready : bool; if_snk : snk }.

(** tb/pcie_if.py:374-419, 569-583, 640-643: initial state. *)
Definition if0 : ifstate := mkIf [] None None None tr0 false (mkSnk None 0 []).

(** tb/pcie_if.py:428-445 (send of an accepted frame), 490-542 (progress of the
    source process), 461-488 and 619-638 (clock edge: pause of the source, value
    given to ready, which is not full() and not pause).  No reset. *)
Inductive ifevent := ESend (f : frame) | ERun | EEdge (pause ready : bool).

(** tb/pcie_if.py:490-542 with _drive 421-426: the source process either hands its
    transaction to the driver, once free, or builds the next one. *)
Definition if_source (cfg : icfg) (s : ifstate) : result ifstate :=
  match if_pend s with
  | Some t => match if_drive s with
              | None => Ok (mkIf (if_queue s) (if_cur s) None (Some t) (if_bus s) (if_ready s) (if_snk s))
              | Some _ => Ok s
              end
  | None =>
    match if_cur s, if_queue s with
    | None, [] => Ok s
    | _, _ => let! (tc, q) := src_segs (ic_segs cfg) cfg 0 (if_cur s) (if_queue s) tr0 in
              Ok (mkIf q (snd tc) (Some (fst tc)) (if_drive s) (if_bus s) (if_ready s) (if_snk s))
    end
  end.

(** tb/pcie_if.py:484-485: an idle source clears valid only. *)
Definition clear_valid (t : trans) : trans :=
  mkTr (tr_data t) (tr_strb t) (tr_sop t) (tr_eop t) 0 (tr_error t) (tr_hdr t) (tr_prfx t) (tr_seq t)
    (tr_vfa t) (tr_func t) (tr_vfn t) (tr_bar t) (tr_dpar t) (tr_hpar t) (tr_ppar t).

(** tb/pcie_if.py:461-488, 619-706: a clock edge; both sides see the values before
    it.  The sink process handles the sample before the next edge. *)
Definition if_edge (cfg : icfg) (pause ready : bool) (s : ifstate) : result ifstate :=
  let valid := negb (tr_valid (if_bus s) =? 0) in
  let! k := if if_ready s && valid then snk_segs (ic_segs cfg) cfg (sample cfg (if_bus s)) 0 (if_snk s) else Ok (if_snk s) in
  let '(bus, drive) :=
    if if_ready s || negb valid then
      match if_drive s with
      | Some t => if negb pause then (t, None) else (clear_valid (if_bus s), Some t)
      | None => (clear_valid (if_bus s), None)
      end
    else (if_bus s, if_drive s) in
  Ok (mkIf (if_queue s) (if_cur s) (if_pend s) drive bus ready k).

(** tb/pcie_if.py:364-713: one event. *)
Definition if_step (cfg : icfg) (s : ifstate) (e : ifevent) : result ifstate :=
  match e with
  | ESend f => Ok (mkIf (if_queue s ++ [f]) (if_cur s) (if_pend s) (if_drive s) (if_bus s) (if_ready s) (if_snk s))
  | ERun => if_source cfg s
  | EEdge pause ready => if_edge cfg pause ready s
  end.

(** tb/pcie_if.py:364-713: a run. *)
Fixpoint if_run (cfg : icfg) (evs : list ifevent) (s : ifstate) : result ifstate :=
  match evs with
  | [] => Ok s
  | e :: evs => let! s := if_step cfg s e in if_run cfg evs s
  end.
