(** Segmented (parallel simple dual port) RAM interface: PsdpRamMasterWrite,
    PsdpRamMasterRead, PsdpRamWrite and PsdpRamRead (tb/dma_psdp_ram.py). *)
From Verif Require Import PyBase.

(** tb/dma_psdp_ram.py:163-175, 400-410, 663-675, 800-808: bus geometry: seg_count,
    seg_byte_lanes and seg_addr_width.  seg_data_width is 8*seg_byte_lanes,
    seg_be_width is seg_byte_lanes and byte_lanes is their product (asserted in 198,
    684). *)
Record pcfg := mkPcfg { p_segs : nat; p_sbl : Z; p_aw : Z }.

(** tb/dma_psdp_ram.py:167, 404: seg_count as an integer. *)
Definition p_n (c : pcfg) : Z := Z.of_nat (p_segs c).
(** tb/dma_psdp_ram.py:165, 402: byte_lanes. *)
Definition p_bl (c : pcfg) : Z := p_n c * p_sbl c.
(** tb/dma_psdp_ram.py:173-175: seg_data_mask, seg_addr_mask and seg_be_mask are
    [2**w-1]. *)
Definition p_mask (w : Z) : Z := 2 ^ w - 1.

(** int.bit_length() used by tb/dma_psdp_ram.py:177 and 412. *)
Definition bit_length (x : Z) : Z := if x =? 0 then 0 else Z.log2 (Z.abs x) + 1.
(** tb/dma_psdp_ram.py:177, 412: address_width. *)
Definition p_address_width (c : pcfg) : Z := p_aw c + bit_length (p_sbl c * p_n c - 1).

(** One value per segment (Python lists indexed by the segment number, tb/dma_psdp_ram.py:183-184,
    418-419): functional update at one segment. *)
Definition pupd {A} (f : Z -> A) (s : Z) (v : A) : Z -> A := fun x => if x =? s then v else f x.

(** tb/dma_psdp_ram.py:44-48: [SegWriteData]. *)
Record segop := mkOp { o_addr : Z; o_data : Z; o_be : Z }.

(** tb/dma_psdp_ram.py:227-234, 461-468: range checks of write() and read(). *)
Definition p_check (c : pcfg) (a n : Z) : result unit :=
  if (a <? 0) || (2 ^ p_address_width c <=? a) then Err ValueError
  else if n <? 0 then Err ValueError
  else if 2 ^ p_address_width c <? a + n then Err ValueError else Ok tt.

(** tb/dma_psdp_ram.py:251, 510: seg_start_offset. *)
Definition seg_start (c : pcfg) (a : Z) : Z := a mod p_sbl c.
(** tb/dma_psdp_ram.py:252, 511: seg_end_offset. *)
Definition seg_end (c : pcfg) (a n : Z) : Z := (a + n - 1) mod p_sbl c + 1.
(** tb/dma_psdp_ram.py:257, 485: first_seg. *)
Definition first_seg (c : pcfg) (a : Z) : Z := (a / p_sbl c) mod p_n c.
(** tb/dma_psdp_ram.py:258, 486: number of segment operations. *)
Definition seg_num (c : pcfg) (a n : Z) : Z := (n + a mod p_sbl c + p_sbl c - 1) / p_sbl c.

(** tb/dma_psdp_ram.py:283-285: [for j in range(start, stop)], [n] bytes remain. *)
Fixpoint gather (n : nat) (d : list Z) (off j v : Z) : result (Z * Z) :=
  match n with
  | O => Ok (v, off)
  | S n => let! b := py_index d off in gather n d (off + 1) (j + 1) (Z.lor v (Z.shiftl b (j * 8)))
  end.

(** tb/dma_psdp_ram.py:269-294: [for k in range(segments)], [n] operations remain:
    the operations with their segment, in order. *)
Fixpoint seg_ops (n : nat) (c : pcfg) (a : Z) (d : list Z) (k seg off : Z) : result (list (Z * segop)) :=
  match n with
  | O => Ok []
  | S n =>
    let segments := seg_num c a (zlen d) in
    let be_start := Z.land (Z.shiftl (p_mask (p_sbl c)) (seg_start c a)) (p_mask (p_sbl c)) in
    let be_end := Z.shiftr (p_mask (p_sbl c)) (p_sbl c - seg_end c a (zlen d)) in
    let be := p_mask (p_sbl c) in
    let '(start, be) := if k =? 0 then (seg_start c a, Z.land be be_start) else (0, be) in
    let '(stop, be) := if k =? segments - 1 then (seg_end c a (zlen d), Z.land be be_end) else (p_sbl c, be) in
    let! (v, off) := gather (Z.to_nat (stop - start)) d off start 0 in
    let! rest := seg_ops n c a d (k + 1) ((seg + 1) mod p_n c) off in
    Ok ((seg, mkOp ((a + k * p_sbl c) / p_bl c) v be) :: rest)
  end.

(** tb/dma_psdp_ram.py:246-296: operations generated for one write command. *)
Definition write_ops (c : pcfg) (a : Z) (d : list Z) : result (list (Z * segop)) :=
  seg_ops (Z.to_nat (seg_num c a (zlen d))) c a d 0 (first_seg c a) 0.

(** tb/dma_psdp_ram.py:292, 499: [self.seg_write_queue[seg].put(op)] for each
    generated operation. *)
Fixpoint enqueue {A} (ops : list (Z * A)) (q : Z -> list A) : Z -> list A :=
  match ops with
  | [] => q
  | (s, o) :: r => enqueue r (pupd q s (q s ++ [o]))
  end.

(** tb/dma_psdp_ram.py:348-353, 577-578, 867-868: replace the [w]-bit field of
    segment [seg] in a packed signal. *)
Definition put_field (w seg x v : Z) : Z :=
  Z.lor (Z.land x (Z.lnot (Z.shiftl (p_mask w) (w * seg)))) (Z.shiftl (Z.land v (p_mask w)) (w * seg)).
(** tb/dma_psdp_ram.py:587, 729-731, 880: the field of a segment. *)
Definition get_field (w seg x : Z) : Z := Z.land (Z.shiftr x (w * seg)) (p_mask w).
(** tb/dma_psdp_ram.py:345, 362, 574, 743, 865, 890: bit of a segment tested. *)
Definition seg_bit (x seg : Z) : bool := negb (Z.land x (Z.shiftl 1 seg) =? 0).

(** tb/dma_psdp_ram.py:324-327: signals driven by the write master. *)
Record wbus := mkWb { w_valid : Z; w_addr : Z; w_data : Z; w_be : Z }.

(** tb/dma_psdp_ram.py:343-363: one segment of the write master: bus values, command
    queue and completion queue (its length: the items are None) after the edge. *)
Definition mw_seg (c : pcfg) (ready done : Z) (pause : bool) (seg : Z) (st : wbus * (Z -> list segop) * (Z -> Z))
  : wbus * (Z -> list segop) * (Z -> Z) :=
  let '(b, q, r) := st in
  let '(b, q) :=
    if seg_bit ready seg || negb (seg_bit (w_valid b) seg) then
      match q seg with
      | op :: rest =>
        if negb pause then
          (mkWb (Z.lor (w_valid b) (Z.shiftl 1 seg)) (put_field (p_aw c) seg (w_addr b) (o_addr op))
             (put_field (8 * p_sbl c) seg (w_data b) (o_data op)) (put_field (p_sbl c) seg (w_be b) (o_be op)), pupd q seg rest)
        else (mkWb (Z.land (w_valid b) (Z.lnot (Z.shiftl 1 seg))) (w_addr b) (w_data b) (w_be b), q)
      | [] => (mkWb (Z.land (w_valid b) (Z.lnot (Z.shiftl 1 seg))) (w_addr b) (w_data b) (w_be b), q)
      end
    else (b, q) in
  (b, q, if seg_bit done seg then pupd r seg (r seg + 1) else r).

(** tb/dma_psdp_ram.py:342-363: [for seg in range(seg_count)], [n] segments remain. *)
Fixpoint mw_segs (n : nat) (c : pcfg) (ready done : Z) (pause : bool) (seg : Z) (st : wbus * (Z -> list segop) * (Z -> Z))
  : wbus * (Z -> list segop) * (Z -> Z) :=
  match n with
  | O => st
  | S n => mw_segs n c ready done pause (seg + 1) (mw_seg c ready done pause seg st)
  end.

(** tb/dma_psdp_ram.py:736-754: the operation list of one segment word; [n] lanes
    remain, [i] is the lane (also [offset]), [start] is start_offset.  The slice
    data[start:offset] goes to address [a]+start. *)
Fixpoint lane_ops (n : nat) (be a : Z) (data : list Z) (i : Z) (start : option Z) : list (Z * list Z) :=
  match n with
  | O => match start with
         | Some s => if negb (i =? s) then [(a + s, slice data s i)] else []
         | None => []
         end
  | S n =>
    if seg_bit be i then
      lane_ops n be a data (i + 1) (match start with None => Some i | Some s => Some s end)
    else
      match start with
      | Some s => if negb (i =? s) then (a + s, slice data s i) :: lane_ops n be a data (i + 1) None
                  else lane_ops n be a data (i + 1) None
      | None => lane_ops n be a data (i + 1) None
      end
  end.

(** Memory.write and Memory.read of cocotbext.axi (not in /repo), as used by
    tb/dma_psdp_ram.py:758 and 884: seek and write on an mmap of [size] bytes; a write
    past the end raises ValueError, a read is clipped. *)
Definition mm_write (size : Z) (m : mem) (a : Z) (d : list Z) : result mem :=
  if (a <? 0) || (size <? a + zlen d) then Err ValueError else Ok (mem_store m a d).
(** Memory.read of cocotbext.axi, used by tb/dma_psdp_ram.py:884. *)
Definition mm_read (size : Z) (m : mem) (a n : Z) : result (list Z) :=
  if (a <? 0) || (size <? a) then Err ValueError else Ok (mem_load m a (Z.min n (size - a))).

(** tb/dma_psdp_ram.py:757-758: perform the writes. *)
Fixpoint mm_writes (size : Z) (m : mem) (ops : list (Z * list Z)) : result mem :=
  match ops with
  | [] => Ok m
  | (a, d) :: r => let! m := mm_write size m a d in mm_writes size m r
  end.

(** tb/dma_psdp_ram.py:728-760: one segment of the RAM write port: memory and wr_done.
    [data] is seg_data.to_bytes(seg_byte_lanes, 'little'). *)
Definition rw_seg (c : pcfg) (size ready : Z) (b : wbus) (seg : Z) (st : mem * Z) : result (mem * Z) :=
  let '(m, done) := st in
  if negb (Z.land (Z.land ready (w_valid b)) (Z.shiftl 1 seg) =? 0) then
    let addr := (get_field (p_aw c) seg (w_addr b) * p_n c + seg) * p_sbl c in
    let data := le_bytes (Z.to_nat (p_sbl c)) (get_field (8 * p_sbl c) seg (w_data b)) in
    let! m := mm_writes size m (lane_ops (Z.to_nat (p_bl c)) (get_field (p_sbl c) seg (w_be b)) addr data 0 None) in
    Ok (m, Z.lor done (Z.shiftl 1 seg))
  else Ok (m, done).

(** tb/dma_psdp_ram.py:727-760: [for seg in range(seg_count)]. *)
Fixpoint rw_segs (n : nat) (c : pcfg) (size ready : Z) (b : wbus) (seg : Z) (st : mem * Z) : result (mem * Z) :=
  match n with
  | O => Ok st
  | S n => let! st := rw_seg c size ready b seg st in rw_segs n c size ready b (seg + 1) st
  end.

(** tb/dma_psdp_ram.py:591-594, 765-768: ready values: all ones unless paused. *)
Definition all_ready (c : pcfg) (pause : bool) : Z := if pause then 0 else 2 ^ p_n c - 1.

(** tb/dma_psdp_ram.py:51-56, 300-307: a write response command with the number of
    segment responses still expected and the next segment; address and length. *)
Record wresp := mkWr { wr_left : nat; wr_seg : Z; wr_addr : Z; wr_len : Z }.

(** tb/dma_psdp_ram.py:303-307: take the segment responses of one command while they
    are available: what is left, next segment, the queues. *)
Fixpoint take_done (n : nat) (c : pcfg) (seg : Z) (r : Z -> Z) : nat * Z * (Z -> Z) :=
  match n with
  | O => (O, seg, r)
  | S n' => if r seg >? 0 then take_done n' c ((seg + 1) mod p_n c) (pupd r seg (r seg - 1)) else (n, seg, r)
  end.

(** tb/dma_psdp_ram.py:298-321: [_process_write_resp] until it blocks: remaining
    commands, queues, and the completed writes (address, length) in order. *)
Fixpoint resp_run (c : pcfg) (cmds : list wresp) (r : Z -> Z) : list wresp * (Z -> Z) * list (Z * Z) :=
  match cmds with
  | [] => ([], r, [])
  | w :: rest =>
    let '(n, seg, r) := take_done (wr_left w) c (wr_seg w) r in
    match n with
    | O => let '(cmds, r, out) := resp_run c rest r in (cmds, r, (wr_addr w, wr_len w) :: out)
    | S _ => (mkWr n seg (wr_addr w) (wr_len w) :: rest, r, [])
    end
  end.

(** tb/dma_psdp_ram.py:179-187, 324-327, 705-771: state of write master and RAM write port:
    command queues, master signals, completion queues, pending responses, completed
    writes, RAM ready and done signals, memory. *)
Record wstate := mkWs {
  s_q : Z -> list segop; s_bus : wbus; s_r : Z -> Z; s_pend : list wresp; s_done : list (Z * Z);
  s_rdy : Z; s_wd : Z; s_mem : mem }.

(** tb/dma_psdp_ram.py:179-200, 324-327, 686-687, 705: initial state. *)
Definition ws0 (m : mem) : wstate := mkWs (fun _ => []) (mkWb 0 0 0 0) (fun _ => 0) [] [] 0 0 m.

(** tb/dma_psdp_ram.py:226-244 (write), 331-368 and 709-771 (clock edge with the pause
    flags of master and RAM).  No reset. *)
Inductive wevent := WWrite (a : Z) (d : list Z) | WEdge (mpause rpause : bool).

(** tb/dma_psdp_ram.py:226-321: a write call; the command is split and queued before
    the next clock edge. *)
Definition ws_write (c : pcfg) (a : Z) (d : list Z) (s : wstate) : result wstate :=
  let! _ := p_check c a (zlen d) in
  let! ops := write_ops c a d in
  let pend := s_pend s ++ [mkWr (Z.to_nat (seg_num c a (zlen d))) (first_seg c a) a (zlen d)] in
  let '(pend, r, out) := resp_run c pend (s_r s) in
  Ok (mkWs (enqueue ops (s_q s)) (s_bus s) r pend (s_done s ++ out) (s_rdy s) (s_wd s) (s_mem s)).

(** tb/dma_psdp_ram.py:331-368, 709-771: a clock edge: both sides see the values from
    before it; then the response process runs. *)
Definition ws_edge (c : pcfg) (size : Z) (mpause rpause : bool) (s : wstate) : result wstate :=
  let '(b, q, r) := mw_segs (p_segs c) c (s_rdy s) (s_wd s) mpause 0 (s_bus s, s_q s, s_r s) in
  let! (m, done) := rw_segs (p_segs c) c size (s_rdy s) (s_bus s) 0 (s_mem s, 0) in
  let '(pend, r, out) := resp_run c (s_pend s) r in
  Ok (mkWs q b r pend (s_done s ++ out) (all_ready c rpause) done m).

(** tb/dma_psdp_ram.py:226-368, 704-771: one event. *)
Definition ws_step (c : pcfg) (size : Z) (s : wstate) (e : wevent) : result wstate :=
  match e with
  | WWrite a d => ws_write c a d s
  | WEdge mp rp => ws_edge c size mp rp s
  end.

(** tb/dma_psdp_ram.py:226-368, 704-771: a run. *)
Fixpoint ws_run (c : pcfg) (size : Z) (evs : list wevent) (s : wstate) : result wstate :=
  match evs with
  | [] => Ok s
  | e :: evs => let! s := ws_step c size s e in ws_run c size evs s
  end.

(** tb/dma_psdp_ram.py:494-501: [for k in range(segments)] of a read: address per
    operation with its segment. *)
Fixpoint seg_reads (n : nat) (c : pcfg) (a k seg : Z) : list (Z * Z) :=
  match n with
  | O => []
  | S n => (seg, (a + k * p_sbl c) / p_bl c) :: seg_reads n c a (k + 1) ((seg + 1) mod p_n c)
  end.

(** tb/dma_psdp_ram.py:548-549: signals driven by the read master (resp_ready apart). *)
Record rbus := mkRb { r_valid : Z; r_addr : Z }.

(** tb/dma_psdp_ram.py:572-589: one segment of the read master. *)
Definition mr_seg (c : pcfg) (ready rvalid rdata rready : Z) (pause : bool) (seg : Z) (st : rbus * (Z -> list Z) * (Z -> list Z))
  : rbus * (Z -> list Z) * (Z -> list Z) :=
  let '(b, q, r) := st in
  let '(b, q) :=
    if seg_bit ready seg || negb (seg_bit (r_valid b) seg) then
      match q seg with
      | op :: rest =>
        if negb pause then
          (mkRb (Z.lor (r_valid b) (Z.shiftl 1 seg)) (put_field (p_aw c) seg (r_addr b) op), pupd q seg rest)
        else (mkRb (Z.land (r_valid b) (Z.lnot (Z.shiftl 1 seg))) (r_addr b), q)
      | [] => (mkRb (Z.land (r_valid b) (Z.lnot (Z.shiftl 1 seg))) (r_addr b), q)
      end
    else (b, q) in
  (b, q, if negb (Z.land (Z.land rready rvalid) (Z.shiftl 1 seg) =? 0)
         then pupd r seg (r seg ++ [get_field (8 * p_sbl c) seg rdata]) else r).

(** tb/dma_psdp_ram.py:571-589: [for seg in range(seg_count)]. *)
Fixpoint mr_segs (n : nat) (c : pcfg) (ready rvalid rdata rready : Z) (pause : bool) (seg : Z) (st : rbus * (Z -> list Z) * (Z -> list Z))
  : rbus * (Z -> list Z) * (Z -> list Z) :=
  match n with
  | O => st
  | S n => mr_segs n c ready rvalid rdata rready pause (seg + 1) (mr_seg c ready rvalid rdata rready pause seg st)
  end.

(** tb/dma_psdp_ram.py:836-840: state of the RAM read port: the one-stage pipeline of
    each segment, cmd_ready, resp_valid, resp_data. *)
Record rport := mkRp { rp_pipe : Z -> option Z; rp_ready : Z; rp_valid : Z; rp_data : Z }.

(** tb/dma_psdp_ram.py:865-872: output stage of a segment. *)
Definition rr_out (c : pcfg) (rready seg : Z) (p : rport) : rport :=
  if seg_bit rready seg || negb (seg_bit (rp_valid p) seg) then
    match rp_pipe p seg with
    | Some v => mkRp (pupd (rp_pipe p) seg None) (rp_ready p) (Z.lor (rp_valid p) (Z.shiftl 1 seg)) (put_field (8 * p_sbl c) seg (rp_data p) v)
    | None => mkRp (rp_pipe p) (rp_ready p) (Z.land (rp_valid p) (Z.lnot (Z.shiftl 1 seg))) (rp_data p)
    end
  else p.

(** tb/dma_psdp_ram.py:863-893: one segment of the RAM read port; the shift loop of
    874-877 has no iteration (the pipeline has one stage). *)
Definition rr_seg (c : pcfg) (size : Z) (m : mem) (b : rbus) (rready seg : Z) (p : rport) : result rport :=
  let p := rr_out c rready seg p in
  let! p :=
    if negb (Z.land (Z.land (rp_ready p) (r_valid b)) (Z.shiftl 1 seg) =? 0) then
      let addr := (get_field (p_aw c) seg (r_addr b) * p_n c + seg) * p_sbl c in
      let! d := mm_read size m (addr mod size) (p_sbl c) in
      Ok (mkRp (pupd (rp_pipe p) seg (Some (le_val d))) (rp_ready p) (rp_valid p) (rp_data p))
    else Ok p in
  if negb (seg_bit (rp_valid p) seg) || (match rp_pipe p seg with None => true | Some _ => false end)
  then Ok (mkRp (rp_pipe p) (Z.lor (rp_ready p) (Z.shiftl 1 seg)) (rp_valid p) (rp_data p))
  else Ok (mkRp (rp_pipe p) (Z.land (rp_ready p) (Z.lnot (Z.shiftl 1 seg))) (rp_valid p) (rp_data p)).

(** tb/dma_psdp_ram.py:862-893: [for seg in range(seg_count)]. *)
Fixpoint rr_segs (n : nat) (c : pcfg) (size : Z) (m : mem) (b : rbus) (rready seg : Z) (p : rport) : result rport :=
  match n with
  | O => Ok p
  | S n => let! p := rr_seg c size m b rready seg p in rr_segs n c size m b rready (seg + 1) p
  end.

(** tb/dma_psdp_ram.py:507-530: a read response command in progress: segment count,
    operation index, next segment, data so far; address and length. *)
Record rresp := mkRr { rr_num : Z; rr_k : Z; rr_sg : Z; rr_data : list Z; rr_addr : Z; rr_len : Z }.

(** tb/dma_psdp_ram.py:527-528: bytes [start, stop) of a segment word; [n] bytes remain. *)
Fixpoint take_bytes (n : nat) (v j : Z) : list Z :=
  match n with
  | O => []
  | S n => Z.land (Z.shiftr v (j * 8)) 0xff :: take_bytes n v (j + 1)
  end.

(** tb/dma_psdp_ram.py:515-530: consume available segment words of one command; [n]
    words remain. *)
Fixpoint take_words (n : nat) (c : pcfg) (w : rresp) (r : Z -> list Z) : nat * rresp * (Z -> list Z) :=
  match n with
  | O => (O, w, r)
  | S n' =>
    match r (rr_sg w) with
    | [] => (n, w, r)
    | v :: rest =>
      let start := if rr_k w =? 0 then seg_start c (rr_addr w) else 0 in
      let stop := if rr_k w =? rr_num w - 1 then seg_end c (rr_addr w) (rr_len w) else p_sbl c in
      take_words n' c (mkRr (rr_num w) (rr_k w + 1) ((rr_sg w + 1) mod p_n c)
                         (rr_data w ++ take_bytes (Z.to_nat (stop - start)) v start) (rr_addr w) (rr_len w))
        (pupd r (rr_sg w) rest)
    end
  end.

(** tb/dma_psdp_ram.py:505-545: [_process_read_resp] until it blocks: remaining
    commands, queues, completed reads (address, data). *)
Fixpoint rresp_run (c : pcfg) (cmds : list rresp) (r : Z -> list Z) : list rresp * (Z -> list Z) * list (Z * list Z) :=
  match cmds with
  | [] => ([], r, [])
  | w :: rest =>
    let '(n, w, r) := take_words (Z.to_nat (rr_num w - rr_k w)) c w r in
    match n with
    | O => let '(cmds, r, out) := rresp_run c rest r in (cmds, r, (rr_addr w, rr_data w) :: out)
    | S _ => (w :: rest, r, [])
    end
  end.

(** tb/dma_psdp_ram.py:414-422, 548-550, 836-840: state of read master and RAM read port. *)
Record rstate := mkRs {
  t_q : Z -> list Z; t_bus : rbus; t_rready : Z; t_r : Z -> list Z; t_pend : list rresp; t_done : list (Z * list Z);
  t_port : rport }.

(** tb/dma_psdp_ram.py:414-434, 548-550, 817-818, 836-840: initial state. *)
Definition rs0 : rstate :=
  mkRs (fun _ => []) (mkRb 0 0) 0 (fun _ => []) [] [] (mkRp (fun _ => None) 0 0 0).

(** tb/dma_psdp_ram.py:460-478 (read), 554-599 and 844-901 (clock edge). *)
Inductive revent := RRead (a n : Z) | REdge (mpause rpause : bool).

(** tb/dma_psdp_ram.py:460-545: a read call. *)
Definition rs_read (c : pcfg) (a n : Z) (s : rstate) : result rstate :=
  let! _ := p_check c a n in
  let pend := t_pend s ++ [mkRr (seg_num c a n) 0 (first_seg c a) [] a n] in
  let '(pend, r, out) := rresp_run c pend (t_r s) in
  Ok (mkRs (enqueue (seg_reads (Z.to_nat (seg_num c a n)) c a 0 (first_seg c a)) (t_q s)) (t_bus s) (t_rready s) r pend
        (t_done s ++ out) (t_port s)).

(** tb/dma_psdp_ram.py:554-599, 844-901: a clock edge; a paused RAM clears cmd_ready
    (895-896). *)
Definition rs_edge (c : pcfg) (size : Z) (m : mem) (mpause rpause : bool) (s : rstate) : result rstate :=
  let '(b, q, r) := mr_segs (p_segs c) c (rp_ready (t_port s)) (rp_valid (t_port s)) (rp_data (t_port s)) (t_rready s) mpause 0
                      (t_bus s, t_q s, t_r s) in
  let! p := rr_segs (p_segs c) c size m (t_bus s) (t_rready s) 0 (t_port s) in
  let p := mkRp (rp_pipe p) (if rpause then 0 else rp_ready p) (rp_valid p) (rp_data p) in
  let '(pend, r, out) := rresp_run c (t_pend s) r in
  Ok (mkRs q b (all_ready c mpause) r pend (t_done s ++ out) p).

(** tb/dma_psdp_ram.py:460-599, 835-901: one event. *)
Definition rs_step (c : pcfg) (size : Z) (m : mem) (s : rstate) (e : revent) : result rstate :=
  match e with
  | RRead a n => rs_read c a n s
  | REdge mp rp => rs_edge c size m mp rp s
  end.

(** tb/dma_psdp_ram.py:460-599, 835-901: a run. *)
Fixpoint rs_run (c : pcfg) (size : Z) (m : mem) (evs : list revent) (s : rstate) : result rstate :=
  match evs with
  | [] => Ok s
  | e :: evs => let! s := rs_step c size m s e in rs_run c size m evs s
  end.
