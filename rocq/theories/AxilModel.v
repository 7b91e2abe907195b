(** AXI-Lite master and RAM (tb/axil.py). *)
From Verif Require Import PyBase.

(** tb/axil.py:130, 138, 240, 244, 391, 440: [int(x/y)] for 0 <= x < 2^1023 and [y] a power
    of two: the quotient is a float, rounded to 53 significant bits (half to even). *)
Definition int_truediv (x y : Z) : Z :=
  let n := Z.log2 x + 1 in
  if n <=? 53 then x / y
  else
    let e := n - 53 in
    let q := x / 2 ^ e in
    let r := x mod 2 ^ e in
    let h := 2 ^ (e - 1) in
    let q := if (h <? r) || ((r =? h) && Z.odd q) then q + 1 else q in
    (q * 2 ^ e) / y.

(** tb/axil.py:160-162: [for j in range(start, stop)], [n] lanes remain. *)
Fixpoint l_gather (n : nat) (j : Z) (data : list Z) (offset val : Z) : result (Z * Z) :=
  match n with
  | O => Ok (val, offset)
  | S n =>
    let! x := py_index data offset in
    l_gather n (j + 1) data (offset + 1) (Z.lor val (Z.shiftl x (j * 8)))
  end.

(** tb/axil.py:164-165: an entry of int_write_addr_queue (address) and of
    int_write_data_queue (value, strobe); prot is not used by the RAM and left out here. *)
Record lword := mkLw { lw_addr : Z; lw_val : Z; lw_strb : Z }.

(** tb/axil.py:132-136, 147-165: [for k in range(cycles)], [n] cycles remain. *)
Fixpoint l_wloop (n : nat) (bw addr word_addr cycles : Z) (data : list Z) (k offset : Z) : result (list lword) :=
  match n with
  | O => Ok []
  | S n =>
    let full := 2 ^ bw - 1 in
    let start_offset := addr mod bw in
    let end_offset := (addr + zlen data - 1) mod bw + 1 in
    let strb_start := Z.land (Z.shiftl full start_offset) full in
    let strb_end := Z.shiftr full (bw - end_offset) in
    let start := if k =? 0 then start_offset else 0 in
    let strb := if k =? 0 then Z.land full strb_start else full in
    let stop := if k =? cycles - 1 then end_offset else bw in
    let strb := if k =? cycles - 1 then Z.land strb strb_end else strb in
    let! (val, offset) := l_gather (Z.to_nat (stop - start)) start data offset 0 in
    let! rest := l_wloop n bw addr word_addr cycles data (k + 1) offset in
    Ok (mkLw (word_addr + start + k * bw) val strb :: rest)
  end.

(** tb/axil.py:138, 244: cycles. *)
Definition l_cycles (bw addr len : Z) : Z := int_truediv (len + bw - 1 + addr mod bw) bw.

(** tb/axil.py:127-165: the words of one write command. *)
Definition l_write_words (bw addr : Z) (data : list Z) : result (list lword) :=
  let cycles := l_cycles bw addr (zlen data) in
  l_wloop (Z.to_nat cycles) bw addr (int_truediv addr bw * bw) cycles data 0 0.

(** tb/axil.py:140, 173: a write command waiting for its responses: addr, length, cycles,
    prot. *)
Record lwcmd := mkLc { lc_addr : Z; lc_len : Z; lc_cycles : Z; lc_prot : Z }.

(** tb/axil.py:186: an entry of write_resp_queue. *)
Record lwdone := mkLd { ld_addr : Z; ld_len : Z; ld_prot : Z; ld_resp : Z }.

(** tb/axil.py:168-187: [write_resp_logic] up to the next wait: the command in progress
    with its remaining cycles and resp, the command queue, int_write_resp_queue and
    write_resp_queue.  [fuel] bounds the steps. *)
Fixpoint l_wresp (fuel : nat) (cur : option (lwcmd * Z * Z)) (cmds : list lwcmd) (q : list Z) (out : list lwdone) :
    result (option (lwcmd * Z * Z) * list lwcmd * list Z * list lwdone) :=
  match fuel with
  | O => Err OutOfFuel
  | S fuel =>
    match cur with
    | None =>
      match cmds with
      | [] => Ok (None, [], q, out)
      | c :: cmds => l_wresp fuel (Some (c, lc_cycles c, 0)) cmds q out
      end
    | Some (c, n, resp) =>
      if 0 <? n then
        match q with
        | [] => Ok (cur, cmds, [], out)
        | r :: q => l_wresp fuel (Some (c, n - 1, if r =? 0 then resp else r)) cmds q out
        end
      else l_wresp fuel None cmds q (out ++ [mkLd (lc_addr c) (lc_len c) (lc_prot c) resp])
    end
  end.

(** tb/axil.py:232-253: the addresses of one read command ([range(1, cycles)] has
    max(cycles-1, 0) entries). *)
Definition l_read_addrs (bw addr len : Z) : list Z :=
  let cycles := l_cycles bw addr len in
  let word_addr := int_truediv addr bw * bw in
  (word_addr + addr mod bw) :: map (fun k => word_addr + Z.of_nat k * bw) (seq 1 (Z.to_nat (cycles - 1))).

(** tb/axil.py:246, 261: a read command waiting for its responses. *)
Record lrcmd := mkLr { lr_addr : Z; lr_len : Z; lr_cycles : Z; lr_prot : Z }.

(** tb/axil.py:295: an entry of read_data_queue. *)
Record lrdone := mkLe { le_addr : Z; le_data : list Z; le_prot : Z; le_resp : Z }.

(** tb/axil.py:289-290: [for j in range(start, stop)]. *)
Definition l_lanes (start stop val : Z) : list Z :=
  map (fun i => Z.land (Z.shiftr val ((start + Z.of_nat i) * 8)) 0xff) (seq 0 (Z.to_nat (stop - start))).

(** tb/axil.py:256-296: [read_resp_logic] up to the next wait: the command in progress
    with k, data and resp. *)
Fixpoint l_rresp (fuel : nat) (bw : Z) (cur : option (lrcmd * Z * list Z * Z)) (cmds : list lrcmd) (q : list (Z * Z)) (out : list lrdone) :
    result (option (lrcmd * Z * list Z * Z) * list lrcmd * list (Z * Z) * list lrdone) :=
  match fuel with
  | O => Err OutOfFuel
  | S fuel =>
    match cur with
    | None =>
      match cmds with
      | [] => Ok (None, [], q, out)
      | c :: cmds => l_rresp fuel bw (Some (c, 0, [], 0)) cmds q out
      end
    | Some (c, k, data, resp) =>
      if k <? lr_cycles c then
        match q with
        | [] => Ok (cur, cmds, [], out)
        | (v, r) :: q =>
          let start := if k =? 0 then lr_addr c mod bw else 0 in
          let stop := if k =? lr_cycles c - 1 then (lr_addr c + lr_len c - 1) mod bw + 1 else bw in
          l_rresp fuel bw (Some (c, k + 1, data ++ l_lanes start stop v, if r =? 0 then resp else r)) cmds q out
        end
      else l_rresp fuel bw None cmds q (out ++ [mkLe (lr_addr c) data (lr_prot c) resp])
    end
  end.

(** tb/axil.py:328-338: the mmap of the RAM with its position. *)
Record lmem := mkLm { lm_data : list Z; lm_pos : Z }.

(** tb/axil.py:400, 420, 449: [self.mem.seek(p)]: ValueError outside the map. *)
Definition lm_seek (m : lmem) (p : Z) : result lmem :=
  if (p <? 0) || (zlen (lm_data m) <? p) then Err ValueError else Ok (mkLm (lm_data m) p).

(** tb/axil.py:418: [self.mem.write] of one byte: ValueError at the end of the map. *)
Definition lm_write1 (m : lmem) (x : Z) : result lmem :=
  if lm_pos m <? zlen (lm_data m) then Ok (mkLm (slice_set (lm_data m) (lm_pos m) [x]) (lm_pos m + 1)) else Err ValueError.

(** tb/axil.py:411-420: write the selected bytes of a word, lanes [i] up to [i + n]. *)
Fixpoint lm_store (n : nat) (i val strb : Z) (m : lmem) : result lmem :=
  match n with
  | O => Ok m
  | S n =>
    let! m := if negb (Z.land strb (Z.shiftl 1 i) =? 0) then lm_write1 m (Z.land (Z.shiftr val (i * 8)) 0xff) else lm_seek m (lm_pos m + 1) in
    lm_store n (i + 1) val strb m
  end.

(** tb/axil.py:451: [self.mem.read(bw)]. *)
Definition lm_read (bw : Z) (m : lmem) : list Z * lmem :=
  let d := slice (lm_data m) (lm_pos m) (lm_pos m + bw) in (d, mkLm (lm_data m) (lm_pos m + zlen d)).

(** tb/axil.py:452-455: value of the bytes read; IndexError when less than [bw] came back. *)
Definition l_word_val (bw : Z) (d : list Z) : result Z :=
  if zlen d <? bw then Err IndexError else Ok (fold_right (fun x v => Z.shiftl v 8 + x) 0 (firstn (Z.to_nat bw) d)).

(** tb/axil.py:385-431: where the write process of the RAM waits: for an address (389),
    in the latency loop ([n] more edges, 397-398), for data (404-407) or for bready
    (426-429). *)
Inductive lwphase := WAddr | WLat (n : nat) (addr : Z) | WData | WResp.

(** tb/axil.py:434-467: where the read process of the RAM waits (438, 446-447, 462-465). *)
Inductive lrphase := RAddr | RLat (n : nat) (addr : Z) | RResp.

(** tb/axil.py:29-48, 121-229, 384-431: the write side: commands (addr, data, prot), the
    internal queues, the AW and W registers (None: valid is low), write_resp_queue, and
    the RAM process with awready, wready and bvalid. *)
Record lwside := mkWs {
  ws_cmd : list (Z * list Z * Z); ws_awq : list Z; ws_wq : list (Z * Z);
  ws_rc : list lwcmd; ws_cur : option (lwcmd * Z * Z); ws_rq : list Z; ws_done : list lwdone;
  ws_aw : option Z; ws_w : option (Z * Z);
  ws_ph : lwphase; ws_awready : bool; ws_wready : bool; ws_bvalid : bool }.

(** tb/axil.py:29-48, 231-322, 433-467: the read side; [rs_r] is the R register. *)
Record lrside := mkRs {
  rs_cmd : list (Z * Z * Z); rs_arq : list Z;
  rs_rc : list lrcmd; rs_cur : option (lrcmd * Z * list Z * Z); rs_rq : list (Z * Z); rs_done : list lrdone;
  rs_ar : option Z; rs_ph : lrphase; rs_arready : bool; rs_r : option Z }.

(** tb/axil.py:45, 328-330: both sides, in_flight_operations and the memory. *)
Record lstate := mkLs { ls_w : lwside; ls_r : lrside; ls_fly : Z; ls_mem : lmem }.

(** tb/axil.py:122-165: [write_logic] at a clock edge: all waiting commands. *)
Fixpoint l_wcmds (bw : Z) (cmds : list (Z * list Z * Z)) : result (list lword * list lwcmd) :=
  match cmds with
  | [] => Ok ([], [])
  | (a, d, p) :: cmds =>
    let! ws := l_write_words bw a d in
    let! (wr, cr) := l_wcmds bw cmds in
    Ok (ws ++ wr, mkLc a (zlen d) (l_cycles bw a (zlen d)) p :: cr)
  end.

(** tb/axil.py:190-203, 206-219, 299-312: an address or data interface process: keep the
    value while valid and not ready, else take the next one. *)
Definition l_iface {A} (v : option A) (ready : bool) (q : list A) : option A * list A :=
  match v with
  | Some x => if ready then match q with [] => (None, []) | y :: q => (Some y, q) end else (v, q)
  | None => match q with [] => (None, []) | y :: q => (Some y, q) end
  end.

(** tb/axil.py:400-402: end of the latency loop. *)
Definition l_wseek (size addr : Z) (m : lmem) : result (lwphase * bool * lmem) :=
  let! m := lm_seek m (addr mod size) in Ok (WData, true, m).

(** tb/axil.py:385-431: clock edge of the RAM's write process: new phase, awready, wready,
    bvalid and memory.  [awv], [wv] are the AW and W registers before the edge; bready is
    high. *)
Definition l_ram_w (bw size : Z) (lat : nat) (s : lwside) (m : lmem) : result (lwphase * bool * bool * bool * lmem) :=
  match ws_ph s with
  | WAddr =>
    match ws_aw s with
    | Some a =>
      if ws_awready s then
        let addr := int_truediv a bw * bw in
        match lat with
        | O => let! (ph, wr, m) := l_wseek size addr m in Ok (ph, false, wr, ws_bvalid s, m)
        | S n => Ok (WLat n addr, false, ws_wready s, ws_bvalid s, m)
        end
      else Ok (WAddr, true, ws_wready s, ws_bvalid s, m)
    | None => Ok (WAddr, true, ws_wready s, ws_bvalid s, m)
    end
  | WLat n addr =>
    match n with
    | O => let! (ph, wr, m) := l_wseek size addr m in Ok (ph, ws_awready s, wr, ws_bvalid s, m)
    | S n => Ok (WLat n addr, ws_awready s, ws_wready s, ws_bvalid s, m)
    end
  | WData =>
    match ws_w s with
    | Some (val, strb) => let! m := lm_store (Z.to_nat bw) 0 val strb m in Ok (WResp, ws_awready s, false, true, m)
    | None => Ok (WData, ws_awready s, ws_wready s, ws_bvalid s, m)
    end
  | WResp => Ok (WAddr, true, ws_wready s, false, m)
  end.

(** tb/axil.py:449-458: end of the latency loop of the read process. *)
Definition l_rget (bw size addr : Z) (m : lmem) : result (Z * lmem) :=
  let! m := lm_seek m (addr mod size) in
  let (d, m) := lm_read bw m in
  let! v := l_word_val bw d in Ok (v, m).

(** tb/axil.py:434-467: clock edge of the RAM's read process: new phase, arready, R
    register and memory (position); rready is high. *)
Definition l_ram_r (bw size : Z) (lat : nat) (s : lrside) (m : lmem) : result (lrphase * bool * option Z * lmem) :=
  match rs_ph s with
  | RAddr =>
    match rs_ar s with
    | Some a =>
      if rs_arready s then
        let addr := int_truediv a bw * bw in
        match lat with
        | O => let! (v, m) := l_rget bw size addr m in Ok (RResp, false, Some v, m)
        | S n => Ok (RLat n addr, false, rs_r s, m)
        end
      else Ok (RAddr, true, rs_r s, m)
    | None => Ok (RAddr, true, rs_r s, m)
    end
  | RLat n addr =>
    match n with
    | O => let! (v, m) := l_rget bw size addr m in Ok (RResp, rs_arready s, Some v, m)
    | S n => Ok (RLat n addr, rs_arready s, rs_r s, m)
    end
  | RResp => Ok (RAddr, true, None, m)
  end.

(** tb/axil.py:121-229: clock edge of the master's write side, given the new values of the
    RAM process; the processes run in the order of the file.  Also returns the change of
    in_flight_operations. *)
Definition l_master_w (bw : Z) (s : lwside) (ram : lwphase * bool * bool * bool) : result (lwside * Z) :=
  let '(ph, awr, wr, bv) := ram in
  let! (words, cmds) := l_wcmds bw (ws_cmd s) in
  let rc := ws_rc s ++ cmds in
  let! (cur, rc', rq, done) := l_wresp (2 * length rc + length (ws_rq s) + 3) (ws_cur s) rc (ws_rq s) (ws_done s) in
  let (aw, awq) := l_iface (ws_aw s) (ws_awready s) (ws_awq s ++ map lw_addr words) in
  let (w, wq) := l_iface (ws_w s) (ws_wready s) (ws_wq s ++ map (fun x => (lw_val x, lw_strb x)) words) in
  let rq := if ws_bvalid s then rq ++ [0] else rq in
  Ok (mkWs [] awq wq rc' cur rq done aw w ph awr wr bv, zlen cmds - (zlen done - zlen (ws_done s))).

(** tb/axil.py:232-253: [read_logic] at a clock edge. *)
Definition l_rcmds (bw : Z) (cmds : list (Z * Z * Z)) : list Z * list lrcmd :=
  (flat_map (fun c => l_read_addrs bw (fst (fst c)) (snd (fst c))) cmds,
   map (fun c => mkLr (fst (fst c)) (snd (fst c)) (l_cycles bw (fst (fst c)) (snd (fst c))) (snd c)) cmds).

(** tb/axil.py:231-322: clock edge of the master's read side. *)
Definition l_master_r (bw : Z) (s : lrside) (ram : lrphase * bool * option Z) : result (lrside * Z) :=
  let '(ph, arr, r) := ram in
  let (addrs, cmds) := l_rcmds bw (rs_cmd s) in
  let rc := rs_rc s ++ cmds in
  let! (cur, rc', rq, done) := l_rresp (2 * length rc + length (rs_rq s) + 3) bw (rs_cur s) rc (rs_rq s) (rs_done s) in
  let (ar, arq) := l_iface (rs_ar s) (rs_arready s) (rs_arq s ++ addrs) in
  let rq := match rs_r s with Some v => rq ++ [(v, 0)] | None => rq end in
  Ok (mkRs [] arq rc' cur rq done ar ph arr r, zlen cmds - (zlen done - zlen (rs_done s))).

(** tb/axil.py:121-322, 384-467: one clock edge.  [rfirst]: the RAM's read process runs
    before its write process (they share the mmap and its position). *)
Definition l_edge (bw size : Z) (lat : nat) (rfirst : bool) (s : lstate) : result lstate :=
  let! (rw, rr, m) :=
    if rfirst then
      let! (ph, rdy, r, m) := l_ram_r bw size lat (ls_r s) (ls_mem s) in
      let! (wph, awr, wr, bv, m) := l_ram_w bw size lat (ls_w s) m in
      Ok ((wph, awr, wr, bv), (ph, rdy, r), m)
    else
      let! (wph, awr, wr, bv, m) := l_ram_w bw size lat (ls_w s) (ls_mem s) in
      let! (ph, rdy, r, m) := l_ram_r bw size lat (ls_r s) m in
      Ok ((wph, awr, wr, bv), (ph, rdy, r), m) in
  let! (w, dw) := l_master_w bw (ls_w s) rw in
  let! (r, dr) := l_master_r bw (ls_r s) rr in
  Ok (mkLs w r (ls_fly s + dw + dr) m).

(** tb/axil.py:50-54 (init_read, init_write) and a clock edge. *)
Inductive levent := LWrite (addr : Z) (data : list Z) (prot : Z) | LRead (addr len prot : Z) | LEdge (rfirst : bool).

(** tb/axil.py:50-54, 121-322, 384-467: one event. *)
Definition l_step (bw size : Z) (lat : nat) (s : lstate) (e : levent) : result lstate :=
  match e with
  | LWrite a d p =>
    let w := ls_w s in
    Ok (mkLs (mkWs (ws_cmd w ++ [(a, d, p)]) (ws_awq w) (ws_wq w) (ws_rc w) (ws_cur w) (ws_rq w) (ws_done w) (ws_aw w) (ws_w w)
                (ws_ph w) (ws_awready w) (ws_wready w) (ws_bvalid w)) (ls_r s) (ls_fly s) (ls_mem s))
  | LRead a n p =>
    let r := ls_r s in
    Ok (mkLs (ls_w s) (mkRs (rs_cmd r ++ [(a, n, p)]) (rs_arq r) (rs_rc r) (rs_cur r) (rs_rq r) (rs_done r) (rs_ar r)
                (rs_ph r) (rs_arready r) (rs_r r)) (ls_fly s) (ls_mem s))
  | LEdge rf => l_edge bw size lat rf s
  end.

(** tb/axil.py:50-54, 121-322, 384-467: a run. *)
Fixpoint l_run (bw size : Z) (lat : nat) (evs : list levent) (s : lstate) : result lstate :=
  match evs with
  | [] => Ok s
  | e :: evs => let! s := l_step bw size lat s e in l_run bw size lat evs s
  end.

(** tb/axil.py:56-57: [idle]. *)
Definition l_idle (s : lstate) : bool :=
  match ws_cmd (ls_w s), rs_cmd (ls_r s) with [], [] => ls_fly s =? 0 | _, _ => false end.

(** tb/axil.py:29-48, 328-330, 387, 436: start: nothing queued, awready and arready high,
    wready low, a memory holding [d].  (The signals start low, as in the testbenches; the
    master's bready and rready are high from time 0.) *)
Definition ls0 (d : list Z) : lstate :=
  mkLs (mkWs [] [] [] [] None [] [] None None WAddr true false false) (mkRs [] [] [] None [] [] None RAddr true None) 0 (mkLm d 0).
