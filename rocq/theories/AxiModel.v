(** AXI master and RAM (tb/axi.py).  Reset does not exist there; the signals lock, cache,
    prot, qos, region and user of the address channels are not used by the RAM and left
    out; [name] is None (no print).  Times between two clock edges are collapsed: a process
    woken by a sync signal runs at once. *)
From Verif Require Import PyBase AxilModel.

(** tb/axi.py:116, 133-186, 607-609, 622-655: configuration: byte lanes [int(w/8)],
    size of the memory, max_burst_len, widths of awid and arid (None: not connected), and
    whether m_axi_buser and m_axi_ruser are connected. *)
Record xcfg := mkXc { xc_bw : Z; xc_size : Z; xc_mbl : Z; xc_awid : option Z; xc_arid : option Z; xc_buser : bool; xc_ruser : bool }.

(** tb/axi.py:312, 466: an entry of an address queue; [xa_len] is one less than the number
    of beats. *)
Record xaw := mkXa { xa_addr : Z; xa_id : Z; xa_len : Z; xa_size : Z; xa_burst : Z }.

(** tb/axi.py:317: an entry of int_write_data_queue: data, strobe, last. *)
Definition xbeat : Type := (Z * Z * bool)%type.

(** tb/axi.py:257-263, 427-433: size and num_bytes (size >= 0). *)
Definition x_size (cfg : xcfg) (size : option Z) : result (Z * Z) :=
  match size with
  | None => Ok (Z.log2 (xc_bw cfg), xc_bw cfg)
  | Some s => if 2 ^ s <=? xc_bw cfg then Ok (s, 2 ^ s) else Err AssertionError
  end.

(** tb/axi.py:305-306, 459-460: burst_length. *)
Definition x_burst_len (cfg : xcfg) (cycles k nb cur_addr : Z) : Z :=
  let b := Z.min (cycles - k) (Z.min (Z.max (xc_mbl cfg) 1) 256) in
  int_truediv (Z.min (b * nb) (0x1000 - Z.land cur_addr 0xfff) + nb - 1) nb.

(** tb/axi.py:308-311, 462-465: the next id. *)
Definition x_next_id (w : option Z) (id : Z) : Z := match w with Some w => (id + 1) mod 2 ^ w | None => 0 end.

(** tb/axi.py:283-321: [for k in range(cycles)], [n] cycles remain; [cnt] is the n of the
    code, [bl] burst_length, [co] cycle_offset, [tc] transfer_count. *)
Fixpoint x_wloop (n : nat) (cfg : xcfg) (addr size nb cycles burst : Z) (data : list Z) (k offset cur_addr co cnt bl id tc : Z) :
    result (list xaw * list xbeat * Z * Z) :=
  match n with
  | O => Ok ([], [], id, tc)
  | S n =>
    let bw := xc_bw cfg in
    let full := 2 ^ bw - 1 in
    let start := if k =? 0 then addr mod bw else co in
    let stop := if k =? cycles - 1 then (addr + zlen data - 1) mod bw + 1 else co + nb in
    let strb := Z.land (Z.land (Z.shiftl full start) full) (Z.shiftr full (bw - stop)) in
    let! (val, offset) := l_gather (Z.to_nat (stop - start)) start data offset 0 in
    let '(aws, cnt, bl, id, tc) :=
      if cnt >=? bl then
        let bl := x_burst_len cfg cycles k nb cur_addr in
        ([mkXa cur_addr id (bl - 1) size burst], 0, bl, x_next_id (xc_awid cfg) id, tc + 1)
      else ([], cnt, bl, id, tc) in
    let cnt := cnt + 1 in
    let! (aws', beats, id, tc) :=
      x_wloop n cfg addr size nb cycles burst data (k + 1) offset (cur_addr + nb) ((co + nb) mod bw) cnt bl id tc in
    Ok (aws ++ aws', (val, strb, cnt >=? bl) :: beats, id, tc)
  end.

(** tb/axi.py:271, 445: cycles. *)
Definition x_cycles (nb addr len : Z) : Z := int_truediv (len + nb - 1 + addr mod nb) nb.

(** tb/axi.py:247-323: [write_logic] for one command: bursts, beats, the next id and
    transfer_count. *)
Definition x_write (cfg : xcfg) (id addr : Z) (data : list Z) (burst : Z) (size : option Z) : result (list xaw * list xbeat * Z * Z) :=
  let! (size, nb) := x_size cfg size in
  let bw := xc_bw cfg in
  let aligned_addr := int_truediv addr nb * nb in
  let word_addr := int_truediv addr bw * bw in
  let cycles := x_cycles nb addr (zlen data) in
  x_wloop (Z.to_nat cycles) cfg addr size nb cycles burst data 0 0 aligned_addr (aligned_addr - word_addr) 0 0 id 0.

(** tb/axi.py:326-346: [write_resp_logic] up to the next wait: the same loop as in
    tb/axil.py:168-187, over transfer_count responses; ids and user are not looked at. *)
Definition x_wresp := l_wresp.

(** tb/axi.py:349-374, 377-391, 544-570, 810-828, 912-931: an interface process at a clock
    edge: the register holds a value and its valid signal; the value is kept until valid
    and ready; a new value is valid unless paused.  Also tells whether it took a value. *)
Definition x_iface {A} (reg : option (A * bool)) (ready pause : bool) (q : list A) : option (A * bool) * list A * bool :=
  let take := match q with [] => (None, [], false) | x :: q => (Some (x, negb pause), q, true) end in
  match reg with
  | None => take
  | Some (x, valid) => if valid && ready then take else (Some (x, valid || negb pause), q, false)
  end.

(** tb/axi.py:395-410, 573-595, 779-794, 797-807, 886-901: the value taken from the
    channel at a clock edge: valid and ready (not paused). *)
Definition x_taken {A} (reg : option (A * bool)) (pause : bool) : list A :=
  match reg with Some (x, true) => if pause then [] else [x] | _ => [] end.

(** tb/axi.py:719-738, 741: a write burst in progress in the RAM: the burst, cur_addr and
    n. *)
Record xwcur := mkXw { xu_b : xaw; xu_addr : Z; xu_n : Z }.

(** tb/axi.py:724-738, 845-859: checks at the start of a burst; the first address. *)
Definition x_start (bw : Z) (b : xaw) : result Z :=
  let nb := 2 ^ xa_size b in
  if negb (nb <=? bw) then Err AssertionError else
  let aligned := int_truediv (xa_addr b) nb * nb in
  let transfer := nb * (xa_len b + 1) in
  if (xa_burst b =? 1) && negb (transfer <=? 0x1000 - Z.land aligned 0xfff) then Err AssertionError else Ok aligned.

(** tb/axi.py:731-733, 769-774, 852-854, 876-881: the next address of a burst (FIXED 0,
    INCR 1, WRAP 2).  For a WRAP burst above 2^53 with a length that is not a power of two
    the float quotient is approximated by [int_truediv]. *)
Definition x_next (b : xaw) (cur : Z) : Z :=
  if xa_burst b =? 0 then cur
  else
    let nb := 2 ^ xa_size b in
    let transfer := nb * (xa_len b + 1) in
    let lower := int_truediv (xa_addr b) transfer * transfer in
    let cur := cur + nb in
    if (xa_burst b =? 2) && (cur =? lower + transfer) then lower else cur.

(** tb/axi.py:712-774: [write_logic] of the RAM up to the next wait: the burst in progress,
    the address and data queues, the memory and the response queue (id, resp). *)
Fixpoint x_wlogic (fuel : nat) (bw size : Z) (cur : option xwcur) (awq : list xaw) (wq : list xbeat) (m : lmem) (bq : list (Z * Z)) :
    result (option xwcur * list xaw * list xbeat * lmem * list (Z * Z)) :=
  match fuel with
  | O => Err OutOfFuel
  | S fuel =>
    match cur with
    | None =>
      match awq with
      | [] => Ok (None, [], wq, m, bq)
      | b :: awq => let! a := x_start bw b in x_wlogic fuel bw size (Some (mkXw b a 0)) awq wq m bq
      end
    | Some (mkXw b a n) =>
      if n <? xa_len b + 1 then
        match wq with
        | [] => Ok (cur, awq, [], m, bq)
        | (val, strb, last) :: wq =>
          let! m := lm_seek m ((int_truediv a bw * bw) mod size) in
          let! m := lm_store (Z.to_nat bw) 0 val strb m in
          let bq := if n =? xa_len b then bq ++ [(xa_id b, 0)] else bq in
          if negb (Bool.eqb last (n =? xa_len b)) then Err (PyException 764) else
          x_wlogic fuel bw size (Some (mkXw b (x_next b a) (n + 1))) awq wq m bq
        end
      else x_wlogic fuel bw size None awq wq m bq
    end
  end.

(** tb/axi.py:871: an entry of int_read_resp_queue: id, data, resp, last. *)
Definition xrbeat : Type := (Z * Z * Z * bool)%type.

(** tb/axi.py:861-881: [for n in range(length)], [c] beats remain. *)
Fixpoint x_rbeats (c : nat) (bw size : Z) (b : xaw) (a n : Z) (m : lmem) : result (list xrbeat * lmem) :=
  match c with
  | O => Ok ([], m)
  | S c =>
    let! (v, m) := l_rget bw size (int_truediv a bw * bw) m in
    let! (l, m) := x_rbeats c bw size b (x_next b a) (n + 1) m in
    Ok ((xa_id b, v, 0, n =? xa_len b) :: l, m)
  end.

(** tb/axi.py:833-881: [read_logic] of the RAM for one burst. *)
Definition x_rburst (bw size : Z) (b : xaw) (m : lmem) : result (list xrbeat * lmem) :=
  let! a := x_start bw b in x_rbeats (Z.to_nat (xa_len b + 1)) bw size b a 0 m.

(** tb/axi.py:833-881: all queued bursts. *)
Fixpoint x_rlogic (bw size : Z) (bs : list xaw) (m : lmem) : result (list xrbeat * lmem) :=
  match bs with
  | [] => Ok ([], m)
  | b :: bs =>
    let! (l, m) := x_rburst bw size b m in
    let! (l', m) := x_rlogic bw size bs m in Ok (l ++ l', m)
  end.

(** tb/axi.py:453-471: [for k in range(cycles)] of read_logic: address queue entries and
    the next id; the entry (arid, burst_length) of burst_list is made of [xa_id] and
    [xa_len] + 1. *)
Fixpoint x_rloop (n : nat) (cfg : xcfg) (size nb cycles burst k cur_addr cnt bl id : Z) : list xaw * Z :=
  match n with
  | O => ([], id)
  | S n =>
    let cnt := cnt + 1 in
    let '(ars, cnt, bl, id) :=
      if cnt >=? bl then
        let bl := x_burst_len cfg cycles k nb cur_addr in
        ([mkXa cur_addr id (bl - 1) size burst], 0, bl, x_next_id (xc_arid cfg) id)
      else ([], cnt, bl, id) in
    let (ars', id) := x_rloop n cfg size nb cycles burst (k + 1) (cur_addr + nb) cnt bl id in
    (ars ++ ars', id)
  end.

(** tb/axi.py:447-449: a read command waiting for its data; [xq_bursts] is burst_list
    without the final None. *)
Record xrcmd := mkXq { xq_addr : Z; xq_len : Z; xq_size : Z; xq_prot : Z; xq_bursts : list (Z * Z) }.

(** tb/axi.py:417-473: [read_logic] for one command: bursts, the waiting command and the
    next id. *)
Definition x_read (cfg : xcfg) (id addr len burst : Z) (size : option Z) (prot : Z) : result (list xaw * xrcmd * Z) :=
  let! (size, nb) := x_size cfg size in
  let aligned_addr := int_truediv addr nb * nb in
  let cycles := x_cycles nb addr len in
  let (ars, id) := x_rloop (Z.to_nat cycles) cfg size nb cycles burst 0 aligned_addr 0 0 id in
  Ok (ars, mkXq addr len size prot (map (fun b => (xa_id b, xa_len b + 1)) ars), id).

(** tb/axi.py:482-541: the state of [read_resp_logic] in a command: rest of burst_list,
    rid, burst_length and k of the burst, cycle_offset, data, resp and first. *)
Record xrcur := mkXr { xr_cmd : xrcmd; xr_left : list (Z * Z); xr_rid : Z; xr_bl : Z; xr_k : Z; xr_co : Z; xr_data : list Z; xr_resp : Z; xr_first : bool }.

(** tb/axi.py:508-512, 592-594: the queues of int_read_resp_queue_list are kept as one list
    in order of arrival; the first entry with an id is the head of its queue. *)
Fixpoint x_pop (rid : Z) (q : list xrbeat) : option (Z * Z * bool * list xrbeat) :=
  match q with
  | [] => None
  | (i, v, r, l) :: q =>
    if i =? rid then Some (v, r, l, q)
    else match x_pop rid q with Some (v', r', l', q') => Some (v', r', l', (i, v, r, l) :: q') | None => None end
  end.

(** tb/axi.py:474-541: [read_resp_logic] up to the next wait. *)
Fixpoint x_rresp (fuel : nat) (bw : Z) (cur : option xrcur) (cmds : list xrcmd) (q : list xrbeat) (out : list lrdone) :
    result (option xrcur * list xrcmd * list xrbeat * list lrdone) :=
  match fuel with
  | O => Err OutOfFuel
  | S fuel =>
    match cur with
    | None =>
      match cmds with
      | [] => Ok (None, [], q, out)
      | c :: cmds =>
        let nb := 2 ^ xq_size c in
        let co := int_truediv (xq_addr c) nb * nb - int_truediv (xq_addr c) bw * bw in
        if negb (xq_size c <=? Z.log2 bw) then Err AssertionError else
        x_rresp fuel bw (Some (mkXr c (xq_bursts c) 0 0 0 co [] 0 true)) cmds q out
      end
    | Some (mkXr c lft rid bl k co data resp first) =>
      if k <? bl then
        match x_pop rid q with
        | None => Ok (cur, cmds, q, out)
        | Some (v, r, l, q) =>
          let nb := 2 ^ xq_size c in
          let start := if first : bool then xq_addr c mod bw else co in
          if negb (Bool.eqb l (k =? bl - 1)) then Err AssertionError else
          x_rresp fuel bw (Some (mkXr c lft rid bl (k + 1) ((co + nb) mod bw) (data ++ l_lanes start (co + nb) v) (if r =? 0 then resp else r) false)) cmds q out
        end
      else
        match lft with
        | [] => x_rresp fuel bw None cmds q (out ++ [mkLe (xq_addr c) (slice data 0 (xq_len c)) (xq_prot c) resp])
        | (rid, bl) :: lft => x_rresp fuel bw (Some (mkXr c lft rid bl 0 co data resp first)) cmds q out
        end
    end
  end.

(** tb/axi.py:79-115, 246-411, 607-617, 711-828: the write side: next id, the queues of the
    master, the AW and W registers, then the queues of the RAM, its burst in progress and
    the B register. *)
Record xwside := mkXws {
  xw_id : Z; xw_awq : list xaw; xw_wq : list xbeat; xw_rc : list lwcmd; xw_cur : option (lwcmd * Z * Z); xw_rq : list Z; xw_done : list lwdone;
  xw_aw : option (xaw * bool); xw_w : option (xbeat * bool);
  xs_awq : list xaw; xs_wq : list xbeat; xs_cur : option xwcur; xs_bq : list (Z * Z); xs_b : option ((Z * Z) * bool) }.

(** tb/axi.py:79-115, 416-596, 618-621, 832-931: the read side; the RAM answers an address
    when it arrives. *)
Record xrside := mkXrs {
  xr_id : Z; xr_arq : list xaw; xr_rc : list xrcmd; xr_cur : option xrcur; xr_rq : list xrbeat; xr_done : list lrdone;
  xr_ar : option (xaw * bool); xs_rq : list xrbeat; xs_r : option (xrbeat * bool) }.

(** tb/axi.py:79-115, 607-621: both sides, in_flight_operations and the memory. *)
Record xstate := mkXs { x_w : xwside; x_r : xrside; x_fly : Z; x_mem : lmem }.

(** tb/axi.py:175-180, 663-668: the pause signals at an edge ([pause] or the one of the
    channel) of the master and of the RAM. *)
Record xpause := mkXp { m_aw : bool; m_w : bool; m_b : bool; m_ar : bool; m_r : bool; s_aw : bool; s_w : bool; s_b : bool; s_ar : bool; s_r : bool }.

(** tb/axi.py:118-124 (init_read, init_write) and a clock edge; [rfirst]: read_logic of the
    RAM runs before its write_logic. *)
Inductive xevent :=
  | XWrite (addr : Z) (data : list Z) (burst : Z) (size : option Z) (prot : Z)
  | XRead (addr len burst : Z) (size : option Z) (prot : Z)
  | XEdge (p : xpause) (rfirst : bool).

(** tb/axi.py:122-124, 246-346: init_write, the split of the command, and write_resp_logic
    if it waits for a command. *)
Definition x_init_write (cfg : xcfg) (s : xwside) (addr : Z) (data : list Z) (burst : Z) (size : option Z) (prot : Z) : result xwside :=
  let! (aws, beats, id, tc) := x_write cfg (xw_id s) addr data burst size in
  let rc := xw_rc s ++ [mkLc addr (zlen data) tc prot] in
  let! (cur, rc, rq, done) :=
    match xw_cur s with
    | None => x_wresp (2 * length rc + length (xw_rq s) + 3) None rc (xw_rq s) (xw_done s)
    | Some c => Ok (Some c, rc, xw_rq s, xw_done s)
    end in
  Ok (mkXws id (xw_awq s ++ aws) (xw_wq s ++ beats) rc cur rq done (xw_aw s) (xw_w s) (xs_awq s) (xs_wq s) (xs_cur s) (xs_bq s) (xs_b s)).

(** tb/axi.py:503-541: fuel for [x_rresp]: beats, bursts and commands. *)
Definition x_rfuel (cur : option xrcur) (rc : list xrcmd) (q : list xrbeat) : nat :=
  (length q + match cur with Some c => length (xr_left c) | None => 0 end + fold_right (fun c n => length (xq_bursts c) + 2 + n) 0 rc + 4)%nat.

(** tb/axi.py:118-120, 416-541: init_read. *)
Definition x_init_read (cfg : xcfg) (s : xrside) (addr len burst : Z) (size : option Z) (prot : Z) : result xrside :=
  let! (ars, c, id) := x_read cfg (xr_id s) addr len burst size prot in
  let rc := xr_rc s ++ [c] in
  let! (cur, rc, rq, done) :=
    match xr_cur s with
    | None => x_rresp (x_rfuel None rc (xr_rq s)) (xc_bw cfg) None rc (xr_rq s) (xr_done s)
    | Some c => Ok (Some c, rc, xr_rq s, xr_done s)
    end in
  Ok (mkXrs id (xr_arq s ++ ars) rc cur rq done (xr_ar s) (xs_rq s) (xs_r s)).

(** tb/axi.py:246-411, 711-828: the write side at a clock edge, before write_logic of the
    RAM runs; [m_axi_awid.next] (357) raises when awid is not connected. *)
Definition x_edge_w (cfg : xcfg) (p : xpause) (s : xwside) : result xwside :=
  let! (cur, rc, rq, done) := x_wresp (2 * length (xw_rc s) + length (xw_rq s) + 3) (xw_cur s) (xw_rc s) (xw_rq s) (xw_done s) in
  let '(aw, awq, taken) := x_iface (xw_aw s) (negb (s_aw p)) (m_aw p) (xw_awq s) in
  if taken && match xc_awid cfg with None => true | _ => false end then Err AttributeError else
  let '(w, wq, _) := x_iface (xw_w s) (negb (s_w p)) (m_w p) (xw_wq s) in
  let '(b, bq, _) := x_iface (xs_b s) (negb (m_b p)) (s_b p) (xs_bq s) in
  Ok (mkXws (xw_id s) awq wq rc cur (rq ++ map snd (x_taken (xs_b s) (m_b p))) done aw w
    (xs_awq s ++ x_taken (xw_aw s) (s_aw p)) (xs_wq s ++ x_taken (xw_w s) (s_w p)) (xs_cur s) bq b).

(** tb/axi.py:711-774: write_logic of the RAM after a clock edge. *)
Definition x_ram_w (cfg : xcfg) (s : xwside) (m : lmem) : result (xwside * lmem) :=
  let! (cur, awq, wq, m, bq) := x_wlogic (2 * length (xs_awq s) + length (xs_wq s) + 3) (xc_bw cfg) (xc_size cfg) (xs_cur s) (xs_awq s) (xs_wq s) m (xs_bq s) in
  Ok (mkXws (xw_id s) (xw_awq s) (xw_wq s) (xw_rc s) (xw_cur s) (xw_rq s) (xw_done s) (xw_aw s) (xw_w s) awq wq cur bq (xs_b s), m).

(** tb/axi.py:543-595, 883-931: the read side at a clock edge, with the addresses that
    arrive at the RAM; [int(m_axi_ruser)] (589) raises when buser is connected and ruser
    is not. *)
Definition x_edge_r (cfg : xcfg) (p : xpause) (s : xrside) : result (xrside * list xaw) :=
  let '(ar, arq, _) := x_iface (xr_ar s) (negb (s_ar p)) (m_ar p) (xr_arq s) in
  let '(r, rq, _) := x_iface (xs_r s) (negb (m_r p)) (s_r p) (xs_rq s) in
  let got := x_taken (xs_r s) (m_r p) in
  if match got with [] => false | _ => xc_buser cfg && negb (xc_ruser cfg) end then Err TypeError else
  Ok (mkXrs (xr_id s) arq (xr_rc s) (xr_cur s) (xr_rq s ++ got) (xr_done s) ar rq r, x_taken (xr_ar s) (s_ar p)).

(** tb/axi.py:474-541: read_resp_logic of the master after a clock edge; the beats [l] of
    the RAM are queued. *)
Definition x_after_r (cfg : xcfg) (s : xrside) (l : list xrbeat) : result xrside :=
  let! (cur, rc, rq, done) := x_rresp (x_rfuel (xr_cur s) (xr_rc s) (xr_rq s)) (xc_bw cfg) (xr_cur s) (xr_rc s) (xr_rq s) (xr_done s) in
  Ok (mkXrs (xr_id s) (xr_arq s) rc cur rq done (xr_ar s) (xs_rq s ++ l) (xs_r s)).

(** tb/axi.py:246-595, 711-931: a clock edge. *)
Definition x_edge (cfg : xcfg) (p : xpause) (rfirst : bool) (s : xstate) : result xstate :=
  let! w1 := x_edge_w cfg p (x_w s) in
  let! (r1, bs) := x_edge_r cfg p (x_r s) in
  let! (w2, l, m) :=
    if rfirst then
      let! (l, m) := x_rlogic (xc_bw cfg) (xc_size cfg) bs (x_mem s) in
      let! (w2, m) := x_ram_w cfg w1 m in Ok (w2, l, m)
    else
      let! (w2, m) := x_ram_w cfg w1 (x_mem s) in
      let! (l, m) := x_rlogic (xc_bw cfg) (xc_size cfg) bs m in Ok (w2, l, m) in
  let! r2 := x_after_r cfg r1 l in
  Ok (mkXs w2 r2 (x_fly s - (zlen (xw_done w2) - zlen (xw_done (x_w s))) - (zlen (xr_done r2) - zlen (xr_done (x_r s)))) m).

(** tb/axi.py:118-124, 246-595, 711-931: one event. *)
Definition x_step (cfg : xcfg) (s : xstate) (e : xevent) : result xstate :=
  match e with
  | XWrite a d b z p =>
    let! w := x_init_write cfg (x_w s) a d b z p in
    Ok (mkXs w (x_r s) (x_fly s + 1 - (zlen (xw_done w) - zlen (xw_done (x_w s)))) (x_mem s))
  | XRead a n b z p =>
    let! r := x_init_read cfg (x_r s) a n b z p in
    Ok (mkXs (x_w s) r (x_fly s + 1 - (zlen (xr_done r) - zlen (xr_done (x_r s)))) (x_mem s))
  | XEdge p rf => x_edge cfg p rf s
  end.

(** tb/axi.py:118-124, 246-595, 711-931: a run. *)
Fixpoint x_run (cfg : xcfg) (evs : list xevent) (s : xstate) : result xstate :=
  match evs with [] => Ok s | e :: evs => let! s := x_step cfg s e in x_run cfg evs s end.

(** tb/axi.py:126-127: [idle]; the command queues are emptied at once. *)
Definition x_idle (s : xstate) : bool := x_fly s =? 0.

(** tb/axi.py:79-115, 607-621: start, with a memory holding [d]. *)
Definition xs0 (d : list Z) : xstate :=
  mkXs (mkXws 0 [] [] [] None [] [] None None [] [] None [] None) (mkXrs 0 [] [] None [] [] None [] None) 0 (mkLm d 0).
