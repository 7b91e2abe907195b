(** Model of the MyHDL segmented RAM (tb/dma_ram.py): write ports, read ports
    and the packed vectors that connect them. *)
From Verif Require Import PyBase.

(** tb/dma_ram.py:28-31, 53-59, 108-110, 153-160, 215-219: number of ports,
    bytes per word, width of an address, memory size and read latency. *)
Record dcfg := mkDcfg { d_cnt : Z; d_bw : Z; d_aw : Z; d_size : Z; d_lat : nat }.

(** tb/dma_ram.py:61-64, 162-164: MyHDL slice [v((i+1)*w, i*w)] of a vector. *)
Definition vslice (w i v : Z) : Z := Z.land (Z.shiftr v (i * w)) (Z.ones w).
(** tb/dma_ram.py:86, 190-192: MyHDL [concat] of the reversed list, every entry [w] bits. *)
Fixpoint vconcat (w : Z) (l : list Z) : Z :=
  match l with [] => 0 | x :: r => Z.lor x (Z.shiftl (vconcat w r) w) end.

(** tb/dma_ram.py:119, 251: byte address of a word of port [k]. *)
Definition word_addr (c : dcfg) (k addr : Z) : Z := (addr * d_cnt c + k) * d_bw c.

(** tb/dma_ram.py:122, 254: [self.mem.seek(addr % self.size)]; the size is positive
    because mmap (31) refuses 0. *)
Definition seek (c : dcfg) (addr : Z) : Z := addr mod d_size c.

(** tb/dma_ram.py:124-129: the bytes of the data word. *)
Fixpoint data_bytes (n : nat) (val : Z) : list Z :=
  match n with O => [] | S m => Z.land val 0xff :: data_bytes m (Z.shiftr val 8) end.

(** tb/dma_ram.py:130-134: bytes [i] and following from position [pos]; mmap's write and
    relative seek raise ValueError past the end. *)
Fixpoint write_bytes (size : Z) (m : mem) (pos be i : Z) (data : list Z) : result mem :=
  match data with
  | [] => Ok m
  | b :: r =>
    if pos + 1 <=? size then
      let m' := if negb (Z.land be (Z.shiftl 1 i) =? 0) then mem_store m pos [b] else m in
      write_bytes size m' (pos + 1) be (i + 1) r
    else Err ValueError
  end.

(** tb/dma_ram.py:113-134: write process of port [k] at an edge; [ready] is
    ram_wr_cmd_ready as set after the edge before (115). *)
Definition write_edge (c : dcfg) (k : Z) (ready valid : bool) (be addr data : Z) (m : mem) : result mem :=
  if ready && valid then
    let pos := seek c (word_addr c k addr) in
    write_bytes (d_size c) m pos be 0 (data_bytes (Z.to_nat (d_bw c)) data)
  else Ok m.

(** tb/dma_ram.py:200-203, 219-221, 229: state of a read port: pipeline, out_valid,
    ready_int, ram_rd_resp_valid and ram_rd_resp_data. *)
Record rport := mkRport { rp_pipe : list (option Z); rp_out : bool; rp_rint : bool; rp_valid : bool; rp_data : Z }.

(** tb/dma_ram.py:232: [None in pipeline]. *)
Definition has_none (l : list (option Z)) : bool := existsb (fun x => match x with None => true | Some _ => false end) l.

(** tb/dma_ram.py:166-168, 219-232: before the first edge. *)
Definition rport0 (c : dcfg) : rport := mkRport (repeat None (d_lat c)) false true false 0.

(** tb/dma_ram.py:223-225: [ram_rd_cmd_ready]. *)
Definition cmd_ready (p : rport) (resp_ready pause : bool) : bool := (resp_ready || rp_rint p) && negb pause.

(** tb/dma_ram.py:236-244: the output stage; the pipeline is taken with its last
    entry first.  An empty pipeline (latency 0) raises IndexError. *)
Definition out_stage (p : rport) (resp_ready : bool) : result rport :=
  if resp_ready || negb (rp_valid p) then
    match rev (rp_pipe p) with
    | [] => Err IndexError
    | Some v :: r => Ok (mkRport (rev r ++ [None]) true (rp_rint p) true v)
    | None :: r => Ok (mkRport (rp_pipe p) false (rp_rint p) false (rp_data p))
    end
  else Ok p.

(** tb/dma_ram.py:246-249: [for i in range(latency-1,0,-1)], on the pipeline with its last
    entry first; [x] is the entry at [i]. *)
Fixpoint shift_from (x : option Z) (l : list (option Z)) : list (option Z) :=
  match l with
  | [] => [x]
  | y :: r => match x with None => y :: shift_from None r | Some _ => x :: shift_from y r end
  end.
(** tb/dma_ram.py:246-249. *)
Definition shift_rev (l : list (option Z)) : list (option Z) :=
  match l with [] => [] | x :: r => shift_from x r end.

(** tb/dma_ram.py:256-260: [for i in range(bw-1,-1,-1)]: the value of the bytes read. *)
Definition word_val (data : list Z) : Z := fold_right (fun b v => Z.shiftl v 8 + b) 0 data.

(** tb/dma_ram.py:254-260: the word at [addr]; mmap's read stops at the end and a short
    read raises IndexError. *)
Definition read_word (c : dcfg) (m : mem) (addr : Z) : result Z :=
  let pos := seek c addr in
  if pos + d_bw c <=? d_size c then Ok (word_val (mem_load m pos (d_bw c))) else Err IndexError.

(** tb/dma_ram.py:261: [pipeline[0] = val]. *)
Definition set_first (v : Z) (l : list (option Z)) : list (option Z) :=
  match l with [] => [] | _ :: r => Some v :: r end.

(** tb/dma_ram.py:227-261: read process of port [k] at an edge; ready_int of the next
    edge is computed at the top of the loop (232). *)
Definition read_edge (c : dcfg) (k : Z) (p : rport) (resp_ready pause valid : bool) (addr : Z) (m : mem) : result rport :=
  let! p1 := out_stage p resp_ready in
  let pipe := rev (shift_rev (rev (rp_pipe p1))) in
  let! pipe' :=
    if cmd_ready p resp_ready pause && valid then
      let! v := read_word c m (word_addr c k addr) in Ok (set_first v pipe)
    else Ok pipe in
  Ok (mkRport pipe' (rp_out p1) (negb (rp_out p1) || has_none pipe') (rp_valid p1) (rp_data p1)).

(** tb/dma_ram.py:41-51, 140-151: the input vectors at an edge, with the pause inputs. *)
Record din := mkDin { i_wbe : Z; i_waddr : Z; i_wdata : Z; i_wvalid : Z; i_wpause : bool;
                      i_raddr : Z; i_rvalid : Z; i_rready : Z; i_rpause : bool }.
(** tb/dma_ram.py:31, 66, 115, 166-168, 219-232: memory, ram_wr_cmd_ready (the same for
    all ports, which share the pause input) and the read ports. *)
Record dst := mkDst { s_mem : mem; s_wready : bool; s_rports : list rport }.

(** tb/dma_ram.py:68-82, 170-186: the processes of one edge. *)
Inductive proc := PWrite (k : Z) | PRead (k : Z).

(** Replace an entry of a list (the port signals of tb/dma_ram.py:166-168). *)
Fixpoint upd {A} (n : nat) (x : A) (l : list A) : list A :=
  match l, n with [], _ => [] | _ :: r, O => x :: r | y :: r, S m => y :: upd m x r end.

(** tb/dma_ram.py:64, 163-164: bit [k] of a vector, as a bool. *)
Definition vbit (k v : Z) : bool := negb (vslice 1 k v =? 0).

(** One process at an edge (tb/dma_ram.py:113-134, 227-261). *)
Definition run_proc (c : dcfg) (i : din) (s : dst) (p : proc) : result dst :=
  match p with
  | PWrite k =>
    let! m := write_edge c k (s_wready s) (vbit k (i_wvalid i)) (vslice (d_bw c) k (i_wbe i)) (vslice (d_aw c) k (i_waddr i)) (vslice (8 * d_bw c) k (i_wdata i)) (s_mem s) in
    Ok (mkDst m (s_wready s) (s_rports s))
  | PRead k =>
    let! r := py_index (s_rports s) k in
    let! r' := read_edge c k r (vbit k (i_rready i)) (i_rpause i) (vbit k (i_rvalid i)) (vslice (d_aw c) k (i_raddr i)) (s_mem s) in
    Ok (mkDst (s_mem s) (s_wready s) (upd (Z.to_nat k) r' (s_rports s)))
  end.

(** The processes of one edge in the order [l] (tb/dma_ram.py:68-82, 170-186; MyHDL runs
    them in no particular order). *)
Fixpoint run_procs (c : dcfg) (i : din) (s : dst) (l : list proc) : result dst :=
  match l with [] => Ok s | p :: r => let! s' := run_proc c i s p in run_procs c i s' r end.

(** One clock edge (tb/dma_ram.py:114-117, 231-234): all processes, then
    ram_wr_cmd_ready for the next edge. *)
Definition dma_edge (c : dcfg) (s : dst) (i : din) (order : list proc) : result dst :=
  let! s' := run_procs c i s order in
  Ok (mkDst (s_mem s') (negb (i_wpause i)) (s_rports s')).

(** tb/dma_ram.py:84-86, 188-192: the output vectors seen at an edge. *)
Record dout := mkDout { o_wready : Z; o_rready : Z; o_rdata : Z; o_rvalid : Z }.
(** tb/dma_ram.py:84-86, 188-192. *)
Definition outputs (c : dcfg) (s : dst) (i : din) : dout :=
  let b (x : bool) := if x then 1 else 0 in
  let ks := map Z.of_nat (seq 0 (Z.to_nat (d_cnt c))) in
  mkDout (vconcat 1 (map (fun _ => b (s_wready s)) ks))
         (vconcat 1 (map (fun kp => b (cmd_ready (snd kp) (vbit (fst kp) (i_rready i)) (i_rpause i))) (combine ks (s_rports s))))
         (vconcat (8 * d_bw c) (map rp_data (s_rports s)))
         (vconcat 1 (map (fun p => b (rp_valid p)) (s_rports s))).

(** tb/dma_ram.py:28-31, 66, 115, 166-168: before the first edge; [m] is what write_mem put in. *)
Definition dst0 (c : dcfg) (m : mem) (pause : bool) : dst :=
  mkDst m (negb pause) (repeat (rport0 c) (Z.to_nat (d_cnt c))).

(** Edges in turn (tb/dma_ram.py:114-117, 231-234); the trace of inputs, process orders and outputs. *)
Fixpoint dma_run (c : dcfg) (s : dst) (l : list (din * list proc)) : result (dst * list (din * list proc * dout)) :=
  match l with
  | [] => Ok (s, [])
  | (i, order) :: r =>
    let! s' := dma_edge c s i order in
    let! (s'', t) := dma_run c s' r in
    Ok (s'', (i, order, outputs c s i) :: t)
  end.
