(** Models of the RAM demultiplexers rtl/dma_ram_demux_rd.v and rtl/dma_ram_demux_wr.v.  A Verilog vector of width w is an integer in
    [0, 2^w).  [D] stands for the rest of a command, which the modules only copy: the address, and for writes also the byte
    enables and the data. *)
From Verif Require Import PyBase RtlModel RtlRamModel RtlDemuxModel.

(** rtl/dma_ram_demux_rd.v:36-48, rtl/dma_ram_demux_wr.v:36-50: PORTS, S_RAM_SEL_WIDTH, M_RAM_SEL_WIDTH. *)
Record x_param := mkXp { xp_ports : Z; xp_s : Z; xp_m : Z }.

(** rtl/dma_ram_demux_rd.v:302, 105 and rtl/dma_ram_demux_wr.v:106: a FIFO of 32 entries with pointers of 6 bits is full. *)
Definition ptr_full (wr rd : Z) : bool := wr =? Z.lxor rd 32.
(** rtl/dma_ram_demux_rd.v:162, 288, 320, 326, rtl/dma_ram_demux_wr.v:173, 314: a pointer goes on. *)
Definition ptr_inc (x : Z) : Z := (x + 1) mod 64.

Section cmd.
Context {D : Type}.

(** rtl/dma_ram_demux_rd.v:56-61, 115-135, rtl/dma_ram_demux_wr.v:58-64, 116-144: the command of one segment, and the ready bits of the ports. *)
Record x_in := mkXi { xi_rst : bool; xi_valid : bool; xi_sel : Z; xi_cmd : D; xi_cready : Z }.

(** rtl/dma_ram_demux_rd.v:99-102, 141-147, 171-177, rtl/dma_ram_demux_wr.v:100-103, 150-156, 182-192: the FIFO of the ports to answer and the
    output registers for commands. *)
Record x_state := mkXs { xs_wr : Z; xs_rd : Z; xs_sel : Z -> Z; xs_out : vskid (Z * D) }.

(** rtl/dma_ram_demux_rd.v:151, rtl/dma_ram_demux_wr.v:160: select_cmd. *)
Definition x_select (p : x_param) (i : x_in) : Z :=
  if 1 <? xp_ports p then psel (xi_sel i) (xp_m p - clog2 (xp_ports p)) (clog2 (xp_ports p)) else 0.

(** rtl/dma_ram_demux_rd.v:149, rtl/dma_ram_demux_wr.v:158: the command is accepted. *)
Definition x_ready (s : x_state) : bool := vk_ready (xs_out s) && negb (ptr_full (xs_wr s) (xs_rd s)).

(** rtl/dma_ram_demux_rd.v:153-168, 185-243, rtl/dma_ram_demux_wr.v:162-179, 205-264: one clock edge of the command side; [rd] is the new
    value of fifo_rd_ptr_reg. *)
Definition x_cmd_step (p : x_param) (s : x_state) (i : x_in) (rd : Z) : x_state :=
  let take := xi_valid i && x_ready s in
  let sel := x_select p i in
  mkXs (if xi_rst i then 0 else if take then ptr_inc (xs_wr s) else xs_wr s) rd
    (if take then upd (xs_sel s) (xs_wr s mod 32) sel else xs_sel s)
    (vskid_step (xs_out s) (xi_rst i) (xi_cready i) (Z.shiftl (Z.b2z take) sel mod 2 ^ xp_ports p) (xi_sel i mod 2 ^ xp_s p, xi_cmd i)).
End cmd.
Arguments x_in : clear implicits.
Arguments x_state : clear implicits.

(** rtl/dma_ram_demux_rd.v:104, 303, rtl/dma_ram_demux_wr.v:105. *)
Definition ptr_empty (wr rd : Z) : bool := wr =? rd.

(** * dma_ram_demux_rd *)
Section rd.
Context {D : Type}.

(** rtl/dma_ram_demux_rd.v:62-75, 247-257: one segment; also the answers of the ports and the ready input for answers. *)
Record rd_in := mkRd { rd_cmd : x_in D; rd_rvalid : Z; rd_rdata : Z -> Z; rd_rready : bool }.

(** rtl/dma_ram_demux_rd.v:295-306: the command side, and the output FIFO. *)
Record rd_state := mkRds { rds_x : x_state D; rds_data : Z; rds_valid : bool; rds_wr : Z; rds_rd : Z; rds_half : bool; rds_mem : Z -> Z }.

(** rtl/dma_ram_demux_rd.v:269: select_resp. *)
Definition rd_resp (s : rd_state) : Z := xs_sel (rds_x s) (xs_rd (rds_x s) mod 32).
(** rtl/dma_ram_demux_rd.v:271, 308: seg_ctrl_rd_resp_ready_int && !fifo_empty. *)
Definition rd_want (s : rd_state) : bool := negb (rds_half s) && negb (ptr_empty (xs_wr (rds_x s)) (xs_rd (rds_x s))).
(** rtl/dma_ram_demux_rd.v:271: ready bits for the answers of the ports. *)
Definition rd_ready (p : x_param) (s : rd_state) : Z := Z.shiftl (Z.b2z (rd_want s)) (rd_resp s) mod 2 ^ xp_ports p.
(** rtl/dma_ram_demux_rd.v:275, 281, 285: an answer is taken; a port that does not exist gives no answer. *)
Definition rd_take (p : x_param) (s : rd_state) (i : rd_in) : bool :=
  ((rd_resp s <? xp_ports p) && (bsel (rd_rvalid i) (rd_resp s) =? 1)) && rd_want s.

(** rtl/dma_ram_demux_rd.v:153-334: one clock edge of a segment. *)
Definition rd_step (p : x_param) (s : rd_state) (i : rd_in) : rd_state :=
  let x := rds_x s in
  let rst := xi_rst (rd_cmd i) in
  let take := rd_take p s i in
  let rd := if rst then 0 else if take then ptr_inc (xs_rd x) else xs_rd x in
  let push := negb (ptr_full (rds_wr s) (rds_rd s)) && take in
  let pop := negb (ptr_empty (rds_wr s) (rds_rd s)) && (negb (rds_valid s) || rd_rready i) in
  mkRds (x_cmd_step p x (rd_cmd i) rd)
    (if pop then rds_mem s (rds_rd s mod 32) else rds_data s)
    (if rst then false else if pop then true else rds_valid s && negb (rd_rready i))
    (if rst then 0 else if push then ptr_inc (rds_wr s) else rds_wr s)
    (if rst then 0 else if pop then ptr_inc (rds_rd s) else rds_rd s)
    (16 <=? (rds_wr s - rds_rd s) mod 64)
    (if push then upd (rds_mem s) (rds_wr s mod 32) (rd_rdata i (rd_resp s)) else rds_mem s).

(** rtl/dma_ram_demux_rd.v:99-113, 145, 171-177, 295-300: at power up; [d] stands for the unreset command registers. *)
Definition rd0 (d : Z * D) : rd_state := mkRds (mkXs 0 0 (fun _ => 0) (mkVk 0 d 0 d false)) 0 false 0 0 false (fun _ => 0).

(** rtl/dma_ram_demux_rd.v:50-75: what is seen at one clock on the ports of a segment: the inputs, ctrl_rd_cmd_ready, ram_rd_cmd_valid and
    the command, ram_rd_resp_ready, ctrl_rd_resp_valid and ctrl_rd_resp_data. *)
Record rd_ev := mkRde { rde_in : rd_in; rde_ready : bool; rde_cvalid : Z; rde_cmd : Z * D; rde_rready : Z; rde_valid : bool; rde_data : Z }.
(** rtl/dma_ram_demux_rd.v:121, 184-186, 271, 310-311. *)
Definition rd_event (p : x_param) (s : rd_state) (i : rd_in) : rd_ev :=
  mkRde i (x_ready (rds_x s)) (vk_valid (xs_out (rds_x s))) (vk_data (xs_out (rds_x s))) (rd_ready p s) (rds_valid s) (rds_data s).
(** rtl/dma_ram_demux_rd.v:159-334: clocks in turn. *)
Fixpoint rd_trace (p : x_param) (s : rd_state) (l : list rd_in) : list rd_ev :=
  match l with
  | [] => []
  | i :: r => rd_event p s i :: rd_trace p (rd_step p s i) r
  end.
(** rtl/dma_ram_demux_rd.v:159-334: the registers after the clocks. *)
Definition rd_run (p : x_param) (s : rd_state) (l : list rd_in) : rd_state := fold_left (rd_step p) l s.
End rd.
Arguments rd_in : clear implicits.
Arguments rd_state : clear implicits.
Arguments rd_ev : clear implicits.

(** * dma_ram_demux_wr *)
(** rtl/dma_ram_demux_wr.v:271-301: a value for each port (the generate loop). *)
Definition tab {A} (n : Z) (d : A) (g : Z -> A) : Z -> A := let t := map g (map Z.of_nat (seq 0 (Z.to_nat n))) in fun q => nth (Z.to_nat q) t d.

Section wr.
Context {D : Type}.

(** rtl/dma_ram_demux_wr.v:52-77, 267-277: one segment; also the done bits of the ports. *)
Record wr_in := mkWr { wr_cmd : x_in D; wr_done : Z }.

(** rtl/dma_ram_demux_wr.v:281-283, 303-304: the command side, the counters and done bits of the ports, and the port waited for. *)
Record wr_state := mkWrs { wrs_x : x_state D; wrs_cnt : Z -> Z; wrs_done : Z -> bool; wrs_sel : Z; wrs_valid : bool }.

(** rtl/dma_ram_demux_wr.v:306: seg_ram_wr_done_ack, for port [q]. *)
Definition wr_ack (s : wr_state) (q : Z) : bool := wrs_done s q && wrs_valid s && (q =? wrs_sel s).
(** rtl/dma_ram_demux_wr.v:307: seg_ctrl_wr_done. *)
Definition wr_out (p : x_param) (s : wr_state) : bool := existsb (wr_ack s) (map Z.of_nat (seq 0 (Z.to_nat (xp_ports p)))).
(** rtl/dma_ram_demux_wr.v:287-300: done_count_reg and done_reg of port [q]. *)
Definition wr_count (s : wr_state) (i : wr_in) (q : Z) : Z * bool :=
  let d := bsel (wr_done i) q =? 1 in
  let '(c, b) :=
    if (wrs_cnt s q <? 32) && d && negb (wr_ack s q) then (wrs_cnt s q + 1, true)
    else if (0 <? wrs_cnt s q) && negb d && wr_ack s q then (wrs_cnt s q - 1, 1 <? wrs_cnt s q)
    else (wrs_cnt s q, wrs_done s q) in
  if xi_rst (wr_cmd i) then (0, false) else (c, b).

(** rtl/dma_ram_demux_wr.v:162-323: one clock edge of a segment. *)
Definition wr_step (p : x_param) (s : wr_state) (i : wr_in) : wr_state :=
  let x := wrs_x s in
  let rst := xi_rst (wr_cmd i) in
  let free := negb (wrs_valid s) || wr_out p s in
  let next := free && negb (ptr_empty (xs_wr x) (xs_rd x)) in
  let t := tab (xp_ports p) (0, false) (wr_count s i) in
  mkWrs (x_cmd_step p x (wr_cmd i) (if rst then 0 else if next then ptr_inc (xs_rd x) else xs_rd x))
    (fun q => fst (t q)) (fun q => snd (t q))
    (if next then xs_sel x (xs_rd x mod 32) else wrs_sel s)
    (if rst then false else if free then next else wrs_valid s).

(** rtl/dma_ram_demux_wr.v:100-114, 154, 182-192, 282-283, 303-304: at power up; [d] stands for the command registers. *)
Definition wr0 (d : Z * D) : wr_state := mkWrs (mkXs 0 0 (fun _ => 0) (mkVk 0 d 0 d false)) (fun _ => 0) (fun _ => false) 0 false.

(** rtl/dma_ram_demux_wr.v:52-77: what is seen at one clock on the ports of a segment: the inputs, ctrl_wr_cmd_ready, ram_wr_cmd_valid and
    the command, ctrl_wr_done. *)
Record wr_ev := mkWre { wre_in : wr_in; wre_ready : bool; wre_cvalid : Z; wre_cmd : Z * D; wre_done : bool }.
(** rtl/dma_ram_demux_wr.v:124, 199-203, 279. *)
Definition wr_event (p : x_param) (s : wr_state) (i : wr_in) : wr_ev :=
  mkWre i (x_ready (wrs_x s)) (vk_valid (xs_out (wrs_x s))) (vk_data (xs_out (wrs_x s))) (wr_out p s).
(** rtl/dma_ram_demux_wr.v:170-323: clocks in turn. *)
Fixpoint wr_trace (p : x_param) (s : wr_state) (l : list wr_in) : list wr_ev :=
  match l with
  | [] => []
  | i :: r => wr_event p s i :: wr_trace p (wr_step p s i) r
  end.
(** rtl/dma_ram_demux_wr.v:170-323: the registers after the clocks. *)
Definition wr_run (p : x_param) (s : wr_state) (l : list wr_in) : wr_state := fold_left (wr_step p) l s.
End wr.
Arguments wr_in : clear implicits.
Arguments wr_state : clear implicits.
Arguments wr_ev : clear implicits.

(** * The wiring of the segments. *)
(** rtl/dma_ram_demux_rd.v:134, 252, rtl/dma_ram_demux_wr.v:144, 276: bit [q] for segment [n] of a bus with a bit for each port and segment. *)
Definition gather (ports segs n v : Z) : Z :=
  fold_left (fun a q => a + bsel v (q * segs + n) * 2 ^ q) (map Z.of_nat (seq 0 (Z.to_nat ports))) 0.

(** rtl/dma_ram_demux_rd.v:50-75: the buses, all segments side by side. *)
Record rd_bus := mkRb { rb_rst : bool; rb_sel : Z; rb_addr : Z; rb_valid : Z; rb_cready : Z; rb_rdata : Z; rb_rvalid : Z; rb_rready : Z }.
(** rtl/dma_ram_demux_rd.v:117-135, 251-260: the inputs of segment [n]; the widths of address and data are [aw] and [dw]. *)
Definition rd_seg (p : x_param) (segs aw dw n : Z) (b : rd_bus) : rd_in Z :=
  mkRd (mkXi (rb_rst b) (bsel (rb_valid b) n =? 1) (psel (rb_sel b) (xp_m p * n) (xp_m p)) (psel (rb_addr b) (aw * n) aw) (gather (xp_ports p) segs n (rb_cready b)))
    (gather (xp_ports p) segs n (rb_rvalid b)) (fun q => psel (rb_rdata b) ((q * segs + n) * dw) dw) (bsel (rb_rready b) n =? 1).

(** rtl/dma_ram_demux_wr.v:52-77: the buses, all segments side by side. *)
Record wr_bus := mkWb { wb_rst : bool; wb_sel : Z; wb_be : Z; wb_addr : Z; wb_data : Z; wb_valid : Z; wb_cready : Z; wb_done : Z }.
(** rtl/dma_ram_demux_wr.v:118-145, 275-277: the inputs of segment [n]. *)
Definition wr_seg (p : x_param) (segs bw aw dw n : Z) (b : wr_bus) : wr_in (Z * Z * Z) :=
  mkWr (mkXi (wb_rst b) (bsel (wb_valid b) n =? 1) (psel (wb_sel b) (xp_m p * n) (xp_m p))
      (psel (wb_be b) (bw * n) bw, psel (wb_addr b) (aw * n) aw, psel (wb_data b) (dw * n) dw) (gather (xp_ports p) segs n (wb_cready b)))
    (gather (xp_ports p) segs n (wb_done b)).
