(** Models of the segmented RAMs rtl/dma_psdpram.v and rtl/dma_psdpram_async.v.  The two differ only in that the second has separate
    clocks (and resets) for the two ports; [ri_wclk] and [ri_rclk] say which of them has a rising edge, and for dma_psdpram both have
    one at every step.  A Verilog vector of width w is an integer in [0, 2^w). *)
From Verif Require Import PyBase RtlModel.

(** rtl/dma_psdpram.v:36-47, 74: SEG_DATA_WIDTH, SEG_BE_WIDTH, SEG_ADDR_WIDTH, INT_ADDR_WIDTH, PIPELINE. *)
Record ram_param := mkRp { rp_dw : Z; rp_bew : Z; rp_aw : Z; rp_iaw : Z; rp_pipe : Z }.

(** rtl/dma_psdpram.v:91-96: the registers of one segment; the entries of the pipeline are numbered as in the source. *)
Record ram_seg := mkRs { rs_mem : Z -> Z; rs_done : bool; rs_valid : Z -> bool; rs_data : Z -> Z }.

(** rtl/dma_psdpram.v:50-72, rtl/dma_psdpram_async.v:50-73: inputs of one step, all segments side by side. *)
Record ram_in := mkRi { ri_wclk : bool; ri_wrst : bool; ri_wbe : Z; ri_waddr : Z; ri_wdata : Z; ri_wvalid : Z;
  ri_rclk : bool; ri_rrst : bool; ri_raddr : Z; ri_rvalid : Z; ri_rready : Z }.

(** [v[lo +: w] <= x], as in rtl/dma_psdpram.v:119. *)
Definition put (v lo w x : Z) : Z := v + (x mod 2 ^ w - psel v lo w) * 2 ^ lo.

(** [f[a] <= x], as in rtl/dma_psdpram.v:119, 134-147. *)
Definition upd {A} (f : Z -> A) (a : Z) (x : A) : Z -> A := fun b => if b =? a then x else f b.

(** rtl/dma_psdpram.v:117-122: the loop over the byte enables. *)
Definition ram_write (p : ram_param) (n : Z) (m : Z -> Z) (i : ram_in) : Z -> Z :=
  let a := psel (ri_waddr i) (rp_aw p * n) (rp_iaw p) in
  fold_left (fun m k => if (bsel (ri_wvalid i) n =? 1) && (bsel (ri_wbe i) (n * rp_bew p + k) =? 1)
    then upd m a (put (m a) (k * 8) 8 (psel (ri_wdata i) (rp_dw p * n + k * 8) 8)) else m)
    (map Z.of_nat (seq 0 (Z.to_nat (rp_bew p)))) m.

(** rtl/dma_psdpram.v:114-127, rtl/dma_psdpram_async.v:115-128: wr_done_reg after a write clock; the assignment is inside the loop. *)
Definition ram_done (p : ram_param) (n : Z) (i : ram_in) : bool := (0 <? rp_bew p) && (bsel (ri_wvalid i) n =? 1) && negb (ri_wrst i).

(** rtl/dma_psdpram.v:138: [(~rd_resp_valid_pipe_reg) >> j], as a truth value. *)
Definition ram_room (p : ram_param) (s : ram_seg) (j : Z) : bool :=
  existsb (fun k => (j <=? k) && negb (rs_valid s k)) (map Z.of_nat (seq 0 (Z.to_nat (rp_pipe p)))).

(** rtl/dma_psdpram.v:155: rd_cmd_ready. *)
Definition ram_rready (p : ram_param) (n : Z) (s : ram_seg) (i : ram_in) : bool := (bsel (ri_rready i) n =? 1) || ram_room p s 0.

(** rtl/dma_psdpram.v:137-143: the loop over the pipeline, from the output back; the right hand sides are the old registers. *)
Definition ram_shift (p : ram_param) (n : Z) (s : ram_seg) (i : ram_in) (v : Z -> bool) (d : Z -> Z) : (Z -> bool) * (Z -> Z) :=
  fold_left (fun '(v, d) j => if (bsel (ri_rready i) n =? 1) || ram_room p s j
    then (upd (upd v j (rs_valid s (j - 1))) (j - 1) false, upd d j (rs_data s (j - 1))) else (v, d))
    (rev (map Z.of_nat (seq 1 (Z.to_nat (rp_pipe p) - 1)))) (v, d).

(** rtl/dma_psdpram.v:132-153, rtl/dma_psdpram_async.v:133-154: rd_resp_valid_pipe_reg and rd_resp_data_pipe_reg after a read clock. *)
Definition ram_pipe (p : ram_param) (n : Z) (s : ram_seg) (i : ram_in) : (Z -> bool) * (Z -> Z) :=
  let v := if bsel (ri_rready i) n =? 1 then upd (rs_valid s) (rp_pipe p - 1) false else rs_valid s in
  let '(v, d) := ram_shift p n s i v (rs_data s) in
  let '(v, d) := if (bsel (ri_rvalid i) n =? 1) && ram_rready p n s i
    then (upd v 0 true, upd d 0 (rs_mem s (psel (ri_raddr i) (rp_aw p * n) (rp_iaw p)))) else (v, d) in
  (if ri_rrst i then fun _ => false else v, d).

(** rtl/dma_psdpram.v:88-159: one step of segment [n]. *)
Definition ram_step (p : ram_param) (n : Z) (s : ram_seg) (i : ram_in) : ram_seg :=
  let '(v, d) := if ri_rclk i then ram_pipe p n s i else (rs_valid s, rs_data s) in
  mkRs (if ri_wclk i then ram_write p n (rs_mem s) i else rs_mem s) (if ri_wclk i then ram_done p n i else rs_done s) v d.

(** rtl/dma_psdpram.v:93-112: the registers at power up. *)
Definition ram0 : ram_seg := mkRs (fun _ => 0) false (fun _ => false) (fun _ => 0).

(** rtl/dma_psdpram.v:49-72: what is seen at one step on the ports of a segment: the inputs, wr_done, rd_cmd_ready, rd_resp_valid and
    rd_resp_data. *)
Record ram_ev := mkRe { re_in : ram_in; re_done : bool; re_ready : bool; re_valid : bool; re_data : Z }.
(** rtl/dma_psdpram.v:129-130, 155-158. *)
Definition ram_event (p : ram_param) (n : Z) (s : ram_seg) (i : ram_in) : ram_ev :=
  mkRe i (rs_done s) (ram_rready p n s i) (rs_valid s (rp_pipe p - 1)) (rs_data s (rp_pipe p - 1)).

(** rtl/dma_psdpram.v:114-153, rtl/dma_psdpram_async.v:115-154: steps in turn. *)
Fixpoint ram_trace (p : ram_param) (n : Z) (s : ram_seg) (l : list ram_in) : list ram_ev :=
  match l with
  | [] => []
  | i :: r => ram_event p n s i :: ram_trace p n (ram_step p n s i) r
  end.
(** rtl/dma_psdpram.v:114-153, rtl/dma_psdpram_async.v:115-154: the registers after the steps. *)
Definition ram_run (p : ram_param) (n : Z) (s : ram_seg) (l : list ram_in) : ram_seg := fold_left (ram_step p n) l s.
