(** Models of rtl/dma_if_mux_rd.v and rtl/dma_if_mux_wr.v: the descriptor multiplexer, its status demultiplexer and the RAM
    demultiplexer behind common ports.  The segments of the RAM interface do not depend on each other; the models have one of them,
    any of the SEG_COUNT (the wiring of the buses is in RtlRamDemuxModel). *)
From Verif Require Import PyBase RtlModel RtlMuxModel RtlDemuxModel RtlRamDemuxModel.

(** rtl/dma_if_mux_rd.v:36-65, rtl/dma_if_mux_wr.v:36-69: PORTS, S_RAM_SEL_WIDTH, M_RAM_SEL_WIDTH, IMM_ENABLE (only for writes), S_TAG_WIDTH,
    M_TAG_WIDTH, and the arbitration. *)
Record im_param := mkIm { im_n : Z; im_ssel : Z; im_msel : Z; im_imm : bool; im_stag : Z; im_mtag : Z; im_rr : bool; im_lsb : bool }.
(** rtl/dma_if_mux_rd.v:130-143, rtl/dma_if_mux_wr.v:138-152: parameters of dma_if_desc_mux; [imm] is IMM_ENABLE. *)
Definition im_dd (p : im_param) (imm : bool) : dd_param := mkDdP (im_n p) true (im_msel p) imm (im_stag p) (im_mtag p) (im_rr p) (im_lsb p).
(** rtl/dma_if_mux_rd.v:189-197, rtl/dma_if_mux_wr.v:198-205: parameters of dma_ram_demux_wr and dma_ram_demux_rd. *)
Definition im_x (p : im_param) : x_param := mkXp (im_n p) (im_ssel p) (im_msel p).

(** rtl/dma_if_mux_rd.v:80, 85-87, 92-97, rtl/dma_if_mux_wr.v:86, 91-93, 98-105: inputs of the descriptor side: valid bits and descriptors of
    the ports, ready of the DMA interface, and its status: tag, error, valid. *)
Record id_in := mkId { id_valid : Z; id_data : Z -> dd_desc; id_ready : bool; id_tag : Z; id_err : Z; id_sv : bool }.
(** rtl/dma_if_mux_rd.v:171-178, rtl/dma_if_mux_wr.v:180-187: the inputs of dma_if_desc_mux; it has no tlast. *)
Definition id_mux (rst : bool) (g : dd_desc -> dd_desc) (i : id_in) : mux_in dd_desc := mkMi rst (id_valid i) 0 (fun q => g (id_data i q)) (id_ready i).
(** rtl/dma_if_mux_rd.v:174-175: read descriptors have no immediate. *)
Definition ir_bare (d : dd_desc) : dd_desc := mkDd (dd_dma d) (dd_sel d) (dd_ram d) 0 false (dd_len d) (dd_tag d).
(** rtl/dma_if_mux_rd.v:130-187, rtl/dma_if_mux_wr.v:138-196, rtl/dma_if_desc_mux.v:136-342: one clock edge of the descriptor multiplexer. *)
Definition im_mux_step (p : im_param) (imm : bool) (s : mux_state dd_desc dd_desc) (i : mux_in dd_desc) : mux_state dd_desc dd_desc :=
  mux_step (im_n p) (im_rr p) (im_lsb p) false (dd_route (im_dd p imm)) s i.
(** rtl/dma_if_mux_rd.v:164-166, 184-186, rtl/dma_if_mux_wr.v:173-175, 193-195: one clock edge of the status registers. *)
Definition im_status (p : im_param) (rst : bool) (i : id_in) : ds_state := ds_step (im_n p) (im_stag p) (im_mtag p) rst (id_tag i) (id_err i) (id_sv i).
(** rtl/dma_if_desc_mux.v:345-347. *)
Definition ds0 : ds_state := mkDs 0 0 0.

(** * dma_if_mux_rd: DMA reads write to the RAMs. *)
Section rd.
Context {D : Type}.
(** rtl/dma_if_mux_rd.v:67-128: inputs; of the RAM interface those of one segment: the write command of the DMA interface, ready and done bits
    of the ports. *)
Record ir_in := mkIr { ir_rst : bool; ir_d : id_in; ir_v : bool; ir_sel : Z; ir_cmd : D; ir_cready : Z; ir_done : Z }.
(** rtl/dma_if_mux_rd.v:144-187, 198-223: the registers of the two modules. *)
Record ir_state := mkIrs { irs_d : mux_state dd_desc dd_desc; irs_st : ds_state; irs_x : wr_state D }.
(** rtl/dma_if_mux_rd.v:144-146, 171-178: inputs of the descriptor multiplexer. *)
Definition ir_mux (i : ir_in) : mux_in dd_desc := id_mux (ir_rst i) ir_bare (ir_d i).
(** rtl/dma_if_mux_rd.v:198-222: inputs of the RAM demultiplexer. *)
Definition ir_ram (i : ir_in) : wr_in D := mkWr (mkXi (ir_rst i) (ir_v i) (ir_sel i) (ir_cmd i) (ir_cready i)) (ir_done i).
(** rtl/dma_if_mux_rd.v:130-223: one clock edge. *)
Definition ir_step (p : im_param) (s : ir_state) (i : ir_in) : ir_state :=
  mkIrs (im_mux_step p false (irs_d s) (ir_mux i)) (im_status p (ir_rst i) (ir_d i)) (wr_step (im_x p) (irs_x s) (ir_ram i)).
(** rtl/dma_if_mux_rd.v:130-223: at power up; [d] stands for the command registers. *)
Definition ir0 (d : Z * D) : ir_state := mkIrs dd0 ds0 (wr0 d).
(** rtl/dma_if_mux_rd.v:67-128: what is seen at one clock: the inputs, the descriptor side, the status outputs, the RAM side. *)
Record ir_ev := mkIre { ire_in : ir_in; ire_d : mux_ev dd_desc dd_desc; ire_st : ds_state; ire_x : wr_ev D }.
(** rtl/dma_if_mux_rd.v:148-186, 202-222. *)
Definition ir_event (p : im_param) (s : ir_state) (i : ir_in) : ir_ev :=
  mkIre i (mux_event (im_n p) (dd_drive (im_dd p false)) (irs_d s) (ir_mux i)) (irs_st s) (wr_event (im_x p) (irs_x s) (ir_ram i)).
(** rtl/dma_if_mux_rd.v:130-223: clocks in turn. *)
Fixpoint ir_trace (p : im_param) (s : ir_state) (l : list ir_in) : list ir_ev :=
  match l with
  | [] => []
  | i :: r => ir_event p s i :: ir_trace p (ir_step p s i) r
  end.
End rd.
Arguments ir_in : clear implicits.
Arguments ir_state : clear implicits.
Arguments ir_ev : clear implicits.

(** * dma_if_mux_wr: DMA writes read from the RAMs. *)
Section wr.
Context {D : Type}.
(** rtl/dma_if_mux_wr.v:71-136: inputs; of the RAM interface those of one segment: the read command of the DMA interface, the ready bits, the
    answers of the ports, and ready for answers. *)
Record iw_in := mkIw { iw_rst : bool; iw_d : id_in; iw_v : bool; iw_sel : Z; iw_cmd : D; iw_cready : Z; iw_rvalid : Z; iw_rdata : Z -> Z; iw_rready : bool }.
(** rtl/dma_if_mux_wr.v:153-196, 206-231: the registers of the two modules. *)
Record iw_state := mkIws { iws_d : mux_state dd_desc dd_desc; iws_st : ds_state; iws_x : rd_state D }.
(** rtl/dma_if_mux_wr.v:153-155, 180-187: inputs of the descriptor multiplexer. *)
Definition iw_mux (i : iw_in) : mux_in dd_desc := id_mux (iw_rst i) (fun d => d) (iw_d i).
(** rtl/dma_if_mux_wr.v:206-230: inputs of the RAM demultiplexer. *)
Definition iw_ram (i : iw_in) : rd_in D := mkRd (mkXi (iw_rst i) (iw_v i) (iw_sel i) (iw_cmd i) (iw_cready i)) (iw_rvalid i) (iw_rdata i) (iw_rready i).
(** rtl/dma_if_mux_wr.v:138-231: one clock edge. *)
Definition iw_step (p : im_param) (s : iw_state) (i : iw_in) : iw_state :=
  mkIws (im_mux_step p (im_imm p) (iws_d s) (iw_mux i)) (im_status p (iw_rst i) (iw_d i)) (rd_step (im_x p) (iws_x s) (iw_ram i)).
(** rtl/dma_if_mux_wr.v:138-231: at power up; [d] stands for the command registers. *)
Definition iw0 (d : Z * D) : iw_state := mkIws dd0 ds0 (rd0 d).
(** rtl/dma_if_mux_wr.v:71-136: what is seen at one clock: the inputs, the descriptor side, the status outputs, the RAM side. *)
Record iw_ev := mkIwe { iwe_in : iw_in; iwe_d : mux_ev dd_desc dd_desc; iwe_st : ds_state; iwe_x : rd_ev D }.
(** rtl/dma_if_mux_wr.v:157-195, 210-230. *)
Definition iw_event (p : im_param) (s : iw_state) (i : iw_in) : iw_ev :=
  mkIwe i (mux_event (im_n p) (dd_drive (im_dd p (im_imm p))) (iws_d s) (iw_mux i)) (iws_st s) (rd_event (im_x p) (iws_x s) (iw_ram i)).
(** rtl/dma_if_mux_wr.v:138-231: clocks in turn. *)
Fixpoint iw_trace (p : im_param) (s : iw_state) (l : list iw_in) : list iw_ev :=
  match l with
  | [] => []
  | i :: r => iw_event p s i :: iw_trace p (iw_step p s i) r
  end.
End wr.
Arguments iw_in : clear implicits.
Arguments iw_state : clear implicits.
Arguments iw_ev : clear implicits.
