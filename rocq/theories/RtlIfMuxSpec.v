(** Independent specification of the DMA interface multiplexers (C133, C134): what is done for a descriptor concerns only the port it came
    from. *)
From Verif Require Import PyBase RtlModel RtlSpec RtlMuxModel RtlMuxSpec RtlDemuxModel RtlRamDemuxModel RtlRamDemuxSpec RtlIfMuxModel.

(** PORTS at least two, and the tags and selects of the DMA interface wide enough. *)
Definition im_ok (p : im_param) : Prop :=
  2 <= im_n p /\ 0 <= im_stag p /\ im_stag p + Z.log2_up (im_n p) <= im_mtag p /\ 0 <= im_ssel p /\ im_ssel p + Z.log2_up (im_n p) <= im_msel p.
(** Inputs within their widths. *)
Definition id_ok (p : im_param) (i : id_in) : Prop :=
  vec (im_n p) (id_valid i) /\ forall q, 0 <= dd_sel (id_data i q) < 2 ^ im_ssel p /\ 0 <= dd_tag (id_data i q) < 2 ^ im_stag p.

Notation owned D := (list (Z * (dd_desc * D))).
Section spec.
Context {D : Type}.
(** [src]: the descriptors passed on, each with its port; [img q x]: how descriptor x of port q looks at the DMA interface; [asked]: the RAM
    commands of the DMA interface, each with its select; [sent]: those the RAMs of the ports got.  If each select asked for is that of a
    descriptor passed on, then each command goes to the port of such a descriptor with the select this port gave, in order, and at
    most two are under way. *)
Definition routed_home (src : list (Z * (bool * dd_desc))) (img : Z -> dd_desc -> dd_desc) (outs : list dd_desc) (asked : list (Z * D)) (sent : list (Z * (Z * D))) : Prop :=
  (forall c, In c asked -> exists y, In y outs /\ dd_sel y = fst c) ->
  exists own : owned D, asked = map (fun o => (dd_sel (img (fst o) (fst (snd o))), snd (snd o))) own
    /\ Forall (fun o => exists b, In (fst o, (b, fst (snd o))) src) own
    /\ exists rest, map (fun o => (fst o, (dd_sel (fst (snd o)), snd (snd o)))) own = sent ++ rest /\ (length rest <= 2)%nat.
(** A descriptor is passed on unchanged, but for the select and the tag; different ports never get the same select or tag. *)
Definition kept_fields (n : Z) (src : list (Z * (bool * dd_desc))) (img : Z -> dd_desc -> dd_desc) : Prop :=
  (forall q x, dd_dma (img q x) = dd_dma x /\ dd_ram (img q x) = dd_ram x /\ dd_len (img q x) = dd_len x) /\
  forall q b x r c y, In (q, (b, x)) src -> In (r, (c, y)) src -> dd_sel (img q x) = dd_sel (img r y) \/ dd_tag (img q x) = dd_tag (img r y) -> q = r.
End spec.

(** A status with the tag of a descriptor passed on goes, in the next clock, to its port only, with the tag of that port. *)
Definition status_home {E} (rst : E -> bool) (inp : E -> id_in) (st : E -> ds_state) (src : list (Z * (bool * dd_desc))) (img : Z -> dd_desc -> dd_desc) (tr : list E) : Prop :=
  forall a e1 e2 b q c x, tr = a ++ e1 :: e2 :: b -> rst e1 = false -> id_sv (inp e1) = true -> In (q, (c, x)) src -> id_tag (inp e1) = dd_tag (img q x) ->
    st e2 = mkDs (dd_tag x) (id_err (inp e1)) (2 ^ q).

(** The RAM commands taken from the DMA interface, with their selects. *)
Definition ir_asked {D} : list (ir_ev D) -> list (Z * D) :=
  since (fun e => ir_rst (ire_in e)) (fun e => if ir_v (ire_in e) && wre_ready (ire_x e) then [(ir_sel (ire_in e), ir_cmd (ire_in e))] else []).
Definition iw_asked {D} : list (iw_ev D) -> list (Z * D) :=
  since (fun e => iw_rst (iwe_in e)) (fun e => if iw_v (iwe_in e) && rde_ready (iwe_x e) then [(iw_sel (iwe_in e), iw_cmd (iwe_in e))] else []).

(** The descriptor side sees what is at the ports of the module; [imm]: with the immediate. *)
Definition wired (imm rst : bool) (i : id_in) (v : mux_ev dd_desc dd_desc) : Prop :=
  mv_rst v = rst /\ mv_valid v = id_valid i /\ mv_oready v = id_ready i /\
  forall q, let x := id_data i q in let y := mv_data v q in
    dd_dma y = dd_dma x /\ dd_sel y = dd_sel x /\ dd_ram y = dd_ram x /\ dd_len y = dd_len x /\ dd_tag y = dd_tag x /\ (imm = true -> dd_imm y = dd_imm x /\ dd_imm_en y = dd_imm_en x).
(** With IMM_ENABLE the immediate is kept as well. *)
Definition kept_imm (imm : bool) (img : Z -> dd_desc -> dd_desc) : Prop := imm = true -> forall q x, dd_imm (img q x) = dd_imm x /\ dd_imm_en (img q x) = dd_imm_en x.
(** The RAM side sees the RAM interface of the module. *)
Definition wired_wr {D} (i : ir_in D) (v : wr_ev D) : Prop :=
  let x := wr_cmd (wre_in v) in xi_rst x = ir_rst i /\ xi_valid x = ir_v i /\ xi_sel x = ir_sel i /\ xi_cmd x = ir_cmd i /\ xi_cready x = ir_cready i /\ wr_done (wre_in v) = ir_done i.
Definition wired_rd {D} (i : iw_in D) (v : rd_ev D) : Prop :=
  let x := rd_cmd (rde_in v) in xi_rst x = iw_rst i /\ xi_valid x = iw_v i /\ xi_sel x = iw_sel i /\ xi_cmd x = iw_cmd i /\ xi_cready x = iw_cready i /\
  rd_rvalid (rde_in v) = iw_rvalid i /\ (forall q, rd_rdata (rde_in v) q = iw_rdata i q) /\ rd_rready (rde_in v) = iw_rready i.
