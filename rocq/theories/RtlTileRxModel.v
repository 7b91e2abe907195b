(** The receive adapters of the Intel tiles: rtl/pcie_s10_if_rx.v (Stratix 10, one segment of 256 bits) and rtl/pcie_ptile_if_rx.v (P-Tile, any number of segments).
    The demultiplexer with FIFOs behind (pcie_s10_if_rx.v:169-257, pcie_ptile_if_rx.v:155-243) is not part of the model: fifo_tlp_ready is an input, what is put into it is seen.
    Signals that are not used (rx_st_vf_active, rx_st_vf_num, rx_st_tlp_prfx, rx_st_tlp_abort, rx_st_strb_sop) are left out, as is rx_st_ready, which comes from the FIFOs. *)
From Verif Require Import PyBase RtlModel.

(** rtl/pcie_s10_if_rx.v:55-70, 132, 219: the inputs, and fifo_tlp_ready. *)
Record sr_in := mkSi { si_rst : bool; si_data : Z; si_empty : Z; si_sop : bool; si_eop : bool; si_valid : bool; si_func : Z; si_bar : Z; si_fready : bool }.
(** rtl/pcie_s10_if_rx.v:122-149: the registers: those of the TLP, four double words in the header, then the saved beat. *)
Record sr_state := mkSr {
  sr_data : Z; sr_strb : Z; sr_hdr : Z; sr_bar : Z; sr_func : Z; sr_valid : bool; sr_sop : bool; sr_eop : bool; sr_h4 : bool;
  sr_id : Z; sr_is : Z; sr_isop : bool; sr_ieop : bool; sr_iv : bool; sr_ise : Z; sr_ifunc : Z; sr_ibar : Z }.
(** rtl/pcie_s10_if_rx.v:287, 291: the lanes of a segment that are used. *)
Definition sr_lanes (i : sr_in) : Z := if si_eop i then 255 / 2 ^ si_empty i else 255.
(** rtl/pcie_s10_if_rx.v:289, 292: the last lane. *)
Definition sr_end (i : sr_in) : Z := if si_eop i then 128 / 2 ^ si_empty i else 0.
(** rtl/pcie_s10_if_rx.v:151: the saved beat and the present one above it. *)
Definition sr_full (s : sr_state) (i : sr_in) : Z := si_data i * 2 ^ 256 + sr_id s.
(** rtl/pcie_s10_if_rx.v:152. *)
Definition sr_sfull (s : sr_state) (i : sr_in) : Z := sr_lanes i * 2 ^ 8 + sr_is s.
(** rtl/pcie_s10_if_rx.v:298-301: the header of the saved beat. *)
Definition sr_tlp_hdr (s : sr_state) (i : sr_in) : Z :=
  let f := sr_full s i in psel f 0 32 * 2 ^ 96 + psel f 32 32 * 2 ^ 64 + psel f 64 32 * 2 ^ 32 + psel f 96 32.
(** rtl/pcie_s10_if_rx.v:303-307: the BAR; io is IO_BAR_INDEX. *)
Definition tile_bar (io b : Z) : Z := if b =? 6 then io mod 8 else if b =? 7 then 6 else b.
(** rtl/pcie_s10_if_rx.v:271, 312-324: four double words in the header of the saved beat, or of its TLP. *)
Definition sr_h4n (s : sr_state) (i : sr_in) : bool := if si_fready i && sr_iv s && sr_isop s then bsel (sr_tlp_hdr s i) 125 =? 1 else sr_h4 s.
(** rtl/pcie_s10_if_rx.v:326, 328, 329, 335: by how many lanes data is shifted. *)
Definition sr_k (s : sr_state) (i : sr_in) : Z := if sr_h4n s i then 4 else 3.

(** rtl/pcie_s10_if_rx.v:262-344: one clock without reset, first for the registers of the TLP; the saved beat stays as it is, but may become not valid. *)
Definition sr_out (io : Z) (s : sr_state) (i : sr_in) : sr_state :=
  if si_fready i then
    if sr_iv s then
      let k := sr_k s i in let d := psel (sr_full s i) (32 * k) 256 in
      let h := if sr_isop s then sr_tlp_hdr s i else sr_hdr s in let b := if sr_isop s then tile_bar io (sr_ibar s) else sr_bar s in
      let f := if sr_isop s then sr_ifunc s else sr_func s in
      if sr_ieop s then
        let g := sr_isop s || negb (sr_ise s / 2 ^ k =? 0) in
        mkSr d (sr_is s / 2 ^ k) h b f g (sr_isop s) g (sr_h4n s i) (sr_id s) (sr_is s) (sr_isop s) (sr_ieop s) false (sr_ise s) (sr_ifunc s) (sr_ibar s)
      else
        mkSr d (psel (sr_sfull s i) k 8) h b f (si_valid i) (sr_isop s) (si_valid i && negb (Z.land (sr_end i) (if sr_h4n s i then 15 else 7) =? 0)) (sr_h4n s i)
             (sr_id s) (sr_is s) (sr_isop s) (sr_ieop s) (negb (si_valid i)) (sr_ise s) (sr_ifunc s) (sr_ibar s)
    else mkSr (sr_data s) 0 (sr_hdr s) (sr_bar s) (sr_func s) false false false (sr_h4 s) (sr_id s) (sr_is s) (sr_isop s) (sr_ieop s) false (sr_ise s) (sr_ifunc s) (sr_ibar s)
  else s.
(** rtl/pcie_s10_if_rx.v:346-358: a new beat is saved. *)
Definition sr_next (io : Z) (s : sr_state) (i : sr_in) : sr_state :=
  let n := sr_out io s i in
  if si_valid i then
    mkSr (sr_data n) (sr_strb n) (sr_hdr n) (sr_bar n) (sr_func n) (sr_valid n) (sr_sop n) (sr_eop n) (sr_h4 n) (si_data i) (sr_lanes i) (si_sop i) (si_eop i) true (sr_end i) (si_func i) (si_bar i)
  else n.
(** rtl/pcie_s10_if_rx.v:361-389: one clock. *)
Definition sr_step (io : Z) (s : sr_state) (i : sr_in) : sr_state :=
  let n := sr_next io s i in
  if si_rst i then mkSr (sr_data n) (sr_strb n) (sr_hdr n) (sr_bar n) (sr_func n) false (sr_sop n) (sr_eop n) (sr_h4 n) (sr_id n) (sr_is n) (sr_isop n) (sr_ieop n) false (sr_ise n) (sr_ifunc n) (sr_ibar n) else n.
(** rtl/pcie_s10_if_rx.v:209-219: what is at the input of the demultiplexer in one clock: ready and the registers of the TLP. *)
Record sr_ev := mkSe { se_ready : bool; se_valid : bool; se_data : Z; se_strb : Z; se_hdr : Z; se_bar : Z; se_func : Z; se_sop : bool; se_eop : bool }.
(** rtl/pcie_s10_if_rx.v:209-219. *)
Definition sr_event (s : sr_state) (i : sr_in) : sr_ev := mkSe (si_fready i) (sr_valid s) (sr_data s) (sr_strb s) (sr_hdr s) (sr_bar s) (sr_func s) (sr_sop s) (sr_eop s).
(** rtl/pcie_s10_if_rx.v:361-389: clock after clock. *)
Fixpoint sr_trace (io : Z) (s : sr_state) (l : list sr_in) : list sr_ev := match l with [] => [] | i :: r => sr_event s i :: sr_trace io (sr_step io s i) r end.

(** rtl/pcie_ptile_if_rx.v:59-77, 143, 205: the inputs with their segments, and fifo_tlp_ready. *)
Record pr_in := mkPi { pi_rst : bool; pi_data : Z; pi_empty : Z; pi_sop : Z; pi_eop : Z; pi_valid : Z; pi_hdr : Z; pi_func : Z; pi_bar : Z; pi_fready : bool }.
(** rtl/pcie_ptile_if_rx.v:36-56, 105-109: SEG_COUNT, the lanes of a segment as a power of two (SEG_EMPTY_WIDTH), IO_BAR_INDEX. *)
Record pr_param := mkPp { pp_n : Z; pp_ew : Z; pp_io : Z }.
(** rtl/pcie_ptile_if_rx.v:105: SEG_STRB_WIDTH. *)
Definition pp_w (p : pr_param) : Z := 2 ^ pp_ew p.
(** rtl/pcie_ptile_if_rx.v:134-141: a segment of the registers of the TLP. *)
Record pr_seg := mkPs { ps_data : Z; ps_strb : Z; ps_hdr : Z; ps_bar : Z; ps_func : Z; ps_valid : bool; ps_sop : bool; ps_eop : bool }.
(** rtl/pcie_ptile_if_rx.v:260-269: the lanes of segment g that are used. *)
Definition pr_strb (p : pr_param) (i : pr_in) (g : Z) : Z :=
  if bsel (pi_eop i) g =? 1 then
    if (bsel (pi_sop i) g =? 1) && (bsel (pi_hdr i) (128 * g + 126) =? 0) then 0
    else (2 ^ pp_w p - 1) / 2 ^ psel (pi_empty i) (pp_ew p * g) (pp_ew p)
  else 2 ^ pp_w p - 1.
(** rtl/pcie_ptile_if_rx.v:271-275. *)
Definition pr_bar (p : pr_param) (i : pr_in) (g : Z) : Z :=
  let b := psel (pi_bar i) (3 * g) 3 in if b =? 6 then pp_io p mod 8 else if b =? 7 then 6 else b.
(** rtl/pcie_ptile_if_rx.v:277: the function, with the bits as in the source. *)
Definition pr_func (i : pr_in) (g : Z) : Z := psel (pi_func i) (2 * g) 2.
(** rtl/pcie_ptile_if_rx.v:248-300: one clock without reset, for segment g. *)
Definition pr_seg_next (p : pr_param) (i : pr_in) (g : Z) (s : pr_seg) : pr_seg :=
  if pi_fready i then
    if bsel (pi_valid i) g =? 1 then
      let sop := bsel (pi_sop i) g =? 1 in
      mkPs (psel (pi_data i) (32 * pp_w p * g) (32 * pp_w p)) (pr_strb p i g) (if sop then psel (pi_hdr i) (128 * g) 128 else ps_hdr s) (if sop then pr_bar p i g else ps_bar s)
           (if sop then pr_func i g else ps_func s) true sop (bsel (pi_eop i) g =? 1)
    else mkPs (ps_data s) 0 (ps_hdr s) (ps_bar s) (ps_func s) false false false
  else s.
(** rtl/pcie_ptile_if_rx.v:248-315: one clock; the state has the segments, lowest first. *)
Definition pr_step (p : pr_param) (s : list pr_seg) (i : pr_in) : list pr_seg :=
  map (fun gs => let n := pr_seg_next p i (Z.of_nat (fst gs)) (snd gs) in
                 if pi_rst i then mkPs (ps_data n) (ps_strb n) (ps_hdr n) (ps_bar n) (ps_func n) false (ps_sop n) (ps_eop n) else n)
      (combine (seq 0 (length s)) s).
(** rtl/pcie_ptile_if_rx.v:195-205, 302-315: clock after clock: fifo_tlp_ready and what is at the input of the demultiplexer. *)
Fixpoint pr_trace (p : pr_param) (s : list pr_seg) (l : list pr_in) : list (bool * list pr_seg) :=
  match l with [] => [] | i :: r => (pi_fready i, s) :: pr_trace p (pr_step p s i) r end.
