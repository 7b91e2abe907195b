(** Model of rtl/dma_client_axis_sink.v.  Vectors as in RtlSrcModel; vectors indexed by the segment are functions of the segment.  The parameters, their derived
    values (lines 124-140, the same as in the source) and the descriptors are those of RtlSrcModel; of the rest of a descriptor only the tag is used. *)
From Verif Require Import PyBase RtlModel RtlRamModel RtlDemuxModel RtlRamDemuxModel RtlSrcModel.

(** rtl/dma_client_axis_sink.v:72-122: the inputs, without abort, which is not used. *)
Record sk_in := mkKi { ki_rst : bool; ki_desc : cl_desc; ki_valid : bool; ki_data : Z; ki_keep : Z; ki_tvalid : bool; ki_last : bool; ki_id : Z; ki_dest : Z; ki_user : Z;
  ki_cready : Z; ki_done : Z; ki_enable : bool }.
(** rtl/dma_client_axis_sink.v:183-186: the states. *)
Inductive sk_st := KIdle | KWrite | KDrop.
(** rtl/dma_client_axis_sink.v:188-200, 226, 235: state_reg, s_axis_write_desc_ready_reg, s_axis_write_data_tready_reg, addr_reg, keep_mask_reg, last_cycle_offset_reg, length_reg,
    cycle_count_reg, last_cycle_reg, tag_reg. *)
Record sk_main := mkKm { km_st : sk_st; km_ready : bool; km_tready : bool; km_addr : Z; km_mask : Z; km_off : Z; km_len : Z; km_cnt : Z; km_lastc : bool; km_tag : Z }.
(** rtl/dma_client_axis_sink.v:84-93, 228-232: len, tag, id, dest, user of a status. *)
Record sk_status := mkKt { kt_len : Z; kt_tag : Z; kt_id : Z; kt_dest : Z; kt_user : Z }.
(** rtl/dma_client_axis_sink.v:204-210: an entry of the status FIFO: a status, mask, last. *)
Record sk_entry := mkKe { ke_stat : sk_status; ke_mask : Z -> bool; ke_last : bool }.
(** rtl/dma_client_axis_sink.v:202-210, 219-222, 228-233: the status FIFO with pointers and half full flag, active_count_reg, active_count_av_reg, the status output. *)
Record sk_fifo := mkKf { kf_wr : Z; kf_rd : Z; kf_half : bool; kf_mem : Z -> sk_entry; kf_act : Z; kf_av : bool; kf_valid : bool; kf_out : sk_status }.
(** rtl/dma_client_axis_sink.v:110-112: a write command of a segment: byte enables, address, data. *)
Record sk_cmd := mkKc { kc_be : Z; kc_addr : Z; kc_data : Z }.
(** rtl/dma_client_axis_sink.v:561-581: the registers of a segment: valid, the command, the FIFO, half full, done_count_reg, done_reg. *)
Record sk_seg := mkKg { kg_valid : bool; kg_cmd : sk_cmd; kg_wr : Z; kg_rd : Z; kg_half : bool; kg_mem : Z -> sk_cmd; kg_cnt : Z; kg_done : bool }.
(** rtl/dma_client_axis_sink.v:183-235, 561-581: all registers. *)
Record sk_state := mkKs { ks_main : sk_main; ks_fifo : sk_fifo; ks_seg : Z -> sk_seg }.

(** rtl/dma_client_axis_sink.v:559: the segments. *)
Definition sk_segs (p : cl_param) : list Z := map Z.of_nat (seq 0 (Z.to_nat (cl_segs p))).
(** rtl/dma_client_axis_sink.v:334: a descriptor is taken. *)
Definition sk_take (s : sk_state) (i : sk_in) : bool := match km_st (ks_main s) with KIdle => km_ready (ks_main s) && ki_valid i | _ => false end.
(** rtl/dma_client_axis_sink.v:349: a beat is written. *)
Definition sk_got (s : sk_state) (i : sk_in) : bool := match km_st (ks_main s) with KWrite => km_tready (ks_main s) && ki_tvalid i | _ => false end.
(** rtl/dma_client_axis_sink.v:329, 357, 395: the words of the last cycle. *)
Definition sk_tail (p : cl_param) (off : Z) : Z := Z.shiftr (Z.ones (cl_int p)) (cl_int p - off).
(** rtl/dma_client_axis_sink.v:328-332, 356-360: the words of the next cycle. *)
Definition sk_words (p : cl_param) (cnt off : Z) : Z := if (cnt =? 0) && negb (off =? 0) then sk_tail p off else Z.ones (cl_int p).
(** rtl/dma_client_axis_sink.v:276, 363, 385: [tkeep & keep_mask_reg]. *)
Definition sk_kept (s : sk_state) (i : sk_in) : Z := Z.land (ki_keep i) (km_mask (ks_main s)).
(** rtl/dma_client_axis_sink.v:275-279, 362-366: ram_wr_cmd_be_int. *)
Definition sk_be (p : cl_param) (s : sk_state) (i : sk_in) : Z :=
  (if 1 <? cl_parts p then Z.shiftl (sk_kept s i) (Z.land (km_addr (ks_main s)) (Z.shiftl (Z.ones (cl_pcw p)) (cl_pow p))) else sk_kept s i) mod 2 ^ (cl_segs p * cl_be p).
(** rtl/dma_client_axis_sink.v:281, 368: [{n{v}}], v of width w. *)
Fixpoint sk_repl (n : nat) (v w : Z) : Z := match n with O => 0 | S n => v mod 2 ^ w + 2 ^ w * sk_repl n v w end.
(** rtl/dma_client_axis_sink.v:275-281, 362-368, 598-600: the command for a segment. *)
Definition sk_cmd_int (p : cl_param) (s : sk_state) (i : sk_in) (n : Z) : sk_cmd :=
  mkKc (psel (sk_be p s i) (n * cl_be p) (cl_be p)) (psel (km_addr (ks_main s)) (cl_aw p - cl_saw p) (cl_saw p))
    (psel (sk_repl (Z.to_nat (cl_parts p)) (ki_data i) (cl_dw p)) (n * (cl_be p * cl_ws p)) (cl_be p * cl_ws p)).
(** rtl/dma_client_axis_sink.v:283-285: ram_wr_cmd_mask. *)
Definition sk_mask (p : cl_param) (s : sk_state) (i : sk_in) (n : Z) : bool := negb (kc_be (sk_cmd_int p s i n) =? 0).
(** rtl/dma_client_axis_sink.v:383-388: cycle_size, by the loop from the highest word down. *)
Definition sk_cyc (p : cl_param) (kept : Z) : Z :=
  fold_left (fun c k => if Z.testbit kept k then c else k) (rev (map Z.of_nat (seq 0 (Z.to_nat (cl_int p))))) (cl_int p).
(** rtl/dma_client_axis_sink.v:381: the packet ends. *)
Definition sk_end (p : cl_param) (i : sk_in) : bool := cl_last p && ki_last i.
(** rtl/dma_client_axis_sink.v:353, 394-404, 419-422: the length with this beat. *)
Definition sk_len (p : cl_param) (s : sk_state) (i : sk_in) : Z :=
  let m := ks_main s in let kept := sk_kept s i in
  (if sk_end p i then
     if km_lastc m && (0 <? km_off m) then
       if cl_ken p && (Z.land kept (Z.lnot (sk_tail p (km_off m))) =? 0) then km_len m + sk_cyc p kept else km_len m + km_off m
     else if cl_ken p then km_len m + sk_cyc p kept else km_len m + cl_int p
   else if km_lastc m && (0 <? km_off m) then km_len m + km_off m else km_len m + cl_int p) mod 2 ^ cl_lw p.
(** rtl/dma_client_axis_sink.v:372-379, 407-414, 425-432: the entry for the status FIFO. *)
Definition sk_entry_of (p : cl_param) (s : sk_state) (i : sk_in) : sk_entry :=
  mkKe (mkKt (sk_len p s i) (km_tag (ks_main s)) (ki_id i) (ki_dest i) (ki_user i)) (sk_mask p s i) (sk_end p i || km_lastc (ks_main s)).
(** rtl/dma_client_axis_sink.v:474-476: the first entry of the status FIFO is complete. *)
Definition sk_pop (p : cl_param) (s : sk_state) : bool :=
  let f := ks_fifo s in
  negb (kf_rd f =? kf_wr f) && forallb (fun n => negb (ke_mask (kf_mem f (kf_rd f mod 32)) n) || kg_done (ks_seg s n)) (sk_segs p).
(** rtl/dma_client_axis_sink.v:312, 480: out_done_ack. *)
Definition sk_ack (p : cl_param) (s : sk_state) (n : Z) : bool := sk_pop p s && ke_mask (kf_mem (ks_fifo s) (kf_rd (ks_fifo s) mod 32)) n.
(** rtl/dma_client_axis_sink.v:336, 347, 583: room in all FIFOs. *)
Definition sk_room (p : cl_param) (s : sk_state) : bool := forallb (fun n => negb (kg_half (ks_seg s n))) (sk_segs p) && negb (kf_half (ks_fifo s)).

(** rtl/dma_client_axis_sink.v:261-465, 491-512, 538-544: the main registers after the clock. *)
Definition sk_main_step (p : cl_param) (s : sk_state) (i : sk_in) : sk_main :=
  let m := ks_main s in let d := ki_desc i in let av := ki_enable i && kf_av (ks_fifo s) in let r := negb (ki_rst i) in
  match km_st m with
  | KIdle =>
      let c := cl_cycles p (de_len d) in let o := cl_offset p (de_len d) in let t := sk_take s i in
      mkKm (if r && t then KWrite else KIdle) (r && (negb t && av)) (r && (t && sk_room p s)) (cl_align p (de_addr d)) (sk_words p c o) o 0 c (c =? 0) (me_tag (de_meta d))
  | KWrite =>
      if sk_got s i then
        let c := (km_cnt m - 1) mod 2 ^ cl_ccw p in let fin := sk_end p i || km_lastc m in let drop := negb (sk_end p i) && (km_lastc m && cl_last p) in
        mkKm (if r then if drop then KDrop else if fin then KIdle else KWrite else KIdle) (r && (fin && negb drop && av)) (r && (if fin then drop else sk_room p s))
          ((km_addr m + cl_int p) mod 2 ^ cl_aw p) (sk_words p c (km_off m)) (km_off m) (sk_len p s i) c (c =? 0) (km_tag m)
      else mkKm (if r then KWrite else KIdle) false (r && sk_room p s) (km_addr m) (km_mask m) (km_off m) (km_len m) (km_cnt m) (km_lastc m) (km_tag m)
  | KDrop =>
      let fin := km_tready m && ki_tvalid i && ki_last i in
      mkKm (if r && negb fin then KDrop else KIdle) (r && (fin && av)) (r && negb fin) (km_addr m) (km_mask m) (km_off m) (km_len m) (km_cnt m) (km_lastc m) (km_tag m)
  end.

(** rtl/dma_client_axis_sink.v:467-488, 496-501, 514-536, 542-550: the status FIFO, the active count and the status output after the clock. *)
Definition sk_fifo_step (p : cl_param) (s : sk_state) (i : sk_in) : sk_fifo :=
  let f := ks_fifo s in let e := kf_mem f (kf_rd f mod 32) in let we := sk_got s i in let pop := sk_pop p s in
  let inc := sk_take s i in let dec := pop && ke_last e in
  mkKf (if ki_rst i then 0 else if we then ptr_inc (kf_wr f) else kf_wr f) (if ki_rst i then 0 else if pop then ptr_inc (kf_rd f) else kf_rd f)
    (16 <=? (kf_wr f - kf_rd f) mod 64) (if we then upd (kf_mem f) (kf_wr f mod 32) (sk_entry_of p s i) else kf_mem f)
    (if ki_rst i then 0 else if (kf_act f <? 32) && (inc && negb dec) then kf_act f + 1 else if (0 <? kf_act f) && (negb inc && dec) then kf_act f - 1 else kf_act f)
    (if ki_rst i then true else if (kf_act f <? 32) && (inc && negb dec) then kf_act f <? 31 else if (0 <? kf_act f) && (negb inc && dec) then true else kf_act f <? 32)
    (negb (ki_rst i) && dec) (ke_stat e).

(** rtl/dma_client_axis_sink.v:559-629: a segment after the clock. *)
Definition sk_seg_step (p : cl_param) (s : sk_state) (i : sk_in) (n : Z) : sk_seg :=
  let g := ks_seg s n in let rdy := Z.testbit (ki_cready i) n in let dn := Z.testbit (ki_done i) n in let ack := sk_ack p s n in
  let push := negb (ptr_full (kg_wr g) (kg_rd g)) && (sk_got s i && sk_mask p s i n) in
  let pop := negb (ptr_empty (kg_wr g) (kg_rd g)) && (negb (kg_valid g) || rdy) in
  let up := (kg_cnt g <? 32) && (dn && negb ack) in let down := (0 <? kg_cnt g) && (negb dn && ack) in
  mkKg (negb (ki_rst i) && (pop || (kg_valid g && negb rdy))) (if pop then kg_mem g (kg_rd g mod 32) else kg_cmd g)
    (if ki_rst i then 0 else if push then ptr_inc (kg_wr g) else kg_wr g) (if ki_rst i then 0 else if pop then ptr_inc (kg_rd g) else kg_rd g)
    (16 <=? (kg_wr g - kg_rd g) mod 64) (if push then upd (kg_mem g) (kg_wr g mod 32) (sk_cmd_int p s i n) else kg_mem g)
    (if ki_rst i then 0 else if up then kg_cnt g + 1 else if down then kg_cnt g - 1 else kg_cnt g)
    (if ki_rst i then false else if up then true else if down then 1 <? kg_cnt g else kg_done g).

(** rtl/dma_client_axis_sink.v:559: the same function, with its values for the segments computed once (for evaluation only). *)
Definition sk_tab {A} (p : cl_param) (f : Z -> A) : Z -> A :=
  let l := map f (sk_segs p) in fun n => if 0 <=? n then match nth_error l (Z.to_nat n) with Some x => x | None => f n end else f n.
(** rtl/dma_client_axis_sink.v:491-552, 592-627: one clock edge. *)
Definition sk_step (p : cl_param) (s : sk_state) (i : sk_in) : sk_state := mkKs (sk_main_step p s i) (sk_fifo_step p s i) (sk_tab p (sk_seg_step p s i)).
(** rtl/dma_client_axis_sink.v:188-235, 561-581: at power up. *)
Definition sk0 : sk_state :=
  let t := mkKt 0 0 0 0 0 in
  mkKs (mkKm KIdle false false 0 0 0 0 0 false 0) (mkKf 0 0 false (fun _ => mkKe t (fun _ => false) false) 0 true false t)
    (fun _ => mkKg false (mkKc 0 0 0) 0 0 false (fun _ => mkKc 0 0 0) 0 false).

(** rtl/dma_client_axis_sink.v:72-122: what is seen at one clock: the inputs, s_axis_write_desc_ready, the status, s_axis_write_data_tready, the write commands. *)
Record sk_ev := mkKv { kv_in : sk_in; kv_ready : bool; kv_status : bool; kv_stat : sk_status; kv_tready : bool; kv_cvalid : Z -> bool; kv_cmd : Z -> sk_cmd }.
(** rtl/dma_client_axis_sink.v:249-259, 585-588. *)
Definition sk_event (s : sk_state) (i : sk_in) : sk_ev :=
  mkKv i (km_ready (ks_main s)) (kf_valid (ks_fifo s)) (kf_out (ks_fifo s)) (km_tready (ks_main s)) (fun n => kg_valid (ks_seg s n)) (fun n => kg_cmd (ks_seg s n)).
(** rtl/dma_client_axis_sink.v:491-552, 592-627: clocks in turn. *)
Fixpoint sk_trace (p : cl_param) (s : sk_state) (l : list sk_in) : list sk_ev :=
  match l with
  | [] => []
  | i :: r => sk_event s i :: sk_trace p (sk_step p s i) r
  end.
(** rtl/dma_client_axis_sink.v:491-552, 592-627: the registers after the clocks. *)
Definition sk_run (p : cl_param) (s : sk_state) (l : list sk_in) : sk_state := fold_left (sk_step p) l s.
