(** What the segmented TLP interface must deliver (C39). *)
From Verif Require Import PyBase TlpModel SplitModel PcieIfModel PcieIfStreamModel.

(** Interface widths: at least one segment, at least one DWORD per segment. *)
Definition icfg_ok (cfg : icfg) : Prop := (1 <= ic_segs cfg)%nat /\ (1 <= ic_lanes cfg)%nat /\ 0 <= ic_seqw cfg.

(** A frame whose fields fit the interface and whose data length is the one its
    TLP header announces (bit 126: with data; bits 96..105: DWORD count, 0 = 1024). *)
Record frame_wf (cfg : icfg) (f : frame) : Prop := mkFwf {
  fw_hdr : 0 <= f_hdr f < 2 ^ 128; fw_prfx : 0 <= f_tlp_prfx f < 2 ^ 32;
  fw_hpar : 0 <= f_hdr_par f < 2 ^ 16; fw_ppar : 0 <= f_tlp_prfx_par f < 2 ^ 4;
  fw_bar : 0 <= f_bar_id f < 2 ^ 3; fw_func : 0 <= f_func_num f < 2 ^ 8;
  fw_vf : match f_vf_num f with Some v => 0 <= v < 2 ^ 11 | None => True end;
  fw_err : 0 <= f_error f < 2 ^ 4; fw_seq : 0 <= f_seq f < 2 ^ ic_seqw cfg;
  fw_data : Forall (fun d => 0 <= d < 2 ^ 32) (f_data f);
  fw_par : Forall (fun d => 0 <= d < 2 ^ 4) (f_parity f);
  fw_plen : length (f_parity f) = length (f_data f);
  fw_len : zlen (f_data f) =
           (if (f_hdr f / 2 ^ 126) mod 2 =? 1
            then (if (f_hdr f / 2 ^ 96) mod 2 ^ 10 =? 0 then 1024 else (f_hdr f / 2 ^ 96) mod 2 ^ 10) else 0) }.

(** The frame as the signals of the interface can show it: a field whose signal is
    absent has its default value; the abort flag is not carried. *)
Definition carried (cfg : icfg) (f : frame) : frame :=
  let on (b : bool) (v : Z) := if b then v else 0 in
  mkFrame (on (pr_prfx cfg) (f_tlp_prfx f)) (f_hdr f) (map (on (pr_data cfg)) (f_data f))
    (on (pr_ppar cfg) (f_tlp_prfx_par f)) (on (pr_hpar cfg) (f_hdr_par f)) (map (on (pr_dpar cfg)) (f_parity f))
    (on (pr_func cfg) (f_func_num f))
    (if pr_vfa cfg then option_map (on (pr_vfn cfg)) (f_vf_num f) else None)
    (on (pr_bar cfg) (f_bar_id f)) 0 (on (pr_error cfg) (f_error f)) (on (pr_seq cfg) (f_seq f)).

(** The frames accepted for sending, in order. *)
Fixpoint sent (evs : list ifevent) : list frame :=
  match evs with
  | [] => []
  | ESend f :: evs => f :: sent evs
  | _ :: evs => sent evs
  end.

(** [n] clock cycles in which nobody holds the interface: the source process runs and
    the clock ticks with neither side pausing. *)
Fixpoint free_cycles (n : nat) : list ifevent :=
  match n with O => [] | S n => ERun :: ERun :: EEdge false true :: free_cycles n end.
