(** Independent specification of the layout of TLPs on the AVST interface of the H-Tile (C135). *)
From Verif Require Import PyBase RtlModel RtlS10TxModel.

(** A TLP as beats: all words are there, eop at the last beat only, whose strobe is that of m words, from the lowest on. *)
Definition tlp_ok (t : list xb) (m : nat) : Prop :=
  exists a z, t = a ++ [z] /\ Forall (fun b => length (xb_w b) = 8%nat /\ xb_e b = false) a /\ length (xb_w z) = 8%nat /\ xb_e z = true /\ (m <= 8)%nat /\ xb_s z = 2 ^ Z.of_nat m - 1
    /\ length (xb_h (hd xb0 t)) = 4%nat.
(** Words of its header: four if bit 29 of the first one is set. *)
Definition hdr_words (t : list xb) : list Z := let h := xb_h (hd xb0 t) in if Z.testbit (nth 0 h 0) 29 then h else firstn 3 h.
(** Words of a TLP with m words in the last beat. *)
Definition tlp_len (t : list xb) (m : nat) : nat := length (hdr_words t) + 8 * (length t - 1) + m.
(** Beats o on the interface carry TLP t: as many as its words need, sop at the first and eop at the last, and its words in order: header, then payload. *)
Definition laid (t : list xb) (m : nat) (o : list sx_ob) : Prop :=
  let n := tlp_len t m in
  Forall (fun b => length (ob_d b) = 8%nat) o /\ (8 * (length o - 1) < n <= 8 * length o)%nat /\
  map ob_sop o = true :: repeat false (length o - 1) /\ map ob_eop o = repeat false (length o - 1) ++ [true] /\
  firstn n (flat_map ob_d o) = firstn n (hdr_words t ++ flat_map xb_w t).
Definition sx_running (i : sx_in) : Prop := sx_rst i = false.
(** Beats at tx_st with tx_st_valid. *)
Definition sx_sent (l : list sx_state) : list sx_ob := flat_map (fun s => if ss_v s then [ss_tx s] else []) l.
