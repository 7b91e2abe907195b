(** Independent specification of the UltraScale descriptor formats: fields at
    the bit positions of the Xilinx interface documentation. *)
From Verif Require Import PyBase TlpModel TlpSpec UsModel.

(** A word made of fields: (position, value) pairs. *)
Definition word (fields : list (Z * Z)) : Z := fold_right (fun f acc => snd f * 2 ^ fst f + acc) 0 fields.

Definition bit (b : bool) : Z := if b then 1 else 0.
Definition idv (i : pcie_id) : Z := id_bus i * 256 + id_device i * 8 + id_function i.

(** Request type codes. *)
Definition us_req_code (ft : Z * Z) : Z :=
  match ft with
  | (0, 0) | (1, 0) => 0 | (2, 0) | (3, 0) => 1 | (0, 2) => 2 | (2, 2) => 3
  | (0, 4) => 8 | (0, 5) => 9 | (2, 4) => 10 | (2, 5) => 11 | _ => 15
  end.

(** Well-formed requests. *)
Definition us_mem_types : list (Z * Z) := [(0,0);(1,0);(2,0);(3,0);(0,2);(2,2)].
Definition us_cfg_types : list (Z * Z) := [(0,4);(0,5);(2,4);(2,5)].
Definition us_common (t : tlp) : Prop :=
  0 <= t_attr t < 8 /\ 0 <= t_tc t < 8 /\ 0 <= t_tag t < 256 /\ id_ok (t_requester_id t) /\ 0 <= t_length t <= 1024.
Definition us_mem_ok (t : tlp) : Prop :=
  us_common t /\ In (t_fmt_type t) us_mem_types /\ 0 <= t_at t < 4 /\ 0 <= t_address t < 2^64 /\ t_address t mod 4 = 0 /\
  (t_type t = 2 -> t_address t < 2^32).
Definition us_cq_ok (u : tlp_us) : Prop :=
  us_mem_ok (u_tlp u) /\ 0 <= id_function (t_completer_id (u_tlp u)) < 256 /\
  0 <= u_bar_id u < 8 /\ 0 <= u_bar_aperture u < 64.
Definition us_rq_ok (u : tlp_us) : Prop :=
  id_ok (t_completer_id (u_tlp u)) /\
  (us_mem_ok (u_tlp u) \/ us_common (u_tlp u) /\ In (t_fmt_type (u_tlp u)) us_cfg_types /\ 0 <= t_register_number (u_tlp u) < 1024).
Definition us_cpl_ok (lamax : Z) (u : tlp_us) : Prop :=
  let t := u_tlp u in
  us_common t /\ id_ok (t_completer_id t) /\ 0 <= t_status t < 8 /\ 0 <= t_byte_count t <= 4096 /\
  0 <= t_at t < 4 /\ 0 <= u_error_code u < 16 /\
  0 <= t_lower_address t < lamax /\
  (In (t_fmt_type t) [(0,10);(0,11)] /\ t_length t = 0 /\ t_data t = [] \/
   In (t_fmt_type t) [(2,10);(2,11)] /\ 1 <= t_length t /\ zlen (t_data t) = t_length t).

(** The format a request comes back with: 64-bit iff the address needs it. *)
Definition wide_fmt (t : tlp) : Z := if 2^32 <=? t_address t then t_fmt t / 2 * 2 + 1 else t_fmt t / 2 * 2.

(** What the CQ interface carries of a request.  The descriptor names the target
    function only, so bus and device of the completer ID are not carried. *)
Definition carried_cq (u : tlp_us) : tlp_us :=
  let t := u_tlp u in
  mkUs (mkTlp (wide_fmt t) (t_type t) (t_tc t) 0 0 0 (t_attr t) (t_at t) (t_length t)
          (mkId 0 0 (id_function (t_completer_id t))) 0 0 0 (t_requester_id t) (mkId 0 0 0) (t_tag t)
          (t_first_be t) (t_last_be t) 0 (t_address t) 0 (t_data t))
       (u_bar_id u) (u_bar_aperture u) false false (u_discontinue u) 0 0.
(** RQ: memory and I/O requests, and configuration requests. *)
Definition carried_rq (u : tlp_us) : tlp_us :=
  let t := u_tlp u in
  let cfg := (t_type t =? 4) || (t_type t =? 5) in
  mkUs (mkTlp (if cfg then t_fmt t else wide_fmt t) (t_type t) (t_tc t) 0 0 0 (t_attr t) (if cfg then 0 else t_at t) (t_length t)
          (t_completer_id t) 0 0 0 (t_requester_id t) (mkId 0 0 0) (t_tag t)
          (t_first_be t) (t_last_be t) 0 (if cfg then 0 else t_address t) (if cfg then t_register_number t else 0) (t_data t))
       0 0 false (u_requester_id_enable u) (u_discontinue u) (u_seq_num u) 0.
(** CC and RC: completions. *)
Definition carried_cc (u : tlp_us) : tlp_us :=
  let t := u_tlp u in
  mkUs (mkTlp (t_fmt t) (t_type t) (t_tc t) 0 0 0 (t_attr t) (t_at t) (t_length t)
          (t_completer_id t) (t_status t) 0 (t_byte_count t) (t_requester_id t) (mkId 0 0 0) (t_tag t)
          0 0 (t_lower_address t) 0 0 (t_data t))
       0 0 (u_completer_id_enable u) false (u_discontinue u) 0 0.
Definition carried_rc (u : tlp_us) : tlp_us :=
  let t := u_tlp u in
  mkUs (mkTlp (t_fmt t) (t_type t) (t_tc t) 0 0 0 (t_attr t) 0 (t_length t)
          (t_completer_id t) (t_status t) 0 (t_byte_count t) (t_requester_id t) (mkId 0 0 0) (t_tag t)
          0 0 (t_lower_address t) 0 0 (t_data t))
       0 0 false false (u_discontinue u) 0 (u_error_code u).

(** Odd byte parity: the number of ones in the byte plus the parity bit is odd. *)
Definition byte_ones (d i : Z) : Z := fold_right (fun k acc => bit (Z.testbit d (8 * i + Z.of_nat k)) + acc) 0 (seq 0 8).
Definition odd_parity (d p : Z) : Prop := 0 <= p < 16 /\ forall i, 0 <= i < 4 -> (byte_ones d i + bit (Z.testbit p i)) mod 2 = 1.

(** Byte lanes of a requester completion: byte [b] of the payload (counted from
    the start of its first DWORD) belongs to the completion. *)
Definition lane_on (be : list Z) (lead b : Z) : bool := Z.testbit (nth (Z.to_nat (lead + b / 4)) be 0) (b mod 4).

(** The bytes a completion delivers: those from the starting offset (the two low
    bits of the lower address) up to the remaining byte count or the end of the
    payload, whichever comes first. *)
Definition rc_byte_valid (t : tlp) (b : Z) : bool :=
  let off := t_lower_address t mod 4 in
  (off <=? b) && (b <? Z.min (off + t_byte_count t) (4 * t_length t)).

(** Frames. *)
Definition cq_words (u : tlp_us) : list Z :=
  let t := u_tlp u in
  [word [(0, t_at t); (2, t_address t mod 2^32 / 4)];
   word [(0, t_address t / 2^32)];
   word [(0, t_length t); (11, us_req_code (t_fmt_type t)); (16, idv (t_requester_id t))];
   word [(0, t_tag t); (8, id_function (t_completer_id t)); (16, u_bar_id u); (19, u_bar_aperture u); (25, t_tc t); (28, t_attr t)]].
Definition rq_words (u : tlp_us) : list Z :=
  let t := u_tlp u in
  let cfg := (t_type t =? 4) || (t_type t =? 5) in
  [if cfg then word [(2, t_register_number t)] else word [(0, t_at t); (2, t_address t mod 2^32 / 4)];
   if cfg then 0 else word [(0, t_address t / 2^32)];
   word [(0, t_length t); (11, us_req_code (t_fmt_type t)); (16, idv (t_requester_id t))];
   word [(0, t_tag t); (8, idv (t_completer_id t)); (24, bit (u_requester_id_enable u)); (25, t_tc t); (28, t_attr t)]].
Definition cc_words (u : tlp_us) : list Z :=
  let t := u_tlp u in
  [word [(0, t_lower_address t); (8, t_at t); (16, t_byte_count t); (29, t_type t - 10)];
   word [(0, t_length t); (11, t_status t); (16, idv (t_requester_id t))];
   word [(0, t_tag t); (8, idv (t_completer_id t)); (24, bit (u_completer_id_enable u)); (25, t_tc t); (28, t_attr t)]].
Definition rc_words (u : tlp_us) : list Z :=
  let t := u_tlp u in
  [word [(0, t_lower_address t); (12, u_error_code u); (16, t_byte_count t); (29, t_type t - 10)];
   word [(0, t_length t); (11, t_status t); (16, idv (t_requester_id t))];
   word [(0, t_tag t); (8, idv (t_completer_id t)); (25, t_tc t); (28, t_attr t)]].

(** Byte enables of the payload DWORDs of a request with [n] DWORDs. *)
Definition req_be (first last : Z) (n : nat) : list Z :=
  map (fun i => if (i =? 0)%nat then first else if (i =? n - 1)%nat then last else 15) (seq 0 n).

(** A frame carries the given words and payload, with correct parity. *)
Definition frame_is (f : us_frame) (words payload : list Z) : Prop :=
  f_data f = words ++ payload /\ Forall2 odd_parity (f_data f) (f_parity f).
