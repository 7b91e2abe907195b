(** Property theorems C25-C27, C29, C48, C49 (UltraScale descriptors and frames). *)
From Verif Require Import PyBase TlpModel TlpSpec UsModel UsSpec UsProofs.

(** C25: every memory or I/O request is packed into a frame of four descriptor
    words with every field at its position, the payload, per-DWORD byte enables
    and odd parity. *)
Theorem C25_cq_layout : forall u, us_cq_ok u -> exists f, pack_us_cq u = Ok f /\
  frame_is f (cq_words u) (t_data (u_tlp u)) /\
  f_byte_en f = [0; 0; 0; 0] ++ req_be (t_first_be (u_tlp u)) (t_last_be (u_tlp u)) (length (t_data (u_tlp u))) /\
  f_first_be f = t_first_be (u_tlp u) /\ f_last_be f = t_last_be (u_tlp u) /\ f_discontinue f = u_discontinue u.
Proof.
  intros u H. eexists. split; [exact (cq_pack u H)|]. cbn [f_data f_byte_en f_parity f_first_be f_last_be f_discontinue].
  repeat split. cbn [f_data f_parity]. apply parity_list_ok.
Qed.
Print Assumptions C25_cq_layout.

(** C25: unpacking the packed request gives back everything the interface carries. *)
Theorem C25_cq_roundtrip : forall u check, us_cq_ok u ->
  exists f, pack_us_cq u = Ok f /\ unpack_us_cq us0 f check = Ok (carried_cq u).
Proof.
  intros u check H. eexists. split; [exact (cq_pack u H)|]. apply cq_unpack; try reflexivity; [exact H|]. intros _. apply parity_ok.
Qed.
Print Assumptions C25_cq_roundtrip.
Definition C25_sample : tlp_us :=
  mkUs (mkTlp 3 0 5 0 0 0 3 2 3 (mkId 0 0 129) 0 0 0 (mkId 17 3 5) (mkId 0 0 0) 200 8 3 0 0xfedcba9876543210 0 [1; 0xffffffff; 7])
    5 33 false false true 0 0.
Example C25_example : us_cq_ok C25_sample /\
  pack_us_cq C25_sample = Ok (mkFrame [0x76543212; 0xfedcba98; 0x111d0803; 0x3b0d81c8; 1; 0xffffffff; 7] [0;0;0;0;8;15;3]
    [1; 0; 13; 2; 14; 15; 14] 8 3 true 0) /\
  (let! f := pack_us_cq C25_sample in unpack_us_cq us0 f true) = Ok (carried_cq C25_sample).
Proof.
  split; [|split; vm_compute; reflexivity]. unfold us_cq_ok, us_mem_ok, us_common, id_ok. cbn. repeat split; try lia; try (right; right; right; left; reflexivity).
Qed.

(** C26: completer completions. *)
Theorem C26_cc_layout : forall u, us_cpl_ok 128 u -> exists f, pack_us_cc u = Ok f /\
  frame_is f (cc_words u) (t_data (u_tlp u)) /\ f_discontinue f = u_discontinue u.
Proof.
  intros u H. eexists. split; [exact (cc_pack u H)|]. repeat split. cbn [f_data f_parity]. apply parity_list_ok.
Qed.
Print Assumptions C26_cc_layout.
Theorem C26_cc_roundtrip : forall u check, us_cpl_ok 128 u ->
  exists f, pack_us_cc u = Ok f /\ unpack_us_cc us0 f check = Ok (carried_cc u).
Proof.
  intros u check H. eexists. split; [exact (cc_pack u H)|]. apply cc_unpack; try reflexivity; [exact H|]. intros _. apply parity_ok.
Qed.
Print Assumptions C26_cc_roundtrip.

(** C26: requester completions. *)
Theorem C26_rc_layout : forall u, us_cpl_ok 4096 u -> exists f, pack_us_rc u = Ok f /\
  frame_is f (rc_words u) (t_data (u_tlp u)) /\ f_discontinue f = u_discontinue u.
Proof.
  intros u H. eexists. split; [exact (rc_pack u H)|]. repeat split. cbn [f_data f_parity]. apply parity_list_ok.
Qed.
Print Assumptions C26_rc_layout.
Theorem C26_rc_roundtrip : forall u check, us_cpl_ok 4096 u ->
  exists f, pack_us_rc u = Ok f /\ unpack_us_rc us0 f check = Ok (carried_rc u).
Proof.
  intros u check H. eexists. split; [exact (rc_pack u H)|]. apply rc_unpack; try reflexivity; [exact H|]. intros _. apply parity_ok.
Qed.
Print Assumptions C26_rc_roundtrip.
Definition C26_sample : tlp_us :=
  mkUs (mkTlp 2 11 5 0 0 0 3 2 3 (mkId 40 1 7) 1 0 9 (mkId 17 3 5) (mkId 0 0 0) 200 0 0 0x42 0 0 [1; 0xffffffff; 7])
    0 0 true false true 0 4.
Example C26_example : us_cpl_ok 128 C26_sample /\ us_cpl_ok 4096 C26_sample /\
  pack_us_cc C26_sample = Ok (mkFrame [0x20090242; 0x111d0803; 0x3b280fc8; 1; 0xffffffff; 7] []
    [5; 13; 6; 14; 15; 14] 0 0 true 0) /\
  (let! f := pack_us_cc C26_sample in unpack_us_cc us0 f true) = Ok (carried_cc C26_sample) /\
  (let! f := pack_us_rc C26_sample in unpack_us_rc us0 f true) = Ok (carried_rc C26_sample).
Proof.
  split; [|split; [|split; [|split]; vm_compute; reflexivity]];
  unfold us_cpl_ok, us_common, id_ok; cbn; repeat split; try lia; right; repeat split; try lia; auto.
Qed.

(** C27: requester requests, including configuration requests. *)
Theorem C27_rq_layout : forall u, us_rq_ok u -> exists f, pack_us_rq u = Ok f /\
  frame_is f (rq_words u) (t_data (u_tlp u)) /\
  f_first_be f = t_first_be (u_tlp u) /\ f_last_be f = t_last_be (u_tlp u) /\ f_discontinue f = u_discontinue u /\ f_seq_num f = u_seq_num u.
Proof.
  intros u H. eexists. split; [exact (rq_pack u H)|]. repeat split. cbn [f_data f_parity]. apply parity_list_ok.
Qed.
Print Assumptions C27_rq_layout.
Theorem C27_rq_roundtrip : forall u check, us_rq_ok u ->
  exists f, pack_us_rq u = Ok f /\ unpack_us_rq us0 f check = Ok (carried_rq u).
Proof.
  intros u check H. eexists. split; [exact (rq_pack u H)|]. apply rq_unpack; try reflexivity; [exact H|]. intros _. apply parity_ok.
Qed.
Print Assumptions C27_rq_roundtrip.
Definition C27_sample : tlp_us :=
  mkUs (mkTlp 2 4 5 0 0 0 3 0 1 (mkId 40 1 7) 0 0 0 (mkId 17 3 5) (mkId 0 0 0) 200 6 0 0 0 0x2aa [0x12345678])
    0 0 false true true 11 0.
Example C27_example : us_rq_ok C27_sample /\
  pack_us_rq C27_sample = Ok (mkFrame [0xaa8; 0; 0x111d5001; 0x3b280fc8; 0x12345678] []
    [14; 15; 14; 6; 11] 6 0 true 11) /\
  (let! f := pack_us_rq C27_sample in unpack_us_rq us0 f true) = Ok (carried_rq C27_sample).
Proof.
  split; [|split; vm_compute; reflexivity].
  unfold us_rq_ok, us_common, id_ok; cbn; repeat split; try lia; right; repeat split; try lia; auto.
Qed.

(** C29, full statement: a frame compares equal to a frame with the same
    contents.  False of every frame: the comparison asks for a [TLP_us]. *)
Theorem C29_frame_eq_refuted : exists f, frame_eq f (OFrame f) = Ok false.
Proof. exists frame0. vm_compute. reflexivity. Qed.
Print Assumptions C29_frame_eq_refuted.
Theorem C29_frame_eq_never : forall f o, frame_eq f o <> Ok true.
Proof. intros f [g|u|]; cbn; try discriminate. destruct (zlist_eqb _ _); discriminate. Qed.
Print Assumptions C29_frame_eq_never.
Example C29_example : frame_eq frame0 (OTlp us0) = Err AttributeError.
Proof. vm_compute. reflexivity. Qed.

(** C48: the parity check accepts exactly the frames whose every byte, with its
    parity bit, has an odd number of ones. *)
Theorem C48_parity_check : forall f, check_parity f = true <-> Forall2 odd_parity (f_data f) (f_parity f).
Proof. exact check_parity_iff. Qed.
Print Assumptions C48_parity_check.
(** C48: no unpacker accepts a frame with wrong parity when asked to check. *)
Theorem C48_unpack_checks : forall f r,
  unpack_us_cq us0 f true = Ok r \/ unpack_us_cc us0 f true = Ok r \/ unpack_us_rq us0 f true = Ok r \/ unpack_us_rc us0 f true = Ok r ->
  Forall2 odd_parity (f_data f) (f_parity f).
Proof. intros f r H. apply check_parity_iff. eapply unpack_parity. exact H. Qed.
Print Assumptions C48_unpack_checks.
Example C48_example : check_parity (mkFrame [0x00ff0102] [] [12] 0 0 false 0) = true /\
  check_parity (mkFrame [0x00ff0103] [] [12] 0 0 false 0) = false.
Proof. split; vm_compute; reflexivity. Qed.

(** C49: the byte enables of a packed requester completion select exactly the
    bytes it delivers, for every completion whose last DWORD carries a byte. *)
Theorem C49_rc_byte_lanes : forall u, us_cpl_ok 4096 u -> 1 <= t_length (u_tlp u) -> 1 <= t_byte_count (u_tlp u) ->
  4 * (t_length (u_tlp u) - 1) < t_lower_address (u_tlp u) mod 4 + t_byte_count (u_tlp u) ->
  exists f, pack_us_rc u = Ok f /\ forall b, 0 <= b < 4 * t_length (u_tlp u) ->
    lane_on (f_byte_en f) 3 b = rc_byte_valid (u_tlp u) b.
Proof.
  intros u H Hl Hb Hc. eexists. split; [exact (rc_pack u H)|]. cbn [f_byte_en]. intros b Hbb.
  destruct H as (_ & _ & _ & _ & _ & _ & Hla & HT). apply cpl_kinds in HT. destruct HT as (_ & _ & ->).
  unfold rc_byte_valid. cbv zeta. apply rc_lanes; lia.
Qed.
Print Assumptions C49_rc_byte_lanes.
Example C49_example : us_cpl_ok 4096 C26_sample /\ 4 * (3 - 1) < 0x42 mod 4 + 9 /\
  (let! f := pack_us_rc C26_sample in Ok (f_byte_en f)) = Ok [0; 0; 0; 12; 15; 7].
Proof.
  split; [|split; [vm_compute; reflexivity|vm_compute; reflexivity]].
  unfold us_cpl_ok, us_common, id_ok; cbn; repeat split; try lia; right; repeat split; try lia; auto.
Qed.
