(** C33, C34: the AXI master and the AXI RAM. *)
From Verif Require Import PyBase AxilModel AxilSpec AxiModel AxiSpec AxiProofs4.
From Coq Require Import Lia.

(** The bursts and beats of one write command: legal, one beat per burst address, [last] on
    the last beat of each burst, and the strobed lanes are exactly the bytes of the command
    in order.  Missing from the full claim in this file: addresses that a double does not
    represent, and bus connections for which the master raises; the claim is false there
    (below). *)
Theorem C33_bursts_partial : forall cfg id a d z, lanes_ok (xc_bw cfg) -> 0 <= a -> a + zlen d <= 2 ^ 52 -> Forall is_byte d -> size_ok cfg z ->
  exists aws beats id', x_write cfg id a d 1 z = Ok (aws, beats, id', zlen aws) /\ Forall (legal cfg) aws /\ length beats = length (flat_map burst_addrs aws) /\
    map snd beats = flat_map lasts aws /\ flat_map (fun p => beat_ops (xc_bw cfg) (fst p) (snd p)) (combine (flat_map burst_addrs aws) beats) = byte_ops a d.
Proof. exact xbursts. Qed.
Print Assumptions C33_bursts_partial.

(** After any number of runs with any pauses the memory is that of the writes in order,
    and every write was answered. *)
Theorem C33_memory_partial : forall cfg, cfg_ok cfg -> forall d bs s, zlen d = xc_size cfg -> Forall is_byte d -> xruns cfg (xs0 d) bs s ->
  holds (xc_size cfg) (lm_data (x_mem s)) (xafter (xc_size cfg) (fun i => nth (Z.to_nat i) d 0) bs) /\ xw_done (x_w s) = write_answers (flat_map xwrites bs).
Proof. exact xmemory. Qed.
Print Assumptions C33_memory_partial.

(** No exception, and everything is answered once the pauses end. *)
Theorem C33_completes_partial : forall cfg, cfg_ok cfg -> forall d bs s b, zlen d = xc_size cfg -> Forall is_byte d -> xruns cfg (xs0 d) bs s -> Forall (event_ok cfg) b ->
  exists t, x_run cfg b s = Ok t /\ (forall rf, exists n u, x_run cfg (b ++ free_edges rf n) s = Ok u /\ x_idle u = true).
Proof. exact xprogress. Qed.
Print Assumptions C33_completes_partial.

(** At any time: the bytes are stored in order, and those of a write that was answered are
    in the memory. *)
Theorem C33_write_order_partial : forall cfg, cfg_ok cfg -> forall d bs s b t, zlen d = xc_size cfg -> Forall is_byte d -> xruns cfg (xs0 d) bs s -> Forall (event_ok cfg) b -> x_run cfg b s = Ok t ->
  exists k n, (k <= length (xwrites b))%nat /\ (length (all_ops (firstn k (xwrites b))) <= n <= length (all_ops (xwrites b)))%nat /\
    xw_done (x_w t) = xw_done (x_w s) ++ write_answers (firstn k (xwrites b)) /\
    holds (xc_size cfg) (lm_data (x_mem t)) (put_ops (xc_size cfg) (xafter (xc_size cfg) (fun i => nth (Z.to_nat i) d 0) bs) (firstn n (all_ops (xwrites b)))).
Proof. exact xorder. Qed.
Print Assumptions C33_write_order_partial.

(** The bursts of one read command: legal, of one size, and their beats are the aligned
    ones from the first byte to the last. *)
Theorem C34_bursts_partial : forall cfg id a n z p, lanes_ok (xc_bw cfg) -> 0 <= a -> 0 <= n -> a + n <= 2 ^ 52 -> size_ok cfg z ->
  exists ars c id', x_read cfg id a n 1 z p = Ok (ars, c, id') /\ Forall (legal cfg) ars /\ exists s, Forall (fun b => xa_size b = s) ars /\ beats_for s a n (flat_map burst_addrs ars).
Proof. exact xrbursts. Qed.
Print Assumptions C34_bursts_partial.

(** All reads are answered in order with the bytes of the memory; a read that overlaps
    writes sees each byte as it was at some moment of them. *)
Theorem C34_memory_partial : forall cfg, cfg_ok cfg -> forall d bs s, zlen d = xc_size cfg -> Forall is_byte d -> xruns cfg (xs0 d) bs s ->
  xanswered (xc_size cfg) (fun i => nth (Z.to_nat i) d 0) bs (xr_done (x_r s)).
Proof. exact xreaded. Qed.
Print Assumptions C34_memory_partial.

(** The same at any time for the reads answered so far. *)
Theorem C34_read_order_partial : forall cfg, cfg_ok cfg -> forall d bs s b t, zlen d = xc_size cfg -> Forall is_byte d -> xruns cfg (xs0 d) bs s -> Forall (event_ok cfg) b -> x_run cfg b s = Ok t ->
  exists k dl, (k <= length (xreads b))%nat /\ xr_done (x_r t) = xr_done (x_r s) ++ dl /\
    Forall2 (answer_ok (xc_size cfg) (xafter (xc_size cfg) (fun i => nth (Z.to_nat i) d 0) bs) (xwrites b)) (firstn k (xreads b)) dl.
Proof. exact xrorder. Qed.
Print Assumptions C34_read_order_partial.

(** A run of reads alone returns exactly the stored bytes. *)
Theorem C34_reads_partial : forall cfg, cfg_ok cfg -> forall d bs s b t, zlen d = xc_size cfg -> Forall is_byte d -> xruns cfg (xs0 d) bs s -> Forall (event_ok cfg) b -> xwrites b = [] ->
  x_run cfg b s = Ok t -> x_idle t = true -> exists dl, xr_done (x_r t) = xr_done (x_r s) ++ dl /\ length dl = length (xreads b) /\
    forall i a n p, nth_error (xreads b) i = Some (a, n, p) -> exists r, nth_error dl i = Some r /\ le_addr r = a /\ le_prot r = p /\ le_resp r = 0 /\
      le_data r = map (fun j => nth (Z.to_nat ((a + Z.of_nat j) mod xc_size cfg)) (lm_data (x_mem s)) 0) (seq 0 (Z.to_nat n)).
Proof. exact xreads_exact. Qed.
Print Assumptions C34_reads_partial.

Ltac fa := unfold free_edges; cbn [app repeat]; repeat (match goal with |- event_ok _ _ => cbn [event_ok size_ok xc_bw]; unfold is_byte | |- _ /\ _ => split | |- Forall _ (_ :: _) => apply Forall_cons | |- Forall _ [] => apply Forall_nil end); try exact I; try (unfold zlen; cbn [length]; lia).

(** Bursts of two beats, unaligned, narrow and across 4 KiB, with pauses and with reads in
    flight together with writes. *)
Example C33_example :
  let cfg := mkXc 4 16 2 (Some 2) (Some 2) false false in
  let pa := mkXp true false true false true false true false true false in
  let b1 := [XWrite 4093 [1; 2; 3; 4; 5; 6; 7] 1 None 2; XEdge pa true; XWrite 30 [8; 9] 1 (Some 0) 1] ++ free_edges true 2 ++ [XEdge pa false; XRead 13 3 1 None 0] ++ free_edges true 40 in
  let b2 := [XRead 13 7 1 (Some 1) 2; XRead 30 2 1 None 1] ++ free_edges false 40 in
  cfg_ok cfg /\ exists s, xruns cfg (xs0 (zeros 16)) [b1; b2] s /\
    map (fun a => (xa_addr a, xa_len a)) (match x_write cfg 0 4093 [1; 2; 3; 4; 5; 6; 7] 1 None with Ok (aws, _, _, _) => aws | _ => [] end) = [(4092, 0); (4096, 0)] /\
    xr_done (x_r s) = [mkLe 13 [1; 2; 3] 0 0; mkLe 13 [1; 8; 9; 4; 5; 6; 7] 2 0; mkLe 30 [8; 9] 1 0] /\ lm_data (x_mem s) = [4; 5; 6; 7; 0; 0; 0; 0; 0; 0; 0; 0; 0; 1; 8; 9].
Proof.
  cbv zeta. split. { split; [exists 2; split; [lia|reflexivity]|]. split; [cbn; lia|]. split; [exists 4; reflexivity|]. split; discriminate. }
  eexists. split; [|split; [|split]].
  - cbn [xruns]. split; [fa|]. eexists. split; [vm_compute; reflexivity|]. split; [reflexivity|].
    split; [fa|]. eexists. split; [vm_compute; reflexivity|]. split; reflexivity.
  - reflexivity.
  - reflexivity.
  - reflexivity.
Qed.

(** The optional awid signal is used without a test: a write raises if it is not
    connected. *)
Theorem C33_no_awid_refuted : exists cfg evs, lanes_ok (xc_bw cfg) /\ (xc_bw cfg | xc_size cfg) /\ Forall (event_ok cfg) evs /\ xwrites evs = [(0, [1; 2; 3; 4], 2)] /\
  x_run cfg evs (xs0 (zeros (xc_size cfg))) = Err AttributeError.
Proof.
  exists (mkXc 4 8 256 None None false false), [XWrite 0 [1; 2; 3; 4] 1 None 2; XEdge (mkXp false false false false false false false false false false) true].
  split; [exists 2; split; [lia|reflexivity]|]. split; [exists 2; reflexivity|]. split; [fa|]. split; reflexivity.
Qed.
Print Assumptions C33_no_awid_refuted.

(** The address is computed with a float division: a 64 bit address is rounded. *)
Theorem C33_float_refuted : exists cfg evs s, cfg_ok cfg /\ xwrites evs = [(2 ^ 55 + 4, [1; 2; 3; 4], 2)] /\ xreads evs = [] /\
  x_run cfg evs (xs0 (zeros (xc_size cfg))) = Ok s /\ x_idle s = true /\ lm_data (x_mem s) = [1; 2; 3; 4; 0; 0; 0; 0].
Proof.
  exists (mkXc 4 8 256 (Some 1) None false false), ([XWrite (2 ^ 55 + 4) [1; 2; 3; 4] 1 None 2] ++ free_edges true 20). eexists.
  split. { split; [exists 2; split; [lia|reflexivity]|]. split; [cbn; lia|]. split; [exists 2; reflexivity|]. split; discriminate. }
  split; [reflexivity|]. split; [reflexivity|]. split; [vm_compute; reflexivity|]. split; reflexivity.
Qed.
Print Assumptions C33_float_refuted.

(** The test for ruser looks at buser: with buser alone a read raises. *)
Theorem C34_buser_refuted : exists cfg evs, lanes_ok (xc_bw cfg) /\ (xc_bw cfg | xc_size cfg) /\ xc_awid cfg <> None /\ Forall (event_ok cfg) evs /\ xreads evs = [(0, 4, 2)] /\
  x_run cfg evs (xs0 (zeros (xc_size cfg))) = Err TypeError.
Proof.
  exists (mkXc 4 8 256 (Some 1) (Some 1) true false), ([XRead 0 4 1 None 2] ++ free_edges true 20).
  split; [exists 2; split; [lia|reflexivity]|]. split; [exists 2; reflexivity|]. split; [discriminate|]. split; [fa|]. split; reflexivity.
Qed.
Print Assumptions C34_buser_refuted.

(** The same rounding for a read. *)
Theorem C34_float_refuted : exists cfg evs s, cfg_ok cfg /\ xreads evs = [(2 ^ 55 + 4, 4, 2)] /\ xwrites evs = [] /\
  x_run cfg evs (xs0 [0; 1; 2; 3; 4; 5; 6; 7]) = Ok s /\ x_idle s = true /\ xr_done (x_r s) = [mkLe (2 ^ 55 + 4) [0; 1; 2; 3] 2 0].
Proof.
  exists (mkXc 4 8 256 (Some 1) None false false), ([XRead (2 ^ 55 + 4) 4 1 None 2] ++ free_edges true 20). eexists.
  split. { split; [exists 2; split; [lia|reflexivity]|]. split; [cbn; lia|]. split; [exists 2; reflexivity|]. split; discriminate. }
  split; [reflexivity|]. split; [reflexivity|]. split; [vm_compute; reflexivity|]. split; reflexivity.
Qed.
Print Assumptions C34_float_refuted.
