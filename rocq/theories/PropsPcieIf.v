(** Properties of the generic TLP interface models (tb/pcie_if.py). *)
From Verif Require Import PyBase TlpModel TlpSpec SplitModel SplitSpec SplitProofs PcieIfModel PcieIfSpec PcieIfProofs PcieIfProofs2 PcieIfProofs3 PcieIfProofs4.
From Coq Require Import ZifyBool ZifyNat.

(** C38: frame to TLP and back.  Without forcing, or for types it does not concern:
    the packed header (padded to 16 bytes), the payload and valid parity. *)
Theorem C38_roundtrip : forall ft hdr data, header_of ft hdr -> Forall is_byte data -> (length data mod 4 = 0)%nat ->
  exists f, from_tlp ft hdr data false = Ok f /\ to_tlp f = Ok (hdr ++ zeros (16 - zlen hdr), data) /\ check_parity f = Ok true.
Proof. intros. apply codec_plain; auto. Qed.
Print Assumptions C38_roundtrip.
Theorem C38_roundtrip_forced : forall ft hdr data, header_of ft hdr -> Forall is_byte data -> (length data mod 4 = 0)%nat ->
  ~ widened ft -> ft <> (0, 2) -> ft <> (2, 2) ->
  exists f, from_tlp ft hdr data true = Ok f /\ to_tlp f = Ok (hdr ++ zeros (16 - zlen hdr), data) /\ check_parity f = Ok true.
Proof.
  intros ft hdr data HH HD HL HW N1 N2. apply codec_plain; auto. cbn [andb].
  pose proof (header_types _ _ HH) as HT. cbn in HT.
  repeat (destruct HT as [<- | HT]; [first [reflexivity | exfalso; apply HW; cbn; tauto | congruence]|]). contradiction.
Qed.
Print Assumptions C38_roundtrip_forced.
Theorem C38_roundtrip_io : forall ft hdr data, header_of ft hdr -> Forall is_byte data -> (length data mod 4 = 0)%nat -> ft = (0, 2) \/ ft = (2, 2) ->
  exists f, from_tlp ft hdr data true = Ok f /\ to_tlp f = Ok (hdr, data) /\ check_parity f = Ok true.
Proof. exact codec_io. Qed.
Print Assumptions C38_roundtrip_io.
(** A forced 32-bit memory or atomic request comes back as its 64-bit form: same
    fields, same address. *)
Theorem C38_widened_partial : forall ft hdr data, header_of ft hdr -> Forall is_byte data -> (length data mod 4 = 0)%nat -> widened ft ->
  exists f hdr', from_tlp ft hdr data true = Ok f /\ to_tlp f = Ok (hdr', data) /\ check_parity f = Ok true /\
    header_of (fst ft + 1, snd ft) hdr' /\ (forall k, (1 <= k < 8)%nat -> nth k hdr' 0 = nth k hdr 0) /\
    header_address hdr' = header_address hdr.
Proof. exact codec_widened. Qed.
Print Assumptions C38_widened_partial.
Definition ex_hdr : list Z := [0;0;0;1; 1;0;5;15; 0x80;0;0x10;4].
Theorem C38_forced_refuted : exists ft hdr f, header_of ft hdr /\ from_tlp ft hdr [] true = Ok f /\
  exists hdr', to_tlp f = Ok (hdr', []) /\ nth 0 hdr' 0 <> nth 0 hdr 0.
Proof.
  exists (0, 0), ex_hdr. eexists. split.
  { split; [left; cbn; tauto|]. split; [repeat (apply Forall_cons; [split; [discriminate|reflexivity]|]); apply Forall_nil|]. split; reflexivity. }
  split; [vm_compute; reflexivity|]. eexists. split; [vm_compute; reflexivity|]. discriminate.
Qed.
Print Assumptions C38_forced_refuted.
Example C38_example : header_of (2, 2) [0x42;0;0;1; 1;0;5;15; 0;0;0x10;4] /\ header_of (3, 19) ([0x73;0;0;1] ++ repeat 7 12) /\ widened (2, 12).
Proof.
  split; [|split; [|cbn; tauto]].
  - split; [left; cbn; tauto|]. split; [repeat (apply Forall_cons; [split; [discriminate|reflexivity]|]); apply Forall_nil|]. split; reflexivity.
  - split; [right; cbn; lia|]. split; [repeat (apply Forall_cons; [split; [discriminate|reflexivity]|]); apply Forall_nil|]. split; reflexivity.
Qed.

(** C40: every history of tag allocations and releases is legal. *)
Theorem C40_tags : forall ops, Forall op_ok ops -> tags_legal [] (tag_run tags0 ops).
Proof. exact tag_run_legal0. Qed.
Print Assumptions C40_tags.
Example C40_example : tag_run tags0 [TAlloc 2; TAlloc 2; TAlloc 2; TRelease 1; TAlloc 2; TRelease 5; TAlloc 32] =
  [(TAlloc 2, RTag 1); (TAlloc 2, RTag 0); (TAlloc 2, RWait); (TRelease 1, RReleased); (TAlloc 2, RTag 1); (TRelease 5, RExn AssertionError); (TAlloc 32, RTag 2)] /\
  Forall op_ok [TAlloc 2; TAlloc 2; TAlloc 2; TRelease 1; TAlloc 2; TRelease 5; TAlloc 32].
Proof. split; [vm_compute; reflexivity|]. repeat (apply Forall_cons; [cbn; lia|]). apply Forall_nil. Qed.
(** C40 is false of Function/RootComplex.get_free_tag (pcie.py), which takes a tag as
    free when its completion queue is empty. *)
Theorem C40_get_free_tag_refuted : exists s, queues_empty (rq_queues s) /\
  exists i j, (i < j)%nat /\ nth_error (free_tags false 33 s) i = nth_error (free_tags false 33 s) j /\ nth_error (free_tags false 33 s) i <> None.
Proof.
  exists (mkRq 0 (fun _ => [])). split; [intros k; reflexivity|]. exists 0%nat, 32%nat. split; [lia|]. split; vm_compute; [reflexivity|discriminate].
Qed.
Print Assumptions C40_get_free_tag_refuted.
Theorem C40_get_free_tag_partial : forall (ext : bool) n (s : rqstate), queues_empty (rq_queues s) -> Z.of_nat n <= (if ext then 256 else 32) ->
  NoDup (free_tags ext n s) /\ ~ In None (free_tags ext n s).
Proof. exact free_tags_nodup. Qed.
Print Assumptions C40_get_free_tag_partial.
Example C40_example2 : free_tags false 3 (mkRq 30 (fun _ => [])) = [Some 31; Some 0; Some 1].
Proof. reflexivity. Qed.

(** C58: DMA memory writes. *)
Theorem C58_dma_mem_write : forall rid mps addr data, 0 <= mps -> Forall is_byte data -> data <> [] ->
  exists ts, dma_mem_write rid mps addr data = Ok ts /\
    Forall (fun t => mem_write_legal (128 * 2^mps) t /\ from_dev rid t /\ tlp_check t = true) ts /\
    covers addr (zlen data) ts /\ (forall m a, apply_writes ts m a = mem_store m addr data a).
Proof. exact dma_mem_write_spec. Qed.
Print Assumptions C58_dma_mem_write.
Theorem C58_zero_length : forall rid mps addr, 0 <= mps ->
  exists t, dma_mem_write rid mps addr [] = Ok [t] /\ t_length t = 1 /\ zlen (t_data t) = 1 /\ from_dev rid t /\
    t_address t = addr - addr mod 4 /\ (forall a, tlp_selects t a = false) /\ (forall m a, apply_write m t a = m a).
Proof. exact dma_mem_write_zero. Qed.
Print Assumptions C58_zero_length.
Example C58_example : exists ts, dma_mem_write (mkId 1 2 3) 0 0xffe (repeat 7 200) = Ok ts /\ map t_length ts = [1; 32; 18] /\ map t_address ts = [0xffc; 0x1000; 0x1080].
Proof. eexists. split; [vm_compute; reflexivity|]. split; reflexivity. Qed.

(** C59: DMA memory reads. *)
Theorem C59_dma_mem_read : forall rid mrrs tag respond M lo hi addr len,
  0 <= mrrs -> completer_ok (128 * 2^mrrs) M lo hi respond -> 1 <= len -> lo <= addr -> addr + len <= hi ->
  exists ts, dma_mem_read rid mrrs tag respond addr len = Ok (ts, mem_load M addr len) /\ covers addr len ts /\
    Forall (fun t => mem_req_legal (128 * 2^mrrs) false t /\ from_dev rid t /\ tlp_check t = true) ts /\
    (forall j t, nth_error ts j = Some t -> t_tag t = tag (Z.of_nat j)).
Proof. exact dma_mem_read_spec. Qed.
Print Assumptions C59_dma_mem_read.
Theorem C59_zero_length : forall rid mrrs tag respond addr,
  0 <= mrrs -> (forall t, t_length t = 1 -> t_first_be t = 0 -> t_last_be t = 0 ->
     exists comp c, respond t = [c] /\ answers t comp c /\ t_length c = 1 /\ t_byte_count c = 1) ->
  exists t, dma_mem_read rid mrrs tag respond addr 0 = Ok ([t], []) /\ t_length t = 1 /\ t_address t = addr - addr mod 4 /\ from_dev rid t /\
    (forall a, tlp_selects t a = false).
Proof. exact dma_mem_read_zero. Qed.
Print Assumptions C59_zero_length.
(** A DMA read of a region served by a test device returns the bytes of the region. *)
Theorem C59_device_to_device : forall rs dev mps i l b rid mrrs tag addr len, ifr_contents rs i l -> 0 <= mps -> 0 <= mrrs ->
  b mod zlen l = 0 -> b mod 4 = 0 -> zlen l mod 4 = 0 -> 1 <= len -> b <= addr -> addr + len <= b + zlen l ->
  exists ts, dma_mem_read rid mrrs tag (fun t => match rx_mem_read rs dev mps i t with Ok cs => cs | Err _ => [] end) addr len = Ok (ts, slice l (addr - b) (addr - b + len)).
Proof. exact if_reads_if. Qed.
Print Assumptions C59_device_to_device.
Definition ex_l : list Z := map (fun k => Z.of_nat k mod 251) (seq 0 512).
Definition ex_rs : list ifregion := [IRNone; IRMem 512 ex_l].
Example C59_example : ifr_contents ex_rs 1 ex_l /\
  exists ts, dma_mem_read (mkId 1 0 0) 0 (fun k => k) (fun t => match rx_mem_read ex_rs (mkId 2 0 0) 0 1 t with Ok cs => cs | Err _ => [] end) 0x10021 300 = Ok (ts, slice ex_l 33 333) /\
  map t_length ts = [24; 32; 20].
Proof.
  split.
  - split; [vm_compute; split; [discriminate|reflexivity]|]. split; [reflexivity|]. split; [|vm_compute; discriminate].
    apply Forall_forall. intros x Hx. unfold ex_l in Hx. apply in_map_iff in Hx. destruct Hx as (k & <- & _).
    pose proof (Z.mod_pos_bound (Z.of_nat k) 251 ltac:(lia)). split; lia.
  - eexists. split; [vm_compute; reflexivity|]. reflexivity.
Qed.
(** The assumption of C59_zero_length is met by a completer that exists. *)
Example C59_example_zero : exists respond, forall t, t_length t = 1 -> t_first_be t = 0 -> t_last_be t = 0 ->
     exists comp c, respond t = [c] /\ answers t comp c /\ t_length c = 1 /\ t_byte_count c = 1.
Proof.
  exists (fun t => [set_length 1 (set_byte_count 1 (set_data [0] (set_completion_data t (mkId 2 0 0) tlp0)))]).
  intros t _ _ _. eexists (mkId 2 0 0), _. split; [reflexivity|]. split; [|split; reflexivity].
  repeat (split; [reflexivity|]). constructor; [lia|constructor].
Qed.

(** C60: frame parity. *)
Theorem C60_parity_values : forall f, frame_ok f -> exists f', update_parity f = Ok f' /\
  f_tlp_prfx f' = f_tlp_prfx f /\ f_hdr f' = f_hdr f /\ f_data f' = f_data f /\
  byte_parity_of (f_hdr f) (f_hdr_par f') /\ byte_parity_of (f_tlp_prfx f) (f_tlp_prfx_par f') /\
  Forall2 (fun d q => forall i, 0 <= i < 4 -> Z.testbit q i = negb (xor_bits d (8*i) 8)) (f_data f) (f_parity f') /\ check_parity f' = Ok true.
Proof. exact update_values. Qed.
Print Assumptions C60_parity_values.
Theorem C60_parity_detects : forall f, frame_ok f -> check_parity f = Ok true ->
  (forall i, 0 <= i < 128 -> check_parity (with_hdr f (flip (f_hdr f) i)) = Ok false) /\
  (forall i, 0 <= i < 32 -> check_parity (with_prfx f (flip (f_tlp_prfx f) i)) = Ok false) /\
  (forall l x r i, f_data f = l ++ x :: r -> 0 <= i < 32 -> check_parity (with_data f (l ++ flip x i :: r)) = Ok false).
Proof. exact parity_detects. Qed.
Print Assumptions C60_parity_detects.
Definition ex_frame : frame := mkFrame 0 0x00000001_0100050f_80001004_00000000 [0xdeadbeef; 1] 0 0 [] 0 None 0 0 0 0.
Example C60_example : frame_ok ex_frame /\ exists f, update_parity ex_frame = Ok f /\ f_parity f = [10; 14] /\ check_parity f = Ok true.
Proof.
  split; [split; [cbn; lia|split; [cbn; lia|repeat constructor; cbn; lia]]|]. eexists. split; [vm_compute; reflexivity|]. split; vm_compute; reflexivity.
Qed.

(** C61: PcieIfDevice routing.  Requests go to the BAR of the first function that
    decodes the address. *)
Definition is_mem (t : tlp) : Prop := In (t_fmt_type t) [(0,0);(1,0);(2,0);(3,0)].
Definition is_io (t : tlp) : Prop := In (t_fmt_type t) [(0,2);(2,2)].
Theorem C61_request_bar : forall pre f post t bar off io, (io = false /\ is_mem t) \/ (io = true /\ is_io t) ->
  Forall (fun g => ff_match g (t_address t) io = None) pre -> ff_match f (t_address t) io = Some (bar, off) ->
  exists func, if_upstream_recv (pre ++ f :: post) t = Ok (ToReq bar func).
Proof.
  intros pre f post t bar off io HT HP HM. eexists.
  assert (E : first_fn (fun g => ff_match g (t_address t) io) (pre ++ f :: post) 0 = Some (length pre, (bar, off))).
  { change (length pre) with (0 + length pre)%nat. generalize 0%nat as k. induction pre as [|g pre IH]; intros k; cbn [app first_fn].
    - rewrite HM. do 2 f_equal. cbn; lia.
    - apply Forall_cons_inv in HP. destruct HP as (H1 & H2). rewrite H1. rewrite (IH H2). cbn [length]. do 2 f_equal. lia. }
  unfold if_upstream_recv. destruct HT as [(-> & HT)|(-> & HT)]; cbn in HT.
  - repeat (destruct HT as [HT|HT]; [rewrite <- HT; cbn [ft_in ft_eqb existsb fst snd Z.eqb andb orb]; rewrite E; reflexivity|]). contradiction.
  - repeat (destruct HT as [HT|HT]; [rewrite <- HT; cbn [ft_in ft_eqb existsb fst snd Z.eqb andb orb]; rewrite E; reflexivity|]). contradiction.
Qed.
Print Assumptions C61_request_bar.
(** Unclaimed requests: answered with unsupported request, posted writes dropped. *)
Theorem C61_unclaimed : forall fs t io, (io = false /\ is_mem t) \/ (io = true /\ is_io t) ->
  Forall (fun g => ff_match g (t_address t) io = None) fs ->
  if_upstream_recv fs t = Ok (if (fst (t_fmt_type t) / 2 =? 1) && negb io then Discard else ReplyUR).
Proof.
  intros fs t io HT HP.
  assert (E : forall k, first_fn (fun g => ff_match g (t_address t) io) fs k = None).
  { induction fs as [|g fs IH]; intros k; cbn [first_fn]; [reflexivity|]. apply Forall_cons_inv in HP. destruct HP as (H1 & H2). rewrite H1. apply (IH H2). }
  unfold if_upstream_recv. destruct HT as [(-> & HT)|(-> & HT)]; cbn in HT.
  - repeat (destruct HT as [HT|HT]; [rewrite <- HT; cbn [ft_in ft_eqb existsb fst snd Z.eqb andb orb]; rewrite E; reflexivity|]). contradiction.
  - repeat (destruct HT as [HT|HT]; [rewrite <- HT; cbn [ft_in ft_eqb existsb fst snd Z.eqb andb orb]; rewrite E; reflexivity|]). contradiction.
Qed.
Print Assumptions C61_unclaimed.
(** Configuration requests reach the function with that ID, completions the
    interface with the function number of the requester, if it is one of ours. *)
Theorem C61_config : forall pre f post t, In (t_fmt_type t) [(0,4);(2,4)] -> ff_id f = t_dest_id t -> Forall (fun g => ff_id g <> t_dest_id t) pre ->
  if_upstream_recv (pre ++ f :: post) t = Ok (ToFn (length pre)).
Proof.
  intros pre f post t HT HF HP.
  assert (E : first_fn (fun g => if id_eqb (ff_id g) (t_dest_id t) then Some tt else None) (pre ++ f :: post) 0 = Some (length pre, tt)).
  { change (length pre) with (0 + length pre)%nat. generalize 0%nat as k. induction pre as [|g pre IH]; intros k; cbn [app first_fn].
    - rewrite HF, id_eqb_refl. do 2 f_equal. cbn; lia.
    - apply Forall_cons_inv in HP. destruct HP as (H1 & H2). destruct (id_eqb (ff_id g) (t_dest_id t)) eqn:EE; [apply id_eqb_eq in EE; contradiction|]. rewrite (IH H2). cbn [length]. do 2 f_equal. lia. }
  unfold if_upstream_recv. cbn in HT. repeat (destruct HT as [HT|HT]; [rewrite <- HT; cbn [ft_in ft_eqb existsb fst snd Z.eqb andb orb]; rewrite E; reflexivity|]). contradiction.
Qed.
Print Assumptions C61_config.
Theorem C61_completion : forall fs t, In (t_fmt_type t) [(0,10);(2,10);(0,11);(2,11)] ->
  (In (t_requester_id t) (map ff_id fs) -> if_upstream_recv fs t = Ok (ToCpl (id_function (t_requester_id t)))) /\
  (~ In (t_requester_id t) (map ff_id fs) -> if_upstream_recv fs t = Ok Discard).
Proof.
  intros fs t HT.
  assert (E : forall k, match first_fn (fun g => if id_eqb (ff_id g) (t_requester_id t) then Some tt else None) fs k with
     | Some _ => In (t_requester_id t) (map ff_id fs) | None => ~ In (t_requester_id t) (map ff_id fs) end).
  { induction fs as [|g fs IH]; intros k; cbn [first_fn map In]; [tauto|]. destruct (id_eqb (ff_id g) (t_requester_id t)) eqn:EE; [left; now apply id_eqb_eq|].
    specialize (IH (S k)). destruct (first_fn _ fs (S k)); [right; exact IH|]. intros [HX|HX]; [rewrite HX, id_eqb_refl in EE; discriminate|contradiction]. }
  specialize (E 0%nat). unfold if_upstream_recv. cbn in HT.
  repeat (destruct HT as [HT|HT]; [rewrite <- HT; cbn [ft_in ft_eqb existsb fst snd Z.eqb andb orb]; destruct (first_fn _ fs 0) as [[? ?]|]; split; intros; tauto || reflexivity|]). contradiction.
Qed.
Print Assumptions C61_completion.
(** The function number given with a request should be that of the function
    addressed; it is the requester's. *)
Theorem C61_func_num_refuted : exists fs f t bar off func, fs = [f] /\ ff_match f (t_address t) false = Some (bar, off) /\
  if_upstream_recv fs t = Ok (ToReq bar func) /\ func <> id_function (ff_id f).
Proof.
  exists [mkIfFn (mkId 1 0 0) (fun a _ => Some (0, a))], (mkIfFn (mkId 1 0 0) (fun a _ => Some (0, a))), (set_requester_id (mkId 0 1 3) tlp0), 0, 0, 3.
  repeat split. discriminate.
Qed.
Print Assumptions C61_func_num_refuted.
Example C61_example : exists t bar off f g, is_mem t /\ ff_match f (t_address t) false = None /\ ff_match g (t_address t) false = Some (bar, off) /\
  if_upstream_recv [f; g] t = Ok (ToReq bar 5).
Proof.
  exists (set_requester_id (mkId 0 0 5) (set_address 0x2000 tlp0)), 2, 0, (mkIfFn (mkId 1 0 0) (fun a _ => None)), (mkIfFn (mkId 1 0 1) (fun a _ => if a =? 0x2000 then Some (2, 0) else None)).
  split; [cbn; tauto|]. repeat split.
Qed.

(** C62: the MSI capability advertises the configured number of vectors. *)
Theorem C62_msi_count_partial : forall pf count, 0 <= pf <= 1 -> 1 <= count -> mmc_of count (if_msi_mmc pf count).
Proof. intros pf count Hp Hc. replace (if_msi_mmc pf count) with (if_msi_mmc 0 count); [now apply mmc_ok|]. unfold if_msi_mmc. replace (pf <=? 1) with true by lia. reflexivity. Qed.
Print Assumptions C62_msi_count_partial.
Theorem C62_msi_count_refuted : exists pf pf' count count', pf = 2 /\ pf' = 3 /\ 1 <= count <= 32 /\ 1 <= count' <= 32 /\
  ~ mmc_of count (if_msi_mmc pf count) /\ ~ mmc_of count' (if_msi_mmc pf' count').
Proof.
  exists 2, 3, 2, 3. repeat (split; [lia|]). split; intros (_ & H & _); vm_compute in H; apply H; reflexivity.
Qed.
Print Assumptions C62_msi_count_refuted.
Example C62_example : if_msi_mmc 0 32 = 5 /\ if_msi_mmc 1 5 = 3 /\ if_msi_mmc 0 1 = 0.
Proof. repeat split. Qed.

(** C63: request handlers of the test device. *)
Theorem C63_mem_read : forall rs dev mps i l t first count, ifr_contents rs i l -> 0 <= mps ->
  1 <= t_length t -> t_address t mod 4 = 0 -> be_legal t -> selected_span t first count ->
  t_address t mod zlen l + 4 * t_length t <= zlen l ->
  exists cs, rx_mem_read rs dev mps i t = Ok cs /\
    completes t dev (128 * 2^mps) first count (mem_load (mem_of l) (t_address t mod zlen l) (4 * t_length t)) cs.
Proof. exact rx_mem_read_spec. Qed.
Print Assumptions C63_mem_read.
Theorem C63_mem_write : forall rs i l t, ifr_contents rs i l -> 1 <= t_length t -> zlen (t_data t) = t_length t ->
  Forall (fun w => 0 <= w < 2^32) (t_data t) -> t_address t mod zlen l + 4 * t_length t <= zlen l ->
  exists rs' l', rx_mem_write rs i t = Ok rs' /\ ifr_contents rs' i l' /\ zlen l' = zlen l /\ others_same i rs rs' /\
    forall a, mem_of l' a = write_effect (t_address t mod zlen l) (t_length t) (t_first_be t) (t_last_be t) (payload t) (mem_of l) a.
Proof. exact rx_mem_write_spec. Qed.
Print Assumptions C63_mem_write.
Theorem C63_io_read : forall rs dev i l t, ifr_contents rs i l -> io_req_legal false t -> t_address t mod zlen l + 4 <= zlen l ->
  exists c w, rx_io_read rs dev i t = Ok c /\ t_fmt_type c = (2, 10) /\ t_status c = 0 /\ t_requester_id c = t_requester_id t /\ t_tag c = t_tag t /\ t_completer_id c = dev /\
    t_length c = 1 /\ t_byte_count c = 4 /\ t_data c = [w] /\ 0 <= w < 2^32 /\
    (forall k, 0 <= k < 4 -> nth (Z.to_nat k) (le_bytes 4 w) 0 = if Z.testbit (t_first_be t) k then mem_of l (t_address t mod zlen l + k) else 0).
Proof. exact rx_io_read_spec. Qed.
Print Assumptions C63_io_read.
Theorem C63_io_write : forall rs dev i l t, ifr_contents rs i l -> io_req_legal true t -> zlen (t_data t) = 1 ->
  Forall (fun w => 0 <= w < 2^32) (t_data t) -> t_address t mod zlen l + 4 <= zlen l ->
  exists rs' l' c, rx_io_write rs dev i t = Ok (rs', c) /\ ifr_contents rs' i l' /\ zlen l' = zlen l /\ others_same i rs rs' /\
    (forall a, mem_of l' a = write_effect (t_address t mod zlen l) 1 (t_first_be t) 0 (payload t) (mem_of l) a) /\
    t_fmt_type c = (0, 10) /\ t_status c = 0 /\ t_requester_id c = t_requester_id t /\ t_tag c = t_tag t /\ t_completer_id c = dev.
Proof. exact rx_io_write_spec. Qed.
Print Assumptions C63_io_write.
Example C63_example : exists t, t_address t mod zlen ex_l = 0x104 /\ io_req_legal false t /\
  exists c, rx_req ex_rs (mkId 2 0 0) 0 1 t = Ok (ex_rs, [c]) /\ payload c = [0; 10; 0; 12].
Proof.
  exists (set_first_be 10 (set_length 1 (set_address 0x304 (set_fmt_type TLP_IO_READ tlp0)))). split; [reflexivity|].
  split; [vm_compute; repeat split; discriminate|]. eexists. split; vm_compute; reflexivity.
Qed.

(** C64: DMA I/O operations. *)
Theorem C64_dma_io_read : forall rid tag respond M lo hi addr len, io_completer_ok M lo hi respond -> lo mod 4 = 0 -> hi mod 4 = 0 ->
  1 <= len -> lo <= addr -> addr + len <= hi ->
  exists ts, dma_io_read rid tag respond addr len = Ok (ts, mem_load M addr len) /\ covers addr len ts /\
    Forall (fun t => io_req_legal false t /\ from_dev rid t) ts /\ (forall j t, nth_error ts j = Some t -> t_tag t = tag (Z.of_nat j)).
Proof. exact dma_io_read_spec. Qed.
Print Assumptions C64_dma_io_read.
Theorem C64_dma_io_write : forall rid tag respond addr data, Forall is_byte data -> data <> [] ->
  (forall t, io_req_legal true t -> exists c r, respond t = c :: r /\ t_status c = 0) ->
  exists ts, dma_io_write rid tag respond addr data = Ok ts /\
    Forall (fun t => io_req_legal true t /\ from_dev rid t /\ zlen (t_data t) = 1 /\ Forall (fun w => 0 <= w < 2^32) (t_data t)) ts /\
    covers addr (zlen data) ts /\ (forall m a, apply_writes ts m a = mem_store m addr data a) /\
    (forall j t, nth_error ts j = Some t -> t_tag t = tag (Z.of_nat j)).
Proof. exact dma_io_write_spec. Qed.
Print Assumptions C64_dma_io_write.
Theorem C64_write_error : forall rid tag respond addr data, Forall is_byte data -> data <> [] ->
  (forall t, exists c, respond t = [c] /\ t_status c <> 0) -> dma_io_write rid tag respond addr data = Err (PyException 1578).
Proof. exact io_write_error. Qed.
Print Assumptions C64_write_error.
(** A test device region is such a completer. *)
Theorem C64_device_completer : forall rs dev i l b, ifr_contents rs i l -> b mod zlen l = 0 -> b mod 4 = 0 -> zlen l mod 4 = 0 ->
  io_completer_ok (fun a => mem_of l (a - b)) b (b + zlen l) (fun t => match rx_io_read rs dev i t with Ok c => [c] | Err _ => [] end).
Proof. exact if_io_completer. Qed.
Print Assumptions C64_device_completer.
Example C64_example : exists ts, dma_io_read (mkId 1 0 0) (fun k => k) (fun t => match rx_io_read ex_rs (mkId 2 0 0) 1 t with Ok c => [c] | Err _ => [] end) 0x1003 6 =
  Ok (ts, [3; 4; 5; 6; 7; 8]) /\ map t_first_be ts = [8; 15; 1].
Proof. eexists. split; [vm_compute; reflexivity|]. reflexivity. Qed.

(** C65: MSI messages. *)
Theorem C65_msi : forall rid mps addr data, 0 <= mps -> 0 <= data < 2^32 -> addr mod 4 = 0 ->
  exists t, issue_msi rid mps addr data = Ok [t] /\ mem_write_legal (128 * 2^mps) t /\ from_dev rid t /\
    t_address t = addr /\ t_length t = 1 /\ t_first_be t = 15 /\ t_data t = [data].
Proof. exact issue_msi_aligned. Qed.
Print Assumptions C65_msi.
Theorem C65_msi_unaligned : forall rid mps addr data, 0 <= mps -> 0 <= data < 2^32 ->
  exists ts, issue_msi rid mps addr data = Ok ts /\
    Forall (fun t => mem_write_legal (128 * 2^mps) t /\ from_dev rid t /\ tlp_check t = true) ts /\
    covers addr 4 ts /\ (forall m a, apply_writes ts m a = mem_store m addr (le_bytes 4 data) a).
Proof. exact issue_msi_spec. Qed.
Print Assumptions C65_msi_unaligned.
Example C65_example : exists t, issue_msi (mkId 1 0 0) 0 0xfee00000 0x4021 = Ok [t] /\ t_data t = [0x4021].
Proof. eexists. split; vm_compute; reflexivity. Qed.
