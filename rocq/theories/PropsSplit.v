(** Property theorems C07-C13 (memory transfers in tb/pcie.py). *)
From Coq Require Import Lia.
From Verif Require Import PyBase TlpModel TlpSpec BarModel BarSpec SplitModel SplitSpec SplitProofs SplitProofs2.

(** C07: a device-initiated memory write. *)
Theorem C07_function_mem_write : forall rid mps addr data attr tc, 0 <= mps -> Forall is_byte data ->
  exists ts, function_mem_write true rid mps addr data attr tc = Ok ts /\
    Forall (fun t => mem_write_legal (128 * 2^mps) t /\ from_transfer rid attr tc t /\ tlp_check t = true) ts /\
    covers addr (zlen data) ts /\
    (forall a, select_count ts a = if (addr <=? a) && (a <? addr + zlen data) then 1%nat else 0%nat) /\
    (forall m a, apply_writes ts m a = mem_store m addr data a).
Proof. exact function_write_spec. Qed.
Print Assumptions C07_function_mem_write.
Example C07_example : (let! ts := function_mem_write true (mkId 1 0 0) 0 0xffe [1;2;3;4;5] 0 0 in
    Ok (map (fun t => (t_address t, t_length t, t_first_be t, t_last_be t, t_data t)) ts)) =
  Ok [(0xffc, 1, 12, 0, [0x02010000]); (0x1000, 1, 7, 0, [0x050403])] /\ Forall is_byte [1;2;3;4;5].
Proof. split; [vm_compute; reflexivity|repeat constructor; lia]. Qed.

(** C08: a root-complex memory write to a bus address. *)
Theorem C08_rc_mem_write : forall rs mps addr data attr tc, 0 <= mps -> Forall is_byte data -> find_region rs addr = None ->
  exists ts, rc_mem_write rs mps addr data attr tc = Ok (rs, ts) /\
    Forall (fun t => mem_write_legal (128 * 2^mps) t /\ from_transfer (mkId 0 0 0) attr tc t /\ tlp_check t = true) ts /\
    covers addr (zlen data) ts /\
    (forall a, select_count ts a = if (addr <=? a) && (a <? addr + zlen data) then 1%nat else 0%nat) /\
    (forall m a, apply_writes ts m a = mem_store m addr data a).
Proof. exact rc_write_remote_spec. Qed.
Print Assumptions C08_rc_mem_write.
Example C08_example : find_region [mkRegion 0 16 (repeat 0 16)] 0x123456789 = None /\
  (let! r := rc_mem_write [mkRegion 0 16 (repeat 0 16)] 0 0x123456789 [9;8] 0 0 in
   Ok (map (fun t => (t_fmt_type t, t_address t, t_length t, t_first_be t, t_data t)) (snd r))) =
  Ok [((3, 0), 0x123456788, 1, 6, [0x080900])].
Proof. split; vm_compute; reflexivity. Qed.

(** C08: a write to the root complex's own memory sends nothing and stores the
    bytes. *)
Theorem C08_rc_local_write : forall rs i mps addr data attr tc, regions_wf rs -> Forall is_byte data -> data <> [] ->
  in_region rs i addr (addr + zlen data) ->
  exists rs', rc_mem_write rs mps addr data attr tc = Ok (rs', []) /\ regions_wf rs' /\ same_map rs' rs /\
    forall a, rc_mem rs' a = mem_store (rc_mem rs) addr data a.
Proof. exact rc_write_local_spec. Qed.
Print Assumptions C08_rc_local_write.
Example C08_local_example : let rs := [mkRegion 0 4 [1;2;3;4]; mkRegion 16 4 [5;6;7;8]] in
  regions_wf rs /\ in_region rs 1 17 (17 + 2) /\
  rc_mem_write rs 0 17 [0xa; 0xb] 0 0 = Ok ([mkRegion 0 4 [1;2;3;4]; mkRegion 16 4 [5;0xa;0xb;8]], []).
Proof.
  cbv zeta. split; [repeat constructor; lia|]. split; [|reflexivity].
  intros a Ha. assert (H : a = 17 \/ a = 18) by lia. destruct H as [-> | ->]; eexists; reflexivity.
Qed.

(** C09: a root-complex memory read issues legal requests covering exactly the
    range and returns the memory contents. *)
Theorem C09_rc_mem_read : forall rs mrrs attr tc respond M lo hi s addr len,
  0 <= mrrs -> 0 <= len -> find_region rs addr = None -> queues_empty (rq_queues s) ->
  completer_ok (128 * 2^mrrs) M lo hi respond -> lo <= addr -> addr + len <= hi ->
  exists s' ts, rc_mem_read rs mrrs attr tc respond s addr len = Ok (s', mem_load M addr len, ts) /\
    queues_empty (rq_queues s') /\ covers addr len ts /\
    Forall (fun t => mem_req_legal (128 * 2^mrrs) false t /\ from_transfer (mkId 0 0 0) attr tc t /\ tlp_check t = true /\ 0 <= t_tag t < 32) ts.
Proof. exact rc_read_remote_spec. Qed.
Print Assumptions C09_rc_mem_read.

(** The completer used in the examples: an endpoint with one 4 KiB BAR. *)
Definition ex_mem : list Z := map (fun j => Z.of_nat j mod 256) (seq 0 4096).
Definition ex_ep : endpoint := mkEp (mkId 1 0 0) 0 (regs_of [BMem32 12 0x80000000 false]) [EMem ex_mem].
Definition ex_respond (t : tlp) : list tlp := match ep_recv_read ex_ep t with Ok cs => cs | Err _ => [] end.
Definition ex_rq : rqstate := mkRq 0 (fun _ => []).
Lemma ex_window : window_at ex_ep 0 0x80000000 12.
Proof.
  apply (window_of_layout ex_ep [BMem32 12 0x80000000 false]); try reflexivity; try lia.
  - repeat constructor; lia.
  - vm_compute. split; [discriminate|reflexivity].
  - intros a Ha. change (2^12) with 4096 in Ha. split.
    + split; [split; lia|]. intros H. exfalso. lia.
    + cbn [spec_match negb andb bar_slots]. unfold in_window. change (2^12) with 4096.
      replace ((0x80000000 <=? a) && (a <? 0x80000000 + 4096)) with true; [reflexivity|].
      symmetry. apply andb_true_intro. split; [apply Z.leb_le|apply Z.ltb_lt]; lia.
Qed.
Lemma ex_contents : region_contents ex_ep 0 ex_mem.
Proof.
  split; [reflexivity|]. apply Forall_forall. intros x Hx. unfold ex_mem in Hx. apply in_map_iff in Hx.
  destruct Hx as (j & <- & _). unfold is_byte. apply Z.mod_pos_bound. lia.
Qed.
Lemma ex_completer mx : completer_ok mx (fun a => mem_of ex_mem (a - 0x80000000)) 0x80000000 (0x80000000 + 2^12) ex_respond.
Proof. apply (ep_completer_ok mx ex_ep 0 0x80000000 12); [exact ex_window|exact ex_contents|vm_compute; reflexivity|cbn; lia]. Qed.

Example C09_example : queues_empty (rq_queues ex_rq) /\
  completer_ok 128 (fun a => mem_of ex_mem (a - 0x80000000)) 0x80000000 (0x80000000 + 2^12) ex_respond /\
  (let! r := rc_mem_read [] 0 0 0 ex_respond ex_rq 0x80000ff3 5 in Ok (snd (fst r))) = Ok [0xf3; 0xf4; 0xf5; 0xf6; 0xf7].
Proof. split; [intros k; reflexivity|]. split; [apply ex_completer|vm_compute; reflexivity]. Qed.

(** C09: reading the root complex's own memory. *)
Theorem C09_rc_local_read : forall rs i mrrs attr tc respond s addr len, regions_wf rs -> 1 <= len ->
  in_region rs i addr (addr + len) ->
  rc_mem_read rs mrrs attr tc respond s addr len = Ok (s, mem_load (rc_mem rs) addr len, []).
Proof. exact rc_read_local_spec. Qed.
Print Assumptions C09_rc_local_read.
Example C09_local_example : let rs := [mkRegion 0 4 [1;2;3;4]; mkRegion 16 4 [5;6;7;8]] in
  regions_wf rs /\ in_region rs 1 17 (17 + 2) /\ rc_mem_read rs 0 0 0 (fun _ => []) ex_rq 17 2 = Ok (ex_rq, [6;7], []).
Proof.
  cbv zeta. split; [repeat constructor; lia|]. split; [|reflexivity].
  intros a Ha. assert (H : a = 17 \/ a = 18) by lia. destruct H as [-> | ->]; eexists; reflexivity.
Qed.

(** C10 is false: tb/pcie.py:1999 computes the byte enables of each request
    from the whole length instead of the chunk, so against a correct completer
    the read fails. *)
Theorem C10_function_mem_read_refuted : exists respond M lo hi addr len,
  (forall mx, completer_ok mx M lo hi respond) /\ lo <= addr /\ addr + len <= hi /\ 1 <= len /\
  function_mem_read true false (mkId 1 0 0) 0 0 0 respond ex_rq addr len = Err AssertionError.
Proof.
  exists ex_respond, (fun a => mem_of ex_mem (a - 0x80000000)), 0x80000000, (0x80000000 + 2^12), 0x80000000, 132.
  split; [apply ex_completer|]. split; [lia|]. split; [vm_compute; discriminate|]. split; [lia|]. vm_compute. reflexivity.
Qed.
Print Assumptions C10_function_mem_read_refuted.

(** It fails for every read that needs more than one request. *)
Theorem C10_function_mem_read_raises : forall rid ext mrrs attr tc respond M lo hi s addr len,
  0 <= mrrs -> (forall mx, completer_ok mx M lo hi respond) -> queues_empty (rq_queues s) -> 1 <= len ->
  Z.min (128 * 2^mrrs - addr mod 4) (4096 - addr mod 4096) < len -> lo <= addr -> addr + len <= hi ->
  function_mem_read true ext rid mrrs attr tc respond s addr len = Err AssertionError.
Proof. exact function_read_raises. Qed.
Print Assumptions C10_function_mem_read_raises.
Example C10_raises_example : (forall mx, completer_ok mx (fun a => mem_of ex_mem (a - 0x80000000)) 0x80000000 (0x80000000 + 2^12) ex_respond) /\
  Z.min (128 * 2^0 - 0x80000003 mod 4) (4096 - 0x80000003 mod 4096) < 126.
Proof. split; [exact ex_completer|vm_compute; reflexivity]. Qed.

(** C10 restricted to reads that fit one request (missing: longer reads, which
    raise). *)
Theorem C10_function_mem_read_partial : forall rid ext mrrs attr tc respond M lo hi s addr len,
  0 <= mrrs -> completer_ok (128 * 2^mrrs) M lo hi respond -> queues_empty (rq_queues s) -> 1 <= len ->
  len <= 128 * 2^mrrs - addr mod 4 -> len <= 4096 - addr mod 4096 -> lo <= addr -> addr + len <= hi ->
  exists s' t, function_mem_read true ext rid mrrs attr tc respond s addr len = Ok (s', Some (mem_load M addr len), [t]) /\
    queues_empty (rq_queues s') /\ mem_req_legal (128 * 2^mrrs) false t /\ from_transfer rid attr tc t /\
    (forall a, tlp_selects t a = true <-> addr <= a < addr + len).
Proof. exact function_read_single. Qed.
Print Assumptions C10_function_mem_read_partial.
Example C10_example : completer_ok 128 (fun a => mem_of ex_mem (a - 0x80000000)) 0x80000000 (0x80000000 + 2^12) ex_respond /\
  (let! r := function_mem_read true true (mkId 1 0 0) 0 0 0 ex_respond ex_rq 0x80000ffd 3 in Ok (snd (fst r))) = Ok (Some [0xfd; 0xfe; 0xff]).
Proof. split; [apply ex_completer|vm_compute; reflexivity]. Qed.

(** C11: completions of a memory read by an endpoint. *)
Theorem C11_endpoint_completions : forall e t i off l first count,
  match_bar (ep_bars e) (t_address t) false = Ok [(i, off)] ->
  nth (Z.to_nat i) (ep_regions e) ENone = EMem l -> Forall is_byte l -> 0 <= ep_mps e ->
  0 <= off -> off mod 4096 + 4 * t_length t <= 4096 -> off + 4 * t_length t <= zlen l ->
  1 <= t_length t -> t_address t mod 4 = 0 -> be_legal t -> selected_span t first count ->
  exists cs, ep_handle_mem_read e t = Ok cs /\
    completes t (ep_id e) (128 * 2^(ep_mps e)) first count (mem_load (mem_of l) off (4 * t_length t)) cs.
Proof. exact ep_completion_spec. Qed.
Print Assumptions C11_endpoint_completions.
Definition ex_read : tlp := fst (set_be 0x80000062 200 (set_fmt_type (0, 0) tlp0)).
Example C11_example : be_legal ex_read /\ match_bar (ep_bars ex_ep) (t_address ex_read) false = Ok [(0, 0x60)] /\
  selected_span ex_read 0x80000062 200 /\
  (let! cs := ep_handle_mem_read ex_ep ex_read in Ok (map (fun c => (t_byte_count c, t_lower_address c, t_length c)) cs)) =
    Ok [(200, 0x62, 8); (170, 0, 32); (42, 0, 11)].
Proof.
  assert (HB : be_legal ex_read) by (unfold be_legal; vm_compute; repeat split; discriminate || reflexivity || (intros; discriminate)).
  split; [exact HB|]. split; [vm_compute; reflexivity|]. split; [|vm_compute; reflexivity].
  assert (HL : 1 <= t_length ex_read) by (vm_compute; discriminate).
  assert (E : selected_span ex_read (t_address ex_read + get_first_be_offset ex_read) (get_be_byte_count ex_read)) by (exact (span_ok ex_read HB HL)).
  exact E.
Qed.

(** C11: completions of a memory read by the root complex. *)
Theorem C11_rc_completions : forall rs mps t i first count, regions_wf rs -> 0 <= mps -> 1 <= t_length t -> t_address t mod 4 = 0 ->
  t_address t mod 4096 + 4 * t_length t <= 4096 -> in_region rs i (t_address t) (t_address t + 4 * t_length t) ->
  be_legal t -> selected_span t first count ->
  exists cs, rc_handle_mem_read rs mps t = Ok cs /\
    completes t (mkId 0 0 0) (128 * 2^mps) first count (mem_load (rc_mem rs) (t_address t) (4 * t_length t)) cs.
Proof. exact rc_completion_spec. Qed.
Print Assumptions C11_rc_completions.
Example C11_rc_example : regions_wf [mkRegion 0 8 [1;2;3;4;5;6;7;8]] /\ in_region [mkRegion 0 8 [1;2;3;4;5;6;7;8]] 0 4 (4 + 4 * 1) /\
  (let! cs := rc_handle_mem_read [mkRegion 0 8 [1;2;3;4;5;6;7;8]] 0 (fst (set_be 5 2 (set_fmt_type (0, 0) tlp0))) in
   Ok (map (fun c => (t_byte_count c, t_lower_address c, t_data c)) cs)) = Ok [(2, 5, [0x08070605])].
Proof.
  split; [repeat constructor; lia|]. split; [|vm_compute; reflexivity].
  intros a Ha. exists (mkRegion 0 8 [1;2;3;4;5;6;7;8]). unfold find_region. cbn [r_base r_size].
  replace ((0 <=? a) && (a <? 0 + 8)) with true; [reflexivity|]. symmetry. apply andb_true_intro. split; [apply Z.leb_le|apply Z.ltb_lt]; lia.
Qed.

(** C11: a zero-length read (all byte enables clear) gets one completion of one
    DWORD with byte count 1. *)
Theorem C11_zero_length_read : forall e t i off l,
  match_bar (ep_bars e) (t_address t) false = Ok [(i, off)] ->
  nth (Z.to_nat i) (ep_regions e) ENone = EMem l -> Forall is_byte l -> 0 <= ep_mps e ->
  0 <= off -> off mod 4096 <= 4092 -> off + 4 <= zlen l -> t_length t = 1 -> t_address t mod 4 = 0 -> t_first_be t = 0 ->
  exists c, ep_handle_mem_read e t = Ok [c] /\ answers t (ep_id e) c /\ t_length c = 1 /\ t_byte_count c = 1 /\
    payload c = mem_load (mem_of l) off 4.
Proof. exact ep_zero_length_read. Qed.
Print Assumptions C11_zero_length_read.
Example C11_zero_example : let t := set_address 0x80000010 (set_length 1 (set_fmt_type (0, 0) tlp0)) in
  match_bar (ep_bars ex_ep) (t_address t) false = Ok [(0, 16)] /\ t_first_be t = 0 /\ t_length t = 1 /\
  (let! cs := ep_handle_mem_read ex_ep t in Ok (map (fun c => (t_byte_count c, t_data c)) cs)) = Ok [(1, [0x13121110])].
Proof. repeat split; vm_compute; reflexivity. Qed.

(** C12: an endpoint write stores exactly the enabled lanes, for every pair of
    byte-enable nibbles. *)
Theorem C12_endpoint_write_partial : forall e t i off l,
  match_bar (ep_bars e) (t_address t) false = Ok [(i, off)] ->
  0 <= i < zlen (ep_regions e) -> nth (Z.to_nat i) (ep_regions e) ENone = EMem l ->
  0 <= off -> off mod 4096 + 4 * t_length t <= 4096 -> off + 4 * t_length t <= zlen l ->
  1 <= t_length t -> zlen (t_data t) = t_length t -> Forall (fun w => 0 <= w < 2^32) (t_data t) ->
  exists e' l', ep_handle_mem_write e t = Ok e' /\
    ep_id e' = ep_id e /\ ep_mps e' = ep_mps e /\ ep_bars e' = ep_bars e /\
    zlen (ep_regions e') = zlen (ep_regions e) /\
    (forall j, j <> Z.to_nat i -> nth j (ep_regions e') ENone = nth j (ep_regions e) ENone) /\
    nth (Z.to_nat i) (ep_regions e') ENone = EMem l' /\ zlen l' = zlen l /\
    (forall a, mem_of l' a = write_effect off (t_length t) (t_first_be t) (t_last_be t) (payload t) (mem_of l) a) /\
    (Forall is_byte l -> Forall is_byte l').
Proof. exact ep_handle_mem_write_spec. Qed.
Print Assumptions C12_endpoint_write_partial.
Definition ex_write : tlp :=
  set_data [0x44332211; 0x88776655] (set_last_be 5 (set_first_be 10 (set_address 0x80000010 (set_length 2 (set_fmt_type (2, 0) tlp0))))).
Example C12_example : match_bar (ep_bars ex_ep) (t_address ex_write) false = Ok [(0, 16)] /\
  (let! e := ep_handle_mem_write ex_ep ex_write in
   Ok (match nth 0 (ep_regions e) ENone with EMem l => slice l 15 25 | _ => [] end)) =
  Ok [0x0f; 0x10; 0x22; 0x12; 0x44; 0x55; 0x15; 0x77; 0x17; 0x18].
Proof. split; vm_compute; reflexivity. Qed.

(** C12 is false for a write inside the BAR window but past the end of a region
    whose size is not a power of two: the bytearray slice assignment appends,
    so the region grows and the bytes land at the wrong offset. *)
Theorem C12_endpoint_write_refuted : exists e t i off l l',
  match_bar (ep_bars e) (t_address t) false = Ok [(i, off)] /\
  nth (Z.to_nat i) (ep_regions e) ENone = EMem l /\ mem_write_legal 128 t /\
  (let! e' := ep_handle_mem_write e t in Ok (nth (Z.to_nat i) (ep_regions e') ENone)) = Ok (EMem l') /\
  zlen l' <> zlen l /\
  exists a, mem_of l' a <> write_effect off (t_length t) (t_first_be t) (t_last_be t) (payload t) (mem_of l) a.
Proof.
  exists (mkEp (mkId 1 0 0) 0 (regs_of [BMem32 4 0x80000000 false]) [EMem [1;2;3;4;5]]),
    (set_data [0x44332211] (set_first_be 15 (set_address 0x80000008 (set_length 1 (set_fmt_type (2, 0) tlp0))))),
    0, 8, [1;2;3;4;5], [1;2;3;4;5;0x11;0x22;0x33;0x44].
  split; [vm_compute; reflexivity|]. split; [reflexivity|]. split.
  { split; [|split; [reflexivity|repeat constructor; lia]].
    unfold mem_req_legal, be_legal. cbn. repeat split; try lia. }
  split; [vm_compute; reflexivity|]. split; [vm_compute; discriminate|]. exists 5. vm_compute. discriminate.
Qed.
Print Assumptions C12_endpoint_write_refuted.

(** C12 for the root complex: writes through its mmap regions. *)
Theorem C12_rc_write : forall rs t i, regions_wf rs -> 1 <= t_length t ->
  t_address t mod 4096 + 4 * t_length t <= 4096 -> in_region rs i (t_address t) (t_address t + 4 * t_length t) ->
  zlen (t_data t) = t_length t -> Forall (fun w => 0 <= w < 2^32) (t_data t) ->
  exists rs', rc_handle_mem_write rs t = Ok rs' /\ same_map rs' rs /\ regions_wf rs' /\
    forall a, rc_mem rs' a = apply_write (rc_mem rs) t a.
Proof. exact rc_handle_mem_write_spec. Qed.
Print Assumptions C12_rc_write.
Example C12_rc_example : regions_wf [mkRegion 0 8 [1;2;3;4;5;6;7;8]] /\ in_region [mkRegion 0 8 [1;2;3;4;5;6;7;8]] 0 4 (4 + 4 * 1) /\
  rc_handle_mem_write [mkRegion 0 8 [1;2;3;4;5;6;7;8]]
    (set_data [0x44332211] (set_first_be 5 (set_address 4 (set_length 1 (set_fmt_type (2, 0) tlp0))))) = Ok [mkRegion 0 8 [1;2;3;4;0x11;6;0x33;8]].
Proof.
  split; [repeat constructor; lia|]. split; [|vm_compute; reflexivity].
  intros a Ha. exists (mkRegion 0 8 [1;2;3;4;5;6;7;8]). unfold find_region. cbn [r_base r_size].
  replace ((0 <=? a) && (a <? 0 + 8)) with true; [reflexivity|]. symmetry. apply andb_true_intro. split; [apply Z.leb_le|apply Z.ltb_lt]; lia.
Qed.

(** C13: every sequence of root-complex reads and writes inside an endpoint
    window behaves like a flat byte memory, and touches no other region. *)
Theorem C13_rc_endpoint_memory : forall mps mrrs i b k, 0 <= mps -> 0 <= mrrs -> forall ops e s l,
  window_at e i b k -> region_contents e i l -> zlen l = 2^k -> 0 <= ep_mps e -> queues_empty (rq_queues s) ->
  Forall (mop_in b (2^k)) ops ->
  exists e' s' l' outs, exec_mops mps mrrs (e, s) ops = Ok (e', s', outs) /\
    window_at e' i b k /\ region_contents e' i l' /\ zlen l' = 2^k /\ queues_empty (rq_queues s') /\
    (forall j, j <> Z.to_nat i -> nth j (ep_regions e') ENone = nth j (ep_regions e) ENone) /\
    forall m, (forall a, b <= a < b + 2^k -> m a = mem_of l (a - b)) ->
      outs = snd (spec_mops m ops) /\
      forall a, b <= a < b + 2^k -> mem_of l' (a - b) = fst (spec_mops m ops) a.
Proof. exact exec_mops_spec. Qed.
Print Assumptions C13_rc_endpoint_memory.
Definition ex_ops : list mop :=
  [MWrite 0x8000007e [0xa0; 0xa1; 0xa2; 0xa3; 0xa4]; MRead 0x8000007d 7; MWrite 0x80000080 [0xff]; MRead 0x8000007f 3].
Example C13_example : window_at ex_ep 0 0x80000000 12 /\ region_contents ex_ep 0 ex_mem /\ zlen ex_mem = 2^12 /\
  Forall (mop_in 0x80000000 (2^12)) ex_ops /\
  (let! r := exec_mops 0 0 (ex_ep, ex_rq) ex_ops in Ok (snd r)) =
  Ok [[]; [0x7d; 0xa0; 0xa1; 0xa2; 0xa3; 0xa4; 0x83]; []; [0xa1; 0xff; 0xa3]].
Proof.
  split; [exact ex_window|]. split; [exact ex_contents|]. split; [vm_compute; reflexivity|]. split; [|vm_compute; reflexivity].
  unfold ex_ops. repeat (constructor; [cbn; repeat split; try lia; repeat constructor; unfold is_byte; lia|]). constructor.
Qed.

(** C13: the window hypothesis follows from a BAR layout in which no other BAR
    decodes the range (register images and decode as in C14). *)
Theorem C13_window_of_layout : forall e L i b k, ep_bars e = regs_of L -> Forall bar_ok L -> 4 <= k -> b mod 2^k = 0 ->
  0 <= i < zlen (ep_regions e) ->
  (forall a, b <= a < b + 2^k -> addr_ok L a /\ spec_match 0 L a false = [(i, a - b)]) -> window_at e i b k.
Proof. exact window_of_layout. Qed.
Print Assumptions C13_window_of_layout.
Example C13_window_example : ep_bars ex_ep = regs_of [BMem32 12 0x80000000 false] /\
  spec_match 0 [BMem32 12 0x80000000 false] 0x80000fff false = [(0, 0xfff)].
Proof. split; reflexivity. Qed.
