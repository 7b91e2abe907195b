(** Property theorems C20-C23 and C47 (allocation, enumeration, routing). *)
From Verif Require Import PyBase TlpModel BarModel BarSpec AllocModel AllocProofs EnumModel RouteModel EnumSpec RouteSpec
  EnumProofs4 EnumProofs5 RouteProofs EnumWitness.

(** C20, full statement: regions handed out for any sequence of sizes are
    naturally aligned and pairwise disjoint.  False: the limit kept by the
    allocator is the last address of the region, not one past it. *)
Theorem C20_alloc_refuted : exists sizes s, Forall (fun n => 0 < n) sizes /\
  alloc_all alloc_region alloc0 sizes = Ok s /\ ~ ForallOrdPairs (fun r1 r2 => fst r1 + snd r1 <= fst r2) (al_regions s).
Proof.
  exists [5; 4], (mkAlloc 7 [(0, 5); (4, 4)]). split; [repeat constructor|]. split; [vm_compute; reflexivity|].
  cbn [al_regions]. intros H. inversion H as [|? ? H1 _]; subst. inversion H1 as [|? ? H2 _]; subst. cbn in H2. lia.
Qed.
Print Assumptions C20_alloc_refuted.

(** C20: for any sequence of positive sizes every region is naturally aligned,
    and two regions share at most one byte (the last of the earlier one). *)
Theorem C20_alloc_any_partial : forall sizes, Forall (fun n => 0 < n) sizes ->
  exists s', alloc_all alloc_region alloc0 sizes = Ok s' /\ map snd (al_regions s') = sizes /\
    Forall (fun r => 0 <= fst r /\ fst r mod 2 ^ Z.log2_up (snd r) = 0) (al_regions s') /\
    ForallOrdPairs (fun r1 r2 => fst r1 + snd r1 - 1 <= fst r2) (al_regions s').
Proof. exact alloc_any. Qed.
Print Assumptions C20_alloc_any_partial.

(** C20: when all sizes are even the regions are pairwise disjoint, and the
    lookup finds the right region for every address.  Missing: odd sizes. *)
Theorem C20_alloc_partial : forall sizes, Forall (fun n => 0 < n /\ n mod 2 = 0) sizes ->
  exists s', alloc_all alloc_region alloc0 sizes = Ok s' /\ map snd (al_regions s') = sizes /\
    Forall (fun r => 0 <= fst r /\ fst r mod 2 ^ Z.log2_up (snd r) = 0) (al_regions s') /\
    ForallOrdPairs (fun r1 r2 => fst r1 + snd r1 <= fst r2) (al_regions s') /\
    (forall a b n, In (b, n) (al_regions s') -> b <= a < b + n -> find_region (al_regions s') a = Some (b, n, a - b)) /\
    (forall a, (forall b n, In (b, n) (al_regions s') -> ~ (b <= a < b + n)) -> find_region (al_regions s') a = None).
Proof. exact alloc_even_find. Qed.
Print Assumptions C20_alloc_partial.
Example C20_example : Forall (fun n => 0 < n /\ n mod 2 = 0) [4096; 6; 1024; 2; 65536] /\
  alloc_all alloc_region alloc0 [4096; 6; 1024; 2; 65536] =
  Ok (mkAlloc 0x1ffff [(0, 4096); (4096, 6); (0x1400, 1024); (0x1800, 2); (0x10000, 65536)]).
Proof. split; [repeat constructor|vm_compute; reflexivity]. Qed.

(** C20: the I/O allocator is the same function of its own state. *)
Theorem C20_alloc_io_partial : forall sizes, Forall (fun n => 0 < n /\ n mod 2 = 0) sizes ->
  exists s', alloc_all alloc_io_region alloc0 sizes = Ok s' /\ map snd (al_regions s') = sizes /\
    Forall (fun r => 0 <= fst r /\ fst r mod 2 ^ Z.log2_up (snd r) = 0) (al_regions s') /\
    ForallOrdPairs (fun r1 r2 => fst r1 + snd r1 <= fst r2) (al_regions s').
Proof. exact alloc_even. Qed.
Print Assumptions C20_alloc_io_partial.

(** C21, full statement: for every tree of functions, every enumeration leaves
    the BARs naturally aligned, pairwise disjoint, and inside the windows of
    every bridge above, with disjoint sibling windows, in each of the three
    address spaces.  False: memory space is allocated past 4 GiB for 64-bit
    non-prefetchable BARs but bridges only hold 32 bits of it. *)
Theorem C21_windows_refuted : exists seg base n items s host' ds,
  Forall phys_ok seg /\ positive base /\ enumerate 3 seg base bridge0 = Ok (n, items, s, host') /\
  Forall2 hw_rep items ds /\ ~ windows_ok SMem ds.
Proof. exact big_mem_witness. Qed.
Print Assumptions C21_windows_refuted.

(** C21: holds for every finite tree (any BAR kinds and sizes, any nesting)
    when the cursors after enumeration still fit the window registers.
    Missing: memory space running past 4 GiB (refuted above). *)
Theorem C21_windows_partial : forall fuel seg base host n items s host', Forall phys_ok seg -> positive base ->
  enumerate fuel seg base host = Ok (n, items, s, host') -> bounded s ->
  exists ds, Forall2 rep items ds /\ found seg 0 ds /\
    (forall d, In d (flats ds) -> Forall bar_ok (d_ents d)) /\
    (forall sp, windows_ok sp ds /\
      Forall (fun w => cur sp base <= fst w /\ fst w + snd w <= cur sp s) (tree_win sp ds)).
Proof. exact enum_windows. Qed.
Print Assumptions C21_windows_partial.
Example C21_example : Forall phys_ok ex_seg /\ positive ex_base /\
  match enumerate 3 ex_seg ex_base bridge0 with Ok (n, items, s, host') => bounded s /\ length items = 2%nat /\ n_sub n = 2 | Err _ => False end.
Proof. exact ex_seg_runs. Qed.

(** C22: bus numbers are distinct, nested and disjoint between siblings, every
    visible function has exactly one entry, and no two entries share an ID. *)
Theorem C22_bus_numbers : forall fuel seg base host n items s host', Forall bus_regs_ok seg ->
  enumerate fuel seg base host = Ok (n, items, s, host') ->
  let ds := map skel items in
  covers seg 0 ds /\ buses_ok 0 (n_sub n) ds /\ 0 <= n_sub n <= 255 /\ NoDup (map d_id (flats ds)).
Proof. exact enum_buses. Qed.
Print Assumptions C22_bus_numbers.
Example C22_example : Forall bus_regs_ok ex_seg /\
  match enumerate 3 ex_seg ex_base bridge0 with
  | Ok (n, items, _, _) => secs (map skel items) = [1; 2] /\ map d_id (flats (map skel items)) =
      [(0, 1, 0); (1, 0, 0); (1, 0, 1); (1, 3, 0); (2, 7, 0); (0, 4, 0)]
  | Err _ => False end.
Proof. exact ex_seg_buses. Qed.

(** C23, full statement: what a bridge does with a packet arriving on its
    primary and on its secondary side, for every packet; packets nobody claims
    are answered with "unsupported request".  The last part is false: a bridge
    drops them without an answer. *)
Theorem C23_unsupported_request_refuted : exists own L r t,
  Forall bar_ok L /\ tlp_check t = true /\ kind_of t = KMem /\ t_fmt t = 0 /\
  belongs false own L r t = PElse /\ upstream_recv (mkBridge false own (regs_of L) r) t = ADrop.
Proof. exact bridge_drop_witness. Qed.
Print Assumptions C23_unsupported_request_refuted.

(** C23: forwarding is exactly by window and bus range, on both sides, for
    every packet and every configuration.  Missing: the unsupported request
    answer (refuted above for bridges; proved for switches below). *)
Theorem C23_bridge_partial : forall root own L r t, Forall bar_ok L -> 0 <= t_address t < 2^64 ->
  tlp_check t = true ->
  upstream_recv (mkBridge root own (regs_of L) r) t = spec_from_above root own L r t /\
  downstream_recv (mkBridge root own (regs_of L) r) t = spec_from_below root own L r t.
Proof. exact bridge_spec. Qed.
Print Assumptions C23_bridge_partial.
Example C23_example :
  tlp_check (ex_rd 0x80000010) = true /\
  upstream_recv (mkBridge false (mkId 0 1 0) (regs_of [BMem32 12 0x90000000 false; BNone]) ex_regs) (ex_rd 0x80000010) = ADown (ex_rd 0x80000010) /\
  downstream_recv (mkBridge false (mkId 0 1 0) (regs_of [BMem32 12 0x90000000 false; BNone]) ex_regs) (ex_rd 0x80100000) = AUp (ex_rd 0x80100000) /\
  upstream_recv (mkBridge false (mkId 0 1 0) (regs_of [BMem32 12 0x90000000 false; BNone]) ex_regs) (ex_rd 0x90000ffc) = AHandle.
Proof. repeat split; vm_compute; reflexivity. Qed.

(** C23: the internal bus of a switch (and of the root complex) delivers a
    memory, I/O, configuration or completion packet to the first peer that
    claims it, and otherwise answers unsupported request. *)
Theorem C23_switch_partial : forall self ps t, 0 <= t_address t < 2^64 -> claim_kind t = true -> tlp_check t = true ->
  Forall (fun p => Forall bar_ok (sp_ents p)) ps ->
  match first_claim 0 ps t with
  | Some j => route_downstream self (map peer_of ps) t = Ok ([j], None)
  | None => exists c, route_downstream self (map peer_of ps) t = Ok ([], Some c) /\ is_ur_for self t c
  end.
Proof. exact switch_spec. Qed.
Print Assumptions C23_switch_partial.
Theorem C23_first_claim : forall ps t j, first_claim 0 ps t = Some j ->
  exists A p B, ps = A ++ p :: B /\ j = zlen A /\ claims p t = true /\ Forall (fun q => claims q t = false) A.
Proof. exact first_claim_0. Qed.
Print Assumptions C23_first_claim.
Definition ex_peers : list speer :=
  [mkSpeer (mkId 1 0 0) [BNone; BNone] (Some ex_regs); mkSpeer (mkId 1 1 0) [BMem32 12 0x90000000 false; BNone] None].
Example C23_switch_example : claim_kind (ex_rd 0x90000004) = true /\ tlp_check (ex_rd 0x90000004) = true /\
  first_claim 0 ex_peers (ex_rd 0x90000004) = Some 1 /\ first_claim 0 ex_peers (ex_rd 0x90001000) = None /\
  Forall (fun p => Forall bar_ok (sp_ents p)) ex_peers.
Proof.
  do 4 (split; [vm_compute; reflexivity|]). unfold ex_peers. repeat (apply Forall_cons || apply Forall_nil); cbn; lia.
Qed.

(** C23: broadcast messages reach every peer of a switch. *)
Theorem C23_broadcast : forall self ps t, kind_of t = KMsgBcast -> tlp_check t = true -> ps <> [] ->
  route_downstream self ps t = Ok (map Z.of_nat (seq 0 (length ps)), None).
Proof. exact switch_bcast. Qed.
Print Assumptions C23_broadcast.
Example C23_broadcast_example : let t := set_fmt_type TLP_MSG_BCAST tlp0 in kind_of t = KMsgBcast /\ tlp_check t = true.
Proof. split; vm_compute; reflexivity. Qed.

(** C23 is false for ID routed messages in a switch: the bus of the sender is
    compared with the bridge's range instead of the bus of the destination. *)
Theorem C23_id_message_refuted : exists self ps t, kind_of t = KMsgId /\ tlp_check t = true /\
  Forall (fun p => Forall bar_ok (sp_ents p)) ps /\ first_claim 0 ps t = Some 1 /\
  route_downstream self (map peer_of ps) t = Ok ([0], None).
Proof. exact msg_id_witness. Qed.
Print Assumptions C23_id_message_refuted.

(** C47: after enumeration every address of every BAR reaches the function that
    owns it, and an address in no BAR reaches no function.  Full statement: for
    all addresses.  False because a 32-bit BAR answers 64-bit addresses with
    the same low half. *)
Theorem C47_delivery_refuted : exists seg base n items s host' ds a t b z,
  Forall phys_ok seg /\ positive base /\ enumerate 2 seg base bridge0 = Ok (n, items, s, host') /\ bounded s /\
  Forall2 rep items ds /\ In t (flats ds) /\ In (b, z) (own_win SPf t) /\ b <= a < b + z /\
  route_root host' items a false <> Ok (let '(bus, dev, fn) := d_id t in Taken bus dev fn).
Proof. exact alias_delivery_witness. Qed.
Print Assumptions C47_delivery_refuted.

(** C47: holds for every tree and every address of I/O and memory space, and
    for every prefetchable address that no 32-bit BAR aliases. *)
Theorem C47_delivery_partial : forall fuel seg base host n items s host', Forall phys_ok seg -> positive base ->
  enumerate fuel seg base host = Ok (n, items, s, host') -> bounded s -> l_mem s <= l_pf base ->
  exists ds, Forall2 rep items ds /\ found seg 0 ds /\
    (forall sp a, match sp with SPf => no_alias a ds | _ => True end ->
     cur sp base <= a < cur sp s ->
     let io := match sp with SIo => true | _ => false end in
     (forall t b z, In t (flats ds) -> In (b, z) (own_win sp t) -> b <= a < b + z ->
        route_root host' items a io = Ok (let '(bus, dev, fn) := d_id t in Taken bus dev fn)) /\
     ((forall b z, In (b, z) (tree_win sp ds) -> ~ (b <= a < b + z)) -> route_root host' items a io = Ok Lost)).
Proof. exact enum_delivery. Qed.
Print Assumptions C47_delivery_partial.
Example C47_example : Forall phys_ok ex_seg /\ positive ex_base /\
  match enumerate 3 ex_seg ex_base bridge0 with
  | Ok (n, items, s, host') => bounded s /\ l_mem s <= l_pf ex_base /\
      route_root host' items 0x80500004 false = Ok (Taken 2 7 0) /\ route_root host' items 0x80000110 true = Ok (Taken 1 0 1)
  | Err _ => False end.
Proof. exact ex_seg_delivery. Qed.
