(** Concrete trees and packets for C20-C23 and C47. *)
From Coq Require Import ZifyBool.
From Verif Require Import PyBase TlpModel BarModel BarSpec AllocModel AllocProofs EnumModel RouteModel EnumSpec RouteSpec RouteProofs.

Lemma alloc_even_find sizes : Forall (fun n => 0 < n /\ n mod 2 = 0) sizes ->
  exists s', alloc_all alloc_region alloc0 sizes = Ok s' /\ map snd (al_regions s') = sizes /\
    Forall (fun r => 0 <= fst r /\ fst r mod 2 ^ Z.log2_up (snd r) = 0) (al_regions s') /\
    ForallOrdPairs (fun r1 r2 => fst r1 + snd r1 <= fst r2) (al_regions s') /\
    (forall a b n, In (b, n) (al_regions s') -> b <= a < b + n -> find_region (al_regions s') a = Some (b, n, a - b)) /\
    (forall a, (forall b n, In (b, n) (al_regions s') -> ~ (b <= a < b + n)) -> find_region (al_regions s') a = None).
Proof.
  intros H. destruct (alloc_even sizes H) as (s' & E & M & A & D). exists s'. repeat (split; [assumption|]). split.
  - intros a b n HI Ha. eapply find_region_hit; eassumption.
  - intros a HN. now apply find_region_miss.
Qed.

(** A bridge with a two-function endpoint and a nested bridge below it, and an
    endpoint beside it. *)
Definition ex_ep (k : Z) : bars := regs_of [BMem64 k 0 true; BIo 8 0; BMem32 16 0 false; BMem64 20 0 false].
Definition ex_seg : list pfunc :=
  [PFunc 1 0 0x01 (regs_of [BNone; BNone]) bridge0
     [PFunc 0 0 0x80 (ex_ep 24) bridge0 []; PFunc 0 1 0x80 (ex_ep 20) bridge0 [];
      PFunc 3 0 0x01 (regs_of [BMem32 12 0 false; BNone]) bridge0 [PFunc 7 0 0x00 (ex_ep 30) bridge0 []]];
   PFunc 4 0 0x00 (ex_ep 12) bridge0 []].
Definition ex_base : limits := mkLim 0x80000000 0x80000000 0x8000000000000000.

Lemma br0_ok : br_ok bridge0.
Proof. unfold br_ok, is_byte. cbn. lia. Qed.
Ltac phys := unfold ex_ep; constructor; [repeat constructor; cbn; lia | reflexivity | exact br0_ok | repeat (apply Forall_cons || apply Forall_nil); try phys].
Lemma ex_seg_ok : Forall phys_ok ex_seg.
Proof. unfold ex_seg. repeat (apply Forall_cons || apply Forall_nil); phys. Qed.
Lemma ex_base_pos : positive ex_base.
Proof. unfold positive. cbn. lia. Qed.

Lemma ex_seg_runs : Forall phys_ok ex_seg /\ positive ex_base /\
  match enumerate 3 ex_seg ex_base bridge0 with Ok (n, items, s, host') => bounded s /\ length items = 2%nat /\ n_sub n = 2 | Err _ => False end.
Proof. split; [exact ex_seg_ok|]. split; [exact ex_base_pos|]. vm_compute. tauto. Qed.

Ltac busregs := constructor; [unfold is_byte; cbn; lia ..| repeat (apply Forall_cons || apply Forall_nil); try busregs].
Lemma ex_seg_buses : Forall bus_regs_ok ex_seg /\
  match enumerate 3 ex_seg ex_base bridge0 with
  | Ok (n, items, _, _) => secs (map skel items) = [1; 2] /\ map d_id (flats (map skel items)) =
      [(0, 1, 0); (1, 0, 0); (1, 0, 1); (1, 3, 0); (2, 7, 0); (0, 4, 0)]
  | Err _ => False end.
Proof. split; [unfold ex_seg; repeat (apply Forall_cons || apply Forall_nil); busregs|]. vm_compute. tauto. Qed.

Lemma ex_seg_delivery : Forall phys_ok ex_seg /\ positive ex_base /\
  match enumerate 3 ex_seg ex_base bridge0 with
  | Ok (n, items, s, host') => bounded s /\ l_mem s <= l_pf ex_base /\
      route_root host' items 0x80500004 false = Ok (Taken 2 7 0) /\ route_root host' items 0x80000110 true = Ok (Taken 1 0 1)
  | Err _ => False end.
Proof.
  split; [exact ex_seg_ok|]. split; [exact ex_base_pos|]. vm_compute. repeat split; try reflexivity. discriminate.
Qed.

(** Three 2 GiB 64-bit non-prefetchable BARs behind a bridge. *)
Lemma big_mem_witness : exists seg base n items s host' ds,
  Forall phys_ok seg /\ positive base /\ enumerate 3 seg base bridge0 = Ok (n, items, s, host') /\
  Forall2 hw_rep items ds /\ ~ windows_ok SMem ds.
Proof.
  set (big := fun a b c => [BMem64 31 a false; BMem64 31 b false; BMem64 31 c false]).
  set (r := mkBr 0 1 1 0 0x80000000 0x7fffffff 0 0x80000000 0xffffffff 0x8000000000000000 0x7fffffffffffffff).
  exists [PFunc 1 0 0x01 (regs_of [BNone; BNone]) bridge0 [PFunc 0 0 0 (regs_of (big 0 0 0)) bridge0 []]], ex_base.
  do 4 eexists. exists [DBr 0 1 0 [BNone; BNone] r [DEnd 1 0 0 (big 0x80000000 0x100000000 0x180000000)]].
  split; [repeat (apply Forall_cons || apply Forall_nil); subst big; cbv beta; phys|].
  split; [exact ex_base_pos|]. split; [vm_compute; reflexivity|]. split; [|].
  - constructor; [|constructor].
    apply (hw_br 0 1 0 _ [BNone; BNone] r).
    constructor; [|constructor].
    apply (hw_end 1 0 0 _ (big 0x80000000 0x100000000 0x180000000)).
  - intros (_ & _ & H & _). specialize (H _ r (or_introl eq_refl) eq_refl).
    rewrite Forall_forall in H. specialize (H (0x100000000, 2^31)).
    assert (HI : inside (win_base SMem r) (win_limit SMem r) (0x100000000, 2^31)) by (apply H; right; left; reflexivity).
    unfold inside in HI. cbn in HI. lia.
Qed.

Definition ex_regs : bridge_regs := mkBr 0 2 5 0 0x1000 0x1fff 0 0x80000000 0x800fffff 0x8000000000000000 0x80000000000fffff.
Definition ex_rd (a : Z) : tlp := set_address a (set_length 1 (set_fmt_type TLP_MEM_READ tlp0)).

Lemma bridge_drop_witness : exists own L r t,
  Forall bar_ok L /\ tlp_check t = true /\ kind_of t = KMem /\ t_fmt t = 0 /\
  belongs false own L r t = PElse /\ upstream_recv (mkBridge false own (regs_of L) r) t = ADrop.
Proof.
  exists (mkId 0 1 0), [BNone; BNone], ex_regs, (ex_rd 0x80100000). split; [repeat constructor|].
  repeat split; vm_compute; reflexivity.
Qed.

Lemma bridge_spec root own L r t : Forall bar_ok L -> 0 <= t_address t < 2^64 -> tlp_check t = true ->
  upstream_recv (mkBridge root own (regs_of L) r) t = spec_from_above root own L r t /\
  downstream_recv (mkBridge root own (regs_of L) r) t = spec_from_below root own L r t.
Proof. intros. split; [now apply upstream_spec|now apply downstream_spec]. Qed.

Lemma first_claim_0 ps t j : first_claim 0 ps t = Some j ->
  exists A p B, ps = A ++ p :: B /\ j = zlen A /\ claims p t = true /\ Forall (fun q => claims q t = false) A.
Proof. intros H. apply first_claim_some in H. exact H. Qed.

Lemma msg_id_witness : exists self ps t, kind_of t = KMsgId /\ tlp_check t = true /\
  Forall (fun p => Forall bar_ok (sp_ents p)) ps /\ first_claim 0 ps t = Some 1 /\
  route_downstream self (map peer_of ps) t = Ok ([0], None).
Proof.
  exists (mkId 1 0 0), [mkSpeer (mkId 1 0 0) [BNone; BNone] (Some ex_regs); mkSpeer (mkId 1 1 0) [BNone; BNone] None].
  exists (set_dest_id (mkId 1 1 0) (set_requester_id (mkId 3 0 0) (set_fmt_type TLP_MSG_ID tlp0))).
  split; [vm_compute; reflexivity|]. split; [vm_compute; reflexivity|]. split; [repeat constructor|].
  split; vm_compute; reflexivity.
Qed.

(** A 32-bit BAR answers for the second of two 2 GiB prefetchable BARs. *)
Lemma alias_delivery_witness : exists seg base n items s host' ds a t b z,
  Forall phys_ok seg /\ positive base /\ enumerate 2 seg base bridge0 = Ok (n, items, s, host') /\ bounded s /\
  Forall2 rep items ds /\ In t (flats ds) /\ In (b, z) (own_win SPf t) /\ b <= a < b + z /\
  route_root host' items a false <> Ok (let '(bus, dev, fn) := d_id t in Taken bus dev fn).
Proof.
  set (L1 := fun a => [BMem32 30 a false; BNone; BNone; BNone; BNone; BNone]).
  set (L2 := fun a b => [BMem64 31 a true; BMem64 31 b true; BNone; BNone]).
  exists [PFunc 1 0 0 (regs_of (L1 0)) bridge0 []; PFunc 2 0 0 (regs_of (L2 0 0)) bridge0 []], ex_base.
  do 4 eexists. exists [DEnd 0 1 0 (L1 0x80000000); DEnd 0 2 0 (L2 0x8000000000000000 0x8000000080000000)].
  exists 0x8000000080000000, (DEnd 0 2 0 (L2 0x8000000000000000 0x8000000080000000)), 0x8000000080000000, (2^31).
  split; [repeat (apply Forall_cons || apply Forall_nil); subst L1 L2; cbv beta; phys|].
  split; [exact ex_base_pos|]. split; [vm_compute; reflexivity|].
  split; [unfold bounded; cbn; lia|]. split; [|].
  - constructor; [|constructor; [|constructor]].
    + apply (rep_end 0 1 0 (L1 0x80000000)).
    + apply (rep_end 0 2 0 (L2 0x8000000000000000 0x8000000080000000)).
  - split; [right; left; reflexivity|]. split; [right; left; reflexivity|]. split; [lia|]. vm_compute. discriminate.
Qed.
