(** Proofs for TLP routing by bridges and switches. *)
From Coq Require Import ZifyBool.
From Verif Require Import PyBase TlpModel BarModel BarSpec BarProofs EnumModel RouteModel RouteSpec EnumProofs3 EnumProofs4.

Lemma ft_kind t :
  (is_cfg0 t, is_cfg1 t, is_cpl t, is_msg_id t, is_io t, is_mem t,
   ft_in (t_fmt_type t) [TLP_MSG_TO_RC; TLP_MSG_DATA_TO_RC], ft_in (t_fmt_type t) [TLP_MSG_BCAST; TLP_MSG_DATA_BCAST],
   ft_in (t_fmt_type t) [TLP_MSG_LOCAL; TLP_MSG_DATA_LOCAL], ft_in (t_fmt_type t) [TLP_MSG_GATHER; TLP_MSG_DATA_GATHER]) =
  let k := kind_of t in
  (match k with KCfg0 => true | _ => false end, match k with KCfg1 => true | _ => false end, match k with KCpl => true | _ => false end,
   match k with KMsgId => true | _ => false end, match k with KIo => true | _ => false end, match k with KMem => true | _ => false end,
   match k with KMsgRc => true | _ => false end, match k with KMsgBcast => true | _ => false end, match k with KMsgLocal => true | _ => false end,
   match k with KMsgGather => true | _ => false end).
Proof.
  unfold is_cfg0, is_cfg1, is_cpl, is_msg_id, is_io, is_mem, kind_of, t_fmt_type. cbv zeta.
  set (f := t_fmt t). set (y := t_type t). clearbody f y.
  unfold ft_in, ft_eqb. cbn [existsb fst snd TLP_CFG_READ_0 TLP_CFG_WRITE_0 TLP_CFG_READ_1 TLP_CFG_WRITE_1 TLP_CPL TLP_CPL_DATA TLP_CPL_LOCKED TLP_CPL_LOCKED_DATA TLP_MSG_ID TLP_MSG_DATA_ID TLP_IO_READ TLP_IO_WRITE TLP_MEM_READ TLP_MEM_READ_64 TLP_MEM_WRITE TLP_MEM_WRITE_64 TLP_MSG_TO_RC TLP_MSG_DATA_TO_RC TLP_MSG_BCAST TLP_MSG_DATA_BCAST TLP_MSG_LOCAL TLP_MSG_DATA_LOCAL TLP_MSG_GATHER TLP_MSG_DATA_GATHER].
  assert (Hf : f = 0 \/ f = 1 \/ f = 2 \/ f = 3 \/ ((f =? 0) = false /\ (f =? 1) = false /\ (f =? 2) = false /\ (f =? 3) = false)) by lia.
  assert (Hy : y = 0 \/ y = 2 \/ y = 4 \/ y = 5 \/ y = 10 \/ y = 11 \/ y = 16 \/ y = 18 \/ y = 19 \/ y = 20 \/ y = 21 \/
    (y <> 0 /\ y <> 2 /\ y <> 4 /\ y <> 5 /\ y <> 10 /\ y <> 11 /\ y <> 16 /\ y <> 18 /\ y <> 19 /\ y <> 20 /\ y <> 21)) by lia.
  destruct Hy as [->|[->|[->|[->|[->|[->|[->|[->|[->|[->|[->|Hy]]]]]]]]]]];
    (destruct Hf as [->|[->|[->|[->|(F0 & F1 & F2 & F3)]]]]; try reflexivity; try (rewrite F0, F1, F2, F3; reflexivity)).
  all: assert (Hy' : (y =? 0) = false /\ (y =? 2) = false /\ (y =? 4) = false /\ (y =? 5) = false /\ (y =? 10) = false /\ (y =? 11) = false /\
      (y =? 16) = false /\ (y =? 18) = false /\ (y =? 19) = false /\ (y =? 20) = false /\ (y =? 21) = false) by lia.
  all: destruct Hy' as (Y0 & Y1 & Y2 & Y3 & Y4 & Y5 & Y6 & Y7 & Y8 & Y9 & Y10).
  all: change 0x00 with 0 in *; change 0x02 with 2 in *; change 0x04 with 4 in *; change 0x05 with 5 in *; change 0x0A with 10 in *; change 0x0B with 11 in *.
  all: rewrite ?Y0, ?Y1, ?Y2, ?Y3, ?Y4, ?Y5, ?Y6, ?Y7, ?Y8, ?Y9, ?Y10, ?andb_false_r; cbn [orb].
  all: clear - Hy; destruct y as [|p|p]; try lia; try reflexivity;
    do 5 (destruct p as [p|p|]; try reflexivity; try lia).
Qed.

Lemma ft_kinds t :
  is_cfg0 t = match kind_of t with KCfg0 => true | _ => false end /\ is_cfg1 t = match kind_of t with KCfg1 => true | _ => false end /\
  is_cpl t = match kind_of t with KCpl => true | _ => false end /\ is_msg_id t = match kind_of t with KMsgId => true | _ => false end /\
  is_io t = match kind_of t with KIo => true | _ => false end /\ is_mem t = match kind_of t with KMem => true | _ => false end /\
  ft_in (t_fmt_type t) [TLP_MSG_TO_RC; TLP_MSG_DATA_TO_RC] = match kind_of t with KMsgRc => true | _ => false end /\
  ft_in (t_fmt_type t) [TLP_MSG_BCAST; TLP_MSG_DATA_BCAST] = match kind_of t with KMsgBcast => true | _ => false end /\
  ft_in (t_fmt_type t) [TLP_MSG_LOCAL; TLP_MSG_DATA_LOCAL] = match kind_of t with KMsgLocal => true | _ => false end /\
  ft_in (t_fmt_type t) [TLP_MSG_GATHER; TLP_MSG_DATA_GATHER] = match kind_of t with KMsgGather => true | _ => false end.
Proof. pose proof (ft_kind t) as H. cbv zeta in H. repeat split; congruence. Qed.

Lemma if_bar_hits L a io (yes no : action) : Forall bar_ok L -> 0 <= a < 2^64 ->
  if_bar (regs_of L) a io yes no = if existsb (fun e => bar_hit e a io) L then yes else no.
Proof.
  intros HL Ha. unfold if_bar. destruct (match_hits L a io HL Ha) as (m & -> & Hm). fold (hits L a io).
  destruct (hits L a io); destruct m as [|x m]; try reflexivity.
  - destruct Hm as [Hm _]. specialize (Hm eq_refl). discriminate.
  - destruct Hm as [_ Hm]. specialize (Hm eq_refl). discriminate.
Qed.

Ltac caseb := repeat (match goal with |- context [if ?b then _ else _] => destruct b end; try reflexivity).

Lemma upstream_spec root own L r t : Forall bar_ok L -> 0 <= t_address t < 2^64 -> tlp_check t = true ->
  upstream_recv (mkBridge root own (regs_of L) r) t = spec_from_above root own L r t.
Proof.
  intros HL Ha Hc. unfold upstream_recv. rewrite Hc. cbn [negb g_root g_id g_bars g_regs].
  destruct (ft_kinds t) as (K1 & K2 & K3 & K4 & K5 & K6 & K7 & K8 & K9 & K10).
  rewrite K1, K2, K3, K4, K5, K6, K7, K8, K9, K10. clear K1 K3 K4 K5 K6 K7 K8 K9 K10.
  rewrite !if_bar_hits by assumption.
  unfold spec_from_above, belongs, by_id, in_bus_range, in_io_range, in_mem_range, win, id_eqb.
  destruct (kind_of t) eqn:EK; try reflexivity.
  - caseb.
  - caseb.
  - (* type 1 configuration *)
    destruct ((br_sec r <=? id_bus (t_dest_id t)) && (id_bus (t_dest_id t) <=? br_sub r)); [|reflexivity].
    destruct (id_bus (t_dest_id t) =? br_sec r); [|reflexivity]. f_equal.
    unfold is_cfg1, ft_in in K2. cbn [existsb] in K2. rewrite orb_false_r in K2. unfold to_type0, ft_eqb, t_fmt_type in *. cbn [fst snd TLP_CFG_READ_1 TLP_CFG_WRITE_1] in *.
    destruct ((t_fmt t =? 0) && (t_type t =? 5)) eqn:E1.
    + assert (t_fmt t = 0) as -> by lia. reflexivity.
    + cbn [orb] in K2. rewrite K2. assert (t_fmt t = 2) as -> by lia. reflexivity.
  - caseb.
  - caseb.
Qed.

Lemma downstream_spec root own L r t : Forall bar_ok L -> 0 <= t_address t < 2^64 -> tlp_check t = true ->
  downstream_recv (mkBridge root own (regs_of L) r) t = spec_from_below root own L r t.
Proof.
  intros HL Ha Hc. unfold downstream_recv. rewrite Hc. cbn [negb g_root g_id g_bars g_regs].
  destruct (ft_kinds t) as (K1 & K2 & K3 & K4 & K5 & K6 & K7 & K8 & K9 & K10).
  rewrite K1, K2, K3, K4, K5, K6, K7, K8, K9, K10. clear K1 K2 K3 K4 K5 K6 K7 K8 K9 K10.
  rewrite !if_bar_hits by assumption.
  unfold spec_from_below, belongs, by_id, for_root, in_bus_range, in_io_range, in_mem_range, win, id_eqb. cbv zeta.
  destruct (kind_of t); cbn [orb]; try reflexivity.
  - caseb.
  - caseb.
  - caseb.
  - caseb.
Qed.

(** Malformed packets are refused by an assertion on either side. *)
Lemma malformed g t : tlp_check t = false -> upstream_recv g t = ARaise AssertionError /\ downstream_recv g t = ARaise AssertionError.
Proof. intros H. unfold upstream_recv, downstream_recv. rewrite H. split; reflexivity. Qed.

(** * Switch *)
Definition claim_kind (t : tlp) : bool := match kind_of t with KMem | KIo | KCfg0 | KCfg1 | KCpl => true | _ => false end.

Lemma offer_claims p t : Forall bar_ok (sp_ents p) -> 0 <= t_address t < 2^64 -> claim_kind t = true ->
  offer (peer_of p) t = if claims p t then DStop else DNo.
Proof.
  intros HL Ha HK0. unfold offer.
  destruct (ft_kinds t) as (K1 & K2 & K3 & K4 & K5 & K6 & K7 & K8 & K9 & K10).
  rewrite K1, K2, K3, K4, K5, K6, K7, K8, K9, K10. clear K1 K2 K3 K4 K5 K6 K7 K8 K9 K10.
  unfold claim_kind in HK0. unfold claims, peer_of, peer_bar, peer_br, behind, id_eqb, same_id. cbn [q_id q_bars q_bridge].
  destruct (kind_of t); try discriminate.
  - destruct (match_hits _ (t_address t) false HL Ha) as (m & -> & Hm). fold (hits (sp_ents p) (t_address t) false).
    destruct (hits _ _ _); destruct m as [|x m]; cbn [orb].
    + destruct Hm as [Hm _]. specialize (Hm eq_refl). discriminate.
    + reflexivity.
    + reflexivity.
    + destruct Hm as [_ Hm]. specialize (Hm eq_refl). discriminate.
  - destruct (match_hits _ (t_address t) true HL Ha) as (m & -> & Hm). fold (hits (sp_ents p) (t_address t) true).
    destruct (hits _ _ _); destruct m as [|x m]; cbn [orb].
    + destruct Hm as [Hm _]. specialize (Hm eq_refl). discriminate.
    + reflexivity.
    + reflexivity.
    + destruct Hm as [_ Hm]. specialize (Hm eq_refl). discriminate.
  - reflexivity.
  - reflexivity.
  - destruct (_ && _ && _); reflexivity.
Qed.

Lemma offer_all_claims ps t : 0 <= t_address t < 2^64 -> claim_kind t = true -> Forall (fun p => Forall bar_ok (sp_ents p)) ps ->
  forall i, offer_all i (map peer_of ps) t false = match first_claim i ps t with Some j => Ok ([j], false) | None => Ok ([], true) end.
Proof.
  intros Ha HK HP. induction HP as [|p ps Hp HP IH]; intros i; cbn [map offer_all first_claim]; [reflexivity|].
  rewrite offer_claims by assumption. destruct (claims p t); [reflexivity|]. apply IH.
Qed.

Lemma switch_spec self ps t : 0 <= t_address t < 2^64 -> claim_kind t = true -> tlp_check t = true ->
  Forall (fun p => Forall bar_ok (sp_ents p)) ps ->
  match first_claim 0 ps t with
  | Some j => route_downstream self (map peer_of ps) t = Ok ([j], None)
  | None => exists c, route_downstream self (map peer_of ps) t = Ok ([], Some c) /\ is_ur_for self t c
  end.
Proof.
  intros Ha HK Hc HP. unfold route_downstream. rewrite Hc. cbn [negb]. rewrite offer_all_claims by assumption.
  destruct (first_claim 0 ps t); cbn [bind]; [reflexivity|]. eexists. split; [reflexivity|].
  unfold is_ur_for. repeat split; reflexivity.
Qed.

Lemma first_claim_some ps t : forall i j, first_claim i ps t = Some j ->
  exists A p B, ps = A ++ p :: B /\ j = i + zlen A /\ claims p t = true /\ Forall (fun q => claims q t = false) A.
Proof.
  induction ps as [|p ps IH]; intros i j H; cbn [first_claim] in H; [discriminate|]. destruct (claims p t) eqn:E.
  - injection H as <-. exists [], p, ps. repeat split; [change (zlen (@nil speer)) with 0; lia|assumption|constructor].
  - apply IH in H. destruct H as (A & q & B & -> & -> & Hq & HA). exists (p :: A), q, B. repeat split; auto.
    unfold zlen. cbn [length]. lia.
Qed.
Lemma first_claim_none ps t : forall i, first_claim i ps t = None -> Forall (fun q => claims q t = false) ps.
Proof.
  induction ps as [|p ps IH]; intros i H; cbn [first_claim] in H; [constructor|]. destruct (claims p t) eqn:E; [discriminate|].
  constructor; eauto.
Qed.

(** Broadcast messages reach every peer. *)
Lemma switch_bcast self ps t : kind_of t = KMsgBcast -> tlp_check t = true -> ps <> [] ->
  route_downstream self ps t = Ok (map Z.of_nat (seq 0 (length ps)), None).
Proof.
  intros HK Hc Hne. unfold route_downstream. rewrite Hc. cbn [negb].
  assert (HO : forall p, offer p t = DCopy).
  { intros p. unfold offer. destruct (ft_kinds t) as (K1 & K2 & K3 & K4 & K5 & K6 & K7 & K8 & K9 & K10).
    rewrite K1, K2, K3, K4, K5, K6, K7, K8, HK. reflexivity. }
  assert (HA : forall ps n, offer_all (Z.of_nat n) ps t true = Ok (map Z.of_nat (seq n (length ps)), false)).
  { clear ps Hne. induction ps as [|p ps IH]; intros n; cbn [offer_all length seq map]; [reflexivity|]. rewrite HO.
    replace (Z.of_nat n + 1) with (Z.of_nat (S n)) by lia. rewrite IH. reflexivity. }
  destruct ps as [|p ps]; [congruence|]. cbn [offer_all]. rewrite HO. change (0 + 1) with (Z.of_nat 1). rewrite HA. reflexivity.
Qed.
