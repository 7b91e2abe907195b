(** Statements about whole runs of the segmented RAM interface. *)
From Verif Require Import PyBase PsdpModel PsdpSpec PsdpProofs PsdpProofs2 PsdpProofs3 PsdpProofs4.
From Coq Require Import ZifyBool ZifyNat.
Ltac Zify.zify_post_hook ::= idtac.

Lemma writes_safe : forall c size m evs, pcfg_ok c -> capacity c <= size -> Forall (write_ok c) (writes evs) ->
  exists s k, ws_run c size evs (ws0 m) = Ok s /\ (k <= length (writes evs))%nat /\
    s_done s = map (fun w => (fst w, zlen (snd w))) (firstn k (writes evs)) /\
    forall x, exists j, (k <= j <= length (writes evs))%nat /\ s_mem s x = stores (firstn j (writes evs)) m x.
Proof.
  intros c size m evs Hc Hsz Hw.
  destruct (run_spec evs c size m [] (ws0 m) Hc Hsz Hw (winv0 c m)) as (s & E & Hi). cbn [app] in Hi.
  destruct (winv_safe c m (writes evs) s Hc Hw Hi) as (k & H1 & H2 & H3). exists s, k. exact (conj E (conj H1 (conj H2 H3))).
Qed.

Lemma reads_safe : forall c size m evs, pcfg_ok c -> capacity c <= size -> (forall x, 0 <= x < capacity c -> is_byte (m x)) ->
  Forall (fun r => in_cap c (fst r) (snd r)) (reads evs) ->
  exists s k, rs_run c size m evs rs0 = Ok s /\ t_done s = map (answer m) (firstn k (reads evs)).
Proof.
  intros c size m evs Hc Hsz Hm Hw.
  destruct (rrun_spec evs c size m [] rs0 Hc Hsz Hm Hw (rinv0 c m)) as (s & E & Hi). cbn [app] in Hi.
  destruct (rinv_prefix c m (reads evs) s Hi) as (k & H). exists s, k. split; assumption.
Qed.

Lemma bit_length_pow : forall k, 0 <= k -> bit_length (2 ^ k - 1) = k.
Proof.
  intros k Hk. unfold bit_length. destruct (Z.eqb_spec (2 ^ k - 1) 0) as [E|E].
  - destruct (Z.eq_dec k 0); [lia|]. assert (2 ^ 1 <= 2 ^ k) by (apply Z.pow_le_mono_r; lia). lia.
  - assert (0 < 2 ^ k) by (apply Z.pow_pos_nonneg; lia). assert (k <> 0) by (intros ->; apply E; reflexivity).
    rewrite Z.abs_eq by lia. assert (Z.log2 (2 ^ k - 1) = k - 1); [|lia].
    replace (2 ^ k - 1) with (Z.pred (2 ^ k)) by lia. rewrite Z.log2_pred_pow2 by lia. lia.
Qed.

Lemma address_width_cap : forall c k, pcfg_ok c -> 0 <= k -> Z.of_nat (p_segs c) * p_sbl c = 2 ^ k -> 2 ^ p_address_width c = capacity c.
Proof.
  intros c k (H1 & H2 & H3) Hk E. unfold p_address_width, capacity. fold (p_n c) in *. rewrite (Z.mul_comm (p_sbl c)), E, bit_length_pow by lia.
  rewrite Z.pow_add_r by lia. ring.
Qed.

Lemma rejects : forall c k a n, pcfg_ok c -> 0 <= k -> Z.of_nat (p_segs c) * p_sbl c = 2 ^ k -> ~ in_cap c a n -> p_check c a n = Err ValueError.
Proof.
  intros c k a n Hc Hk E Hn. unfold p_check. rewrite (address_width_cap c k Hc Hk E). unfold in_cap in Hn.
  destruct ((a <? 0) || (capacity c <=? a)) eqn:G1; [reflexivity|]. destruct (n <? 0) eqn:G2; [reflexivity|].
  destruct (capacity c <? a + n) eqn:G3; [reflexivity|]. exfalso. apply Hn. lia.
Qed.

Lemma write_rejects : forall c k size a d s, pcfg_ok c -> 0 <= k -> Z.of_nat (p_segs c) * p_sbl c = 2 ^ k -> ~ in_cap c a (zlen d) ->
  ws_step c size s (WWrite a d) = Err ValueError.
Proof. intros c k size a d s Hc Hk E Hn. cbn [ws_step]. unfold ws_write. rewrite (rejects c k a (zlen d)) by assumption. reflexivity. Qed.

Lemma read_rejects : forall c k size m a n s, pcfg_ok c -> 0 <= k -> Z.of_nat (p_segs c) * p_sbl c = 2 ^ k -> ~ in_cap c a n ->
  rs_step c size m s (RRead a n) = Err ValueError.
Proof. intros c k size m a n s Hc Hk E Hn. cbn [rs_step]. unfold rs_read. rewrite (rejects c k a n) by assumption. reflexivity. Qed.

Definition r_state {A} (r : result A) (d : A) : A := match r with Ok s => s | Err _ => d end.

Lemma write_aliases :
  let s := r_state (ws_run (mkPcfg 3 1 1) 8 (WWrite 6 [0xAB] :: free_edges 5) (ws0 (fun _ => 0))) (ws0 (fun _ => 0)) in
  s_done s = [(6, 1)] /\ s_mem s 6 = 0 /\ s_mem s 0 = 0xAB.
Proof. vm_compute. repeat split. Qed.

Lemma read_aliases :
  t_done (r_state (rs_run (mkPcfg 3 1 1) 8 (fun x => x) (RRead 6 1 :: free_redges 6) rs0) rs0) = [(6, [0])].
Proof. vm_compute. reflexivity. Qed.
