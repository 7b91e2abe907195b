(** Proofs about the arbitrating multiplexers (C85, C86): the three modules. *)
From Verif Require Import PyBase BitLemmas BarProofs RtlModel RtlSpec RtlProofs RtlProofs2 RtlMuxModel RtlMuxSpec RtlMuxProofs RtlMuxProofs2.

Lemma merged_ext {S M} n ul (g h : Z -> bool -> S -> M) tr src : (forall q l d, 0 <= q < n -> g q l d = h q l d) -> merged n ul g tr src -> merged n ul h tr src.
Proof.
  intros E [A B C D]. split; [assumption| |assumption|assumption]. rewrite B. apply map_ext_in. intros x Hx. apply E. rewrite Forall_forall in A. now apply A.
Qed.

Section run.
Context {S M : Type}.
Variable n : Z.
Variables lsb ul : bool.
Variable route : Z -> bool -> S -> M.
Variable out : M -> M.
Hypothesis Hn : 2 <= n.

Lemma mux_delivered ds dm l f N q : Forall (mux_in_ok n) l -> (forall k, mux_in_ok n (f k)) -> no_rst f -> sink_fair f -> 0 <= q < n ->
  sources_fair n ul (fun k => mux_trace n true lsb ul route out (mux0 ds dm) (inputs l f k)) f N ->
  forall k, exists k' src, merged n ul (fun q l d => out (route q l d)) (mux_trace n true lsb ul route out (mux0 ds dm) (inputs l f k')) src /\
    prefix (accepted q (mux_trace n true lsb ul route out (mux0 ds dm) (inputs l f k))) (from q src).
Proof.
  intros Fl Ff Hr Hs Hq Hsrc k. destruct (inv_run n true lsb ul route out Hn l _ _ _ (inv0 n true lsb ul route out Hn ds dm) Fl) as [mv I]. cbn [app] in I.
  set (s0 := fold_left _ l _) in I. set (tr0 := mux_trace _ _ _ _ _ _ _ _) in I.
  assert (E : forall k, TR n lsb ul route out s0 tr0 f k = mux_trace n true lsb ul route out (mux0 ds dm) (inputs l f k) /\ st n lsb ul route s0 f k = fold_left (mux_step n true lsb ul route) (inputs l f k) (mux0 ds dm)).
  { induction k0 as [|k0 [IH1 IH2]].
    - unfold inputs. cbn [TR st seq map]. rewrite app_nil_r. split; reflexivity.
    - cbn [TR st]. rewrite IH1, IH2. unfold inputs in *. rewrite seq_S, map_app. cbn [Nat.add map]. rewrite app_assoc. split; [rewrite (trace_app n true lsb ul route out _ [f k0]); reflexivity|rewrite (fold_left_app _ _ [f k0]); reflexivity]. }
  assert (SF : sources_fair n ul (TR n lsb ul route out s0 tr0 f) f N).
  { destruct Hsrc as [A B]. split.
    - intros q' k' a b Hq'. rewrite (proj1 (E k')). now apply A.
    - intros q' k' Hq'. rewrite (proj1 (E k')). now apply B. }
  destruct (delivery n lsb ul route out Hn s0 tr0 mv I f Ff Hr Hs N SF q Hq k) as (k' & src & MG & P).
  exists k', src. rewrite <- !(proj1 (E _)). auto.
Qed.

Lemma unf_false (a : list (bool * S)) : unfinished false a = [].
Proof. destruct a as [|x a] using rev_ind; [reflexivity|]. now rewrite unf_snoc. Qed.
End run.

Lemma fair_false {S M} n (tr : nat -> list (mux_ev S M)) f : sources_fair n false tr f 0.
Proof. split; intros; rewrite unf_false in *; [cbn; lia|congruence]. Qed.

(* ---------- fields with the port number on top ---------- *)
Lemma top_field n W v q : 2 <= n -> Z.log2_up n <= W -> 0 <= q < n -> set_top W (clog2 n) (v mod 2 ^ W) q = q * 2 ^ (W - Z.log2_up n) + v mod 2 ^ (W - Z.log2_up n).
Proof.
  intros Hn HW Hq. unfold set_top, clog2. set (c := Z.log2_up n) in *. pose proof (Z.log2_up_nonneg n). pose proof (Z.log2_up_spec n ltac:(lia)) as LS. fold c in LS, H.
  assert (E : 2 ^ W = 2 ^ (W - c) * 2 ^ c) by (rewrite <- Z.pow_add_r by lia; f_equal; lia).
  rewrite E, Z.rem_mul_r by (try apply Z.pow_nonzero; try apply Z.pow_pos_nonneg; lia). rewrite (Z.mul_comm (2 ^ (W - c)) (_ mod _)), Z.mod_add by (apply Z.pow_nonzero; lia).
  rewrite Zmod_mod, (Z.mod_small q) by lia. lia.
Qed.
Lemma gt1 n : 2 <= n -> (n >? 1) = true. Proof. lia. Qed.

Lemma ax_image_ok p q last b : ax_ok p -> 0 <= q < xp_n p -> ax_drive p (ax_route p q last b) = ax_image p q last b.
Proof.
  intros (Hn & HW & HU) Hq. unfold ax_drive, ax_route, ax_image. cbn [ao_data ao_keep ao_last ao_id ao_dest ao_user]. rewrite (gt1 _ Hn), andb_true_r. f_equal.
  - now destruct (xp_last_en p).
  - destruct (xp_id_en p); [|reflexivity]. cbn [negb]. destruct (xp_update p); [|reflexivity]. apply top_field; auto.
Qed.
Lemma pd_image_ok p q (last : bool) d : pd_ok p -> 0 <= q < pp_n p -> pd_route p q last d = pd_image p q d.
Proof. intros (Hn & H1 & H2) Hq. unfold pd_route, pd_image. rewrite (gt1 _ Hn), top_field by lia. reflexivity. Qed.
Lemma dd_image_ok p q (last : bool) d : dd_ok p -> 0 <= q < dp_n p -> dd_drive p (dd_route p q last d) = dd_image p q d.
Proof.
  intros (Hn & H1 & H2 & H3 & H4) Hq. unfold dd_drive, dd_route, dd_image. cbn [dd_dma dd_sel dd_ram dd_imm dd_imm_en dd_len dd_tag]. rewrite (gt1 _ Hn), andb_true_r, (top_field (dp_n p) (dp_mtag p)) by lia. f_equal.
  - destruct (dp_ext p); [|reflexivity]. apply top_field; auto.
Qed.

(* ---------- axis_arb_mux ---------- *)
Lemma ax_merge p l : ax_ok p -> Forall (mux_in_ok (xp_n p)) l -> exists src, merged (xp_n p) (xp_last_en p) (ax_image p) (ax_trace p l) src.
Proof.
  intros OK F. destruct (mux_merged (xp_n p) (xp_rr p) (xp_lsb p) (xp_last_en p) (ax_route p) (ax_drive p) (proj1 OK) (mkAb 0 0 0 0 0) (mkAo 0 0 false 0 0 0) l F) as [src H]. exists src.
  eapply merged_ext; [|exact H]. intros. now apply ax_image_ok.
Qed.
Lemma ax_stable p l : ax_ok p -> Forall (mux_in_ok (xp_n p)) l -> stable (ax_trace p l).
Proof. intros OK F. apply mux_stable; [apply OK|assumption]. Qed.
Lemma ax_delivered p l f N q k : ax_ok p -> xp_rr p = true -> Forall (mux_in_ok (xp_n p)) l -> (forall k, mux_in_ok (xp_n p) (f k)) -> no_rst f -> sink_fair f ->
  sources_fair (xp_n p) (xp_last_en p) (fun k => ax_trace p (inputs l f k)) f N -> 0 <= q < xp_n p ->
  exists k' src, merged (xp_n p) (xp_last_en p) (ax_image p) (ax_trace p (inputs l f k')) src /\ prefix (accepted q (ax_trace p (inputs l f k))) (from q src).
Proof.
  intros OK RR Fl Ff Hr Hs Hsrc Hq. unfold ax_trace in *. rewrite RR in *.
  destruct (mux_delivered (xp_n p) (xp_lsb p) (xp_last_en p) (ax_route p) (ax_drive p) (proj1 OK) _ _ l f N q Fl Ff Hr Hs Hq Hsrc k) as (k' & src & MG & P).
  exists k', src. split; [|exact P]. eapply merged_ext; [|exact MG]. intros. now apply ax_image_ok.
Qed.

(* ---------- pcie_axi_dma_desc_mux ---------- *)
Lemma pd_merge p l : pd_ok p -> Forall (mux_in_ok (pp_n p)) l -> exists src, merged (pp_n p) false (fun q _ d => pd_image p q d) (pd_trace p l) src.
Proof.
  intros OK F. destruct (mux_merged (pp_n p) (pp_rr p) (pp_lsb p) false (pd_route p) (fun d => d) (proj1 OK) (mkPd 0 0 0 0) (mkPd 0 0 0 0) l F) as [src H]. exists src.
  eapply merged_ext; [|exact H]. intros. now apply pd_image_ok.
Qed.
Lemma pd_stable p l : pd_ok p -> Forall (mux_in_ok (pp_n p)) l -> stable (pd_trace p l).
Proof. intros OK F. apply mux_stable; [apply OK|assumption]. Qed.
Lemma pd_delivered p l f q k : pd_ok p -> pp_rr p = true -> Forall (mux_in_ok (pp_n p)) l -> (forall k, mux_in_ok (pp_n p) (f k)) -> no_rst f -> sink_fair f -> 0 <= q < pp_n p ->
  exists k' src, merged (pp_n p) false (fun q _ d => pd_image p q d) (pd_trace p (inputs l f k')) src /\ prefix (accepted q (pd_trace p (inputs l f k))) (from q src).
Proof.
  intros OK RR Fl Ff Hr Hs Hq. unfold pd_trace in *. rewrite RR in *.
  destruct (mux_delivered (pp_n p) (pp_lsb p) false (pd_route p) (fun d => d) (proj1 OK) (mkPd 0 0 0 0) (mkPd 0 0 0 0) l f 0 q Fl Ff Hr Hs Hq (fair_false _ _ _) k) as (k' & src & MG & P).
  exists k', src. split; [|exact P]. eapply merged_ext; [|exact MG]. intros. now apply pd_image_ok.
Qed.

(* ---------- dma_if_desc_mux ---------- *)
Lemma dd_merge p l : dd_ok p -> Forall (mux_in_ok (dp_n p)) l -> exists src, merged (dp_n p) false (fun q _ d => dd_image p q d) (dd_trace p l) src.
Proof.
  intros OK F. destruct (mux_merged (dp_n p) (dp_rr p) (dp_lsb p) false (dd_route p) (dd_drive p) (proj1 OK) (mkDd 0 0 0 0 false 0 0) (mkDd 0 0 0 0 false 0 0) l F) as [src H]. exists src.
  eapply merged_ext; [|exact H]. intros. now apply dd_image_ok.
Qed.
Lemma dd_stable p l : dd_ok p -> Forall (mux_in_ok (dp_n p)) l -> stable (dd_trace p l).
Proof. intros OK F. apply mux_stable; [apply OK|assumption]. Qed.
Lemma dd_delivered p l f q k : dd_ok p -> dp_rr p = true -> Forall (mux_in_ok (dp_n p)) l -> (forall k, mux_in_ok (dp_n p) (f k)) -> no_rst f -> sink_fair f -> 0 <= q < dp_n p ->
  exists k' src, merged (dp_n p) false (fun q _ d => dd_image p q d) (dd_trace p (inputs l f k')) src /\ prefix (accepted q (dd_trace p (inputs l f k))) (from q src).
Proof.
  intros OK RR Fl Ff Hr Hs Hq. unfold dd_trace in *. rewrite RR in *.
  destruct (mux_delivered (dp_n p) (dp_lsb p) false (dd_route p) (dd_drive p) (proj1 OK) (mkDd 0 0 0 0 false 0 0) (mkDd 0 0 0 0 false 0 0) l f 0 q Fl Ff Hr Hs Hq (fair_false _ _ _) k) as (k' & src & MG & P).
  exists k', src. split; [|exact P]. eapply merged_ext; [|exact MG]. intros. now apply dd_image_ok.
Qed.

(* ---------- status ---------- *)
Lemma shl1 n e : 0 <= e < n -> Z.shiftl 1 e mod 2 ^ n = 2 ^ e.
Proof. intros. rewrite Z.shiftl_1_l. apply Z.mod_small. split; [apply Z.pow_nonneg; lia|apply Z.pow_lt_mono_r; lia]. Qed.
Lemma status_back n stag mtag q t err : 2 <= n -> 0 <= stag -> stag + Z.log2_up n <= mtag -> 0 <= q < n -> 0 <= t < 2 ^ stag ->
  ds_step n stag mtag false (q * 2 ^ (mtag - Z.log2_up n) + t mod 2 ^ (mtag - Z.log2_up n)) err true = mkDs t err (2 ^ q).
Proof.
  intros Hn Hs HW Hq Ht. pose proof (Z.log2_up_nonneg n) as C. pose proof (Z.log2_up_spec n ltac:(lia)) as LS. unfold ds_step. rewrite (gt1 _ Hn). unfold clog2. set (c := Z.log2_up n) in *.
  assert (B : 0 < 2 ^ (mtag - c)) by (apply Z.pow_pos_nonneg; lia). assert (L : 2 ^ stag <= 2 ^ (mtag - c)) by (apply Z.pow_le_mono_r; lia).
  rewrite (Z.mod_small t (2 ^ (mtag - c))) by lia. unfold psel. rewrite Z.div_add_l, (Z.div_small t) by lia. rewrite Z.add_0_r, (Z.mod_small q) by lia. rewrite shl1 by assumption. f_equal.
  replace (mtag - c) with ((mtag - c - stag) + stag) by lia. rewrite Z.pow_add_r by lia. rewrite Z.mul_assoc, Z.add_comm, Z.mod_add by lia. apply Z.mod_small. lia.
Qed.
Lemma status_one n stag mtag rst tag err v : 2 <= n -> let s := ds_step n stag mtag rst tag err v in
  ds_valid s = 0 \/ v = true /\ rst = false /\ exists q, 0 <= q < n /\ ds_valid s = 2 ^ q.
Proof.
  intros Hn s. unfold s, ds_step. cbn [ds_valid]. rewrite (gt1 _ Hn). set (e := psel _ _ _). destruct rst; [auto|]. destruct v; [|left; rewrite Z.shiftl_0_l; apply Z.mod_0_l, Z.pow_nonzero; lia].
  assert (0 <= e). { unfold e, psel. apply Z.mod_pos_bound. apply Z.pow_pos_nonneg; [lia|]. apply Z.log2_up_nonneg. }
  destruct (Z.lt_ge_cases e n); [right; repeat split; auto; exists e; split; [lia|]; apply shl1; lia|].
  left. rewrite Z.shiftl_1_l. replace e with ((e - n) + n) by lia. rewrite Z.pow_add_r by lia. apply Z.mod_mul. apply Z.pow_nonzero; lia.
Qed.

(* ---------- fixed priority starves ---------- *)
Definition sp : ax_param := mkAxP 2 false 1 false 8 9 false false true false false true.
Definition si : mux_in ax_beat := mkMi false 3 3 (fun j => mkAb j 0 0 0 0) true.
Definition sq (s : mux_state ax_beat ax_out) : Prop :=
  mx_valid s = 3 /\ mx_last s = 3 /\ ab_data (mx_data s 0) = 0 /\ mx_arb s = mkArbS 1 true 0 0 /\ sk_ready (mx_skid s) = true /\ ao_data (sk_data (mx_skid s)) = 0 /\ sk_tvalid (mx_skid s) = false.
Notation sstep := (mux_step 2 false true true (ax_route sp)).
Lemma sq_step s : sq s -> sq (sstep s si).
Proof.
  intros (A & B & C & D & E & F & G). unfold sq. cbn [mx_valid mx_last mx_data mx_arb mx_skid mux_step]. unfold mux_ready, mux_request, mux_ack, mux_vint, skid_step. rewrite A, B, D, E, G. cbn [mi_rst si mi_ready mi_valid mi_last mi_data].
  repeat split; try reflexivity. cbn. exact C.
Qed.
Definition z0 (o : ax_out) : Prop := ao_data o = 0.
Lemma sq_del s tr k : sq s -> Forall z0 (delivered tr) -> Forall z0 (delivered (tr ++ mux_trace 2 false true true (ax_route sp) (ax_drive sp) s (repeat si k))).
Proof.
  revert s tr. induction k as [|k IH]; intros s tr Q F; [cbn [repeat mux_trace]; now rewrite app_nil_r|]. cbn [repeat mux_trace].
  change (mux_event 2 (ax_drive sp) s si :: ?x) with ([mux_event 2 (ax_drive sp) s si] ++ x). rewrite app_assoc. apply IH; [now apply sq_step|]. rewrite del_snoc. unfold del_step. cbn [mv_rst mux_event si mi_rst].
  destruct (_ && _); [|assumption]. apply Forall_app. split; [assumption|]. constructor; [|constructor]. cbn [mv_odata]. destruct Q as (_ & _ & _ & _ & _ & Q & _). exact Q.
Qed.
Lemma map_seq_rep k : forall a, map (fun _ : nat => si) (seq a k) = repeat si k.
Proof. induction k as [|k IH]; intros a; [reflexivity|]. cbn [seq map repeat]. now rewrite IH. Qed.
Lemma starve k : Forall z0 (delivered (ax_trace sp (inputs [] (fun _ => si) k))).
Proof.
  unfold inputs. cbn [app]. rewrite map_seq_rep. destruct (le_lt_dec k 3) as [L|L].
  - destruct k as [|[|[|[|k]]]]; [| | | |lia]; vm_compute; repeat constructor.
  - replace k with (3 + (k - 3))%nat by lia. rewrite repeat_app. unfold ax_trace. cbn [xp_n xp_rr xp_lsb xp_last_en sp]. rewrite trace_app. apply sq_del; [vm_compute; repeat split|vm_compute; repeat constructor].
Qed.
Lemma ax_starve : exists p f q, ax_ok p /\ (forall k, mux_in_ok (xp_n p) (f k)) /\ no_rst f /\ sink_fair f /\ sources_fair (xp_n p) (xp_last_en p) (fun k => ax_trace p (inputs [] f k)) f 0 /\ 0 <= q < xp_n p /\
  accepted q (ax_trace p (inputs [] f 1)) <> [] /\ forall k src, merged (xp_n p) (xp_last_en p) (ax_image p) (ax_trace p (inputs [] f k)) src -> from q src = [].
Proof.
  exists sp, (fun _ => si), 1. split; [repeat split; cbn; lia|]. split; [intros _; split; cbn; unfold vec; cbn; lia|]. split; [intros k; reflexivity|]. split; [intros k; exists O; reflexivity|].
  set (good := fun (q : Z) (x : bool * ax_beat) => fst x = true /\ ab_data (snd x) = q).
  assert (AL : forall q tr, (forall e, In e tr -> mv_last e = 3 /\ forall j, ab_data (mv_data e j) = j) -> 0 <= q < 2 -> Forall (good q) (accepted q (tr : list (mux_ev ax_beat ax_out)))).
  { intros q tr H Hq. induction tr as [|e tr IH] using rev_ind; [constructor|]. rewrite acc_snoc. unfold acc_step. destruct (mv_rst e); [constructor|]. assert (IH' := IH (fun x Hx => H x (in_or_app _ _ _ (or_introl Hx)))).
    destruct (_ && _); [|assumption]. apply Forall_app. split; [assumption|]. constructor; [|constructor]. destruct (H e) as [H1 H2]; [apply in_or_app; right; left; reflexivity|]. split; cbn [fst snd]; [|apply H2].
    rewrite H1. destruct (Z.eq_dec q 0) as [->|]; [reflexivity|]. replace q with 1 by lia. reflexivity. }
  assert (TL : forall k s e, In e (mux_trace 2 false true true (ax_route sp) (ax_drive sp) s (repeat si k)) -> mv_last e = 3 /\ forall j, ab_data (mv_data e j) = j).
  { induction k as [|k IH]; intros s e H; [destruct H|]. cbn [repeat mux_trace] in H. destruct H as [<-|H]; [split; reflexivity|]. now apply (IH _ _ H). }
  assert (UL : forall q a, Forall (good q) a -> unfinished true a = []).
  { intros q a H. destruct a as [|x a] using rev_ind; [reflexivity|]. rewrite unf_snoc. apply Forall_app in H. destruct H as [_ H]. inversion H as [|? ? [E _]]; subst. now rewrite E. }
  assert (AK : forall q k, 0 <= q < 2 -> Forall (good q) (accepted q (ax_trace sp (inputs [] (fun _ => si) k)))).
  { intros q k Hq. apply AL; [|assumption]. unfold inputs. cbn [app]. rewrite map_seq_rep. intros e. apply TL. }
  split.
  { split.
    - intros q k a b Hq E. specialize (AK q k Hq). rewrite E in AK. apply Forall_app in AK. cbn [xp_last_en sp]. rewrite (UL q) by apply AK. cbn. lia.
    - intros q k Hq. cbn [xp_last_en sp]. rewrite (UL q) by (apply AK; assumption). congruence. }
  split; [cbn; lia|]. split; [vm_compute; discriminate|]. intros k src [R O I W]. pose proof (starve k) as Z. rewrite O in Z. rewrite Forall_map in Z. rewrite Forall_forall in Z, R.
  destruct (I 1 ltac:(cbn; lia)) as (b & E & _). pose proof (AK 1 k ltac:(lia)) as A. rewrite E in A. apply Forall_app in A. destruct A as [A _]. clear E.
  unfold from in *. destruct (filter (fun x => fst x =? 1) src) as [|x r] eqn:E; [reflexivity|]. exfalso.
  assert (X : In x (filter (fun x => fst x =? 1) src)) by (rewrite E; left; reflexivity). apply filter_In in X. destruct X as [X1 X2].
  cbn [map] in A. inversion A as [|? ? [_ D] _]; subst. specialize (Z x X1). cbn in Z. unfold z0 in Z. cbn in Z. congruence.
Qed.
