From Coq Require Import Permutation.
From Verif Require Import PyBase BitLemmas TlpProofs AxilProofs DmaRamModel DmaRamSpec DmaRamProofs UspProofs EnumProofs3.

Lemma upd_length {A} (x : A) : forall l n, length (upd n x l) = length l.
Proof. induction l as [|y l IH]; intros [|n]; cbn [upd length]; auto. Qed.
Lemma upd_nth {A} (x d : A) : forall l n j, (n < length l)%nat -> nth j (upd n x l) d = if (j =? n)%nat then x else nth j l d.
Proof.
  induction l as [|y l IH]; intros [|n] [|j] H; cbn [upd nth length Nat.eqb] in *; try reflexivity; try (exfalso; inversion H; fail). apply IH. lia.
Qed.
Lemma upd_Forall {A} (P : A -> Prop) x : P x -> forall l n, Forall P l -> Forall P (upd n x l).
Proof. intros Hx. induction l as [|y l IH]; intros [|n] H; cbn [upd]; inversion H; subst; constructor; auto. Qed.

Section Run.
  Variable c : dcfg.
  Hypothesis G : geom_ok c.

  Definition pt (s : dst) (k : Z) : rport := nth (Z.to_nat k) (s_rports s) (rport0 c).
  Definition st_ok (s : dst) : Prop := length (s_rports s) = Z.to_nat (d_cnt c) /\ Forall (port_ok c) (s_rports s) /\ (forall x, is_byte (s_mem s x)).
  Definition port_no (p : proc) : Z := match p with PWrite k => k | PRead k => k end.
  Definition inr (p : proc) : Prop := 0 <= port_no p < d_cnt c.
  (** What an edge does to read port [k]: [new] is owed to it afterwards. *)
  Definition port_step (i : din) (k : Z) (p p' : rport) (new : list Z) : Prop :=
    (if rp_valid p && Z.testbit (i_rready i) k then [rp_data p] else []) ++ somes (slots p') = somes (slots p) ++ new /\
    (Z.testbit (i_rready i) k = true -> exists x, slots p' = tl (slots p) ++ [x]).

  Lemma pt_ok s k : st_ok s -> 0 <= k < d_cnt c -> port_ok c (pt s k).
  Proof. intros (L & F & _) Hk. rewrite Forall_forall in F. apply F, nth_In. lia. Qed.
  Lemma owed_app k a b : owed k (a ++ b) = owed k a ++ owed k b.
  Proof. unfold owed. rewrite filter_app, map_app. reflexivity. Qed.

  Lemma procs_ok i o : forall l s (m : mem) (a : list (Z * Z)), NoDup l -> Forall inr l -> st_ok s -> (forall x, s_mem s x = m x) ->
    (forall k, 0 <= k < d_cnt c -> Z.testbit (o_wready o) k = s_wready s) ->
    (forall k, In (PRead k) l -> Z.testbit (o_rready o) k = cmd_ready (pt s k) (Z.testbit (i_rready i) k) (i_rpause i)) ->
    exists s', run_procs c i s l = Ok s' /\ st_ok s' /\ s_wready s' = s_wready s /\ (forall x, s_mem s' x = fst (fold_left (spec_proc c i o) l (m, a)) x) /\
      forall k, 0 <= k < d_cnt c -> (~ In (PRead k) l -> pt s' k = pt s k /\ owed k (snd (fold_left (spec_proc c i o) l (m, a))) = owed k a) /\
        (In (PRead k) l -> exists new, owed k (snd (fold_left (spec_proc c i o) l (m, a))) = owed k a ++ new /\ port_step i k (pt s k) (pt s' k) new).
  Proof.
    pose proof G as (G1 & G2 & G3 & G4 & G5 & G6).
    induction l as [|p l IH]; intros s m a HN HR Hs Hm Hw Hr; cbn [run_procs fold_left].
    - exists s. split; [reflexivity|]. split; [exact Hs|]. split; [reflexivity|]. split; [exact Hm|]. intros k Hk. split; [intros _; split; reflexivity|intros []].
    - inversion HN as [|? ? HN1 HN2]; subst. inversion HR as [|? ? HR1 HR2]; subst. destruct p as [k0|k0]; cbn [inr port_no] in HR1; unfold inr in HR1; cbn [port_no] in HR1.
      + cbn [run_proc]. destruct (write_edge_ok c G k0 (s_wready s) i (s_mem s) ltac:(lia)) as (m1 & E & H). rewrite E. cbn [bind].
        set (s1 := mkDst m1 (s_wready s) (s_rports s)). cbn [spec_proc fst snd]. rewrite (Hw k0 HR1).
        assert (exists m2 : mem, (if Z.testbit (i_wvalid i) k0 && s_wready s then (written c i k0 m, a) else (m, a)) = (m2, a) /\ (forall x, m1 x = m2 x) /\ (forall x, is_byte (m1 x))) as (m2 & E2 & H2 & H3).
        { destruct Hs as (_ & _ & Hb). destruct (Z.testbit (i_wvalid i) k0 && s_wready s).
          - exists (written c i k0 m). split; [reflexivity|]. split; [intros x; rewrite H; apply written_ext; exact Hm|intros x; rewrite H; apply written_byte; exact Hb].
          - exists m. split; [reflexivity|]. split; [intros x; rewrite H; apply Hm|intros x; rewrite H; apply Hb]. }
        rewrite E2. destruct Hs as (L & F & _).
        destruct (IH s1 m2 a HN2 HR2) as (s' & R1 & R2 & R3 & R4 & R5).
        * split; [exact L|]. split; [exact F|exact H3].
        * exact H2.
        * exact Hw.
        * intros k Hk. apply Hr. right. exact Hk.
        * exists s'. split; [exact R1|]. split; [exact R2|]. split; [exact R3|]. split; [exact R4|]. intros k Hk. destruct (R5 k Hk) as (A & B). split.
          -- intros Hni. apply A. intros Hin. apply Hni. right. exact Hin.
          -- intros [Hq|Hin]; [discriminate|]. apply B. exact Hin.
      + cbn [run_proc]. pose proof Hs as (L & F & Hb). rewrite (py_index_nth _ _ (rport0 c)) by (unfold zlen; lia). cbn [bind]. fold (pt s k0).
        rewrite !vbit_test, !vslice_fld by lia.
        destruct (read_edge_ok c G k0 (pt s k0) (Z.testbit (i_rready i) k0) (i_rpause i) (Z.testbit (i_rvalid i) k0) (fld (d_aw c) k0 (i_raddr i)) (s_mem s) (pt_ok s k0 Hs HR1) Hb) as (p' & E & P' & S1 & S2).
        rewrite E. cbn [bind]. set (s1 := mkDst (s_mem s) (s_wready s) (upd (Z.to_nat k0) p' (s_rports s))).
        assert (PT : forall k, 0 <= k < d_cnt c -> pt s1 k = if k =? k0 then p' else pt s k).
        { intros k Hk. unfold pt, s1. cbn [s_rports]. rewrite upd_nth by lia. replace (Z.to_nat k =? Z.to_nat k0)%nat with (k =? k0); [reflexivity|].
          destruct (Z.eqb_spec k k0) as [->|Hn]; symmetry; [apply Nat.eqb_refl|apply Nat.eqb_neq; lia]. }
        cbn [spec_proc fst snd]. rewrite (Hr k0 (or_introl eq_refl)).
        rewrite (andb_comm (cmd_ready _ _ _)) in S1. set (acc := Z.testbit (i_rvalid i) k0 && cmd_ready (pt s k0) (Z.testbit (i_rready i) k0) (i_rpause i)) in *.
        set (new := if acc then [word_of m (base c k0 (fld (d_aw c) k0 (i_raddr i))) (Z.to_nat (d_bw c))] else []).
        assert (EN : (if acc then (m, a ++ [(k0, word_of m (base c k0 (fld (d_aw c) k0 (i_raddr i))) (Z.to_nat (d_bw c)))]) else (m, a)) = (m, a ++ map (fun v => (k0, v)) new)).
        { unfold new. destruct acc; cbn [map]; [reflexivity|rewrite app_nil_r; reflexivity]. }
        rewrite EN. assert (ON : forall k, owed k (map (fun v => (k0, v)) new) = if k =? k0 then new else []).
        { intros k. unfold new. destruct acc; cbn [map]; unfold owed; cbn [filter fst]; rewrite ?(Z.eqb_sym k0 k); destruct (k =? k0); reflexivity. }
        destruct (IH s1 m (a ++ map (fun v => (k0, v)) new) HN2 HR2) as (s' & R1 & R2 & R3 & R4 & R5).
        * split; [unfold s1; cbn [s_rports]; rewrite upd_length; exact L|]. split; [unfold s1; cbn [s_rports]; apply upd_Forall; assumption|exact Hb].
        * exact Hm.
        * exact Hw.
        * intros k Hk. rewrite PT by (rewrite Forall_forall in HR2; apply (HR2 _ Hk)). destruct (Z.eqb_spec k k0) as [->|_]; [contradiction|]. apply Hr. right. exact Hk.
        * exists s'. split; [exact R1|]. split; [exact R2|]. split; [exact R3|]. split; [exact R4|]. intros k Hk. destruct (R5 k Hk) as (A & B). rewrite PT in A, B by exact Hk. rewrite owed_app, ON in A, B. split.
          -- intros Hni. destruct (Z.eqb_spec k k0) as [->|_]; [exfalso; apply Hni; left; reflexivity|]. rewrite app_nil_r in A. apply A. intros Hin. apply Hni. right. exact Hin.
          -- intros Hin. destruct (Z.eqb_spec k k0) as [->|Hn].
             ++ destruct (A HN1) as (A1 & A2). exists new. split; [exact A2|]. rewrite A1. split; [|exact S2]. rewrite S1. f_equal. unfold new.
                destruct acc; [|reflexivity]. f_equal. apply word_of_ext. exact Hm.
             ++ rewrite app_nil_r in B. destruct Hin as [Hq|Hin]; [injection Hq as ->; congruence|]. apply B. exact Hin.
  Qed.

  Lemma ks_nth k : 0 <= k < d_cnt c -> nth (Z.to_nat k) (map Z.of_nat (seq 0 (Z.to_nat (d_cnt c)))) 0 = k.
  Proof.
    intros Hk. change 0 with (Z.of_nat 0) at 1. rewrite map_nth, seq_nth by lia. lia.
  Qed.

  Lemma outputs_ok s i k : st_ok s -> 0 <= k < d_cnt c ->
    Z.testbit (o_wready (outputs c s i)) k = s_wready s /\
    Z.testbit (o_rready (outputs c s i)) k = cmd_ready (pt s k) (Z.testbit (i_rready i) k) (i_rpause i) /\
    Z.testbit (o_rvalid (outputs c s i)) k = rp_valid (pt s k) /\
    fld (8 * d_bw c) k (o_rdata (outputs c s i)) = rp_data (pt s k).
  Proof.
    intros (L & F & _) Hk. pose proof G as (G1 & G2 & G3 & G4 & G5 & G6). unfold outputs. cbn [o_wready o_rready o_rvalid o_rdata].
    set (ks := map Z.of_nat (seq 0 (Z.to_nat (d_cnt c)))).
    assert (LK : length ks = Z.to_nat (d_cnt c)) by (unfold ks; rewrite map_length, seq_length; reflexivity).
    assert (EK : exists j, k = Z.of_nat j) by (exists (Z.to_nat k); lia). destruct EK as (j & ->). unfold pt. rewrite Nat2Z.id. pose proof (ks_nth (Z.of_nat j) Hk) as KN. rewrite Nat2Z.id in KN. fold ks in KN.
    split; [|split; [|split]].
    - rewrite <- (map_map (fun _ => s_wready s) (fun x : bool => if x then 1 else 0)), vconcat_bit.
      rewrite (nth_indep _ false ((fun _ => s_wready s) 0)) by (rewrite map_length; lia). apply (map_nth (fun _ => s_wready s) ks 0 j).
    - rewrite <- (map_map (fun kp : Z * rport => cmd_ready (snd kp) (vbit (fst kp) (i_rready i)) (i_rpause i)) (fun x : bool => if x then 1 else 0)), vconcat_bit.
      set (f := fun kp : Z * rport => _). rewrite (nth_indep _ false (f (0, rport0 c))) by (rewrite map_length, combine_length; lia). rewrite map_nth, combine_nth by lia.
      rewrite KN. unfold f. cbn [fst snd]. rewrite vbit_test by lia. reflexivity.
    - rewrite <- (map_map rp_valid (fun x : bool => if x then 1 else 0)), vconcat_bit. change false with (rp_valid (rport0 c)) at 1. rewrite map_nth. reflexivity.
    - rewrite vconcat_fld; [|lia|].
      + change 0 with (rp_data (rport0 c)). rewrite map_nth. reflexivity.
      + apply Forall_map. eapply Forall_impl; [|exact F]. intros p (_ & _ & _ & W & _). exact W.
  Qed.

  Lemma procs_facts order : Permutation (procs c) order -> NoDup order /\ Forall inr order /\ (forall k, 0 <= k < d_cnt c -> In (PRead k) order /\ In (PWrite k) order).
  Proof.
    intros HP. set (ks := map Z.of_nat (seq 0 (Z.to_nat (d_cnt c)))).
    assert (IK : forall k, In k ks <-> 0 <= k < d_cnt c).
    { intros k. unfold ks. rewrite in_map_iff. split; [intros (j & <- & Hj); apply in_seq in Hj; lia|]. intros Hk. exists (Z.to_nat k). split; [lia|]. apply in_seq. lia. }
    assert (NK : NoDup ks) by (apply FinFun.Injective_map_NoDup; [intros ? ? ?; lia|apply seq_NoDup]).
    split; [|split].
    - apply (Permutation_NoDup HP). unfold procs. fold ks. apply EnumProofs3.NoDup_app.
      + apply FinFun.Injective_map_NoDup; [intros ? ? H; injection H; auto|exact NK].
      + apply FinFun.Injective_map_NoDup; [intros ? ? H; injection H; auto|exact NK].
      + intros x H1 H2. apply in_map_iff in H1, H2. destruct H1 as (? & <- & _), H2 as (? & H2 & _). discriminate.
    - eapply Permutation_Forall; [exact HP|]. unfold procs. fold ks. apply Forall_app. split; apply Forall_map, Forall_forall; intros k Hk; apply IK in Hk; exact Hk.
    - intros k Hk. split; (eapply Permutation_in; [exact HP|]); unfold procs; fold ks; apply in_or_app; [right|left]; apply in_map, IK, Hk.
  Qed.

  Lemma edge_ok s i order (m : mem) (a : list (Z * Z)) : Permutation (procs c) order -> st_ok s -> (forall x, s_mem s x = m x) ->
    let e := (i, order, outputs c s i) in
    exists s', dma_edge c s i order = Ok s' /\ st_ok s' /\ s_wready s' = negb (i_wpause i) /\ (forall x, s_mem s' x = fst (spec_edge c (m, a) e) x) /\
      forall k, 0 <= k < d_cnt c -> exists new, owed k (snd (spec_edge c (m, a) e)) = owed k a ++ new /\
        given c k e ++ somes (slots (pt s' k)) = somes (slots (pt s k)) ++ new /\
        (Z.testbit (i_rready i) k = true -> given c k e = somes [hd None (slots (pt s k))] /\ exists x, slots (pt s' k) = tl (slots (pt s k)) ++ [x]).
  Proof.
    intros HP Hs Hm e. destruct (procs_facts order HP) as (HN & HR & HI). unfold dma_edge, spec_edge, e. cbn [fst snd].
    destruct (procs_ok i (outputs c s i) order s m a HN HR Hs Hm) as (s' & R1 & R2 & R3 & R4 & R5).
    - intros k Hk. apply (outputs_ok s i k Hs Hk).
    - intros k Hk. rewrite Forall_forall in HR. apply (outputs_ok s i k Hs (HR _ Hk)).
    - rewrite R1. cbn [bind]. eexists. split; [reflexivity|]. split; [exact R2|]. split; [reflexivity|]. split; [exact R4|].
      intros k Hk. destruct (R5 k Hk) as (_ & B). destruct (B (proj1 (HI k Hk))) as (new & N1 & N2 & N3). exists new. split; [exact N1|].
      assert (GE : given c k (i, order, outputs c s i) = if rp_valid (pt s k) && Z.testbit (i_rready i) k then [rp_data (pt s k)] else []).
      { unfold given. cbn [fst snd]. destruct (outputs_ok s i k Hs Hk) as (_ & _ & -> & ->). reflexivity. }
      rewrite GE. split; [exact N2|]. intros Hr. split; [|apply N3; exact Hr]. rewrite Hr, andb_true_r. unfold slots. cbn [hd]. destruct (rp_valid (pt s k)); reflexivity.
  Qed.

  Lemma run_ok : forall l s (m : mem) (a : list (Z * Z)), orders_ok c l -> st_ok s -> (forall x, s_mem s x = m x) ->
    exists s' t, dma_run c s l = Ok (s', t) /\ map fst t = l /\ st_ok s' /\ (forall x, s_mem s' x = fst (fold_left (spec_edge c) t (m, a)) x) /\
      forall k, 0 <= k < d_cnt c -> exists new, owed k (snd (fold_left (spec_edge c) t (m, a))) = owed k a ++ new /\
        all_given c k t ++ somes (slots (pt s' k)) = somes (slots (pt s k)) ++ new /\
        (Forall (fun e => Z.testbit (i_rready (fst e)) k = true) l -> (length l <= S (d_lat c))%nat -> all_given c k t = somes (firstn (length l) (slots (pt s k)))).
  Proof.
    induction l as [|(i, order) l IH]; intros s m a HO Hs Hm; cbn [dma_run].
    - exists s, []. split; [reflexivity|]. split; [reflexivity|]. split; [exact Hs|]. split; [exact Hm|]. intros k Hk. exists [].
      cbn [fold_left all_given flat_map app snd]. rewrite !app_nil_r. auto.
    - inversion HO as [|? ? HO1 HO2]; subst. cbn [snd] in HO1.
      destruct (edge_ok s i order m a HO1 Hs Hm) as (s1 & E1 & E2 & E3 & E4 & E5). set (e := (i, order, outputs c s i)) in *.
      destruct (spec_edge c (m, a) e) as (m1, a1) eqn:SE. cbn [fst snd] in *.
      destruct (IH s1 m1 a1 HO2 E2 E4) as (s' & t & R1 & R2 & R3 & R4 & R5).
      exists s', (e :: t). rewrite E1. cbn [bind]. rewrite R1. cbn [bind]. split; [reflexivity|]. split; [cbn [map]; rewrite R2; reflexivity|]. split; [exact R3|].
      cbn [fold_left]. rewrite SE. split; [exact R4|]. intros k Hk. destruct (E5 k Hk) as (n1 & A1 & A2 & A3). destruct (R5 k Hk) as (n2 & B1 & B2 & B3).
      exists (n1 ++ n2). split; [rewrite B1, A1, app_assoc; reflexivity|]. unfold all_given in *. cbn [flat_map]. split.
      + rewrite <- app_assoc, B2, !app_assoc, A2. reflexivity.
      + intros HF HL. apply Forall_cons_iff in HF. destruct HF as (HF1 & HF2). cbn [fst length] in HF1, HL. destruct (A3 HF1) as (C1 & x & C2). rewrite C1, (B3 HF2) by lia. cbn [length]. rewrite C2.
        pose proof (pt_ok s k Hs Hk) as (PL & _).
        assert (LR : length (rev (rp_pipe (pt s k))) = d_lat c) by (rewrite rev_length; exact PL).
        unfold slots. cbn [tl hd firstn]. rewrite firstn_app. replace (length l - length (rev (rp_pipe (pt s k))))%nat with 0%nat by lia. cbn [firstn]. rewrite app_nil_r, <- somes_app. reflexivity.
  Qed.

  Lemma dst0_ok m pause : (forall x, is_byte (m x)) -> st_ok (dst0 c m pause) /\ forall k, somes (slots (pt (dst0 c m pause) k)) = [].
  Proof.
    intros Hm. pose proof G as (G1 & G2 & G3 & G4 & G5 & G6).
    assert (S0 : somes (repeat None (d_lat c)) = []) by (generalize (d_lat c) as q; induction q as [|q IH]; [reflexivity|exact IH]).
    assert (P0 : port_ok c (rport0 c)).
    { unfold port_ok, rport0. cbn [rp_pipe rp_out rp_valid rp_rint rp_data]. rewrite repeat_length. split; [reflexivity|]. split; [reflexivity|]. split; [reflexivity|].
      split; [unfold wide; pose proof (Z.pow_pos_nonneg 2 (8 * d_bw c) ltac:(lia) ltac:(lia)); lia|]. rewrite S0. constructor. }
    split.
    - split; [apply repeat_length|]. split; [|exact Hm]. cbn [dst0 s_rports]. apply Forall_forall. intros p Hp. apply repeat_spec in Hp. subst. exact P0.
    - intros k. unfold pt. cbn [dst0 s_rports].
      assert (E : nth (Z.to_nat k) (repeat (rport0 c) (Z.to_nat (d_cnt c))) (rport0 c) = rport0 c) by (apply nth_repeat).
      rewrite E. unfold slots, rport0. cbn [rp_valid rp_pipe]. rewrite <- S0. cbn [somes flat_map app].
      replace (rev (repeat None (d_lat c))) with (repeat (@None Z) (d_lat c)); [reflexivity|].
      generalize (d_lat c) as q. induction q as [|q IH]; [reflexivity|]. cbn [repeat rev]. rewrite <- IH. apply repeat_cons.
  Qed.

  Lemma dma_run_app : forall l1 l2 s s1 t1 s2 t2, dma_run c s l1 = Ok (s1, t1) -> dma_run c s1 l2 = Ok (s2, t2) -> dma_run c s (l1 ++ l2) = Ok (s2, t1 ++ t2).
  Proof.
    induction l1 as [|(i, order) l1 IH]; intros l2 s s1 t1 s2 t2 H1 H2; cbn [dma_run app] in *.
    - injection H1 as <- <-. exact H2.
    - destruct (dma_edge c s i order) as [s'|]; cbn [bind] in *; [|discriminate]. destruct (dma_run c s' l1) as [(sa, ta)|] eqn:E; cbn [bind] in *; [|discriminate].
      injection H1 as <- <-. rewrite (IH l2 s' sa ta s2 t2 E H2). reflexivity.
  Qed.

  Lemma dma_ram_run m pause l : (forall x, is_byte (m x)) -> orders_ok c l ->
    exists s t, dma_run c (dst0 c m pause) l = Ok (s, t) /\ map fst t = l /\ (forall x, s_mem s x = fst (spec_run c m t) x) /\
      forall k, 0 <= k < d_cnt c -> exists pending, owed k (snd (spec_run c m t)) = all_given c k t ++ pending /\ (length pending <= S (d_lat c))%nat.
  Proof.
    intros Hm HO. destruct (dst0_ok m pause Hm) as (S0 & P0). destruct (run_ok l (dst0 c m pause) m [] HO S0 ltac:(reflexivity)) as (s & t & R1 & R2 & R3 & R4 & R5).
    exists s, t. split; [exact R1|]. split; [exact R2|]. split; [exact R4|]. intros k Hk. destruct (R5 k Hk) as (new & N1 & N2 & _). rewrite P0 in N2. cbn [app] in N2.
    exists (somes (slots (pt s k))). unfold spec_run. rewrite N1, <- N2. split; [reflexivity|]. pose proof (pt_ok s k R3 Hk) as (PL & _).
    assert (SL : forall q, (length (somes q) <= length q)%nat). { intros q. induction q as [|[v|] q IH]; [apply le_n|apply le_n_S; exact IH|apply le_S; exact IH]. }
    etransitivity; [apply SL|]. unfold slots. cbn [length]. rewrite rev_length. lia.
  Qed.

  Lemma dma_ram_drain m pause l1 l2 k : (forall x, is_byte (m x)) -> orders_ok c (l1 ++ l2) -> 0 <= k < d_cnt c ->
    length l2 = S (d_lat c) -> Forall (fun e => Z.testbit (i_rready (fst e)) k = true) l2 ->
    exists s t1 t2, dma_run c (dst0 c m pause) (l1 ++ l2) = Ok (s, t1 ++ t2) /\ map fst t1 = l1 /\ map fst t2 = l2 /\
      all_given c k (t1 ++ t2) = owed k (snd (spec_run c m t1)).
  Proof.
    intros Hm HO Hk HL HF. apply Forall_app in HO. destruct HO as (HO1 & HO2). destruct (dst0_ok m pause Hm) as (S0 & P0).
    destruct (run_ok l1 (dst0 c m pause) m [] HO1 S0 ltac:(reflexivity)) as (s1 & t1 & R1 & R2 & R3 & R4 & R5).
    destruct (run_ok l2 s1 (s_mem s1) [] HO2 R3 ltac:(reflexivity)) as (s2 & t2 & Q1 & Q2 & Q3 & Q4 & Q5).
    exists s2, t1, t2. split; [eapply dma_run_app; eassumption|]. split; [exact R2|]. split; [exact Q2|].
    destruct (R5 k Hk) as (n1 & N1 & N2 & _). destruct (Q5 k Hk) as (_ & _ & _ & N3). unfold spec_run. rewrite N1. cbn [owed filter map app]. rewrite P0 in N2. cbn [app] in N2.
    unfold all_given in *. rewrite flat_map_app, N3 by (assumption || lia). rewrite <- N2. do 2 f_equal. pose proof (pt_ok s1 k R3 Hk) as (PL & _).
    rewrite HL. apply firstn_all2. unfold slots. cbn [length]. rewrite rev_length. lia.
  Qed.

  (** Readiness. *)
  Lemma dma_ram_ready m pause l : (forall x, is_byte (m x)) -> orders_ok c l ->
    exists s t, dma_run c (dst0 c m pause) l = Ok (s, t) /\
      Forall (fun e => forall k, 0 <= k < d_cnt c -> Z.testbit (i_rready (fst (fst e))) k = true -> i_rpause (fst (fst e)) = false -> Z.testbit (o_rready (snd e)) k = true) t /\
      forall k, 0 <= k < d_cnt c -> map (fun e => Z.testbit (o_wready (snd e)) k) t = firstn (length l) (negb pause :: map (fun e => negb (i_wpause (fst e))) l).
  Proof.
    intros Hm HO. destruct (dst0_ok m pause Hm) as (S0 & _). change (negb pause) with (s_wready (dst0 c m pause)). revert S0. generalize (dst0 c m pause).
    induction HO as [|(i, order) l HO1 HO2 IH]; intros s Hs; cbn [dma_run].
    - exists s, []. split; [reflexivity|]. split; [constructor|]. reflexivity.
    - cbn [snd] in HO1. destruct (edge_ok s i order (s_mem s) [] HO1 Hs ltac:(reflexivity)) as (s1 & E1 & E2 & E3 & _). rewrite E1. cbn [bind].
      destruct (IH s1 E2) as (s' & t & R1 & R2 & R3). rewrite R1. cbn [bind]. exists s', ((i, order, outputs c s i) :: t). split; [reflexivity|]. split.
      + constructor; [|exact R2]. cbn [fst snd]. intros k Hk H1 H2. destruct (outputs_ok s i k Hs Hk) as (_ & -> & _). unfold cmd_ready. rewrite H1, H2. reflexivity.
      + intros k Hk. cbn [map length firstn snd fst]. destruct (outputs_ok s i k Hs Hk) as (-> & _). rewrite (R3 k Hk), E3. reflexivity.
  Qed.

  (** Ports do not interfere: the order of the writes of an edge does not matter. *)
  Lemma seg_only i k m x : d_size c mod (d_cnt c * d_bw c) = 0 -> 0 <= k < d_cnt c -> k <> (x / d_bw c) mod d_cnt c -> written c i k m x = m x.
  Proof.
    intros HS Hk Hne. pose proof G as (G1 & G2 & G3 & G4 & G5 & G6). unfold written. destruct (_ && _) eqn:C; [|reflexivity]. exfalso. apply Hne.
    apply andb_true_iff in C. destruct C as (C & _). set (a := fld _ _ _) in C. unfold base in C. assert (CB : 1 <= d_cnt c * d_bw c) by (clear - G1 G2; nia). apply Z.mod_divide in HS; [|clear - CB; lia]. destruct HS as (q & HS). assert (HQ : 1 <= q) by (clear - HS G4 CB; nia). assert (QC : q * d_cnt c <> 0) by (clear - HQ G1; nia).
    replace (d_size c) with ((q * d_cnt c) * d_bw c) in C by (clear - HS; lia). rewrite Z.mul_mod_distr_r in C by (assumption || (clear - G2; lia)). set (w := (a * d_cnt c + k) mod (q * d_cnt c)) in C.
    assert (X : x / d_bw c = w) by (symmetry; apply (Z.div_unique x (d_bw c) w (x - w * d_bw c)); lia). rewrite X. unfold w.
    rewrite (Z.mul_comm q), Z.rem_mul_r by (clear - G1 HQ; lia). rewrite (Z.mul_comm (d_cnt c)), Z_mod_plus_full, Z.mod_mod by lia.
    rewrite Z.add_comm, Z_mod_plus_full. symmetry. apply Z.mod_small. exact Hk.
  Qed.
  Lemma procs_mem i x : d_size c mod (d_cnt c * d_bw c) = 0 -> forall l s s', NoDup l -> Forall inr l -> run_procs c i s l = Ok s' ->
    let k := (x / d_bw c) mod d_cnt c in
    (~ In (PWrite k) l -> s_mem s' x = s_mem s x) /\
    (In (PWrite k) l -> s_mem s' x = if Z.testbit (i_wvalid i) k && s_wready s then written c i k (s_mem s) x else s_mem s x) /\ s_wready s' = s_wready s.
  Proof.
    intros HS. induction l as [|p l IH]; intros s s' HN HR E; cbn [run_procs] in E.
    - injection E as <-. cbv zeta. split; [reflexivity|]. split; [intros []|reflexivity].
    - inversion HN as [|? ? HN1 HN2]; subst. inversion HR as [|? ? HR1 HR2]; subst. unfold inr in HR1.
      destruct (run_proc c i s p) as [s1|] eqn:E1; cbn [bind] in E; [|discriminate]. specialize (IH s1 s' HN2 HR2 E). cbv zeta in *. set (k := (x / d_bw c) mod d_cnt c) in *.
      destruct IH as (A & B & W). destruct p as [k0|k0]; cbn [run_proc port_no] in *.
      + destruct (write_edge_ok c G k0 (s_wready s) i (s_mem s) ltac:(lia)) as (m1 & E2 & H). rewrite E2 in E1. cbn [bind] in E1. injection E1 as <-. cbn [s_mem s_wready] in *.
        destruct (Z.eq_dec k0 k) as [->|Hne].
        * split; [intros Hn; exfalso; apply Hn; left; reflexivity|]. split; [|exact W]. intros _. rewrite (A HN1), H. reflexivity.
        * assert (U : m1 x = s_mem s x). { rewrite H. destruct (Z.testbit (i_wvalid i) k0 && s_wready s); [|reflexivity]. apply seg_only; assumption. }
          split; [intros Hn; rewrite A, U; [reflexivity|]; intros Hi; apply Hn; right; exact Hi|]. split; [|exact W].
          intros [Hq|Hi]; [injection Hq as ->; congruence|]. rewrite (B Hi). unfold written. rewrite U. reflexivity.
      + destruct (py_index _ _) as [r|]; cbn [bind] in E1; [|discriminate]. destruct (read_edge _ _ _ _ _ _ _ _) as [r'|]; cbn [bind] in E1; [|discriminate]. injection E1 as <-. cbn [s_mem s_wready] in *.
        split; [intros Hn; apply A; intros Hi; apply Hn; right; exact Hi|]. split; [|exact W]. intros [Hq|Hi]; [discriminate|]. apply B. exact Hi.
  Qed.
  Lemma dma_write_order s i o1 o2 s1 s2 : d_size c mod (d_cnt c * d_bw c) = 0 -> Permutation (procs c) o1 -> Permutation (procs c) o2 ->
    dma_edge c s i o1 = Ok s1 -> dma_edge c s i o2 = Ok s2 -> forall x, s_mem s1 x = s_mem s2 x.
  Proof.
    intros HS P1 P2 E1 E2 x. unfold dma_edge in *. destruct (run_procs c i s o1) as [a|] eqn:R1; cbn [bind] in E1; [|discriminate]. destruct (run_procs c i s o2) as [b|] eqn:R2; cbn [bind] in E2; [|discriminate].
    injection E1 as <-. injection E2 as <-. cbn [s_mem]. pose proof G as (G1 & G2 & G3 & G4 & G5 & G6).
    destruct (procs_facts o1 P1) as (N1 & F1 & I1). destruct (procs_facts o2 P2) as (N2 & F2 & I2).
    pose proof (Z.mod_pos_bound (x / d_bw c) (d_cnt c) ltac:(lia)) as HB.
    destruct (procs_mem i x HS o1 s a N1 F1 R1) as (_ & -> & _); [|apply I1; exact HB].
    destruct (procs_mem i x HS o2 s b N2 F2 R2) as (_ & -> & _); [reflexivity|apply I2; exact HB].
  Qed.
End Run.
