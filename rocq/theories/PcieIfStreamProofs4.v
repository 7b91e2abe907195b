(** Proofs for the segmented TLP interface: runs. *)
From Verif Require Import PyBase TlpModel SplitModel BitLemmas TlpProofs SplitProofs PcieIfModel PcieIfProofs2 PcieIfProofs4 PcieIfStreamModel PcieIfStreamSpec PcieIfStreamProofs PcieIfStreamProofs2 PcieIfStreamProofs3.
From Coq Require Import ZifyBool ZifyNat.
Ltac Zify.zify_post_hook ::= Z.div_mod_to_equations.

Definition R (cfg : icfg) (k : snk) (todo : list item) (all : list frame) : Prop :=
  (exists fs, Forall (frame_wf cfg) fs /\ k_frame k = None /\ todo = all_items cfg fs /\
     k_out k ++ map (carried cfg) fs = map (carried cfg) all) \/
  (exists f o fs, Forall (frame_wf cfg) (f :: fs) /\ (o < length (f_data f))%nat /\
     k_frame k = Some (part (carried cfg f) o) /\ k_count k = Z.of_nat (length (f_data f) - o) /\
     todo = items cfg f o false ++ all_items cfg fs /\
     k_out k ++ carried cfg f :: map (carried cfg) fs = map (carried cfg) all).

Lemma R_next cfg k f o first todo fs all : icfg_ok cfg -> frame_wf cfg f -> Forall (frame_wf cfg) fs ->
  items cfg f o first ++ all_items cfg fs = (f, o, first) :: todo ->
  k_out k ++ carried cfg f :: map (carried cfg) fs = map (carried cfg) all ->
  R cfg (knext cfg k (f, o, first)) todo all.
Proof.
  intros Hc W Hfs E HO. rewrite items_unfold in E by assumption. cbn [app] in E. injection E as E.
  unfold knext. destruct (Nat.leb_spec (length (f_data f)) (o + width cfg f o)) as [Hl|Hl].
  - left. exists fs. repeat split; auto. cbn [k_out]. rewrite <- app_assoc. exact HO.
  - right. exists f, (o + width cfg f o)%nat, fs. repeat split; auto.
Qed.

Lemma R_step cfg k it todo all : icfg_ok cfg -> R cfg k (it :: todo) all -> kpre cfg k it /\ R cfg (knext cfg k it) todo all.
Proof.
  intros Hc [(fs & Hfs & HN & HT & HO)|(f & o & fs & Hfs & Ho & HF & HC & HT & HO)].
  - destruct fs as [|f fs]; [discriminate|]. inversion Hfs; subst.
    change (all_items cfg (f :: fs)) with (items cfg f 0 true ++ all_items cfg fs) in HT.
    assert (it = (f, 0%nat, true)) as -> by (rewrite items_unfold in HT by assumption; now inversion HT).
    split; [split; [assumption|split; [left; auto|exact HN]]|].
    symmetry in HT. eapply R_next; eauto.
  - inversion Hfs; subst. assert (it = (f, o, false)) as -> by (rewrite items_unfold in HT by assumption; now inversion HT).
    split; [split; [assumption|split; [right; auto|auto]]|].
    symmetry in HT. eapply R_next; eauto.
Qed.

Lemma R_send cfg k todo all f : frame_wf cfg f -> R cfg k todo all -> R cfg k (todo ++ items cfg f 0 true) (all ++ [f]).
Proof.
  intros W [(fs & Hfs & HN & HT & HO)|(g & o & fs & Hfs & Ho & HF & HC & HT & HO)].
  - left. exists (fs ++ [f]). split; [apply Forall_app; auto|]. split; [assumption|]. split.
    + subst. unfold all_items. rewrite flat_map_app. cbn [flat_map]. now rewrite app_nil_r.
    + rewrite !map_app, app_assoc, HO. reflexivity.
  - right. exists g, o, (fs ++ [f]). split; [apply (proj2 (Forall_app _ (g :: fs) [f])); auto|]. do 3 (split; [assumption|]). split.
    + subst. unfold all_items. rewrite flat_map_app. cbn [flat_map]. now rewrite app_nil_r, app_assoc.
    + rewrite !map_app, <- HO, app_comm_cons, <- app_assoc. reflexivity.
Qed.

Lemma R_prefix cfg k todo all : R cfg k todo all -> exists rest, map (carried cfg) all = k_out k ++ rest.
Proof. intros [(fs & _ & _ & _ & HO)|(g & o & fs & _ & _ & _ & _ & _ & HO)]; eauto. Qed.

Lemma R_done cfg k all : icfg_ok cfg -> R cfg k [] all -> k_out k = map (carried cfg) all.
Proof.
  intros Hc [(fs & _ & _ & HT & HO)|(g & o & fs & _ & _ & _ & _ & HT & _)].
  - destruct fs as [|f fs]; [cbn in HO; now rewrite app_nil_r in HO|].
    cbn [all_items flat_map] in HT. rewrite items_unfold in HT by assumption. discriminate.
  - rewrite items_unfold in HT by assumption. discriminate.
Qed.

Definition carries (cfg : icfg) (t : trans) (its : list item) : Prop :=
  (length its <= ic_segs cfg)%nat /\ its <> [] /\
  forall i, view cfg t i = match nth_error its i with Some it => content_of cfg it | None => c0 cfg end.

Lemma carries_valid cfg t its : carries cfg t its -> tr_valid t <> 0.
Proof.
  intros (_ & Hn & H) E. specialize (H 0%nat). destruct its as [|[[f o] first] its]; [congruence|]. cbn [nth_error] in H.
  apply (f_equal c_valid) in H. cbn [view c_valid content_of] in H. rewrite E in H. discriminate.
Qed.

Lemma skipn_nth_error {A} (l : list A) : forall s, skipn s l = match nth_error l s with Some x => x :: skipn (S s) l | None => [] end.
Proof. induction l as [|x l IH]; intros [|s]; cbn [skipn nth_error]; auto. rewrite IH. destruct l; [destruct s; reflexivity|]. reflexivity. Qed.

Lemma snk_segs_spec cfg t its todo all : icfg_ok cfg ->
  (forall i, view cfg t i = match nth_error its i with Some it => content_of cfg it | None => c0 cfg end) ->
  forall n s k, R cfg k (skipn s its ++ todo) all ->
  exists k', snk_segs n cfg (sample cfg t) (Z.of_nat s) k = Ok k' /\ R cfg k' (skipn (s + n) its ++ todo) all.
Proof.
  intros Hc HV. induction n; intros s k HR; cbn [snk_segs].
  - exists k. rewrite Nat.add_0_r. auto.
  - rewrite skipn_nth_error in HR. specialize (HV s).
    replace (Z.of_nat s + 1) with (Z.of_nat (S s)) by lia. replace (s + S n)%nat with (S s + n)%nat by lia.
    destruct (nth_error its s) as [it|] eqn:E.
    + cbn [app] in HR. destruct (R_step _ _ _ _ _ Hc HR) as (HK & HR').
      rewrite (snk_seg_spec cfg t s k it Hc HK HV). cbn [bind]. apply IHn. exact HR'.
    + rewrite snk_seg_skip by assumption. cbn [bind]. apply IHn.
      apply nth_error_None in E. rewrite skipn_all2 by lia. exact HR.
Qed.

Definition holds (cfg : icfg) (o : option trans) (its : list item) : Prop :=
  match o with None => its = [] | Some t => carries cfg t its end.

Definition backlog (cfg : icfg) (s : ifstate) : list item := cur_items cfg (if_cur s) ++ all_items cfg (if_queue s).

Definition bus_of (t : trans) : option trans := if tr_valid t =? 0 then None else Some t.

Definition Inv (cfg : icfg) (s : ifstate) (all : list frame) : Prop :=
  cur_ok cfg (if_cur s) /\ Forall (frame_wf cfg) (if_queue s) /\
  exists bi di pi, holds cfg (bus_of (if_bus s)) bi /\ holds cfg (if_drive s) di /\ holds cfg (if_pend s) pi /\
    R cfg (if_snk s) (bi ++ di ++ pi ++ backlog cfg s) all.

Definition occ {A} (o : option A) : nat := match o with Some _ => 1%nat | None => 0%nat end.
Definition measure (cfg : icfg) (s : ifstate) : nat :=
  (4 * length (backlog cfg s) + 3 * occ (if_pend s) + 2 * occ (if_drive s) + occ (bus_of (if_bus s)))%nat.

Lemma bus_of_clear t : bus_of (clear_valid t) = None.
Proof. reflexivity. Qed.
Lemma bus_of_carries cfg t its : carries cfg t its -> bus_of t = Some t.
Proof. intros H. apply carries_valid in H. unfold bus_of. destruct (Z.eqb_spec (tr_valid t) 0); congruence. Qed.

Lemma Inv0 cfg : Inv cfg if0 [].
Proof.
  split; [exact I|]. split; [constructor|]. exists [], [], []. repeat split. left. exists []. repeat split; auto.
Qed.

Lemma inv_send cfg s all f : frame_wf cfg f -> Inv cfg s all ->
  exists s', if_step cfg s (ESend f) = Ok s' /\ Inv cfg s' (all ++ [f]).
Proof.
  intros W (H1 & H2 & bi & di & pi & H3 & H4 & H5 & H6). eexists. split; [reflexivity|].
  split; [exact H1|]. cbn [if_queue if_cur if_pend if_drive if_bus if_snk]. split; [apply Forall_app; auto|].
  exists bi, di, pi. repeat split; auto. unfold backlog in *. cbn [if_queue if_cur].
  unfold all_items. rewrite flat_map_app. cbn [flat_map]. rewrite app_nil_r.
  apply R_send with (f := f) in H6; [|assumption]. rewrite <- !app_assoc in H6. exact H6.
Qed.

Lemma inv_run cfg s all : icfg_ok cfg -> Inv cfg s all ->
  exists s', if_step cfg s ERun = Ok s' /\ Inv cfg s' all /\ (measure cfg s' <= measure cfg s)%nat /\
    if_ready s' = if_ready s /\
    (if_drive s = None -> (if_pend s <> None \/ backlog cfg s <> []) -> (measure cfg s' < measure cfg s)%nat).
Proof.
  intros Hc (H1 & H2 & bi & di & pi & H3 & H4 & H5 & H6). cbn [if_step]. unfold if_source.
  destruct (if_pend s) as [t|] eqn:EP.
  - destruct (if_drive s) as [d|] eqn:ED.
    + exists s. split; [reflexivity|]. split; [split; [exact H1|split; [exact H2|]]; exists bi, di, pi; rewrite EP, ED; auto|]. repeat split; intros; try lia; congruence.
    + eexists. split; [reflexivity|]. unfold measure, backlog. cbn [if_queue if_cur if_pend if_drive if_bus if_snk if_ready occ]. rewrite EP, ED. cbn [occ].
      cbn [holds] in H4. subst di.
      split; [split; [exact H1|split; [exact H2|]]; exists bi, pi, []; repeat split; auto; apply H5|]. repeat split; intros; lia.
  - destruct (if_cur s) as [c|] eqn:EC; [|destruct (if_queue s) as [|q0 q] eqn:EQ].
    2: { exists s. split; [reflexivity|]. split; [split; [rewrite EC; exact H1|split; [rewrite EQ; exact H2|]]; exists bi, di, pi; rewrite EP; auto|].
         split; [lia|]. split; [reflexivity|]. intros _ [HH|HH]; [congruence|]. exfalso. apply HH. unfold backlog. rewrite EC, EQ. reflexivity. }
    all: destruct (src_segs_spec (ic_segs cfg) cfg 0 (if_cur s) (if_queue s) tr0 Hc ltac:(rewrite ?EC, ?EQ; assumption) ltac:(rewrite ?EC, ?EQ; assumption) ltac:(intros; apply view_tr0)) as (t' & cur' & q' & its & R1 & R2 & R3 & R4 & R5 & R6 & R7 & R8);
      rewrite ?EC, ?EQ in R1; cbn [Z.of_nat] in R1; rewrite R1; cbn [bind fst snd].
    all: assert (BN : backlog cfg s <> []) by (unfold backlog; rewrite ?EC, ?EQ; [try (destruct c as [[f o] first]; cbn [cur_items])|..]; try (cbn [cur_items all_items flat_map]); try rewrite items_unfold by assumption; discriminate).
    all: assert (IN : its <> []) by (apply R6; [destruct Hc; lia|exact BN]).
    all: assert (CA : carries cfg t' its) by (split; [assumption|split; [assumption|exact R8]]).
    all: eexists; split; [reflexivity|]; split; [|unfold measure].
    all: try (split; [exact R2|split; [exact R3|]]; exists bi, di, its; cbn [if_queue if_cur if_pend if_drive if_bus if_snk if_ready];
      (split; [exact H3|split; [exact H4|split; [exact CA|]]]);
      cbn [holds] in H5; subst pi; unfold backlog in *; cbn [if_queue if_cur]; rewrite <- R4; exact H6).
    all: assert (length (backlog cfg s) = length its + length (cur_items cfg cur' ++ all_items cfg q'))%nat as LB by (unfold backlog; rewrite R4, app_length; reflexivity).
    all: assert (1 <= length its)%nat by (destruct its; [congruence|cbn; lia]).
    all: rewrite LB, EP; unfold backlog; cbn [if_queue if_cur if_pend if_drive if_bus if_snk if_ready occ].
    all: split; [lia|split; [reflexivity|intros; lia]].
Qed.

Lemma inv_edge cfg s all pause ready : icfg_ok cfg -> Inv cfg s all ->
  exists s', if_step cfg s (EEdge pause ready) = Ok s' /\ Inv cfg s' all /\ (measure cfg s' <= measure cfg s)%nat /\
    if_ready s' = ready /\
    (if_ready s = true -> pause = false -> (if_drive s <> None \/ bus_of (if_bus s) <> None) -> (measure cfg s' < measure cfg s)%nat).
Proof.
  intros Hc (H1 & H2 & bi & di & pi & H3 & H4 & H5 & H6). cbn [if_step]. unfold if_edge.
  set (valid := negb (tr_valid (if_bus s) =? 0)).
  assert (HK : exists k, (if if_ready s && valid then snk_segs (ic_segs cfg) cfg (sample cfg (if_bus s)) 0 (if_snk s) else Ok (if_snk s)) = Ok k /\
     R cfg k ((if if_ready s then [] else bi) ++ di ++ pi ++ backlog cfg s) all).
  { destruct valid eqn:EV.
    - unfold bus_of in H3. unfold valid in EV. destruct (tr_valid (if_bus s) =? 0); [discriminate|]. cbn [holds] in H3.
      destruct (if_ready s); cbn [andb]; [|eauto].
      destruct H3 as (L & _ & HV).
      destruct (snk_segs_spec cfg (if_bus s) bi (di ++ pi ++ backlog cfg s) all Hc HV (ic_segs cfg) 0%nat (if_snk s) H6) as (k & K1 & K2).
      exists k. split; [exact K1|]. rewrite skipn_all2 in K2 by lia. exact K2.
    - unfold bus_of in H3. unfold valid in EV. destruct (tr_valid (if_bus s) =? 0); [|discriminate]. cbn [holds] in H3. subst bi.
      rewrite andb_false_r. exists (if_snk s). split; [reflexivity|]. destruct (if_ready s); exact H6. }
  destruct HK as (k & -> & HR). cbn [bind].
  assert (HB : valid = match bus_of (if_bus s) with Some _ => true | None => false end) by (unfold valid, bus_of; destruct (tr_valid (if_bus s) =? 0); reflexivity).
  assert (HBI : if_ready s || negb valid = true -> (if if_ready s then [] else bi) = []).
  { intros HH. destruct (if_ready s); [reflexivity|]. cbn [orb] in HH. rewrite HB in HH. destruct (bus_of (if_bus s)); [discriminate|exact H3]. }
  destruct (if_ready s || negb valid) eqn:EA.
  - rewrite (HBI eq_refl) in HR. cbn [app] in HR.
    destruct (if_drive s) as [t|] eqn:ED.
    + destruct pause; cbn [negb].
      * eexists. split; [reflexivity|]. unfold measure, backlog. cbn [if_queue if_cur if_pend if_drive if_bus if_snk if_ready]. rewrite bus_of_clear, ED. cbn [occ].
        split; [split; [exact H1|split; [exact H2|]]; exists [], di, pi; rewrite ?ED; repeat split; auto; apply H4|]. split; [lia|split; [reflexivity|intros; discriminate]].
      * eexists. split; [reflexivity|]. unfold measure, backlog. cbn [if_queue if_cur if_pend if_drive if_bus if_snk if_ready]. cbn [holds] in H4. rewrite (bus_of_carries _ _ _ H4), ED. cbn [occ].
        split; [split; [exact H1|split; [exact H2|]]; exists di, [], pi; cbn [if_queue if_cur if_pend if_drive if_bus if_snk if_ready]; rewrite (bus_of_carries _ _ _ H4); repeat split; auto; apply H4|]. split; [lia|split; [reflexivity|intros; lia]].
    + eexists. split; [reflexivity|]. unfold measure, backlog. cbn [if_queue if_cur if_pend if_drive if_bus if_snk if_ready]. rewrite bus_of_clear, ED. cbn [occ].
      split; [split; [exact H1|split; [exact H2|]]; exists [], di, pi; rewrite ?ED; repeat split; auto|]. split; [lia|split; [reflexivity|]]. intros _ _ [HH|HH]; [congruence|]. destruct (bus_of (if_bus s)); [cbn [occ]; lia|congruence].
  - destruct (if_ready s); [discriminate|]. eexists. split; [reflexivity|]. unfold measure, backlog. cbn [if_queue if_cur if_pend if_drive if_bus if_snk if_ready].
    split; [split; [exact H1|split; [exact H2|]]; exists bi, di, pi; repeat split; auto|]. split; [lia|split; [reflexivity|intros; discriminate]].
Qed.

Lemma run_app cfg a b s : if_run cfg (a ++ b) s = let! s := if_run cfg a s in if_run cfg b s.
Proof. revert s; induction a as [|e a IH]; intros s; cbn [app if_run bind]; [reflexivity|]. destruct (if_step cfg s e); cbn [bind]; auto. Qed.

Lemma inv_runs cfg : icfg_ok cfg -> forall evs s all, Inv cfg s all -> Forall (frame_wf cfg) (sent evs) ->
  exists s', if_run cfg evs s = Ok s' /\ Inv cfg s' (all ++ sent evs).
Proof.
  intros Hc. induction evs as [|e evs IH]; intros s all HI HW; cbn [if_run sent].
  - exists s. rewrite app_nil_r. auto.
  - destruct e as [f| |p r].
    + cbn [sent] in HW. inversion HW; subst. destruct (inv_send cfg s all f) as (s1 & E & HI1); [assumption|assumption|]. rewrite E. cbn [bind].
      destruct (IH s1 _ HI1) as (s2 & E2 & HI2); [assumption|]. exists s2. split; [exact E2|]. now rewrite <- app_assoc in HI2.
    + destruct (inv_run cfg s all Hc HI) as (s1 & E & HI1 & _). rewrite E. cbn [bind]. apply IH; assumption.
    + destruct (inv_edge cfg s all p r Hc HI) as (s1 & E & HI1 & _). rewrite E. cbn [bind]. apply IH; assumption.
Qed.

Lemma measure0 cfg s all : icfg_ok cfg -> Inv cfg s all -> measure cfg s = 0%nat -> k_out (if_snk s) = map (carried cfg) all.
Proof.
  intros Hc (H1 & H2 & bi & di & pi & H3 & H4 & H5 & H6) HM. unfold measure in HM.
  destruct (bus_of (if_bus s)); [cbn [occ] in HM; lia|]. destruct (if_drive s); [cbn [occ] in HM; lia|]. destruct (if_pend s); [cbn [occ] in HM; lia|].
  cbn [holds] in *. subst. destruct (backlog cfg s); [|cbn [length] in HM; lia]. now apply R_done in H6.
Qed.

Lemma free_sent n : sent (free_cycles n) = [].
Proof. induction n; [reflexivity|]. cbn [free_cycles sent]. exact IHn. Qed.

Lemma round_step cfg s all : icfg_ok cfg -> Inv cfg s all ->
  exists s', if_run cfg [ERun; ERun; EEdge false true] s = Ok s' /\ Inv cfg s' all /\ if_ready s' = true /\
   (measure cfg s' <= measure cfg s)%nat /\ (if_ready s = true -> measure cfg s <> 0%nat -> (measure cfg s' < measure cfg s)%nat).
Proof.
  intros Hc HI. destruct (inv_run cfg s all Hc HI) as (s1 & E1 & I1 & M1 & Y1 & P1).
  destruct (inv_run cfg s1 all Hc I1) as (s2 & E2 & I2 & M2 & Y2 & _).
  destruct (inv_edge cfg s2 all false true Hc I2) as (s3 & E3 & I3 & M3 & Y3 & P3).
  exists s3. cbn [if_run]. rewrite E1. cbn [bind]. rewrite E2. cbn [bind]. rewrite E3. cbn [bind].
  split; [reflexivity|]. split; [assumption|]. split; [assumption|]. split; [lia|]. intros HR HM.
  destruct (if_drive s) as [d|] eqn:ED.
  - destruct (Nat.eq_dec (measure cfg s2) (measure cfg s)) as [Q|Q]; [|lia].
    destruct (if_drive s2) eqn:ED2; [assert (measure cfg s3 < measure cfg s2)%nat; [apply P3; [congruence|reflexivity|left; congruence]|lia]|].
    assert (if_drive s1 <> None) as D1.
    { cbn [if_step] in E1. unfold if_source in E1. rewrite ED in E1. destruct (if_pend s); [injection E1 as <-; congruence|].
      destruct (if_cur s); [|destruct (if_queue s); [injection E1 as <-; congruence|]];
        (destruct (src_segs _ _ _ _ _ _) as [[tc q]|]; [|discriminate]; cbn [bind] in E1; injection E1 as <-; cbn; congruence). }
    exfalso. destruct (if_drive s1) as [d1|] eqn:ED1; [|congruence].
    cbn [if_step] in E2. unfold if_source in E2. rewrite ED1 in E2. destruct (if_pend s1); [injection E2 as <-; congruence|].
      destruct (if_cur s1); [|destruct (if_queue s1); [injection E2 as <-; congruence|]];
        (destruct (src_segs _ _ _ _ _ _) as [[tc q]|]; [|discriminate]; cbn [bind] in E2; injection E2 as <-; cbn in ED2; congruence).
  - destruct (if_pend s) as [p|] eqn:EP; [specialize (P1 eq_refl ltac:(left; congruence)); lia|].
    destruct (backlog cfg s) as [|b0 b] eqn:EB; [|specialize (P1 eq_refl ltac:(right; congruence)); lia].
    assert (bus_of (if_bus s) <> None) as HB.
    { intros HB. apply HM. unfold measure. rewrite EB, EP, ED, HB. reflexivity. }
    assert (if_bus s2 = if_bus s) as HBB.
    { assert (ALL : forall a b, if_step cfg a ERun = Ok b -> if_bus b = if_bus a).
      { intros a b0 EE. cbn [if_step] in EE. unfold if_source in EE. destruct (if_pend a); [destruct (if_drive a); injection EE as <-; reflexivity|].
        destruct (if_cur a); [|destruct (if_queue a); [injection EE as <-; reflexivity|]];
        (destruct (src_segs _ _ _ _ _ _) as [[tc q]|]; [|discriminate]; cbn [bind] in EE; injection EE as <-; reflexivity). }
      rewrite (ALL _ _ E2). apply (ALL _ _ E1). }
    assert (measure cfg s3 < measure cfg s2)%nat; [|lia].
    apply P3; [congruence|reflexivity|]. right. congruence.
Qed.

Lemma drain cfg all : icfg_ok cfg -> forall n s, Inv cfg s all -> if_ready s = true -> (measure cfg s <= n)%nat ->
  exists s', if_run cfg (free_cycles n) s = Ok s' /\ Inv cfg s' all /\ measure cfg s' = 0%nat.
Proof.
  intros Hc. induction n; intros s HI HR HM.
  - exists s. cbn [free_cycles if_run]. split; [reflexivity|]. split; [assumption|lia].
  - change (free_cycles (S n)) with ([ERun; ERun; EEdge false true] ++ free_cycles n). rewrite run_app.
    destruct (round_step cfg s all Hc HI) as (s1 & E & I1 & R1 & M1 & P1). rewrite E. cbn [bind].
    apply IHn; [assumption|assumption|]. destruct (Nat.eq_dec (measure cfg s) 0); [lia|]. specialize (P1 HR n0). lia.
Qed.

(** ** C39. *)
Lemma stream_prefix cfg evs : icfg_ok cfg -> Forall (frame_wf cfg) (sent evs) ->
  exists s rest, if_run cfg evs if0 = Ok s /\ map (carried cfg) (sent evs) = k_out (if_snk s) ++ rest.
Proof.
  intros Hc HW. destruct (inv_runs cfg Hc evs if0 [] (Inv0 cfg) HW) as (s & E & _ & _ & bi & di & pi & _ & _ & _ & HR).
  destruct (R_prefix _ _ _ _ HR) as (rest & HH). exists s, rest. auto.
Qed.

Lemma stream_complete cfg evs : icfg_ok cfg -> Forall (frame_wf cfg) (sent evs) ->
  exists n0, forall n, (n0 <= n)%nat -> exists s, if_run cfg (evs ++ free_cycles n) if0 = Ok s /\ k_out (if_snk s) = map (carried cfg) (sent evs).
Proof.
  intros Hc HW. destruct (inv_runs cfg Hc evs if0 [] (Inv0 cfg) HW) as (s & E & HI). cbn [app] in HI.
  exists (S (measure cfg s)). intros n Hn. destruct n as [|n]; [lia|].
  rewrite run_app, E. cbn [bind]. change (free_cycles (S n)) with ([ERun; ERun; EEdge false true] ++ free_cycles n). rewrite run_app.
  destruct (round_step cfg s _ Hc HI) as (s1 & E1 & I1 & R1 & M1 & _). rewrite E1. cbn [bind].
  destruct (drain cfg (sent evs) Hc n s1 I1 R1 ltac:(lia)) as (s2 & E2 & I2 & Z2). exists s2. split; [exact E2|]. now apply measure0.
Qed.

Lemma carried_all cfg f : pr_data cfg && pr_error cfg && pr_prfx cfg && pr_seq cfg && pr_vfa cfg && pr_func cfg && pr_vfn cfg &&
   pr_bar cfg && pr_dpar cfg && pr_hpar cfg && pr_ppar cfg = true -> f_tlp_abort f = 0 -> carried cfg f = f.
Proof.
  intros H HA. rewrite !andb_true_iff in H. unfold carried. destruct H as ((((((((((-> & ->) & ->) & ->) & ->) & ->) & ->) & ->) & ->) & ->) & ->).
  rewrite !map_id. destruct f as [p h d pp hp par fn vf bar ab er sq]. cbn [f_tlp_abort] in HA. subst ab. destruct vf; reflexivity.
Qed.
