(** Lemmas on the DMA interface multiplexers (C133, C134). *)
From Verif Require Import PyBase RtlModel RtlSpec RtlMuxModel RtlMuxSpec RtlMuxProofs RtlMuxProofs3 RtlDemuxModel RtlRamDemuxModel RtlRamDemuxSpec RtlRamDemuxProofs RtlRamDemuxProofs2 RtlRamDemuxProofs4 RtlIfMuxModel RtlIfMuxSpec.

(** * The traces of the parts. *)
Lemma ir_tr_d (D : Type) p : forall (l : list (ir_in D)) s, map ire_d (ir_trace p s l) = mux_trace (im_n p) (im_rr p) (im_lsb p) false (dd_route (im_dd p false)) (dd_drive (im_dd p false)) (irs_d s) (map ir_mux l).
Proof. induction l as [|i t IH]; intros s; [reflexivity|]. cbn [ir_trace map mux_trace]. rewrite IH. reflexivity. Qed.
Lemma ir_tr_x (D : Type) p : forall (l : list (ir_in D)) s, map ire_x (ir_trace p s l) = wr_trace (im_x p) (irs_x s) (map ir_ram l).
Proof. induction l as [|i t IH]; intros s; [reflexivity|]. cbn [ir_trace map wr_trace]. rewrite IH. reflexivity. Qed.
Lemma iw_tr_d (D : Type) p : forall (l : list (iw_in D)) s, map iwe_d (iw_trace p s l) = mux_trace (im_n p) (im_rr p) (im_lsb p) false (dd_route (im_dd p (im_imm p))) (dd_drive (im_dd p (im_imm p))) (iws_d s) (map iw_mux l).
Proof. induction l as [|i t IH]; intros s; [reflexivity|]. cbn [iw_trace map mux_trace]. rewrite IH. reflexivity. Qed.
Lemma iw_tr_x (D : Type) p : forall (l : list (iw_in D)) s, map iwe_x (iw_trace p s l) = rd_trace (im_x p) (iws_x s) (map iw_ram l).
Proof. induction l as [|i t IH]; intros s; [reflexivity|]. cbn [iw_trace map rd_trace]. rewrite IH. reflexivity. Qed.

Lemma since_map_gen (E F A B : Type) (g : E -> F) (h : A -> B) (r1 : E -> bool) (r2 : F -> bool) (f1 : E -> list A) (f2 : F -> list B) : forall tr acc, (forall e, In e tr -> r1 e = r2 (g e) /\ f2 (g e) = map h (f1 e)) ->
  fold_left (fun l e => if r2 e then [] else l ++ f2 e) (map g tr) (map h acc) = map h (fold_left (fun l e => if r1 e then [] else l ++ f1 e) tr acc).
Proof.
  induction tr as [|e t IH]; intros acc H; [reflexivity|]. cbn [map fold_left]. destruct (H e (or_introl eq_refl)) as [E1 E2]. rewrite <- E1, E2. destruct (r1 e).
  - apply (IH []). intros x Hx. apply H. right. exact Hx.
  - rewrite <- map_app. apply IH. intros x Hx. apply H. right. exact Hx.
Qed.
Definition home (p : im_param) {D} (c : Z * D) : Z * (Z * D) := (port_of (im_x p) (fst c), (fst c mod 2 ^ im_ssel p, snd c)).
Lemma ir_in_x (D : Type) p : forall (l : list (ir_in D)) s e, In e (ir_trace p s l) -> wre_in (ire_x e) = ir_ram (ire_in e).
Proof. induction l as [|i t IH]; intros s e H; [destruct H|]. destruct H as [<-|H]; [reflexivity|]. eapply IH, H. Qed.
Lemma iw_in_x (D : Type) p : forall (l : list (iw_in D)) s e, In e (iw_trace p s l) -> rde_in (iwe_x e) = iw_ram (iwe_in e).
Proof. induction l as [|i t IH]; intros s e H; [destruct H|]. destruct H as [<-|H]; [reflexivity|]. eapply IH, H. Qed.
Lemma ir_asked_home (D : Type) p (l : list (ir_in D)) s : w_asked (im_x p) (map ire_x (ir_trace p s l)) = map (home p) (ir_asked (ir_trace p s l)).
Proof.
  unfold w_asked, ir_asked, since. apply (since_map_gen _ _ _ _ ire_x (home p) _ w_rst _ _ (ir_trace p s l) []). intros e He. pose proof (ir_in_x D p l s e He) as EI. unfold w_rst. rewrite EI. split; [reflexivity|].
  unfold command. rewrite ?EI. cbn [ir_ram wr_cmd xi_valid xi_sel xi_cmd]. destruct (ir_v (ire_in e) && wre_ready (ire_x e)); reflexivity.
Qed.
Lemma iw_asked_home (D : Type) p (l : list (iw_in D)) s : r_asked (im_x p) (map iwe_x (iw_trace p s l)) = map (home p) (iw_asked (iw_trace p s l)).
Proof.
  unfold r_asked, iw_asked, since. apply (since_map_gen _ _ _ _ iwe_x (home p) _ r_rst _ _ (iw_trace p s l) []). intros e He. pose proof (iw_in_x D p l s e He) as EI. unfold r_rst. rewrite EI. split; [reflexivity|].
  unfold command. rewrite ?EI. cbn [iw_ram rd_cmd xi_valid xi_sel xi_cmd]. destruct (iw_v (iwe_in e) && rde_ready (iwe_x e)); reflexivity.
Qed.

(** * What a port took was offered there. *)
Lemma acc_in q : forall (tr : list (mux_ev dd_desc dd_desc)) (acc : list (bool * dd_desc)) x, In x (fold_left (acc_step q) tr acc) -> In x acc \/ exists e, In e tr /\ snd x = mv_data e q.
Proof.
  induction tr as [|e t IH]; intros acc x H; [left; exact H|]. cbn [fold_left] in H. destruct (IH _ _ H) as [A|(e' & A & B)]; [|right; exists e'; split; [right; exact A|exact B]].
  unfold acc_step in A. destruct (mv_rst e); [destruct A|]. destruct (Z.testbit (mv_valid e) q && Z.testbit (mv_ready e) q); [|left; exact A].
  apply in_app_or in A. destruct A as [A|[<-|[]]]; [left; exact A|]. right. exists e. split; [left; reflexivity|reflexivity].
Qed.
Lemma src_in n u img tr (src : list (Z * (bool * dd_desc))) q b x : merged n u img tr src -> In (q, (b, x)) src -> 0 <= q < n /\ exists e : mux_ev dd_desc dd_desc, In e tr /\ x = mv_data e q.
Proof.
  intros [HP _ HI _] H. assert (Q : 0 <= q < n) by (rewrite Forall_forall in HP; exact (HP _ H)). split; [exact Q|]. destruct (HI q Q) as (ins & E & _).
  assert (A : In (b, x) (accepted q tr)).
  { rewrite E. apply in_or_app. left. unfold from. apply in_map_iff. exists (q, (b, x)). split; [reflexivity|]. apply filter_In. split; [exact H|]. apply Z.eqb_refl. }
  destruct (acc_in q tr [] (b, x) A) as [[]|(e & A1 & A2)]. exists e. split; [exact A1|exact A2].
Qed.
Lemma trace_in p imm : forall l s e, In e (mux_trace (im_n p) (im_rr p) (im_lsb p) false (dd_route (im_dd p imm)) (dd_drive (im_dd p imm)) s l) -> exists i, In i l /\ mv_data e = mi_data i.
Proof. induction l as [|i t IH]; intros s e H; [destruct H|]. destruct H as [<-|H]; [exists i; split; [left; reflexivity|reflexivity]|]. destruct (IH _ _ H) as (j & A & B). exists j. split; [right; exact A|exact B]. Qed.

(** * The arithmetic of the select. *)
Lemma img_home p q x sel : im_ok p -> 0 <= q < im_n p -> 0 <= x < 2 ^ im_ssel p -> sel = q * 2 ^ (im_msel p - Z.log2_up (im_n p)) + x mod 2 ^ (im_msel p - Z.log2_up (im_n p)) ->
  port_of (im_x p) sel = q /\ sel mod 2 ^ im_ssel p = x.
Proof.
  intros (H1 & H2 & H3 & H4 & H5) Hq Hx ->. unfold port_of, im_x. cbn [xp_ports xp_m]. pose proof (Z.log2_up_nonneg (im_n p)) as C. pose proof (Z.log2_up_spec (im_n p) ltac:(lia)) as LS. set (c := Z.log2_up (im_n p)) in *.
  assert (B : 0 < 2 ^ (im_msel p - c)) by (apply Z.pow_pos_nonneg; lia). assert (L : 2 ^ im_ssel p <= 2 ^ (im_msel p - c)) by (apply Z.pow_le_mono_r; lia).
  rewrite (Z.mod_small x (2 ^ (im_msel p - c))) by lia. split.
  - rewrite Z.div_add_l, (Z.div_small x) by lia. rewrite Z.add_0_r. apply Z.mod_small. lia.
  - replace (im_msel p - c) with ((im_msel p - c - im_ssel p) + im_ssel p) by lia. rewrite Z.pow_add_r by lia. rewrite Z.mul_assoc, Z.add_comm, Z.mod_add by lia. apply Z.mod_small. lia.
Qed.
Lemma tag_port p q r x y : im_ok p -> 0 <= x < 2 ^ im_stag p -> 0 <= y < 2 ^ im_stag p ->
  q * 2 ^ (im_mtag p - Z.log2_up (im_n p)) + x mod 2 ^ (im_mtag p - Z.log2_up (im_n p)) = r * 2 ^ (im_mtag p - Z.log2_up (im_n p)) + y mod 2 ^ (im_mtag p - Z.log2_up (im_n p)) -> q = r.
Proof.
  intros (H1 & H2 & H3 & H4 & H5) Hx Hy E. set (w := 2 ^ (im_mtag p - Z.log2_up (im_n p))) in *. pose proof (Z.log2_up_nonneg (im_n p)) as C.
  assert (B : 0 < w) by (apply Z.pow_pos_nonneg; lia). apply (f_equal (fun v => v / w)) in E. rewrite !Z.div_add_l in E by lia. rewrite !Z.div_small in E by (apply Z.mod_pos_bound; lia). lia.
Qed.

Definition in_range (p : im_param) (x : dd_desc) : Prop := 0 <= dd_sel x < 2 ^ im_ssel p /\ 0 <= dd_tag x < 2 ^ im_stag p.
Lemma home_own (D : Type) p imm (src : list (Z * (bool * dd_desc))) (asked : list (Z * D)) sent outs : im_ok p -> Forall (fun o => 0 <= fst o < im_n p /\ in_range p (snd (snd o))) src ->
  outs = map (fun x => dd_image (im_dd p imm) (fst x) (snd (snd x))) src -> (exists rest, filter (fun x => exists_port (im_x p) (fst x)) (map (home p) asked) = sent ++ rest /\ (length rest <= 2)%nat) ->
  routed_home src (dd_image (im_dd p imm)) outs asked sent.
Proof.
  intros OK HR HO HS HA. subst outs. rewrite Forall_forall in HR.
  assert (H : exists own : owned D, asked = map (fun o => (dd_sel (dd_image (im_dd p imm) (fst o) (fst (snd o))), snd (snd o))) own
    /\ Forall (fun o => exists b, In (fst o, (b, fst (snd o))) src) own /\ filter (fun x => exists_port (im_x p) (fst x)) (map (home p) asked) = map (fun o => (fst o, (dd_sel (fst (snd o)), snd (snd o)))) own).
  { clear HS. induction asked as [|c t IH]; [exists []; repeat split; constructor|]. destruct (IH (fun c' Hc => HA c' (or_intror Hc))) as (own & E1 & E2 & E3).
    destruct (HA c (or_introl eq_refl)) as (y & Hy & Ey). apply in_map_iff in Hy. destruct Hy as ((q & (b & x)) & <- & Hx). cbn [fst snd] in *. destruct (HR _ Hx) as (Hq & Hs & Ht). cbn [fst snd] in *.
    destruct (img_home p q (dd_sel x) (fst c) OK Hq Hs (eq_sym Ey)) as [P1 P2].
    exists ((q, (x, snd c)) :: own). cbn [map fst snd]. split; [|split].
    - rewrite Ey. destruct c. f_equal. exact E1.
    - constructor; [|exact E2]. exists b. exact Hx.
    - cbn [filter]. unfold home at 1 2. cbn [fst]. rewrite P1. unfold exists_port at 1. cbn [im_x xp_ports]. assert (EL : (q <? im_n p) = true) by (apply Z.ltb_lt; lia). rewrite EL. rewrite E3, P2. reflexivity. }
  destruct H as (own & E1 & E2 & E3). exists own. split; [exact E1|]. split; [exact E2|]. rewrite <- E3. exact HS.
Qed.
Lemma kept_ok p imm src : im_ok p -> Forall (fun o => 0 <= fst o < im_n p /\ in_range p (snd (snd o))) src -> kept_fields (im_n p) src (dd_image (im_dd p imm)).
Proof.
  intros OK HR. rewrite Forall_forall in HR. split; [intros q x; repeat split|]. intros q b x r c y Hx Hy [E|E]; destruct (HR _ Hx) as (Q1 & S1 & T1); destruct (HR _ Hy) as (Q2 & S2 & T2); cbn [fst snd] in *.
  - destruct (img_home p q (dd_sel x) _ OK Q1 S1 eq_refl) as [P1 _]. destruct (img_home p r (dd_sel y) _ OK Q2 S2 eq_refl) as [P2 _]. unfold dd_image in E. cbn [im_dd dp_ext dp_msel dp_n dd_sel] in E. rewrite <- P1, <- P2, E. reflexivity.
  - exact (tag_port p q r _ _ OK T1 T2 E).
Qed.
Lemma im_dd_ok p imm : im_ok p -> dd_ok (im_dd p imm).
Proof. intros (H1 & H2 & H3 & H4 & H5). unfold dd_ok, im_dd. cbn [dp_n dp_stag dp_mtag dp_msel dp_ext]. pose proof (Z.log2_up_nonneg (im_n p)). repeat split; try lia. Qed.
Lemma im_x_ok p : im_ok p -> x_ok (im_x p).
Proof. intros (H1 & H2 & H3 & H4 & H5). unfold x_ok, im_x. cbn [xp_ports xp_s xp_m]. lia. Qed.
Lemma src_range p imm l g s (src : list (Z * (bool * dd_desc))) ims : im_ok p -> (forall x, dd_sel (g x) = dd_sel x /\ dd_tag (g x) = dd_tag x) -> (forall i, In i l -> exists r j, i = id_mux r g j /\ id_ok p j) ->
  merged (im_n p) false ims (mux_trace (im_n p) (im_rr p) (im_lsb p) false (dd_route (im_dd p imm)) (dd_drive (im_dd p imm)) s l) src -> Forall (fun o => 0 <= fst o < im_n p /\ in_range p (snd (snd o))) src.
Proof.
  intros OK HG HL M. apply Forall_forall. intros (q & (b & x)) H. cbn [fst snd]. destruct (src_in _ _ _ _ _ _ _ _ M H) as (Q & e & He & ->). split; [exact Q|].
  destruct (trace_in p imm l s e He) as (i & Hi & ->). destruct (HL i Hi) as (r & j & -> & (_ & W)). unfold in_range, id_mux. cbn [mi_data]. destruct (HG (id_data j q)) as [-> ->]. apply W.
Qed.
Lemma mux_ins p l g : (forall i, In i l -> exists r j, i = id_mux r g j /\ id_ok p j) -> Forall (mux_in_ok (im_n p)) l.
Proof.
  intros HL. apply Forall_forall. intros i Hi. destruct (HL i Hi) as (r & j & -> & (V & _)). split; [exact V|]. cbn [id_mux mi_last]. unfold vec in *. lia.
Qed.

Lemma next_st (D : Type) p : forall (l : list (ir_in D)) s a e1 e2 b, ir_trace p s l = a ++ e1 :: e2 :: b -> ire_st e2 = im_status p (ir_rst (ire_in e1)) (ir_d (ire_in e1)).
Proof.
  induction l as [|i t IH]; intros s a e1 e2 b E; [destruct a; discriminate|]. destruct a as [|e0 a].
  - cbn [ir_trace app] in E. injection E as E1 E2. subst e1. destruct t as [|j t]; [discriminate|]. cbn [ir_trace] in E2. injection E2 as E2 _. subst e2. reflexivity.
  - cbn [ir_trace app] in E. injection E as _ E. exact (IH _ _ _ _ _ E).
Qed.
Lemma next_st_w (D : Type) p : forall (l : list (iw_in D)) s a e1 e2 b, iw_trace p s l = a ++ e1 :: e2 :: b -> iwe_st e2 = im_status p (iw_rst (iwe_in e1)) (iw_d (iwe_in e1)).
Proof.
  induction l as [|i t IH]; intros s a e1 e2 b E; [destruct a; discriminate|]. destruct a as [|e0 a].
  - cbn [iw_trace app] in E. injection E as E1 E2. subst e1. destruct t as [|j t]; [discriminate|]. cbn [iw_trace] in E2. injection E2 as E2 _. subst e2. reflexivity.
  - cbn [iw_trace app] in E. injection E as _ E. exact (IH _ _ _ _ _ E).
Qed.
Lemma status_of p imm q x err : im_ok p -> 0 <= q < im_n p -> in_range p x -> ds_step (im_n p) (im_stag p) (im_mtag p) false (dd_tag (dd_image (im_dd p imm) q x)) err true = mkDs (dd_tag x) err (2 ^ q).
Proof. intros (H1 & H2 & H3 & H4 & H5) Q (_ & T). apply status_back; assumption. Qed.

Lemma ir_home (D : Type) p (d : Z * D) l : im_ok p -> Forall (fun i => id_ok p (ir_d i)) l -> let tr := ir_trace p (ir0 d) l in
  exists src img, merged (im_n p) false (fun q _ x => img q x) (map ire_d tr) src /\ kept_fields (im_n p) src img /\
    routed_home src img (delivered (map ire_d tr)) (ir_asked tr) (w_sent (im_x p) (map ire_x tr)) /\ status_home (fun e => ir_rst (ire_in e)) (fun e => ir_d (ire_in e)) ire_st src img tr.
Proof.
  intros OK HL tr. assert (HI : forall i, In i (map ir_mux l) -> exists r j, i = id_mux r ir_bare j /\ id_ok p j).
  { intros i Hi. apply in_map_iff in Hi. destruct Hi as (k & <- & Hk). rewrite Forall_forall in HL. exists (ir_rst k), (ir_d k). split; [reflexivity|exact (HL k Hk)]. }
  destruct (dd_merge (im_dd p false) (map ir_mux l) (im_dd_ok p false OK) (mux_ins p _ _ HI)) as (src & M). exists src, (dd_image (im_dd p false)).
  assert (ED : map ire_d tr = dd_trace (im_dd p false) (map ir_mux l)) by (unfold tr; rewrite ir_tr_d; reflexivity). rewrite ED. split; [exact M|].
  assert (HR : Forall (fun o => 0 <= fst o < im_n p /\ in_range p (snd (snd o))) src) by (exact (src_range p false _ ir_bare dd0 src _ OK (fun x => conj eq_refl eq_refl) HI M)).
  split; [exact (kept_ok p false src OK HR)|]. split.
  - apply home_own; [exact OK|exact HR|exact (m_out _ _ _ _ _ M)|]. unfold tr. rewrite <- ir_asked_home, ir_tr_x. exact (wr_routed (im_x p) (im_x_ok p OK) d (map ir_ram l)).
  - intros a e1 e2 b q c x E R V Hx T. rewrite (next_st D p l (ir0 d) a e1 e2 b E). unfold im_status. rewrite R, V, T. rewrite Forall_forall in HR. destruct (HR _ Hx) as (Q & X). exact (status_of p false q x _ OK Q X).
Qed.
Lemma iw_home (D : Type) p (d : Z * D) l : im_ok p -> Forall (fun i => id_ok p (iw_d i)) l -> let tr := iw_trace p (iw0 d) l in
  exists src img, merged (im_n p) false (fun q _ x => img q x) (map iwe_d tr) src /\ kept_fields (im_n p) src img /\ kept_imm (im_imm p) img /\
    routed_home src img (delivered (map iwe_d tr)) (iw_asked tr) (r_sent (im_x p) (map iwe_x tr)) /\ status_home (fun e => iw_rst (iwe_in e)) (fun e => iw_d (iwe_in e)) iwe_st src img tr.
Proof.
  intros OK HL tr. assert (HI : forall i, In i (map iw_mux l) -> exists r j, i = id_mux r (fun d => d) j /\ id_ok p j).
  { intros i Hi. apply in_map_iff in Hi. destruct Hi as (k & <- & Hk). rewrite Forall_forall in HL. exists (iw_rst k), (iw_d k). split; [reflexivity|exact (HL k Hk)]. }
  destruct (dd_merge (im_dd p (im_imm p)) (map iw_mux l) (im_dd_ok p (im_imm p) OK) (mux_ins p _ _ HI)) as (src & M). exists src, (dd_image (im_dd p (im_imm p))).
  assert (ED : map iwe_d tr = dd_trace (im_dd p (im_imm p)) (map iw_mux l)) by (unfold tr; rewrite iw_tr_d; reflexivity). rewrite ED. split; [exact M|].
  assert (HR : Forall (fun o => 0 <= fst o < im_n p /\ in_range p (snd (snd o))) src) by (exact (src_range p (im_imm p) _ (fun d => d) dd0 src _ OK (fun x => conj eq_refl eq_refl) HI M)).
  split; [exact (kept_ok p (im_imm p) src OK HR)|]. split; [intros K q x; unfold dd_image, im_dd; rewrite K; split; reflexivity|]. split.
  - apply home_own; [exact OK|exact HR|exact (m_out _ _ _ _ _ M)|]. unfold tr. rewrite <- iw_asked_home, iw_tr_x. exact (rd_routed (im_x p) (im_x_ok p OK) d (map iw_ram l)).
  - intros a e1 e2 b q c x E R V Hx T. rewrite (next_st_w D p l (iw0 d) a e1 e2 b E). unfold im_status. rewrite R, V, T. rewrite Forall_forall in HR. destruct (HR _ Hx) as (Q & X). exact (status_of p (im_imm p) q x _ OK Q X).
Qed.
(** Answers: the k-th one is that of the port the k-th command went to. *)
Lemma iw_own (D : Type) p (d : Z * D) l : im_ok p -> let tr := map iwe_x (iw_trace p (iw0 d) l) in r_causal (im_x p) tr -> r_own (im_x p) tr.
Proof. intros OK tr. unfold tr. rewrite iw_tr_x. exact (rd_own (im_x p) (im_x_ok p OK) d (map iw_ram l)). Qed.
Lemma ir_wired (D : Type) p : forall (l : list (ir_in D)) s, let tr := ir_trace p s l in map ire_in tr = l /\ Forall (fun e => wired false (ir_rst (ire_in e)) (ir_d (ire_in e)) (ire_d e) /\ wired_wr (ire_in e) (ire_x e)) tr.
Proof.
  induction l as [|i t IH]; intros s; [split; constructor|]. destruct (IH (ir_step p s i)) as (A & B). cbv zeta in *. cbn [ir_trace map]. split; [rewrite A; reflexivity|].
  constructor; [|exact B]. repeat split; discriminate.
Qed.
Lemma iw_wired (D : Type) p : forall (l : list (iw_in D)) s, let tr := iw_trace p s l in map iwe_in tr = l /\ Forall (fun e => wired true (iw_rst (iwe_in e)) (iw_d (iwe_in e)) (iwe_d e) /\ wired_rd (iwe_in e) (iwe_x e)) tr.
Proof.
  induction l as [|i t IH]; intros s; [split; constructor|]. destruct (IH (iw_step p s i)) as (A & B). cbv zeta in *. cbn [iw_trace map]. split; [rewrite A; reflexivity|].
  constructor; [|exact B]. repeat split.
Qed.
