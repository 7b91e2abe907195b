(** Proofs about the AXI stream sink (C99, C100). *)
From Verif Require Import PyBase RtlModel RtlProofs RtlFcProofs RtlRamModel RtlDemuxModel RtlRamDemuxModel RtlRamDemuxProofs RtlSrcModel RtlSrcSpec RtlSrcProofs RtlSinkModel RtlSinkSpec RtlSinkProofs.

Lemma f2_len {A B} (R : A -> B -> Prop) a b : Forall2 R a b -> length a = length b.
Proof. induction 1; cbn [length]; congruence. Qed.
Lemma filter_len {A} (f : A -> bool) l : (length (filter f l) <= length l)%nat.
Proof. induction l as [|a l IH]; cbn [filter length]; [lia|]. destruct (f a); cbn [length]; lia. Qed.

Lemma segs_in {p} n : In n (sk_segs p) <-> 0 <= n < cl_segs p.
Proof.
  unfold sk_segs. rewrite in_map_iff. split.
  - intros [t [<- T]]. apply in_seq in T. lia.
  - intros N. exists (Z.to_nat n). split; [lia|]. apply in_seq. lia.
Qed.
Lemma tab_eq {A} p (f : Z -> A) n : sk_tab p f n = f n.
Proof.
  unfold sk_tab. cbn zeta. destruct (Z.leb_spec 0 n) as [L|]; [|reflexivity]. destruct (nth_error _ _) as [x|] eqn:E; [|reflexivity]. unfold sk_segs in E. rewrite map_map, nth_error_map in E.
  destruct (nth_error (seq 0 (Z.to_nat (cl_segs p))) (Z.to_nat n)) as [k|] eqn:E2; [|discriminate]. cbn [option_map] in E. injection E as <-. f_equal. pose proof E2 as E3. apply nth_error_nth with (d := O) in E2. assert (LT : (Z.to_nat n < Z.to_nat (cl_segs p))%nat) by (apply nth_error_Some_lt in E3 || (assert (nth_error (seq 0 (Z.to_nat (cl_segs p))) (Z.to_nat n) <> None) as X by congruence; apply nth_error_Some in X; rewrite seq_length in X; exact X)).
  rewrite seq_nth in E2 by exact LT. lia.
Qed.

Section inv.
Variable p : cl_param.
Variables e1 e2 e3 : Z.
Hypothesis H1 : 0 <= e1.
Hypothesis H2 : 0 <= e2.
Hypothesis H3 : 0 <= e3 <= e1 + e2.
Hypothesis Haw : e1 + e2 <= cl_aw p.
Hypothesis Hlw : e3 <= cl_lw p.
Hypothesis Hws : 1 <= cl_ws p.
Hypothesis Hkw : 1 <= cl_kw p.
Hypothesis Hs : cl_segs p = 2 ^ e1.
Hypothesis Hb : cl_be p = 2 ^ e2.
Hypothesis Hk : beat_words p = 2 ^ e3.
Hypothesis Hwide : src_wide p.
Notation K := (2 ^ e3).
Notation regs := (reg_ok p e3).

Definition mr (m : sk_main) (c : kcur) : Prop :=
  match km_st m, c with
  | KIdle, CIdle => km_tready m = false
  | KWrite, CWrite d pos => km_ready m = false /\ exists k, pos = k * K /\ regs m d k
  | KDrop, CDrop => km_ready m = false /\ km_tready m = true
  | _, _ => False
  end.
Definition nostat (b : kbeat) : Prop := kb_stat b = None.
Definition ur (f : sk_fifo) (U : list kbeat) : Prop :=
  if kf_valid f then exists a b, U = a ++ [b] /\ Forall nostat a /\ kb_stat b = Some (kf_out f) else Forall nostat U.
Definition fr (f : sk_fifo) (T : list kbeat) : Prop := ptr_ok (kf_wr f) (kf_rd f) /\ Forall2 (ent_ok p) T (ring (kf_wr f) (kf_rd f) (kf_mem f)).
Definition gr (g : sk_seg) (n : Z) (T U W : list kbeat) (pend dn : Z) : Prop :=
  exists X O F, filter (fun b => uses_seg p b n) T = X ++ O ++ F /\ Z.of_nat (length X) = kg_cnt g + pend /\ 0 <= kg_cnt g /\ 0 <= pend /\ W = O ++ F /\
    (if kg_valid g then exists b, O = [b] /\ write_is p b n (kg_cmd g) else O = []) /\ ptr_ok (kg_wr g) (kg_rd g) /\ Forall2 (fun b c => write_is p b n c) F (ring (kg_wr g) (kg_rd g) (kg_mem g)) /\
    kg_done g = (0 <? kg_cnt g) /\ dn = kg_cnt g + seg_count p U n.
Definition hasstat (b : kbeat) : bool := match kb_stat b with Some _ => true | None => false end.
Definition lasts (T : list kbeat) : Z := Z.of_nat (length (filter hasstat T)).
Definition br (s : sk_state) (T : list kbeat) : Prop :=
  (length T <= 18)%nat /\ (kf_half (ks_fifo s) = false -> (length T <= 16)%nat) /\ (km_st (ks_main s) = KWrite -> km_tready (ks_main s) = true -> (length T <= 17)%nat).
Definition busy (c : kcur) : Z := match c with CWrite _ _ => 1 | _ => 0 end.
Definition ar (f : sk_fifo) (c : kcur) (T : list kbeat) : Prop := kf_act f = lasts T + busy c /\ kf_av f = true.
Definition sinv (s : sk_state) (m : sk_mon) : Prop :=
  exists U T, mo_t m = U ++ T /\ mr (ks_main s) (mo_cur m) /\ ur (ks_fifo s) U /\ fr (ks_fifo s) T /\ br s T /\ ar (ks_fifo s) (mo_cur m) T /\
    forall n, 0 <= n < cl_segs p -> gr (ks_seg s n) n T U (mo_w m n) (mo_n m n) (mo_d m n).

Lemma new_cases s m i (e := sk_event s i) : mr (ks_main s) (mo_cur m) ->
  (sk_got s i = true /\ km_st (ks_main s) = KWrite /\ km_tready (ks_main s) = true /\ exists d k, mo_cur m = CWrite d (k * K) /\ regs (ks_main s) d k /\ new_beat p m e = [beat_of p d (k * K) i]) \/
  (sk_got s i = false /\ new_beat p m e = []).
Proof.
  unfold mr, sk_got, new_beat, e. cbn [sk_event kv_tready kv_in]. destruct (km_st (ks_main s)) eqn:ST, (mo_cur m) as [|d pos|] eqn:CU; try contradiction; intros M; try (right; split; reflexivity).
  destruct M as [_ [k [-> RO]]]. destruct (km_tready (ks_main s)) eqn:TR; cbn [andb]; [|right; split; reflexivity]. destruct (ki_tvalid i); [|right; split; reflexivity].
  left. repeat split. exists d, k. split; [reflexivity | split; [assumption | reflexivity]].
Qed.
Lemma main_ok s m i (e := sk_event s i) : mr (ks_main s) (mo_cur m) -> sk_fair p m e -> ki_rst i = false -> mr (sk_main_step p s i) (next_cur p m e).
Proof.
  intros M FA R. pose proof FA as [_ [FD FK]]. unfold e in FD, FK. cbn [sk_event kv_in kv_ready] in FD, FK. unfold mr, sk_main_step, next_cur, e in *. cbn [sk_event kv_in kv_ready kv_tready]. rewrite R. cbn [negb andb].
  destruct (km_st (ks_main s)) eqn:ST, (mo_cur m) as [|d pos|] eqn:CU; try contradiction.
  - unfold sk_take. rewrite ST. destruct (km_ready (ks_main s) && ki_valid i) eqn:TK; cbn [km_st km_ready km_tready andb negb]; [|reflexivity]. split; [reflexivity|]. exists 0. split; [lia|].
    eapply (reg_first p e1 e2 e3); try eassumption. now apply FD.
  - destruct M as [MR [k [-> RO]]]. unfold sk_got. rewrite ST. destruct (km_tready (ks_main s) && ki_tvalid i) eqn:G.
    + pose proof RO as [DK [LK [EA [EM [EO [EL [EC [ELC ET]]]]]]]]. assert (NL : (de_len d <=? k * K + K) = (nb e3 d - 1 - k =? 0)) by (eapply (nb_last p e1 e2 e3); eassumption).
      change (sk_end p i) with (ends p i). cbn [km_st km_ready km_tready]. rewrite ELC, Hk, NL. destruct (ends p i) eqn:EN; cbn [andb orb negb].
      * reflexivity.
      * destruct (nb e3 d - 1 - k =? 0) eqn:Q; cbn [andb].
        -- destruct (cl_last p); cbn [andb negb]; [split; reflexivity | reflexivity].
        -- split; [reflexivity|]. exists (k + 1). split; [ring|]. eapply (reg_next p e1 e2 e3); try eassumption; [now apply Z.eqb_neq|].
           eapply (len_ok p e1 e2 e3); try eassumption. now apply Z.eqb_neq.
    + cbn [km_st km_ready km_tready]. split; [reflexivity|]. exists k. split; [reflexivity|]. exact RO.
  - destruct M as [MR MT]. destruct (km_tready (ks_main s) && ki_tvalid i && ki_last i); cbn [km_st km_ready km_tready negb andb]; [reflexivity | split; reflexivity].
Qed.

Notation hd_ent f := (kf_mem f (kf_rd f mod 32)).
Lemma pop_cases s T : fr (ks_fifo s) T ->
  exists P T1, T = P ++ T1 /\ (if sk_pop p s then exists h, P = [h] /\ ent_ok p h (hd_ent (ks_fifo s)) /\ forall n, 0 <= n < cl_segs p -> uses_seg p h n = true -> kg_done (ks_seg s n) = true else P = []).
Proof.
  intros [PO F]. destruct (sk_pop p s) eqn:PP; [|exists [], T; split; reflexivity]. unfold sk_pop in PP. cbn zeta in PP. apply andb_true_iff in PP. destruct PP as [NE DA].
  assert (EM : ptr_empty (kf_wr (ks_fifo s)) (kf_rd (ks_fifo s)) = false) by (unfold ptr_empty; rewrite Z.eqb_sym; now apply negb_true_iff).
  destruct (ring_head _ _ _ (kf_mem (ks_fifo s)) PO EM) as [r RG]. rewrite RG in F. inversion F as [|h e T1 r' EH FT]; subst. exists [h], T1. split; [reflexivity|]. exists h. split; [reflexivity|]. split; [exact EH|].
  intros n N U. rewrite forallb_forall in DA. specialize (DA n (proj2 (segs_in n) N)). destruct EH as [_ EH]. rewrite (EH n N), U in DA. exact DA.
Qed.
Lemma fifo_ok s m i T P T1 (e := sk_event s i) : mr (ks_main s) (mo_cur m) -> fr (ks_fifo s) T -> (length T <= 18)%nat -> sk_fair p m e -> ki_rst i = false -> T = P ++ T1 ->
  (if sk_pop p s then exists h, P = [h] else P = []) -> fr (sk_fifo_step p s i) (T1 ++ new_beat p m e).
Proof.
  intros M [PO F] LT FA R ET EP. unfold fr, sk_fifo_step. cbn [kf_wr kf_rd kf_mem]. rewrite R.
  assert (NF : ptr_full (kf_wr (ks_fifo s)) (kf_rd (ks_fifo s)) = false). { destruct (ptr_full _ _) eqn:Q; [|reflexivity]. apply (ring_full _ _ _ (kf_mem (ks_fifo s)) PO) in Q. pose proof (f2_len _ _ _ F). lia. }
  assert (PE : sk_pop p s = true -> ptr_empty (kf_wr (ks_fifo s)) (kf_rd (ks_fifo s)) = false). { unfold sk_pop. cbn zeta. intros Q. apply andb_true_iff in Q. destruct Q as [Q _]. unfold ptr_empty. rewrite Z.eqb_sym. now apply negb_true_iff. }
  destruct (ring_step _ _ _ (kf_mem (ks_fifo s)) (sk_got s i) (sk_pop p s) (sk_entry_of p s i) PO (fun _ => NF) PE) as [PO' RS]. split; [exact PO'|].
  assert (FN : Forall2 (ent_ok p) (T ++ new_beat p m e) (ring (kf_wr (ks_fifo s)) (kf_rd (ks_fifo s)) (kf_mem (ks_fifo s)) ++ (if sk_got s i then [sk_entry_of p s i] else []))).
  { apply Forall2_app; [exact F|]. destruct (new_cases s m i M) as [[-> [_ [_ [d [k [_ [RO NB]]]]]]]|[-> NB]]; fold e in NB; rewrite NB; [|constructor]. constructor; [|constructor].
    eapply (ent_of p e1 e2 e3); try eassumption. apply FA. }
  rewrite RS in FN. rewrite ET in FN. destruct (sk_pop p s).
  - destruct EP as [h ->]. cbn [app] in FN. inversion FN; subst. assumption.
  - subst P. exact FN.
Qed.
Lemma seg_app (f : kbeat -> bool) a b : filter f (a ++ b) = filter f a ++ filter f b. Proof. apply filter_app. Qed.
Lemma seg_ok s m i n T P T1 U (e := sk_event s i) (W := mo_w m n) : mr (ks_main s) (mo_cur m) -> (length T <= 18)%nat -> sk_fair p m e -> ki_rst i = false -> 0 <= n < cl_segs p -> T = P ++ T1 ->
  (if sk_pop p s then exists h, P = [h] /\ ent_ok p h (hd_ent (ks_fifo s)) /\ forall n, 0 <= n < cl_segs p -> uses_seg p h n = true -> kg_done (ks_seg s n) = true else P = []) ->
  gr (ks_seg s n) n T U W (mo_n m n) (mo_d m n) ->
  gr (sk_seg_step p s i n) n (T1 ++ new_beat p m e) ((if kf_valid (ks_fifo s) then [] else U) ++ P)
    ((if kv_cvalid e n && bit (ki_cready i) n then tl W else W) ++ filter (fun b => uses_seg p b n) (new_beat p m e))
    (mo_n m n + kind (kv_cvalid e n && bit (ki_cready i) n) - kind (bit (ki_done i) n))
    (mo_d m n - (if kf_valid (ks_fifo s) then seg_count p U n else 0) + kind (bit (ki_done i) n)).
Proof.
  intros M LT FA R N ET EP [X [O [F [EF [EX [C0 [P0 [EW [EO [PO [FF [DN ED]]]]]]]]]]]]. set (g := ks_seg s n) in *. set (uf := fun b => uses_seg p b n) in *.
  assert (LF : (length X + length O + length F <= 18)%nat). { pose proof (f_equal (@length _) EF) as Q. rewrite !app_length in Q. assert (FL : (length (filter uf T) <= length T)%nat) by apply filter_len. lia. }
  assert (CV : kv_cvalid e n = kg_valid g) by reflexivity. rewrite CV. change (bit (ki_cready i) n) with (Z.testbit (ki_cready i) n). change (bit (ki_done i) n) with (Z.testbit (ki_done i) n).
  set (rdy := Z.testbit (ki_cready i) n) in *. set (dn := Z.testbit (ki_done i) n) in *.
  assert (FD : dn = true -> 0 < mo_n m n) by (apply FA; exact N).
  assert (NF : ptr_full (kg_wr g) (kg_rd g) = false). { destruct (ptr_full _ _) eqn:Q; [|reflexivity]. apply (ring_full _ _ _ (kg_mem g) PO) in Q. pose proof (f2_len _ _ _ FF). lia. }
  (* acknowledge *)
  assert (AK : exists A, filter uf P = A /\ Z.of_nat (length A) = kind (sk_ack p s n) /\ (sk_ack p s n = true -> 0 < kg_cnt g)).
  { exists (filter uf P). split; [reflexivity|]. unfold sk_ack. destruct (sk_pop p s).
    - destruct EP as [h [-> [[_ EH] DH]]]. cbn [filter andb]. rewrite (EH n N). unfold uf. destruct (uses_seg p h n) eqn:UH; [|split; [reflexivity | discriminate]]. split; [reflexivity|]. intros _. specialize (DH n N UH). fold g in DH. rewrite DN in DH. lia.
    - subst P. split; [reflexivity | discriminate]. }
  destruct AK as [A [EA [LA AC]]].
  assert (XA : exists X1, X = A ++ X1 /\ filter uf T1 = X1 ++ O ++ F).
  { rewrite ET, seg_app, EA in EF. destruct (sk_ack p s n) eqn:Q; cbn [kind] in LA.
    - destruct A as [|a [|? ?]]; cbn [length] in LA; try lia. specialize (AC eq_refl). destruct X as [|x X1]; [cbn [length] in EX; lia|]. cbn [app] in EF. injection EF as -> EF. exists X1. split; [reflexivity | exact EF].
    - destruct A; cbn [length] in LA; [|lia]. exists X. split; [reflexivity | exact EF]. }
  destruct XA as [X1 [-> EF1]]. rewrite app_length in EX, LF.
  (* the new beat *)
  assert (NB : exists Nw, filter uf (new_beat p m e) = Nw /\ Forall2 (fun b c => write_is p b n c) Nw (if sk_got s i && sk_mask p s i n then [sk_cmd_int p s i n] else [])).
  { exists (filter uf (new_beat p m e)). split; [reflexivity|]. destruct (new_cases s m i M) as [[-> [_ [_ [d [k [_ [RO NB]]]]]]]|[-> NB]]; fold e in NB; rewrite NB; [|constructor].
    destruct FA as [_ [_ FK]]. cbn [sk_event kv_in e] in FK. cbn [filter andb].
    assert (MS : sk_mask p s i n = uf (beat_of p d (k * K) i)) by (unfold uf, beat_of; eapply (mask_seg p e1 e2 e3); eassumption).
    rewrite MS. destruct (uf _); [|constructor]. constructor; [|constructor]. unfold beat_of. eapply (cmd_ok p e1 e2 e3); eassumption. }
  destruct NB as [Nw [EN FN]].
  set (push := negb (ptr_full (kg_wr g) (kg_rd g)) && (sk_got s i && sk_mask p s i n)). set (pop := negb (ptr_empty (kg_wr g) (kg_rd g)) && (negb (kg_valid g) || rdy)).
  assert (PU : push = sk_got s i && sk_mask p s i n) by (unfold push; now rewrite NF).
  assert (PE : pop = true -> ptr_empty (kg_wr g) (kg_rd g) = false) by (unfold pop; intros Q; apply andb_true_iff in Q; destruct Q as [Q _]; now apply negb_true_iff).
  destruct (ring_step _ _ _ (kg_mem g) push pop (sk_cmd_int p s i n) PO (fun _ => NF) PE) as [PO' RS].
  assert (FF' := Forall2_app FF FN). rewrite <- PU in FF'. rewrite RS in FF'. clear RS.
  assert (PF : pop = true -> exists f F1, F = f :: F1). { intros Q. specialize (PE Q). destruct F as [|f F1]; [|eauto]. destruct (ring_head _ _ _ (kg_mem g) PO PE) as [r RG]. rewrite RG in FF. inversion FF. }
  assert (CN : kg_cnt (sk_seg_step p s i n) = kg_cnt g + kind dn - kind (sk_ack p s n) /\ kg_done (sk_seg_step p s i n) = (0 <? kg_cnt g + kind dn - kind (sk_ack p s n))).
  { unfold sk_seg_step. cbn zeta. cbn [kg_cnt kg_done]. fold g dn. rewrite R, DN. destruct (sk_ack p s n) eqn:Q; [specialize (AC eq_refl)|]; destruct dn; cbn [andb negb kind]; rewrite ?Bool.andb_false_r, ?Bool.andb_true_r.
    - split; lia.
    - rewrite (proj2 (Z.ltb_lt _ _) AC). split; lia.
    - rewrite (proj2 (Z.ltb_lt (kg_cnt g) 32)) by lia. split; lia.
    - split; lia. }
  destruct CN as [CN DNE]. set (tk := kg_valid g && rdy).
  exists (X1 ++ (if tk then O else [])). exists (if pop then match F with f :: _ => [f] | [] => [] end else if tk then [] else O). exists ((if pop then tl F else F) ++ Nw).
  change (fun b : kbeat => uses_seg p b n) with uf. rewrite CN, DNE, EN. split; [|split; [|split; [|split; [|split; [|split; [|split; [|split; [|split]]]]]]]].
  - rewrite seg_app, EN, EF1. unfold pop in *. unfold tk in *. destruct (kg_valid g) eqn:V.
    + destruct EO as [b [-> _]]. destruct rdy; cbn [andb orb negb] in *.
      * destruct (negb (ptr_empty (kg_wr g) (kg_rd g))) eqn:Q; cbn [andb] in *; [destruct (PF eq_refl) as [f [F1 ->]]; cbn [tl]|]; rewrite <- !app_assoc; reflexivity.
      * rewrite Bool.andb_false_r in *. rewrite !app_nil_r, <- !app_assoc. reflexivity.
    + subst O. cbn [andb orb negb] in *. destruct (negb (ptr_empty (kg_wr g) (kg_rd g))) eqn:Q; cbn [andb] in *; [destruct (PF eq_refl) as [f [F1 ->]]; cbn [tl]|]; rewrite <- !app_assoc; reflexivity.
  - rewrite app_length. assert (TO : Z.of_nat (length (if tk then O else [])) = kind tk). { unfold tk in *. destruct (kg_valid g); [|reflexivity]. destruct EO as [b [-> _]]. destruct rdy; reflexivity. } lia.
  - destruct (sk_ack p s n); [specialize (AC eq_refl)|]; destruct dn; cbn [kind]; lia.
  - destruct dn; [specialize (FD eq_refl)|]; destruct tk; cbn [kind]; lia.
  - rewrite EW. unfold tk, pop in *. destruct (kg_valid g) eqn:V.
    + destruct EO as [b [-> _]]. destruct rdy; cbn [andb orb negb tl app] in *.
      * destruct (negb (ptr_empty (kg_wr g) (kg_rd g))) eqn:Q; cbn [andb] in *; [destruct (PF eq_refl) as [f [F1 ->]]; cbn [tl]|]; reflexivity.
      * rewrite Bool.andb_false_r in *. reflexivity.
    + subst O. cbn [andb orb negb app] in *. destruct (negb (ptr_empty (kg_wr g) (kg_rd g))) eqn:Q; cbn [andb] in *; [destruct (PF eq_refl) as [f [F1 ->]]; cbn [tl]|]; reflexivity.
  - unfold sk_seg_step. cbn zeta. cbn [kg_valid kg_cmd]. fold g rdy pop. rewrite R. cbn [negb andb]. destruct pop; cbn [orb].
    + destruct (PF eq_refl) as [f [F1 EF']]. rewrite EF' in *. cbn [app] in FF'. inversion FF'; subst. eauto.
    + unfold tk. destruct (kg_valid g); [|subst O; reflexivity]. destruct EO as [b [-> WB]]. destruct rdy; cbn [andb negb]; eauto.
  - unfold sk_seg_step. cbn zeta. cbn [kg_wr kg_rd]. fold g rdy pop push. rewrite R. exact PO'.
  - unfold sk_seg_step. cbn zeta. cbn [kg_wr kg_rd kg_mem]. fold g rdy pop push. rewrite R. destruct pop; [|exact FF']. destruct (PF eq_refl) as [f [F1 EF']]. rewrite EF' in *. cbn [app tl] in *. inversion FF'; subst. assumption.
  - reflexivity.
  - rewrite ED. unfold seg_count. change (fun b : kbeat => uses_seg p b n) with uf. rewrite seg_app, app_length, EA. destruct (kf_valid (ks_fifo s)); cbn [filter length]; fold uf; lia.
Qed.

Lemma after_cut a b r : Forall nostat a -> kb_stat b <> None -> after_packet (a ++ b :: r) = r /\ packet (a ++ b :: r) = a ++ [b].
Proof.
  induction 1 as [|c a NC FA IH]; intros SB; cbn [app after_packet packet].
  - destruct (kb_stat b); [split; reflexivity | contradiction].
  - unfold nostat in NC. rewrite NC. destruct (IH SB) as [-> ->]. split; reflexivity.
Qed.
Lemma lasts_app a b : lasts (a ++ b) = lasts a + lasts b.
Proof. unfold lasts. rewrite filter_app, app_length. lia. Qed.
Lemma lasts_pos a : 0 <= lasts a <= Z.of_nat (length a).
Proof. unfold lasts. pose proof (filter_len hasstat a). lia. Qed.
Lemma room_half s : sk_room p s = true -> kf_half (ks_fifo s) = false.
Proof. unfold sk_room. intros Q. apply andb_true_iff in Q. destruct Q as [_ Q]. now apply negb_true_iff. Qed.
Lemma got_beat d k i s : regs (ks_main s) d k -> (hasstat (beat_of p d (k * K) i) = ends p i || (km_lastc (ks_main s))).
Proof.
  intros RO. pose proof RO as [DK [LK [_ [_ [_ [_ [_ [ELC _]]]]]]]]. assert (NL : (de_len d <=? k * K + K) = (nb e3 d - 1 - k =? 0)) by (eapply (nb_last p e1 e2 e3); eassumption).
  unfold hasstat, beat_of. cbn [kb_stat]. rewrite ELC, Hk, NL. destruct (ends p i); [reflexivity|]. destruct (nb e3 d - 1 - k =? 0); reflexivity.
Qed.
Lemma act_ok s m i T P T1 (e := sk_event s i) : mr (ks_main s) (mo_cur m) -> ki_rst i = false -> br s T -> T = P ++ T1 ->
  (if sk_pop p s then exists h, P = [h] /\ ent_ok p h (hd_ent (ks_fifo s)) /\ forall n, 0 <= n < cl_segs p -> uses_seg p h n = true -> kg_done (ks_seg s n) = true else P = []) ->
  ar (ks_fifo s) (mo_cur m) T -> ar (sk_fifo_step p s i) (next_cur p m e) (T1 ++ new_beat p m e).
Proof.
  intros M R [LT [HF _]] ET EP [EA AV]. assert (BB : 0 <= busy (mo_cur m) <= 1) by (destruct (mo_cur m); cbn [busy]; lia). pose proof (lasts_pos T) as LP. assert (AL : kf_act (ks_fifo s) <= 19) by lia.
  assert (A0 : 0 <= kf_act (ks_fifo s)) by lia.
  assert (DC : lasts P = kind (sk_pop p s && ke_last (hd_ent (ks_fifo s)))).
  { destruct (sk_pop p s); [|subst P; reflexivity]. destruct EP as [h [-> [[EH _] _]]]. unfold lasts, hasstat. cbn [filter andb]. destruct (kb_stat h); [destruct EH as [-> _]|rewrite EH]; reflexivity. }
  assert (EL : lasts T = lasts P + lasts T1) by (rewrite ET; apply lasts_app). pose proof (lasts_pos T1) as LP1.
  assert (BS : busy (mo_cur m) + kind (sk_take s i) = busy (next_cur p m e) + lasts (new_beat p m e)).
  { destruct (new_cases s m i M) as [[G [ST [TR [d [k [CU [RO NB]]]]]]]|[G NB]]; fold e in NB; rewrite NB.
    - unfold sk_take, next_cur. rewrite ST, CU. unfold e. cbn [sk_event kv_tready kv_in]. unfold sk_got in G. rewrite ST in G. rewrite G. pose proof RO as [DK [LK [_ [_ [_ [_ [_ [ELC _]]]]]]]].
      assert (NL : (de_len d <=? k * K + K) = (nb e3 d - 1 - k =? 0)) by (eapply (nb_last p e1 e2 e3); eassumption). unfold lasts. cbn [filter]. rewrite (got_beat d k i s RO), ELC, Hk, NL.
      destruct (ends p i); [reflexivity|]. destruct (nb e3 d - 1 - k =? 0); cbn [orb]; [destruct (cl_last p)|]; reflexivity.
    - unfold mr in M. unfold sk_take, next_cur, sk_got in *. unfold e. cbn [sk_event kv_tready kv_in kv_ready]. destruct (km_st (ks_main s)) eqn:ST, (mo_cur m) as [|d pos|] eqn:CU; try contradiction.
      + destruct (km_ready (ks_main s) && ki_valid i); reflexivity.
      + rewrite G. reflexivity.
      + destruct (km_tready (ks_main s) && ki_tvalid i && ki_last i); reflexivity. }
  unfold ar, sk_fifo_step. cbn zeta. cbn [kf_act kf_av]. rewrite R. rewrite lasts_app.
  destruct (sk_pop p s && ke_last (hd_ent (ks_fifo s))); destruct (sk_take s i); cbn [andb negb kind] in *; rewrite ?Bool.andb_false_r, ?Bool.andb_true_r.
  - split; lia.
  - rewrite (proj2 (Z.ltb_lt 0 _)) by lia. split; [lia | reflexivity].
  - rewrite (proj2 (Z.ltb_lt _ 32)) by lia. split; lia.
  - split; lia.
Qed.
Lemma br_ok s m i T P T1 (e := sk_event s i) : mr (ks_main s) (mo_cur m) -> fr (ks_fifo s) T -> br s T -> T = P ++ T1 -> br (sk_step p s i) (T1 ++ new_beat p m e).
Proof.
  intros M [PO F] [B1 [B2 B3]] ET. assert (L1 : (length T1 <= length T)%nat) by (rewrite ET, app_length; lia).
  assert (LN : (length (new_beat p m e) <= 1)%nat /\ (length (new_beat p m e) = 1%nat -> (length T <= 17)%nat)).
  { destruct (new_cases s m i M) as [[G [ST [TR [d [k [CU [RO NB]]]]]]]|[G NB]]; fold e in NB; rewrite NB; cbn [length]; split; try lia; intros _; now apply B3. }
  destruct LN as [LN1 LN2]. unfold br. rewrite app_length. split; [|split].
  - destruct (new_beat p m e) as [|? [|? ?]]; cbn [length] in *; lia.
  - cbn [sk_step ks_fifo sk_fifo_step kf_half]. rewrite <- (ring_len _ _ _ (kf_mem (ks_fifo s))), <- (f2_len _ _ _ F). intros Q. lia.
  - cbn [sk_step ks_main]. intros ST TR. assert (RM : sk_room p s = true).
    { unfold sk_main_step in ST, TR. destruct (km_st (ks_main s)) eqn:S0.
      - cbn [km_tready] in TR. apply andb_true_iff in TR. destruct TR as [_ TR]. apply andb_true_iff in TR. apply TR.
      - destruct (sk_got s i); cbn [km_tready km_st] in TR, ST.
        + destruct (ki_rst i); [discriminate TR|]. cbn [negb andb] in *. destruct (sk_end p i), (km_lastc (ks_main s)), (cl_last p); cbn [andb orb negb] in *; try discriminate; exact TR.
        + apply andb_true_iff in TR. apply TR.
      - cbn [km_tready km_st] in TR, ST. destruct (negb (ki_rst i) && negb (km_tready (ks_main s) && ki_tvalid i && ki_last i)); discriminate. }
    apply room_half in RM. specialize (B2 RM). lia.
Qed.
Lemma sinv0 : sinv sk0 mo0.
Proof.
  exists [], []. split; [reflexivity|]. split; [reflexivity|]. split; [constructor|]. split; [split; [apply ptr00 | constructor]|]. split; [repeat split; cbn; lia|]. split; [split; reflexivity|].
  intros n N. exists [], [], []. cbn. repeat split; try lia; constructor.
Qed.
Lemma sinv_reset s i : ki_rst i = true -> sinv (sk_step p s i) mo0.
Proof.
  intros R. exists [], []. split; [reflexivity|]. split.
  { cbn [sk_step ks_main mo0 mo_cur]. unfold mr, sk_main_step. rewrite R. cbn [negb andb]. destruct (km_st (ks_main s)); [|destruct (sk_got s i)|]; cbn [km_st km_tready]; reflexivity. }
  unfold ur, fr, br, ar. cbn [sk_step ks_fifo ks_seg ks_main sk_fifo_step kf_valid kf_wr kf_rd kf_mem kf_half kf_act kf_av]. rewrite R. cbn [negb andb]. split; [constructor|]. split; [split; [apply ptr00 | constructor]|]. split; [cbn [length]; repeat split; intros; lia|].
  split; [split; reflexivity|]. intros n N. rewrite tab_eq. exists [], [], []. cbn [sk_seg_step kg_valid kg_cmd kg_wr kg_rd kg_mem kg_cnt kg_done]. rewrite R. cbn. repeat split; try lia; constructor.
Qed.
Lemma sinv_step s m i (e := sk_event s i) : sinv s m -> sk_fair p m e -> sinv (sk_step p s i) (sk_next p m e).
Proof.
  intros I FA. unfold sk_next. change (kv_in e) with i. destruct (ki_rst i) eqn:R; [apply sinv_reset; exact R|].
  destruct I as [U [T [ET [M [UR [FR [BR [AR GR]]]]]]]]. destruct (pop_cases s T FR) as [P [T1 [EP PP]]].
  exists ((if kf_valid (ks_fifo s) then [] else U) ++ P), (T1 ++ new_beat p m e). cbn [mo_t mo_cur mo_w mo_n mo_d]. change (kv_status e) with (kf_valid (ks_fifo s)).
  assert (PK : kf_valid (ks_fifo s) = true -> after_packet (mo_t m) = T /\ packet (mo_t m) = U).
  { intros V. unfold ur in UR. rewrite V in UR. destruct UR as [a [b [-> [NA SB]]]]. rewrite ET, <- app_assoc. cbn [app]. apply after_cut; [exact NA | congruence]. }
  split; [|split; [|split; [|split; [|split; [|split]]]]].
  - destruct (kf_valid (ks_fifo s)); [destruct (PK eq_refl) as [-> _] | rewrite ET]; rewrite EP, <- !app_assoc; reflexivity.
  - cbn [sk_step ks_main]. now apply main_ok.
  - unfold ur. cbn [sk_step ks_fifo sk_fifo_step kf_valid kf_out]. rewrite R. cbn [negb andb].
    assert (NU : Forall nostat (if kf_valid (ks_fifo s) then [] else U)). { unfold ur in UR. destruct (kf_valid (ks_fifo s)); [constructor | exact UR]. }
    destruct (sk_pop p s); cbn [andb]; [|subst P; rewrite app_nil_r; exact NU]. destruct PP as [h [-> [[EH _] _]]]. destruct (kb_stat h) eqn:SH.
    + destruct EH as [-> EH]. exists (if kf_valid (ks_fifo s) then [] else U), h. rewrite EH. repeat split; assumption.
    + rewrite EH. apply Forall_app. split; [exact NU|]. constructor; [exact SH | constructor].
  - cbn [sk_step ks_fifo]. apply (fifo_ok s m i T P T1); try assumption; [apply BR|]. destruct (sk_pop p s); [|exact PP]. destruct PP as [h [PP _]]. eauto.
  - apply (br_ok s m i T P T1); assumption.
  - cbn [sk_step ks_fifo]. apply (act_ok s m i T P T1); assumption.
  - intros n N. cbn [sk_step ks_seg]. rewrite tab_eq. specialize (GR n N). pose proof (seg_ok s m i n T P T1 U M (proj1 BR) FA R N EP PP GR) as G.
    destruct (kf_valid (ks_fifo s)); [destruct (PK eq_refl) as [_ ->]|]; exact G.
Qed.
Lemma shows_ok s m i (e := sk_event s i) : sinv s m -> sk_shows p m e.
Proof.
  intros [U [T [ET [M [UR [FR [BR [AR GR]]]]]]]]. unfold sk_shows, e. cbn [sk_event kv_ready kv_tready kv_status kv_stat kv_cvalid kv_cmd]. split; [|split; [|split]].
  - intros Q. unfold mr in M. destruct (km_st (ks_main s)), (mo_cur m); try contradiction; [reflexivity | destruct M; congruence | destruct M; congruence].
  - intros Q. unfold mr in M. destruct (km_st (ks_main s)), (mo_cur m); try contradiction; congruence.
  - intros V. unfold ur in UR. rewrite V in UR. destruct UR as [a [b [-> [NA SB]]]]. exists a, b, T. rewrite ET, <- app_assoc. repeat split; [exact NA | exact SB|].
    intros n N. destruct (GR n N) as [X [O [F [_ [_ [C0 [_ [_ [_ [_ [_ [_ ED]]]]]]]]]]]]. lia.
  - intros n N V. destruct (GR n N) as [X [O [F [_ [_ [C0 [_ [EW [EO _]]]]]]]]]. rewrite V in EO. destruct EO as [b [-> WB]]. exists b, F. split; [exact EW | exact WB].
Qed.
Lemma follows_ok l : forall s m, sinv s m -> sk_follows p m (sk_trace p s l).
Proof.
  induction l as [|i l IH]; intros s m I; cbn [sk_trace sk_follows]; [exact Logic.I|]. intros FA. split; [now apply shows_ok|]. apply IH. now apply sinv_step.
Qed.

(** Progress. *)
Definition zsum (f : Z -> Z) (l : list Z) : Z := fold_right (fun n a => f n + a) 0 l.
Lemma zsum_le f g l : (forall n, In n l -> f n <= g n) -> zsum f l <= zsum g l.
Proof. induction l as [|n l IH]; intros H; cbn [zsum fold_right]; [lia|]. fold (zsum f l) (zsum g l). pose proof (H n (or_introl eq_refl)). specialize (IH (fun k L => H k (or_intror L))). lia. Qed.
Lemma zsum_lt f g l k : (forall n, In n l -> f n <= g n) -> In k l -> f k < g k -> zsum f l < zsum g l.
Proof.
  induction l as [|n l IH]; intros H K0 L; [contradiction|]. cbn [zsum fold_right]. fold (zsum f l) (zsum g l). pose proof (H n (or_introl eq_refl)). destruct K0 as [->|K0].
  - pose proof (zsum_le f g l (fun k L => H k (or_intror L))). lia.
  - specialize (IH (fun k L => H k (or_intror L)) K0 L). lia.
Qed.
Lemma zsum_pos f l : (forall n, In n l -> 0 <= f n) -> 0 <= zsum f l /\ (zsum f l = 0 -> forall n, In n l -> f n = 0).
Proof.
  induction l as [|n l IH]; intros H; cbn [zsum fold_right]; [split; [lia | intros _ ? []]|]. fold (zsum f l). pose proof (H n (or_introl eq_refl)). destruct (IH (fun k L => H k (or_intror L))) as [I1 I2].
  split; [lia|]. intros Z0 k [->|K0]; [lia|]. apply I2; [lia | exact K0].
Qed.
Lemma zsum_max f l c : (forall n, In n l -> f n <= c) -> zsum f l <= c * Z.of_nat (length l).
Proof. induction l as [|n l IH]; intros H; cbn [zsum fold_right length]; [lia|]. fold (zsum f l). pose proof (H n (or_introl eq_refl)). specialize (IH (fun k L => H k (or_intror L))). lia. Qed.
Definition gcount (g : sk_seg) : Z := (kg_wr g - kg_rd g) mod 64.
Definition qm (s : sk_state) (m : sk_mon) (n : Z) : Z := 3 * gcount (ks_seg s n) + 2 * kind (kg_valid (ks_seg s n)) + mo_n m n.
Definition tm (f : sk_fifo) : Z := 2 * ((kf_wr f - kf_rd f) mod 64) + kind (kf_valid f).
Definition mu (s : sk_state) (m : sk_mon) : Z := zsum (qm s m) (sk_segs p) + tm (ks_fifo s).
Lemma kind_range b : 0 <= kind b <= 1. Proof. destruct b; cbn [kind]; lia. Qed.
Lemma qm_pos s m n : sinv s m -> 0 <= n < cl_segs p -> 0 <= mo_n m n /\ 0 <= qm s m n <= 54.
Proof.
  intros [U [T [ET [M [UR [FR [[B1 _] [AR GR]]]]]]]] N. destruct (GR n N) as [X [O [F [EF [EX [C0 [P0 [EW [EO [PO [FF _]]]]]]]]]]]. unfold qm, gcount. rewrite <- (ring_len _ _ _ (kg_mem (ks_seg s n))), <- (f2_len _ _ _ FF).
  pose proof (kind_range (kg_valid (ks_seg s n))). pose proof (f_equal (@length _) EF) as Q. rewrite !app_length in Q. pose proof (filter_len (fun b => uses_seg p b n) T).
  assert (Z.of_nat (length O) = kind (kg_valid (ks_seg s n))). { destruct (kg_valid (ks_seg s n)); [destruct EO as [b [-> _]]|subst O]; reflexivity. } lia.
Qed.
Lemma tm_pos s m : sinv s m -> 0 <= tm (ks_fifo s) <= 37.
Proof.
  intros [U [T [ET [M [UR [[PO F] [[B1 _] [AR GR]]]]]]]]. unfold tm. rewrite <- (ring_len _ _ _ (kf_mem (ks_fifo s))), <- (f2_len _ _ _ F). pose proof (kind_range (kf_valid (ks_fifo s))). lia.
Qed.
Lemma mu_pos s m : sinv s m -> 0 <= mu s m <= 54 * cl_segs p + 37.
Proof.
  intros I. pose proof (tm_pos s m I). assert (0 < cl_segs p) by (rewrite Hs; apply Z.pow_pos_nonneg; lia). unfold mu. split.
  - pose proof (zsum_pos (qm s m) (sk_segs p)) as [Q _]; [|lia]. intros n N. apply segs_in in N. apply qm_pos; assumption.
  - pose proof (zsum_max (qm s m) (sk_segs p) 54) as Q. assert (L : Z.of_nat (length (sk_segs p)) = cl_segs p) by (unfold sk_segs; rewrite map_length, seq_length; lia). rewrite L in Q.
    assert (zsum (qm s m) (sk_segs p) <= 54 * cl_segs p); [|lia]. apply Q. intros n N. apply segs_in in N. apply (qm_pos s m n); assumption.
Qed.
Lemma quiet_got s m i : mr (ks_main s) (mo_cur m) -> kv_tready (sk_event s i) && ki_tvalid i = false -> sk_got s i = false.
Proof. unfold sk_got. cbn [sk_event kv_tready]. intros _ Q. now destruct (km_st (ks_main s)). Qed.
Lemma qm_step s m i n (e := sk_event s i) : sinv s m -> ki_rst i = false -> sk_got s i = false -> 0 <= n < cl_segs p ->
  qm (sk_step p s i) (sk_next p m e) n <= qm s m n /\
  (Z.testbit (ki_cready i) n = true -> mo_n m n <= 0 \/ Z.testbit (ki_done i) n = true -> qm s m n = 0 \/ qm (sk_step p s i) (sk_next p m e) n < qm s m n).
Proof.
  intros I R G N. destruct (qm_pos s m n I N) as [MP QP]. destruct I as [U [T [ET [M [UR [FR [BR [AR GR]]]]]]]]. destruct (GR n N) as [X [O [F [EF [EX [C0 [P0 [EW [EO [PO [FF _]]]]]]]]]]].
  unfold qm, sk_next in *. change (kv_in e) with i in *. rewrite R. cbn [mo_n sk_step ks_seg]. rewrite tab_eq. change (kv_cvalid e n) with (kg_valid (ks_seg s n)). change (bit (ki_cready i) n) with (Z.testbit (ki_cready i) n). change (bit (ki_done i) n) with (Z.testbit (ki_done i) n).
  set (g := ks_seg s n) in *. set (rdy := Z.testbit (ki_cready i) n) in *. set (dn := Z.testbit (ki_done i) n) in *.
  unfold gcount, sk_seg_step. cbn zeta. cbn [kg_wr kg_rd kg_valid]. fold g rdy. rewrite R, G. cbn [andb negb]. rewrite Bool.andb_false_r. cbn [negb andb].
  pose proof (kind_range dn). destruct (ptr_empty (kg_wr g) (kg_rd g)) eqn:EM; cbn [negb andb orb].
  - apply (empty_iff _ _ PO) in EM. rewrite EM in *. destruct (kg_valid g), rdy, dn; cbn [andb orb negb kind] in *; (split; [lia|]); intros RD [Q|Q]; try discriminate RD; try discriminate Q; lia.
  - assert (NZ : 0 < (kg_wr g - kg_rd g) mod 64). { pose proof (Z.mod_pos_bound (kg_wr g - kg_rd g) 64). assert ((kg_wr g - kg_rd g) mod 64 <> 0) by (intros Q; apply (empty_iff _ _ PO) in Q; congruence). lia. }
    destruct (kg_valid g), rdy; cbn [andb orb negb kind] in *; rewrite ?(pop_cnt _ _ PO EM); (split; [lia|]); intros RD _; try discriminate RD; lia.
Qed.
Lemma tm_step s m i (e := sk_event s i) : sinv s m -> ki_rst i = false -> sk_got s i = false ->
  tm (sk_fifo_step p s i) <= tm (ks_fifo s) /\ ((forall n, 0 <= n < cl_segs p -> qm s m n = 0) -> tm (ks_fifo s) = 0 \/ tm (sk_fifo_step p s i) < tm (ks_fifo s)).
Proof.
  intros I R G. pose proof I as [U [T [ET [M [UR [[PO F] [BR [AR GR]]]]]]]]. unfold tm, sk_fifo_step. cbn zeta. cbn [kf_wr kf_rd kf_valid]. rewrite R, G. cbn [negb andb]. pose proof (kind_range (kf_valid (ks_fifo s))) as KR.
  destruct (sk_pop p s) eqn:PP; cbn [andb].
  - assert (EM : ptr_empty (kf_wr (ks_fifo s)) (kf_rd (ks_fifo s)) = false). { unfold sk_pop in PP. cbn zeta in PP. apply andb_true_iff in PP. destruct PP as [Q _]. unfold ptr_empty. rewrite Z.eqb_sym. now apply negb_true_iff. }
    rewrite (pop_cnt _ _ PO EM). pose proof (kind_range (ke_last (hd_ent (ks_fifo s)))). split; [lia|]. intros _. right. lia.
  - cbn [kind]. split; [lia|]. intros QZ. destruct (kf_valid (ks_fifo s)) eqn:V; [right; cbn [kind]; lia|]. left. cbn [kind].
    destruct (Z.eq_dec ((kf_wr (ks_fifo s) - kf_rd (ks_fifo s)) mod 64) 0) as [->|NZ]; [reflexivity|]. exfalso.
    assert (EM : ptr_empty (kf_wr (ks_fifo s)) (kf_rd (ks_fifo s)) = false). { destruct (ptr_empty _ _) eqn:Q; [|reflexivity]. apply (empty_iff _ _ PO) in Q. contradiction. }
    assert (PT : sk_pop p s = true); [|congruence]. unfold sk_pop. cbn zeta. apply andb_true_iff. split; [unfold ptr_empty in EM; rewrite Z.eqb_sym, EM; reflexivity|].
    destruct (ring_head _ _ _ (kf_mem (ks_fifo s)) PO EM) as [r RG]. rewrite RG in F. inversion F as [|h e' T1 r' [_ EH] FT]; subst. apply forallb_forall. intros n N. apply segs_in in N. rewrite (EH n N). destruct (uses_seg p h n) eqn:UH; [|reflexivity]. cbn [negb orb].
    destruct (GR n N) as [X [O [F' [EF [EX [C0 [P0 [EW [EO [PO' [FF [DN _]]]]]]]]]]]]. specialize (QZ n N). unfold qm, gcount in QZ. rewrite <- (ring_len _ _ _ (kg_mem (ks_seg s n))), <- (f2_len _ _ _ FF) in QZ. pose proof (kind_range (kg_valid (ks_seg s n))).
    assert (LO : Z.of_nat (length O) = kind (kg_valid (ks_seg s n))). { destruct (kg_valid (ks_seg s n)); [destruct EO as [b [-> _]]|subst O]; reflexivity. }
    rewrite DN. apply Z.ltb_lt. apply (f_equal (@length _)) in EF. cbn [filter] in EF. rewrite UH, !app_length in EF. cbn [length] in EF. lia.
Qed.
Lemma mu_step s m i (e := sk_event s i) : sinv s m -> ki_rst i = false -> sk_got s i = false -> mu (sk_step p s i) (sk_next p m e) <= mu s m /\ (sk_good p m e = true -> mu s m = 0 \/ mu (sk_step p s i) (sk_next p m e) < mu s m).
Proof.
  intros I R G. destruct (tm_step s m i I R G) as [T1 T2]. unfold mu. change (ks_fifo (sk_step p s i)) with (sk_fifo_step p s i).
  assert (LE : forall n, In n (sk_segs p) -> qm (sk_step p s i) (sk_next p m e) n <= qm s m n) by (intros n N; apply segs_in in N; now apply (qm_step s m i n)).
  pose proof (zsum_le _ _ _ LE) as ZL. split; [lia|]. intros GD. unfold sk_good in GD. rewrite forallb_forall in GD.
  destruct (zsum_pos (qm s m) (sk_segs p)) as [Z1 Z2]; [intros n N; apply segs_in in N; now apply (qm_pos s m n)|].
  destruct (Z.eq_dec (zsum (qm s m) (sk_segs p)) 0) as [Q|Q].
  - specialize (Z2 Q). destruct T2 as [T2|T2]; [intros n N; apply Z2, segs_in, N | left; lia | right; lia].
  - right. assert (EX : exists k, In k (sk_segs p) /\ 0 < qm s m k).
    { destruct (existsb (fun n => 0 <? qm s m n) (sk_segs p)) eqn:EB; [apply existsb_exists in EB; destruct EB as [k [K1 K2]]; exists k; split; [exact K1 | lia]|].
      exfalso. apply Q. assert (QA : forall n, In n (sk_segs p) -> qm s m n <= 0). { intros n N. destruct (0 <? qm s m n) eqn:QN; [|lia]. assert (X : existsb (fun n => 0 <? qm s m n) (sk_segs p) = true) by (apply existsb_exists; eauto). congruence. }
      pose proof (zsum_max (qm s m) (sk_segs p) 0 QA). lia. }
    destruct EX as [k [K1 K2]]. specialize (GD k K1). apply andb_true_iff in GD. destruct GD as [GA GB]. pose proof (proj1 (segs_in k) K1) as K3. destruct (qm_step s m i k I R G K3) as [_ QS]. destruct QS as [QS|QS]; [exact GA| |lia|].
    + apply orb_true_iff in GB. destruct GB as [GB|GB]; [left; lia | right; exact GB].
    + pose proof (zsum_lt _ _ _ k LE K1 QS). unfold e in *. lia.
Qed.
Lemma mu_run l : forall s m, sinv s m -> sk_assume p m (sk_trace p s l) -> sk_quiet (sk_trace p s l) -> mu s m <= sk_goods p m (sk_trace p s l) \/ mu s m = 0 ->
  sinv (sk_run p s l) (fold_left (sk_next p) (sk_trace p s l) m) /\ mu (sk_run p s l) (fold_left (sk_next p) (sk_trace p s l) m) = 0 /\ mo_cur (fold_left (sk_next p) (sk_trace p s l) m) = mo_cur m.
Proof.
  induction l as [|i l IH]; intros s m I A Q B.
  - cbn [sk_trace sk_goods sk_run fold_left] in *. split; [exact I|]. split; [pose proof (mu_pos s m I); lia | reflexivity].
  - cbn [sk_trace sk_assume sk_goods fold_left] in *. destruct A as [FA A]. inversion Q as [|? ? [R [QD QB]] QR]; subst. cbn [sk_event kv_in kv_ready kv_tready] in R, QD, QB.
    change (sk_run p s (i :: l)) with (sk_run p (sk_step p s i) l). pose proof (sinv_step s m i I FA) as I'.
    assert (G : sk_got s i = false) by (unfold sk_got; destruct (km_st (ks_main s)); (reflexivity || exact QB)).
    destruct (mu_step s m i I R G) as [M1 M2]. pose proof (mu_pos _ _ I') as MP. pose proof (mu_pos _ _ I) as MP0.
    assert (CU : mo_cur (sk_next p m (sk_event s i)) = mo_cur m).
    { unfold sk_next. cbn [sk_event kv_in]. rewrite R. cbn [mo_cur]. unfold next_cur. cbn [sk_event kv_ready kv_tready kv_in]. rewrite QD, QB. now destruct (mo_cur m). }
    destruct (IH _ _ I' A QR) as [J1 [J2 J3]]; [|split; [exact J1|split; [exact J2 | congruence]]].
    destruct (sk_good p m (sk_event s i)); cbn [kind] in B.
    + specialize (M2 eq_refl). destruct B; [|right; lia]. destruct M2; [right; lia | left; lia].
    + destruct B; [left; lia | right; lia].
Qed.
Lemma mu_done s m : sinv s m -> mu s m = 0 -> sk_done p m.
Proof.
  intros I MZ. pose proof (tm_pos s m I) as TP. unfold mu in MZ. destruct (zsum_pos (qm s m) (sk_segs p)) as [Z1 Z2]; [intros n N; apply segs_in in N; now apply (qm_pos s m n)|].
  assert (TZ : tm (ks_fifo s) = 0) by lia. specialize (Z2 ltac:(lia)). destruct I as [U [T [ET [M [UR [[PO F] [BR [AR GR]]]]]]]]. split.
  - intros n N. specialize (Z2 n (proj2 (segs_in n) N)). destruct (GR n N) as [X [O [F' [EF [EX [C0 [P0 [EW [EO [PO' [FF _]]]]]]]]]]]. unfold qm, gcount in Z2. rewrite <- (ring_len _ _ _ (kg_mem (ks_seg s n))), <- (f2_len _ _ _ FF) in Z2.
    pose proof (kind_range (kg_valid (ks_seg s n))). assert (LO : Z.of_nat (length O) = kind (kg_valid (ks_seg s n))). { destruct (kg_valid (ks_seg s n)); [destruct EO as [b [-> _]]|subst O]; reflexivity. }
    split; [|lia]. rewrite EW. destruct O; cbn [length] in LO; [|lia]. destruct F'; cbn [length] in Z2; [reflexivity | lia].
  - unfold tm in TZ. rewrite <- (ring_len _ _ _ (kf_mem (ks_fifo s))), <- (f2_len _ _ _ F) in TZ. pose proof (kind_range (kf_valid (ks_fifo s))). destruct T; cbn [length] in TZ; [|lia]. rewrite ET, app_nil_r. unfold ur in UR. destruct (kf_valid (ks_fifo s)); [cbn [kind] in TZ; lia | exact UR].
Qed.
Lemma mu_ready s m i1 i2 i3 : sinv s m -> mu s m = 0 -> sk_quiet [sk_event s i1; sk_event (sk_step p s i1) i2] ->
  let e3 := sk_event (sk_step p (sk_step p s i1) i2) i3 in
  (mo_cur m <> CIdle -> kv_tready e3 = true) /\ (mo_cur m = CIdle -> ki_enable i2 = true -> kv_ready e3 = true).
Proof.
  intros I MZ Q. cbn zeta. inversion Q as [|? ? [R1 [QD1 QB1]] Q']; subst. inversion Q' as [|? ? [R2 [QD2 QB2]] _]; subst. clear Q Q'. set (s1 := sk_step p s i1) in *. cbn [sk_event kv_in kv_ready kv_tready] in R1, R2, QD1, QD2, QB1, QB2.
  pose proof (tm_pos s m I) as TP. unfold mu in MZ. destruct (zsum_pos (qm s m) (sk_segs p)) as [Z1 Z2]; [intros n N; apply segs_in in N; now apply (qm_pos s m n)|]. specialize (Z2 ltac:(lia)).
  assert (TZ : tm (ks_fifo s) = 0) by lia. assert (MN : forall n, 0 <= n < cl_segs p -> 0 <= mo_n m n) by (intros n N; now apply (qm_pos s m n)).
  destruct I as [U [T [ET [M [UR [[PO F] [[B1 _] [[EA AV] GR]]]]]]]].
  assert (RM : sk_room p s1 = true).
  { unfold sk_room. apply andb_true_iff. split.
    - apply forallb_forall. intros n N. pose proof (proj1 (segs_in n) N) as N'. specialize (Z2 n N). specialize (MN n N'). unfold s1, qm, gcount in *. cbn [sk_step ks_seg]. rewrite tab_eq. cbn [sk_seg_step kg_half]. pose proof (kind_range (kg_valid (ks_seg s n))). pose proof (Z.mod_pos_bound (kg_wr (ks_seg s n) - kg_rd (ks_seg s n)) 64 ltac:(lia)).
      rewrite (proj2 (Z.leb_gt _ _)) by lia. reflexivity.
    - unfold s1, tm in *. cbn [sk_step ks_fifo sk_fifo_step kf_half]. pose proof (kind_range (kf_valid (ks_fifo s))). rewrite (proj2 (Z.leb_gt _ _)) by lia. reflexivity. }
  assert (A1 : kf_av (ks_fifo s1) = true).
  { pose proof (lasts_pos T). assert (busy (mo_cur m) <= 1) by (destruct (mo_cur m); cbn [busy]; lia). unfold s1. cbn [sk_step ks_fifo sk_fifo_step kf_av]. rewrite R1. repeat match goal with |- (if ?c then _ else _) = true => destruct c end; try reflexivity; lia. }
  assert (S1 : km_st (ks_main s1) = km_st (ks_main s) /\ (km_st (ks_main s) = KDrop -> km_tready (ks_main s1) = true)).
  { unfold s1. cbn [sk_step ks_main]. unfold sk_main_step. rewrite R1. destruct (km_st (ks_main s)) eqn:ST; unfold sk_take, sk_got; rewrite ?ST, ?QD1, ?QB1; cbn [negb andb km_st km_tready]; split; try reflexivity; discriminate. }
  destruct S1 as [S1 S1D]. cbn [sk_event kv_tready kv_ready]. cbn [sk_step ks_main]. unfold sk_main_step. rewrite R2, S1, RM, A1. unfold mr in M.
  destruct (km_st (ks_main s)) eqn:ST, (mo_cur m) as [|d pos|]; try contradiction; unfold sk_take, sk_got; rewrite ?S1, ?QD2, ?QB2; cbn [negb andb km_st km_tready km_ready]; (split; [intros NC | intros CI EN]); try (exfalso; now apply NC); try discriminate CI; try reflexivity.
  - rewrite EN. reflexivity.
Qed.
End inv.
Lemma sk_follows_ok : forall p l, src_ok p -> src_wide p -> sk_follows p mo0 (sk_trace p sk0 l).
Proof. intros p l [e1 [e2 [e3 [A1 [A2 [A3 [A4 [A5 [A6 [A7 [A8 [A9 A10]]]]]]]]]]]] W. apply (follows_ok p e1 e2 e3); try assumption. eapply (sinv0 p e1 e2 e3); eassumption. Qed.
Lemma cmd_kept_step p s i i' : cmd_kept (sk_event s i) (sk_event (sk_step p s i) i').
Proof.
  unfold cmd_kept. cbn [sk_event kv_in kv_cvalid kv_cmd sk_step ks_seg]. intros R n N V RD. rewrite !tab_eq. cbn [sk_seg_step kg_valid kg_cmd]. unfold bit in RD. rewrite R, V, RD. cbn [negb orb andb]. rewrite Bool.andb_false_r. split; reflexivity.
Qed.
Lemma sk_trace_next p l : forall s a e e' b, sk_trace p s l = a ++ e :: e' :: b -> exists s' i i', e = sk_event s' i /\ e' = sk_event (sk_step p s' i) i'.
Proof.
  induction l as [|i l IH]; intros s a e e' b H; [destruct a; discriminate|]. cbn [sk_trace] in H. destruct a as [|x a].
  - cbn [app] in H. injection H as <- H. destruct l as [|i' l]; [discriminate|]. cbn [sk_trace] in H. injection H as <- _. eauto.
  - cbn [app] in H. injection H as _ H. eapply IH. exact H.
Qed.
Lemma sk_kept_all p s l a e e' b : sk_trace p s l = a ++ e :: e' :: b -> cmd_kept e e'.
Proof. intros H. destruct (sk_trace_next p l s a e e' b H) as [s' [i [i' [-> ->]]]]. apply cmd_kept_step. Qed.
Lemma sk_assume_app p a b : forall m, sk_assume p m (a ++ b) <-> sk_assume p m a /\ sk_assume p (fold_left (sk_next p) a m) b.
Proof. induction a as [|e a IH]; intros m; cbn [app sk_assume fold_left]; [tauto|]. rewrite IH. tauto. Qed.
Lemma sk_inv_run p e1 e2 e3 l (H1 : 0 <= e1) (H2 : 0 <= e2) (H3 : 0 <= e3 <= e1 + e2) (Haw : e1 + e2 <= cl_aw p) (Hlw : e3 <= cl_lw p) (Hws : 1 <= cl_ws p) (Hkw : 1 <= cl_kw p)
  (Hs : cl_segs p = 2 ^ e1) (Hb : cl_be p = 2 ^ e2) (Hk : beat_words p = 2 ^ e3) (Hw : src_wide p) : forall s m, sinv p e3 s m -> sk_assume p m (sk_trace p s l) -> sinv p e3 (sk_run p s l) (fold_left (sk_next p) (sk_trace p s l) m).
Proof.
  induction l as [|i l IH]; intros s m I A; [exact I|]. cbn [sk_trace sk_assume fold_left] in *. destruct A as [FA A]. change (sk_run p s (i :: l)) with (sk_run p (sk_step p s i) l). apply IH; [|exact A]. eapply (sinv_step p e1 e2 e3); eassumption.
Qed.
Lemma sk_progress_ok : forall p l1 l2 i1 i2 i3, src_ok p -> src_wide p ->
  let tr1 := sk_trace p sk0 l1 in let tr2 := sk_trace p (sk_run p sk0 l1) l2 in let s := sk_run p sk0 (l1 ++ l2) in let s1 := sk_step p s i1 in
  let m := sk_after p (tr1 ++ tr2) in let e3 := sk_event (sk_step p s1 i2) i3 in
  sk_assume p mo0 (tr1 ++ tr2) -> sk_quiet tr2 -> 54 * cl_segs p + 37 <= sk_goods p (sk_after p tr1) tr2 ->
  sk_done p m /\ (sk_quiet [sk_event s i1; sk_event s1 i2] -> (mo_cur m <> CIdle -> kv_tready e3 = true) /\ (mo_cur m = CIdle -> ki_enable i2 = true -> kv_ready e3 = true)).
Proof.
  intros p l1 l2 i1 i2 i3 [e1 [e2 [e3 [A1 [A2 [A3 [A4 [A5 [A6 [A7 [A8 [A9 A10]]]]]]]]]]]] W. cbn zeta. intros AS QT GD. apply sk_assume_app in AS. destruct AS as [AS1 AS2].
  assert (I0 : sinv p e3 sk0 mo0) by (eapply (sinv0 p e1 e2 e3); eassumption).
  pose proof (sk_inv_run p e1 e2 e3 l1 A1 A2 A3 A4 A5 A6 A7 A8 A9 A10 W sk0 mo0 I0 AS1) as I1. change (fold_left (sk_next p) (sk_trace p sk0 l1) mo0) with (sk_after p (sk_trace p sk0 l1)) in *.
  assert (MP : mu p (sk_run p sk0 l1) (sk_after p (sk_trace p sk0 l1)) <= 54 * cl_segs p + 37) by (eapply (mu_pos p e1 e2 e3); eassumption).
  assert (R : sinv p e3 (sk_run p sk0 (l1 ++ l2)) (sk_after p (sk_trace p sk0 l1 ++ sk_trace p (sk_run p sk0 l1) l2)) /\ mu p (sk_run p sk0 (l1 ++ l2)) (sk_after p (sk_trace p sk0 l1 ++ sk_trace p (sk_run p sk0 l1) l2)) = 0).
  { unfold sk_after at 1 2. unfold sk_run at 1 3. rewrite !fold_left_app. fold (sk_run p sk0 l1). fold (sk_run p (sk_run p sk0 l1) l2). fold (sk_after p (sk_trace p sk0 l1)).
    destruct (mu_run p e1 e2 e3 A1 A2 A3 A4 A5 A6 A7 A8 A9 A10 W l2 (sk_run p sk0 l1) (sk_after p (sk_trace p sk0 l1)) I1 AS2 QT) as [J1 [J2 _]]; [left; lia|]. split; assumption. }
  destruct R as [J1 J2]. split; [eapply (mu_done p e1 e2 e3); eassumption|]. intros QQ. eapply (mu_ready p e1 e2 e3); eassumption.
Qed.

(** * Runs for the examples and the refutations *)
(** A RAM that takes every command and completes a write in the clock after; a descriptor offered or not; a beat (data, keep, last) offered or not. *)
Definition done_bits (p : cl_param) (m : sk_mon) : Z := fold_right (fun n a => a + (if 0 <? mo_n m n then 2 ^ n else 0)) 0 (sk_segs p).
Fixpoint sk_drive (p : cl_param) (m : sk_mon) (s : sk_state) (ctl : list (option cl_desc * option (Z * Z * bool))) : list sk_in :=
  match ctl with
  | [] => []
  | (d, b) :: r =>
      let '(dt, ke, la) := match b with Some b => b | None => (0, 1, false) end in
      let i := mkKi false (match d with Some d => d | None => mkDe 0 0 (mkMe 0 0 0 0) end) (match d with Some _ => true | None => false end) dt ke (match b with Some _ => true | None => false end) la 11 12 13
        (Z.ones (cl_segs p)) (done_bits p m) true in
      i :: sk_drive p (sk_next p m (sk_event s i)) (sk_step p s i) r
  end.
Definition fairb (p : cl_param) (m : sk_mon) (e : sk_ev) : bool :=
  forallb (fun n => negb (bit (ki_done (kv_in e)) n) || (0 <? mo_n m n)) (sk_segs p) && (negb (kv_ready e && ki_valid (kv_in e)) || ((0 <=? de_addr (ki_desc (kv_in e))) && (de_addr (ki_desc (kv_in e)) <? 2 ^ cl_aw p) && (1 <=? de_len (ki_desc (kv_in e))) && (de_len (ki_desc (kv_in e)) <? 2 ^ cl_lw p)))
  && (cl_ken p || bit (ki_keep (kv_in e)) 0).
Fixpoint sk_assumeb (p : cl_param) (m : sk_mon) (tr : list sk_ev) : bool := match tr with [] => true | e :: r => fairb p m e && sk_assumeb p (sk_next p m e) r end.
Lemma sk_assumeb_ok p tr : forall m, sk_assumeb p m tr = true -> sk_assume p m tr.
Proof.
  induction tr as [|e tr IH]; intros m H; [exact I|]. cbn [sk_assumeb sk_assume] in *. apply andb_true_iff in H. destruct H as [H H2]. split; [|now apply IH]. unfold fairb in H. apply andb_true_iff in H. destruct H as [H HK]. apply andb_true_iff in H. destruct H as [HD HA].
  split; [|split].
  - intros s S D. rewrite forallb_forall in HD. specialize (HD s (proj2 (segs_in s) S)). rewrite D in HD. cbn [negb orb] in HD. lia.
  - intros T. rewrite T in HA. cbn [negb orb] in HA. unfold desc_ok. lia.
  - intros KN. rewrite KN in HK. exact HK.
Qed.
Lemma sk_follows_at p a e b : forall m, sk_follows p m (a ++ e :: b) -> sk_assume p m (a ++ e :: b) -> sk_shows p (fold_left (sk_next p) a m) e.
Proof.
  induction a as [|x a IH]; intros m F A; cbn [app sk_follows sk_assume fold_left] in *; destruct A as [A1 A2].
  - apply F. exact A1.
  - apply IH; [apply F; exact A1 | exact A2].
Qed.
Definition kmeta : cl_meta := mkMe 7 0 0 0.
(** Four words of eight bits, in two segments of two, beats of one word; one word for address 1. *)
Definition sk_p1 : cl_param := mkCl 8 2 2 8 1 true 8 true true true true.
Definition sk_l1 : list sk_in := sk_drive sk_p1 mo0 sk0 ([(None, None); (Some (mkDe 1 1 kmeta), None)] ++ repeat (None, Some (99, 1, true)) 3 ++ repeat (None, None) 5).
(** Beats of two words, a block of no words, a packet of nine beats; the RAM completes nothing. *)
Definition sk_p2 : cl_param := mkCl 8 2 2 8 2 true 4 true true true true.
Definition no_done (i : sk_in) : sk_in := mkKi (ki_rst i) (ki_desc i) (ki_valid i) (ki_data i) (ki_keep i) (ki_tvalid i) (ki_last i) (ki_id i) (ki_dest i) (ki_user i) (ki_cready i) 0 (ki_enable i).
Definition sk_l2 : list sk_in := map no_done (sk_drive sk_p2 mo0 sk0 ([(None, None); (Some (mkDe 0 0 kmeta), None)] ++ repeat (None, Some (99, 3, false)) 12 ++ repeat (None, None) 5)).
(** No keep; the keep bit is 0. *)
Definition sk_p3 : cl_param := mkCl 8 1 1 8 1 false 8 true true true true.
Definition sk_l3 : list sk_in := map no_done (sk_drive sk_p3 mo0 sk0 ([(None, None); (Some (mkDe 5 1 kmeta), None)] ++ repeat (None, Some (99, 0, true)) 2 ++ repeat (None, None) 5)).
(** For the examples: blocks of 3 words at 2 and of 8 words at 9 (that is, at 8); the second packet has only 3 words. *)
Definition sk_run1 : list sk_in := sk_drive sk_p2 mo0 sk0 ([(None, None); (Some (mkDe 2 3 kmeta), None); (None, Some (513, 3, false)); (None, Some (1027, 3, true)); (Some (mkDe 9 8 (mkMe 8 0 0 0)), None); (None, Some (1541, 3, false)); (None, Some (2055, 1, true))]).
Definition sk_run2 : list sk_in := skipn (length sk_run1) (sk_drive sk_p2 mo0 sk0 ([(None, None); (Some (mkDe 2 3 kmeta), None); (None, Some (513, 3, false)); (None, Some (1027, 3, true)); (Some (mkDe 9 8 (mkMe 8 0 0 0)), None); (None, Some (1541, 3, false)); (None, Some (2055, 1, true))] ++ repeat (None, None) 150)).
Definition no_ready (i : sk_in) : sk_in := mkKi (ki_rst i) (ki_desc i) (ki_valid i) (ki_data i) (ki_keep i) (ki_tvalid i) (ki_last i) (ki_id i) (ki_dest i) (ki_user i) 0 0 (ki_enable i).
Lemma sk_one_assume : sk_assume sk_p1 mo0 (sk_trace sk_p1 sk0 sk_l1).
Proof. apply sk_assumeb_ok. vm_compute. reflexivity. Qed.
Lemma sk_one_wrong : ~ sk_follows sk_p1 mo0 (sk_trace sk_p1 sk0 sk_l1).
Proof.
  intros F. pose proof sk_one_assume as A. set (tr := sk_trace sk_p1 sk0 sk_l1) in *.
  assert (VC : option_map (fun e => (kv_cvalid e 0, kv_cmd e 0)) (nth_error tr 4) = Some (true, mkKc 1 0 25443)) by (vm_compute; reflexivity). destruct (nth_error tr 4) as [e|] eqn:E; [|discriminate VC]. cbn [option_map] in VC. injection VC as V C.
  apply nth_error_split in E. destruct E as [a [b [E L]]]. assert (M : mo_w (fold_left (sk_next sk_p1) a mo0) 0 = [mkKb (mkDe 1 1 kmeta) 0 99 1 (Some (mkKt 1 7 11 12 13))]).
  { replace a with (firstn 4 tr); [vm_compute; reflexivity|]. rewrite E, <- L. rewrite firstn_app, Nat.sub_diag, firstn_all. cbn [firstn]. apply app_nil_r. }
  rewrite E in F, A. pose proof (sk_follows_at _ _ _ _ _ F A) as [_ [_ [_ S]]]. destruct (S 0 ltac:(vm_compute; split; congruence) V) as [x [r [Q W]]]. rewrite M in Q. injection Q as <- <-. rewrite C in W.
  destruct W as [_ [_ [W _]]]. destruct (W 0 ltac:(vm_compute; split; congruence)) as [W1 _]. destruct (W1 eq_refl) as [j [J [_ X]]]. change (beat_words sk_p1) with 1 in J. assert (j = 0) by lia. subst j. vm_compute in X. discriminate.
Qed.
