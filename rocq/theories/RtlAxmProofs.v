(** Lemmas on the minimal AXI lite master (C103 to C105): fields, requests, completions. *)
From Verif Require Import PyBase RtlModel RtlRamModel RtlRamDemuxModel RtlAxmModel RtlAxmSpec.

(** * Concatenations *)
Fixpoint wsum (l : list (Z * Z)) : Z := match l with [] => 0 | (w, _) :: r => w + wsum r end.
Lemma wsum_nonneg l : Forall (fun x => 0 <= fst x) l -> 0 <= wsum l.
Proof. induction 1 as [|[w v] r H _ IH]; cbn in *; lia. Qed.
Lemma cat_tail l : Forall (fun x => 0 <= fst x) l -> forall acc, exists r, 0 <= r < 2 ^ wsum l /\ cat_from acc l = acc * 2 ^ wsum l + r.
Proof.
  induction 1 as [|[w v] l H F IH]; intros acc; cbn [cat_from wsum fst] in *.
  - exists 0. rewrite Z.pow_0_r. lia.
  - destruct (IH (acc * 2 ^ w + v mod 2 ^ w)) as [r [R E]]. rewrite E. pose proof (wsum_nonneg l F). rewrite Z.pow_add_r by lia.
    exists (v mod 2 ^ w * 2 ^ wsum l + r). pose proof (Z.mod_pos_bound v (2 ^ w) ltac:(apply Z.pow_pos_nonneg; lia)). pose proof (Z.pow_pos_nonneg 2 (wsum l) ltac:(lia) ltac:(lia)). split; [nia | ring].
Qed.
Lemma cat_from_app l1 : forall acc l2, cat_from acc (l1 ++ l2) = cat_from (cat_from acc l1) l2.
Proof. induction l1 as [|[w v] r IH]; intros acc l2; [reflexivity | cbn [app cat_from]; apply IH]. Qed.
Lemma cat_field l1 w v l2 : 0 <= w -> Forall (fun x => 0 <= fst x) l2 -> psel (cat (l1 ++ (w, v) :: l2)) (wsum l2) w = v mod 2 ^ w.
Proof.
  intros W F. unfold cat. rewrite cat_from_app. cbn [cat_from]. destruct (cat_tail l2 F (cat_from 0 l1 * 2 ^ w + v mod 2 ^ w)) as [r [R E]]. rewrite E. unfold psel.
  rewrite Z.div_add_l by lia. rewrite (Z.div_small r) by lia. rewrite Z.add_0_r, Z.add_comm, Z.mod_add by (apply Z.pow_nonzero; lia). apply Z.mod_mod. apply Z.pow_nonzero; lia.
Qed.
Lemma cat_nth n l w v : nth_error l n = Some (w, v) -> forallb (fun x => 0 <=? fst x) l = true -> psel (cat l) (wsum (skipn (S n) l)) w = v mod 2 ^ w.
Proof.
  intros N F. assert (FA : Forall (fun x => 0 <= fst x) l). { apply Forall_forall. intros x X. rewrite forallb_forall in F. apply F in X. lia. }
  apply nth_error_split in N. destruct N as [l1 [l2 [E L]]]. subst l. rewrite <- L.
  replace (skipn (S (length l1)) (l1 ++ (w, v) :: l2)) with l2. 2: { clear. induction l1 as [|x r IH]; cbn; [reflexivity | exact IH]. }
  apply Forall_app in FA. destruct FA as [_ FA]. inversion FA; subst. apply cat_field; assumption.
Qed.
Lemma cat_range l : forallb (fun x => 0 <=? fst x) l = true -> 0 <= cat l < 2 ^ wsum l.
Proof.
  intros F. assert (FA : Forall (fun x => 0 <= fst x) l). { apply Forall_forall. intros x X. rewrite forallb_forall in F. apply F in X. lia. }
  unfold cat. destruct (cat_tail l FA 0) as [r [R E]]. rewrite E. lia.
Qed.
Lemma fld_psel h hi lo : fld h hi lo = psel h lo (hi - lo + 1).
Proof. reflexivity. Qed.
Lemma psel_mod v lo w : 0 <= w -> psel v lo w mod 2 ^ w = psel v lo w.
Proof. intros W. unfold psel. apply Z.mod_mod. apply Z.pow_nonzero; lia. Qed.
Lemma psel_rng v lo w : 0 <= w -> 0 <= psel v lo w < 2 ^ w.
Proof. intros W. apply Z.mod_pos_bound. apply Z.pow_pos_nonneg; lia. Qed.

(** * Byte enables and addresses *)
Lemma be_cases be : 0 <= be < 16 -> In be [0;1;2;3;4;5;6;7;8;9;10;11;12;13;14;15].
Proof. intros. cbn. lia. Qed.
Lemma bc_ok be : 0 <= be < 16 -> am_bc be = byte_count be.
Proof. intros H. apply be_cases in H. cbn [In] in H. repeat (destruct H as [<-|H]; [reflexivity|]). destruct H. Qed.
Lemma bc_range be : 0 <= be < 16 -> 0 <= byte_count be < 2 ^ 12.
Proof. intros H. apply be_cases in H. cbn [In] in H. repeat (destruct H as [<-|H]; [cbn; lia|]). destruct H. Qed.
Lemma odd_fmt f : 0 <= f < 4 -> (bsel f 0 =? 1) = ((f =? 1) || (f =? 3)).
Proof. intros H. assert (C : f = 0 \/ f = 1 \/ f = 2 \/ f = 3) by lia. destruct C as [->|[->|[->| ->]]]; reflexivity. Qed.
Lemma high_fmt f : 0 <= f < 4 -> (bsel f 1 =? 1) = (2 <=? f).
Proof. intros H. assert (C : f = 0 \/ f = 1 \/ f = 2 \/ f = 3) by lia. destruct C as [->|[->|[->| ->]]]; reflexivity. Qed.
Lemma fmt_range h : 0 <= fmt_of h < 8.
Proof. unfold fmt_of. rewrite fld_psel. change (127 - 125 + 1) with 3. apply (psel_rng h 125 3). lia. Qed.
Lemma mul4 h lo k : 0 <= lo -> 0 <= k -> psel h (lo + 2) k * 4 = psel h lo (k + 2) - psel h lo 2.
Proof.
  intros L K. unfold psel. rewrite Z.pow_add_r by lia. rewrite <- Z.div_div by (try apply Z.pow_nonzero; lia).
  set (a := h / 2 ^ lo). rewrite Z.pow_add_r by lia. change (2 ^ 2) with 4. rewrite (Z.mul_comm (2 ^ k) 4). rewrite Z.rem_mul_r; [lia | lia | apply Z.pow_pos_nonneg; lia].
Qed.
Lemma addr_ok p h : fmt_of h < 4 -> h_addr p h = addr_of p h.
Proof.
  intros F. pose proof (fmt_range h) as R. unfold h_addr, addr_of. change (h_fmt h) with (fmt_of h). rewrite odd_fmt by lia.
  rewrite (orb_comm _ (am_f64 p)), orb_assoc. destruct (am_f64 p || (fmt_of h =? 1) || (fmt_of h =? 3)).
  - change 2 with (0 + 2) at 1. rewrite mul4 by lia. unfold psel. rewrite Z.pow_0_r, !Z.div_1_r. reflexivity.
  - change 34 with (32 + 2). rewrite mul4 by lia. reflexivity.
Qed.
Lemma addr4 p h : exists k, addr_of p h = 4 * k.
Proof.
  unfold addr_of. destruct (am_f64 p || (fmt_of h =? 1) || (fmt_of h =? 3)).
  - pose proof (mul4 h 0 62 ltac:(lia) ltac:(lia)) as H. exists (psel h 2 62). change (0 + 2) with 2 in H. unfold psel in *. rewrite Z.pow_0_r, !Z.div_1_r in H. change (62 + 2) with 64 in H. change (2 ^ 2) with 4 in *. lia.
  - pose proof (mul4 h 32 30 ltac:(lia) ltac:(lia)) as H. exists (psel h 34 30). change (32 + 2) with 34 in H. change (30 + 2) with 32 in H. rewrite !fld_psel. change (63 - 32 + 1) with 32. change (33 - 32 + 1) with 2. lia.
Qed.
Lemma low_addr a k : a = 4 * k -> psel a 2 5 * 4 = a mod 128.
Proof.
  intros ->. unfold psel. change (2 ^ 2) with 4. rewrite (Z.mul_comm 4 k), Z.div_mul by lia. change (2 ^ 5) with 32. change 128 with (32 * 4). rewrite Z.mul_mod_distr_r by lia. reflexivity.
Qed.
Lemma fbe_range h : 0 <= fbe_of h < 16.
Proof. unfold fbe_of. rewrite fld_psel. change (67 - 64 + 1) with 4. apply (psel_rng h 64 4). lia. Qed.
Lemma la_ok p h : fmt_of h < 4 -> am_la p h = lower_addr p h /\ 0 <= lower_addr p h < 2 ^ 7.
Proof.
  intros F. unfold am_la, lower_addr. change (h_fbe h) with (fbe_of h). rewrite addr_ok by exact F. destruct (addr4 p h) as [k K]. rewrite (low_addr _ k K).
  assert (M : addr_of p h mod 128 = 4 * (k mod 32)). { rewrite K. change 128 with (4 * 32). apply Z.mul_mod_distr_l; lia. }
  pose proof (Z.mod_pos_bound k 32 ltac:(lia)). rewrite M. pose proof (be_cases _ (fbe_range h)) as B. cbn [In] in B. change (2 ^ 7) with 128.
  repeat (destruct B as [<-|B]; [split; [cbn; lia | cbn -[Z.mul Z.modulo]; lia]|]). destruct B.
Qed.

(** * Requests *)
Definition ent_ok (p : am_param) (e : am_ent) (x : item) : Prop :=
  match x with
  | IRead h => fmt_of h < 4 /\ e = am_mk h true false 0 (am_bc (h_fbe h)) (am_la p h)
  | IWrite => ae_read e = false /\ ae_write e = true
  | ICpl h CUr => e = am_mk h false false 1 0 0
  | ICpl h CCa => e = am_mk h false false 4 0 0
  | ICpl _ (CSc _) => False
  end.
Lemma len_one h : (h_len h =? 1) = one_dw h.
Proof.
  unfold h_len, one_dw. rewrite fld_psel. change (105 - 96 + 1) with 10. unfold cat. cbn [cat_from]. pose proof (psel_rng h 96 10 ltac:(lia)) as R. rewrite psel_mod by lia.
  change (2 ^ 10) with 1024 in *. change (2 ^ 1) with 2. destruct (Z.eqb_spec (psel h 96 10) 0) as [E|E].
  - rewrite E. reflexivity.
  - change (1 mod 2) with 1. change (0 mod 2) with 0. f_equal; lia.
Qed.
Lemma decode_ok p h : fmt_of h < 4 -> kind_of h <> KMsg -> let d := am_decode p h in
  aa_ar d = isk (kind_of h) KRead && one_dw h /\ aa_aw d = isk (kind_of h) KWrite && one_dw h /\
  aa_cor d = match kind_of h with KRead => negb (one_dw h) | KCpl | KOther => true | _ => false end /\
  aa_unc d = match kind_of h with KWrite => negb (one_dw h) | KMsg => true | _ => false end /\
  match aa_ent d with Some e => exists x, due h = [x] /\ ent_ok p e x | None => due h = [] end.
Proof.
  intros F M. pose proof (fmt_range h) as R. unfold am_decode. change (h_fmt h) with (fmt_of h). change (h_type h) with (type_of h). rewrite len_one, odd_fmt, high_fmt by lia.
  change (24 =? 16) with false. cbv iota. rewrite Z.land_0_r. change (0 =? 0) with true. cbn [negb]. rewrite andb_false_r.
  unfold kind_of in *. cbv zeta in *. set (t := type_of h) in *. set (f := fmt_of h) in *. unfold due. unfold kind_of. fold t f. cbv zeta.
  destruct (Z.eqb_spec t 0) as [T|T].
  - rewrite !andb_true_r. destruct (Z.leb_spec f 1) as [L|L].
    + replace (2 <=? f) with false by lia. cbn [negb]. destruct (one_dw h); cbn; repeat split; eauto; eexists; split; try reflexivity; cbn; auto.
    + replace (2 <=? f) with true by lia. cbn [negb]. destruct (one_dw h); cbn; repeat split; auto; eexists; split; try reflexivity; cbn; auto.
  - rewrite !andb_false_r. destruct ((t / 8 =? 2) && ((f =? 1) || (f =? 3))) eqn:C; [contradiction M; reflexivity|].
    replace (negb ((f =? 1) || (f =? 3)) && ((t =? 10) || (t =? 11))) with (((t =? 10) || (t =? 11)) && ((f =? 0) || (f =? 2))) by (clear C M; lia).
    destruct (((t =? 10) || (t =? 11)) && ((f =? 0) || (f =? 2))); cbn; repeat split; auto. eexists; split; reflexivity.
Qed.

(** * Completions *)
Lemma tag_parts h : psel (h_tag h) 9 1 = psel h 119 1 /\ psel (h_tag h) 8 1 = psel h 115 1 /\ psel (h_tag h) 0 8 = psel h 72 8.
Proof.
  unfold h_tag. set (L := [(1, bsel h 119); (1, bsel h 115); (8, psel h 72 8)]).
  pose proof (cat_nth 0 L 1 _ eq_refl eq_refl) as A. pose proof (cat_nth 1 L 1 _ eq_refl eq_refl) as B. pose proof (cat_nth 2 L 8 _ eq_refl eq_refl) as C.
  cbn [L skipn wsum Z.add Pos.add Pos.succ] in A, B, C. unfold bsel in *. rewrite psel_mod in A, B, C by lia. auto.
Qed.
Lemma attr_parts h : psel (h_attr h) 2 1 = psel h 114 1 /\ psel (h_attr h) 0 2 = psel h 108 2.
Proof.
  unfold h_attr. set (L := [(1, bsel h 114); (2, psel h 108 2)]).
  pose proof (cat_nth 0 L 1 _ eq_refl eq_refl) as A. pose proof (cat_nth 1 L 2 _ eq_refl eq_refl) as B.
  cbn [L skipn wsum Z.add Pos.add Pos.succ] in A, B. unfold bsel in *. rewrite psel_mod in A, B by lia. auto.
Qed.

(** The fields of the header of a completion. *)
Lemma hdr_fields p h rd wr st bc la : let x := am_hdr p (am_mk h rd wr st bc la) in
  0 <= x < 2 ^ 128 /\ psel x 125 3 = (if rd then 2 else 0) /\ psel x 120 5 = 10 /\ psel x 119 1 = psel h 119 1 /\ psel x 116 3 = psel h 116 3 /\ psel x 115 1 = psel h 115 1 /\ psel x 114 1 = psel h 114 1 /\
  psel x 110 4 = 0 /\ psel x 108 2 = psel h 108 2 /\ psel x 106 2 = 0 /\ psel x 96 10 = (if rd then 1 else 0) /\ psel x 80 16 = am_cid p mod 2 ^ 16 /\ psel x 77 3 = st mod 2 ^ 3 /\ psel x 76 1 = 0 /\
  psel x 64 12 = bc mod 2 ^ 12 /\ psel x 48 16 = psel h 80 16 /\ psel x 40 8 = psel h 72 8 /\ psel x 39 1 = 0 /\ psel x 32 7 = la mod 2 ^ 7 /\ psel x 0 32 = 0.
Proof.
  cbn zeta. unfold am_hdr, am_mk. cbn [ae_read ae_stat ae_bc ae_la ae_rid ae_tag ae_tc ae_attr].
  match goal with |- context [cat ?l] => set (L := l) end.
  assert (P : forallb (fun x => 0 <=? fst x) L = true) by reflexivity.
  destruct (tag_parts h) as [T9 [T8 T0]]. destruct (attr_parts h) as [A2 A0].
  pose proof (cat_range L P) as RG.
  pose proof (cat_nth 0 L _ _ eq_refl P) as F0. pose proof (cat_nth 1 L _ _ eq_refl P) as F1. pose proof (cat_nth 2 L _ _ eq_refl P) as F2. pose proof (cat_nth 3 L _ _ eq_refl P) as F3.
  pose proof (cat_nth 4 L _ _ eq_refl P) as F4. pose proof (cat_nth 5 L _ _ eq_refl P) as F5. pose proof (cat_nth 6 L _ _ eq_refl P) as F6. pose proof (cat_nth 7 L _ _ eq_refl P) as F7.
  pose proof (cat_nth 8 L _ _ eq_refl P) as F8. pose proof (cat_nth 9 L _ _ eq_refl P) as F9. pose proof (cat_nth 10 L _ _ eq_refl P) as F10. pose proof (cat_nth 11 L _ _ eq_refl P) as F11.
  pose proof (cat_nth 12 L _ _ eq_refl P) as F12. pose proof (cat_nth 13 L _ _ eq_refl P) as F13. pose proof (cat_nth 14 L _ _ eq_refl P) as F14. pose proof (cat_nth 15 L _ _ eq_refl P) as F15.
  pose proof (cat_nth 16 L _ _ eq_refl P) as F16. pose proof (cat_nth 17 L _ _ eq_refl P) as F17. pose proof (cat_nth 18 L _ _ eq_refl P) as F18.
  assert (LD : L = L) by reflexivity. unfold L at 2 in LD.
  assert (W : forall n k, wsum (skipn n L) = k -> wsum (skipn n L) = k) by auto.
  rewrite (W 1%nat 125 eq_refl) in F0. rewrite (W 2%nat 120 eq_refl) in F1. rewrite (W 3%nat 119 eq_refl) in F2. rewrite (W 4%nat 116 eq_refl) in F3. rewrite (W 5%nat 115 eq_refl) in F4. rewrite (W 6%nat 114 eq_refl) in F5.
  rewrite (W 7%nat 110 eq_refl) in F6. rewrite (W 8%nat 108 eq_refl) in F7. rewrite (W 9%nat 106 eq_refl) in F8. rewrite (W 10%nat 96 eq_refl) in F9. rewrite (W 11%nat 80 eq_refl) in F10. rewrite (W 12%nat 77 eq_refl) in F11.
  rewrite (W 13%nat 76 eq_refl) in F12. rewrite (W 14%nat 64 eq_refl) in F13. rewrite (W 15%nat 48 eq_refl) in F14. rewrite (W 16%nat 40 eq_refl) in F15. rewrite (W 17%nat 39 eq_refl) in F16. rewrite (W 18%nat 32 eq_refl) in F17. rewrite (W 19%nat 0 eq_refl) in F18.
  replace (wsum L) with 128 in RG by reflexivity. clear W LD P. clearbody L. unfold bsel in *.
  rewrite T9, psel_mod in F2 by lia. rewrite T8, psel_mod in F4 by lia. rewrite A2, psel_mod in F5 by lia. rewrite A0, psel_mod in F7 by lia. rewrite psel_mod in F3 by lia. rewrite psel_mod in F14 by lia. rewrite T0, psel_mod in F15 by lia.
  split; [exact RG|]. split; [rewrite F0; destruct rd; reflexivity|]. split; [exact F1|]. split; [exact F2|]. split; [exact F3|]. split; [exact F4|]. split; [exact F5|]. split; [exact F6|]. split; [exact F7|]. split; [exact F8|].
  split; [rewrite F9; destruct rd; reflexivity|]. split; [exact F10|]. split; [exact F11|]. split; [exact F12|]. split; [exact F13|]. split; [exact F14|]. split; [exact F15|]. split; [exact F16|]. split; [exact F17|]. exact F18.
Qed.

Lemma psel_fld v hi lo w : hi - lo + 1 = w -> psel v lo w = fld v hi lo.
Proof. intros <-. reflexivity. Qed.
Lemma hdr_flds p h rd wr st bc la : let x := am_hdr p (am_mk h rd wr st bc la) in
  0 <= x < 2 ^ 128 /\ fld x 127 125 = (if rd then 2 else 0) /\ fld x 124 120 = 10 /\ fld x 119 119 = fld h 119 119 /\ fld x 118 116 = fld h 118 116 /\ fld x 115 115 = fld h 115 115 /\ fld x 114 114 = fld h 114 114 /\
  fld x 113 110 = 0 /\ fld x 109 108 = fld h 109 108 /\ fld x 107 106 = 0 /\ fld x 105 96 = (if rd then 1 else 0) /\ fld x 95 80 = am_cid p mod 2 ^ 16 /\ fld x 79 77 = st mod 2 ^ 3 /\ fld x 76 76 = 0 /\
  fld x 75 64 = bc mod 2 ^ 12 /\ fld x 63 48 = fld h 95 80 /\ fld x 47 40 = fld h 79 72 /\ fld x 39 39 = 0 /\ fld x 38 32 = la mod 2 ^ 7 /\ fld x 31 0 = 0.
Proof.
  cbn zeta. pose proof (hdr_fields p h rd wr st bc la) as HF. cbn zeta in HF. set (x := am_hdr p (am_mk h rd wr st bc la)) in *. clearbody x.
  rewrite (psel_fld x 127 125 3 eq_refl) in HF.
  rewrite (psel_fld x 124 120 5 eq_refl) in HF.
  rewrite (psel_fld x 119 119 1 eq_refl) in HF.
  rewrite (psel_fld h 119 119 1 eq_refl) in HF.
  rewrite (psel_fld x 118 116 3 eq_refl) in HF.
  rewrite (psel_fld h 118 116 3 eq_refl) in HF.
  rewrite (psel_fld x 115 115 1 eq_refl) in HF.
  rewrite (psel_fld h 115 115 1 eq_refl) in HF.
  rewrite (psel_fld x 114 114 1 eq_refl) in HF.
  rewrite (psel_fld h 114 114 1 eq_refl) in HF.
  rewrite (psel_fld x 113 110 4 eq_refl) in HF.
  rewrite (psel_fld x 109 108 2 eq_refl) in HF.
  rewrite (psel_fld h 109 108 2 eq_refl) in HF.
  rewrite (psel_fld x 107 106 2 eq_refl) in HF.
  rewrite (psel_fld x 105 96 10 eq_refl) in HF.
  rewrite (psel_fld x 95 80 16 eq_refl) in HF.
  rewrite (psel_fld x 79 77 3 eq_refl) in HF.
  rewrite (psel_fld x 76 76 1 eq_refl) in HF.
  rewrite (psel_fld x 75 64 12 eq_refl) in HF.
  rewrite (psel_fld x 63 48 16 eq_refl) in HF.
  rewrite (psel_fld h 95 80 16 eq_refl) in HF.
  rewrite (psel_fld x 47 40 8 eq_refl) in HF.
  rewrite (psel_fld h 79 72 8 eq_refl) in HF.
  rewrite (psel_fld x 39 39 1 eq_refl) in HF.
  rewrite (psel_fld x 38 32 7 eq_refl) in HF.
  rewrite (psel_fld x 31 0 32 eq_refl) in HF.
  exact HF.
Qed.
Definition tx_is (p : am_param) (x : item) (xh xd xs : Z) : Prop :=
  match x with ICpl h c => forall e, av_txh e = xh -> av_txd e = xd -> av_txs e = xs -> cpl_is p h c e | _ => False end.
Lemma cpl_read p e h d : ent_ok p e (IRead h) -> tx_is p (ICpl h (CSc d)) (am_hdr p e) d 1.
Proof.
  intros [F E] ev H D S. unfold cpl_is. rewrite H. pose proof (hdr_flds p h true false 0 (am_bc (h_fbe h)) (am_la p h)) as HF. cbn zeta in HF. rewrite <- E in HF. set (x := am_hdr p e) in *. clearbody x.
  destruct HF as [X0 [X1 [X2 [X3 [X4 [X5 [X6 [X7 [X8 [X9 [X10 [X11 [X12 [X13 [X14 [X15 [X16 [X17 [X18 X19]]]]]]]]]]]]]]]]]]].
  change (h_fbe h) with (fbe_of h) in X14. rewrite bc_ok, Z.mod_small in X14 by (try apply bc_range; apply fbe_range). destruct (la_ok p h F) as [LA LR]. rewrite LA, Z.mod_small in X18 by exact LR.
  split; [exact X0|]. split; [exact X2|]. split; [exact X3|]. split; [exact X4|]. split; [exact X5|]. split; [exact X6|]. split; [exact X7|]. split; [exact X8|]. split; [exact X9|]. split; [exact X11|]. split; [exact X13|]. split; [exact X15|]. split; [exact X16|]. split; [exact X17|]. split; [exact X19|]. 
  split; [exact X1|]. split; [exact X10|]. split; [exact X12|]. split; [exact X14|]. split; [exact X18|]. auto.
Qed.
Lemma cpl_err p e h c : ent_ok p e (ICpl h c) -> tx_is p (ICpl h c) (am_hdr p e) 0 0.
Proof.
  destruct c as [d| |]; cbn [ent_ok]; [intros []| |]; intros E ev H D S; unfold cpl_is; rewrite H.
  - pose proof (hdr_flds p h false false 1 0 0) as HF. cbn zeta in HF. rewrite <- E in HF. set (x := am_hdr p e) in *. clearbody x. destruct HF as [X0 [X1 [X2 [X3 [X4 [X5 [X6 [X7 [X8 [X9 [X10 [X11 [X12 [X13 [X14 [X15 [X16 [X17 [X18 X19]]]]]]]]]]]]]]]]]]]. split; [exact X0|]. split; [exact X2|]. split; [exact X3|]. split; [exact X4|]. split; [exact X5|]. split; [exact X6|]. split; [exact X7|]. split; [exact X8|]. split; [exact X9|]. split; [exact X11|]. split; [exact X13|]. split; [exact X15|]. split; [exact X16|]. split; [exact X17|]. split; [exact X19|]. split; [exact X1|]. split; [exact X10|]. split; [exact X12|]. exact S.
  - pose proof (hdr_flds p h false false 4 0 0) as HF. cbn zeta in HF. rewrite <- E in HF. set (x := am_hdr p e) in *. clearbody x. destruct HF as [X0 [X1 [X2 [X3 [X4 [X5 [X6 [X7 [X8 [X9 [X10 [X11 [X12 [X13 [X14 [X15 [X16 [X17 [X18 X19]]]]]]]]]]]]]]]]]]]. split; [exact X0|]. split; [exact X2|]. split; [exact X3|]. split; [exact X4|]. split; [exact X5|]. split; [exact X6|]. split; [exact X7|]. split; [exact X8|]. split; [exact X9|]. split; [exact X11|]. split; [exact X13|]. split; [exact X15|]. split; [exact X16|]. split; [exact X17|]. split; [exact X19|]. split; [exact X1|]. split; [exact X10|]. split; [exact X12|]. exact S.
Qed.
