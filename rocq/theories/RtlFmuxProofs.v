From Verif Require Import PyBase RtlModel RtlFcModel RtlFifoModel RtlFifoSpec RtlFifoProofs RtlFmuxModel RtlFmuxSpec.

(** A FIFO with two read sides: the data side is one read behind the control side. *)
Definition b2n (b : bool) : nat := if b then 1%nat else 0%nat.
Definition nov (d : fi_st) (r : bool) : bool := if negb (fs_ov d) || r then fs_rv d else fs_ov d.
Definition nrv (d : fi_st) (r : bool) (qd : list fbeat) : bool :=
  if negb (fs_rv d) || (negb (fs_ov d) || r) then match qd with [] => false | _ => true end else fs_rv d.
Record PI (p : fi_param) (d c : fi_st) (ren : bool) (qd qc qo : list fbeat) : Prop := mkPI {
  pi_d : Inv p d qd qo; pi_c : Inv p c qc qo;
  pi_ov : ren = true -> fs_ov d = true;
  pi_q : pend d qd = (if ren then [fs_ob d] else []) ++ pend c qc;
  pi_1 : fs_ov c = true -> nov d ren = true;
  pi_2 : (b2n (fs_ov c) + b2n (fs_rv c) <= b2n (nov d ren) + b2n (nrv d ren qd))%nat }.

Lemma arith (oc rc od rd read : bool) (lc ld : list fbeat) :
  (read = true -> oc = true) -> (oc = true -> od = true) -> (b2n oc + b2n rc <= b2n od + b2n rd)%nat -> (b2n oc + b2n rc + length lc <= b2n od + b2n rd + length ld)%nat ->
  let go := negb oc || read in let oc' := if go then rc else oc in let rc' := if negb rc || go then match lc with [] => false | _ => true end else rc in
  let god := negb od || read in let od' := if god then rd else od in let rd' := if negb rd || god then match ld with [] => false | _ => true end else rd in
  (oc' = true -> od' = true) /\ (b2n oc' + b2n rc' <= b2n od' + b2n rd')%nat.
Proof.
  intros H1 H2 H3 H4. destruct oc, rc, od, rd, read, lc, ld; cbn [negb orb b2n length] in *; cbv zeta; cbn [negb orb b2n length];
    try (specialize (H1 eq_refl); discriminate); try (specialize (H2 eq_refl); discriminate); (split; [intros; try discriminate; try reflexivity|]); try lia.
Qed.

Lemma pend_length s q : length (pend s q) = (b2n (fs_ov s) + b2n (fs_rv s) + length q)%nat.
Proof. unfold pend. rewrite !app_length. destruct (fs_ov s), (fs_rv s); cbn [b2n length]; lia. Qed.

Lemma take_d d c b v r : fi_take d (df_in false b v c r) = v && df_ready d c.
Proof. unfold fi_take, df_in, df_ready. cbn [fi_valid]. destruct (fs_full d), (fs_full c), v; reflexivity. Qed.
Lemma take_c d c b v r : fi_take c (df_in false b v d r) = v && df_ready d c.
Proof. unfold fi_take, df_in, df_ready. cbn [fi_valid]. destruct (fs_full d), (fs_full c), v; reflexivity. Qed.

Definition news (d c : fi_st) (b : fbeat) (v : bool) (qo : list fbeat) : list fbeat := if v && df_ready d c && fb_eop b then qo ++ [b] else [].
Definition nopen (d c : fi_st) (b : fbeat) (v : bool) (qo : list fbeat) : list fbeat := if v && df_ready d c then if fb_eop b then [] else qo ++ [b] else qo.

Lemma dual_step_q p d c ren qd qc qo b v rc : fp_ok p -> PI p d c ren qd qc qo -> (rc = true -> fs_ov c = true) ->
  let d' := fi_step p d (df_in false b v c ren) in let c' := fi_step p c (df_in false b v d rc) in
  let qd' := nqc d (df_in false b v c ren) qd qo in let qc' := nqc c (df_in false b v d rc) qc qo in
  PI p d' c' rc qd' qc' (nopen d c b v qo) /\ (rc = true -> fs_ob d' = fs_ob c) /\
    pend c qc ++ news d c b v qo = (if rc then [fs_ob c] else []) ++ pend c' qc'.
Proof.
  intros Hp I Hrc d' c' qd' qc'. destruct I as [Id Ic Hov Hq H1 H2].
  set (id := df_in false b v c ren) in *. set (ic := df_in false b v d rc) in *.
  pose proof (step_inv p d id qd qo Hp Id eq_refl) as Id'. pose proof (step_inv p c ic qc qo Hp Ic eq_refl) as Ic'.
  pose proof (step_pend p d id qd qo Hp Id eq_refl) as Pd. pose proof (step_pend p c ic qc qo Hp Ic eq_refl) as Pc.
  change (fi_b id) with b in Pd. change (fi_b ic) with b in Pc.
  assert (Td : fi_take d id = v && df_ready d c) by apply take_d. assert (Tc : fi_take c ic = v && df_ready d c) by apply take_c.
  rewrite Td in Pd. rewrite Tc in Pc. fold (news d c b v qo) in Pd, Pc.
  assert (Gd : given (id, d) = if ren then [fs_ob d] else []).
  { unfold given. cbn [fst snd]. change (fi_read id) with ren. destruct ren; [rewrite (Hov eq_refl); reflexivity|rewrite andb_false_r; reflexivity]. }
  assert (Gc : given (ic, c) = if rc then [fs_ob c] else []).
  { unfold given. cbn [fst snd]. change (fi_read ic) with rc. destruct rc; [rewrite (Hrc eq_refl); reflexivity|rewrite andb_false_r; reflexivity]. }
  rewrite Gd in Pd. rewrite Gc in Pc. rewrite Hq, <- app_assoc in Pd. apply app_inv_head in Pd. fold d' in Pd, Id'. fold c' in Pc, Ic'.
  assert (No : nqo d id qo = nopen d c b v qo) by (unfold nqo; rewrite Td; reflexivity).
  assert (No2 : nqo c ic qo = nopen d c b v qo) by (unfold nqo; rewrite Tc; reflexivity).
  rewrite No in Id'. rewrite No2 in Ic'.
  fold qd' in Pd, Id'. fold qc' in Pc, Ic'.
  pose proof (empty_ok p d qd qo Hp Id) as Ed. pose proof (empty_ok p c qc qo Hp Ic) as Ec.
  assert (Ov : fs_ov d' = nov d ren) by reflexivity.
  assert (Rv : fs_rv d' = nrv d ren qd).
  { unfold d', fi_step, nrv. cbn [fs_rv fi_rst id df_in]. rewrite Ed. unfold fi_go. cbn [fi_read id df_in]. destruct qd; reflexivity. }
  assert (Ocv : fs_ov c' = if negb (fs_ov c) || rc then fs_rv c else fs_ov c) by reflexivity.
  assert (Rcv : fs_rv c' = if negb (fs_rv c) || (negb (fs_ov c) || rc) then match qc with [] => false | _ => true end else fs_rv c).
  { unfold c', fi_step. cbn [fs_rv fi_rst ic df_in]. rewrite Ec. unfold fi_go. cbn [fi_read ic df_in]. destruct qc; reflexivity. }
  assert (OB : rc = true -> fs_ob d' = fs_ob c).
  { intros E. pose proof (Hrc E) as O. pose proof (H1 O) as O2. rewrite <- Ov in O2. unfold pend in Pd. rewrite O, O2 in Pd. injection Pd as E1 _. symmetry. exact E1. }
  assert (L : (b2n (fs_ov c) + b2n (fs_rv c) + length qc <= b2n (fs_ov d') + b2n (fs_rv d') + length qd')%nat).
  { rewrite <- !pend_length. rewrite <- Pd, app_length. lia. }
  rewrite <- Ov, <- Rv in H2. rewrite <- Ov in H1.
  destruct (arith (fs_ov c) (fs_rv c) (fs_ov d') (fs_rv d') rc qc qd' Hrc H1 H2 L) as [A1 A2]. cbv zeta in A1, A2. rewrite <- Ocv, <- Rcv in A2. rewrite <- Ocv in A1.
  split; [|split; [exact OB|exact Pc]].
  constructor; [exact Id'|exact Ic'| | |exact A1|exact A2].
  - intros E. apply H1, Hrc, E.
  - rewrite <- Pd, Pc. destruct rc; [rewrite (OB eq_refl)|]; reflexivity.
Qed.

Lemma dual_reset p d c b v r1 r2 : fp_ok p -> PI p (fi_step p d (df_in true b v c r1)) (fi_step p c (df_in true b v d r2)) false [] [] [].
Proof.
  intros Hp. destruct (reset_inv p d (df_in true b v c r1) Hp eq_refl) as [A1 A2]. destruct (reset_inv p c (df_in true b v d r2) Hp eq_refl) as [B1 B2].
  constructor; [exact A1|exact B1|discriminate|rewrite A2, B2; reflexivity|discriminate|]. cbn. lia.
Qed.

(** The output FIFO. *)
Record OI (o : fm_out) (oq : list fbeat) (sel : bool) : Prop := mkOI {
  oi_rd : 0 <= mo_rd o < 64; oi_wr : mo_wr o = (mo_rd o + lz oq) mod 64;
  oi_mem : forall k x, nth_error oq k = Some x -> mo_mem o ((mo_rd o + Z.of_nat k) mod 32) = x;
  oi_len : lz oq + (if sel then 1 else 0) <= 18;
  oi_half : mo_half o = false -> lz oq + (if sel then 1 else 0) <= 17 }.
Definition opend (o : fm_out) (oq : list fbeat) : list fbeat := (if mo_v o then [mo_b o] else []) ++ oq.

Lemma oi_full o oq sel : OI o oq sel -> mo_full o = false.
Proof.
  intros [H1 H2 H3 H4 H5]. unfold mo_full. rewrite H2. apply Z.eqb_neq. pose proof (lz_pos _ oq). apply mod_neq; [lia|]. destruct sel; lia.
Qed.
Lemma oi_empty o oq sel : OI o oq sel -> (mo_wr o =? mo_rd o) = match oq with [] => true | _ => false end.
Proof.
  intros [H1 H2 H3 H4 H5]. rewrite H2. destruct oq as [|b t].
  - change (lz (@nil fbeat)) with 0. rewrite Z.add_0_r, Z.mod_small by lia. apply Z.eqb_refl.
  - apply Z.eqb_neq. intros E. apply (mod_neq 64 (mo_rd o) (mo_rd o + lz (b :: t))); [lia| |].
    + unfold lz in *. cbn [length] in *. destruct sel; lia.
    + rewrite E. apply Z.mod_small. lia.
Qed.
Lemma oi_count o oq sel : OI o oq sel -> (mo_wr o - mo_rd o) mod 64 = lz oq.
Proof.
  intros [H1 H2 H3 H4 H5]. rewrite H2, Zminus_mod_idemp_l. replace (mo_rd o + lz oq - mo_rd o) with (lz oq) by lia. apply Z.mod_small. pose proof (lz_pos _ oq). destruct sel; lia.
Qed.
Lemma m32 x : (x mod 64) mod 32 = x mod 32.
Proof. change 64 with (32 * 2). rewrite Z.rem_mul_r by lia. rewrite (Z.mul_comm 32), Z.mod_add by lia. apply Z.mod_mod. lia. Qed.

Lemma out_step o oq sel ready b sel' : OI o oq sel -> (sel' = true -> mo_half o = false) ->
  let o' := mo_step o false sel ready b in
  exists oq', OI o' oq' sel' /\ opend o oq ++ (if sel then [b] else []) = (if mo_v o && ready then [mo_b o] else []) ++ opend o' oq'.
Proof.
  intros I Hs o'. pose proof (oi_full o oq sel I) as HF. pose proof (oi_empty o oq sel I) as HE. pose proof (oi_count o oq sel I) as HC. destruct I as [H1 H2 H3 H4 H5].
  set (pop := mo_pop o ready). set (oq' := (if pop then tl oq else oq) ++ (if sel then [b] else [])). exists oq'.
  assert (HP : pop = true -> exists x t, oq = x :: t).
  { unfold pop, mo_pop. rewrite HE. destruct oq; [discriminate|eauto]. }
  assert (LT : lz oq' = lz oq - (if pop then 1 else 0) + (if sel then 1 else 0)).
  { unfold oq'. rewrite lz_app. destruct pop; [destruct (HP eq_refl) as (x & t & E); rewrite E|]; destruct sel; unfold lz; cbn [tl length]; lia. }
  pose proof (lz_pos _ oq) as LP.
  assert (ER : mo_rd o' = if pop then (mo_rd o + 1) mod 64 else mo_rd o) by reflexivity.
  assert (EW : mo_wr o' = if sel then (mo_wr o + 1) mod 64 else mo_wr o) by (unfold o', mo_step; rewrite HF; reflexivity).
  assert (EM : mo_mem o' = if sel then (fun a => if a =? mo_wr o mod 32 then b else mo_mem o a) else mo_mem o) by (unfold o', mo_step; rewrite HF; reflexivity).
  assert (EH : mo_half o' = (lz oq >=? 16)) by (rewrite <- HC; reflexivity).
  assert (EV : mo_v o' = if pop then true else if ready then false else mo_v o) by reflexivity.
  assert (EB : mo_b o' = if pop then mo_mem o (mo_rd o mod 32) else mo_b o) by reflexivity.
  clearbody o'.
  assert (RD : forall x, (mo_rd o' + x) mod 64 = (mo_rd o + (if pop then 1 else 0) + x) mod 64).
  { intros x. rewrite ER. destruct pop; [rewrite Zplus_mod_idemp_l; reflexivity|f_equal; lia]. }
  split; [constructor|].
  - rewrite ER. destruct pop; [apply Z.mod_pos_bound; lia|exact H1].
  - rewrite RD, EW, LT, H2. destruct sel; [rewrite Zplus_mod_idemp_l|]; f_equal; destruct pop; lia.
  - intros k x Hx. rewrite <- m32, RD, m32, EM.
    assert (OLD : forall k, nth_error (if pop then tl oq else oq) k = nth_error oq ((if pop then 1 else 0) + k)).
    { intros j. destruct pop; [apply nth_tl|reflexivity]. }
    replace (mo_rd o + (if pop then 1 else 0) + Z.of_nat k) with (mo_rd o + Z.of_nat ((if pop then 1 else 0) + k)) by (destruct pop; lia).
    unfold oq' in Hx. destruct sel.
    + rewrite H2, m32. destruct (Nat.lt_ge_cases k (length (if pop then tl oq else oq))) as [Hk|Hk].
      * rewrite nth_error_app1 in Hx by exact Hk. rewrite OLD in Hx. assert (KQ : ((if pop then 1 else 0) + k < length oq)%nat) by (apply nth_error_Some; congruence).
        destruct (Z.eqb_spec ((mo_rd o + Z.of_nat ((if pop then 1 else 0) + k)) mod 32) ((mo_rd o + lz oq) mod 32)) as [E|E]; [|apply H3; exact Hx].
        exfalso. revert E. apply mod_neq; [lia|]. unfold lz in *. lia.
      * rewrite nth_error_app2 in Hx by exact Hk.
        assert (EK : k = length (if pop then tl oq else oq)). { destruct (k - length (if pop then tl oq else oq))%nat as [|j] eqn:EJ; [lia|]. cbn in Hx. destruct j; discriminate Hx. }
        rewrite EK, Nat.sub_diag in Hx. cbn in Hx. injection Hx as <-.
        assert (EL : Z.of_nat ((if pop then 1 else 0) + k) = lz oq).
        { rewrite EK. unfold lz. destruct pop; [destruct (HP eq_refl) as (y & t & E); rewrite E; cbn [tl length]; lia|reflexivity]. }
        rewrite EL, Z.eqb_refl. reflexivity.
    + rewrite app_nil_r, OLD in Hx. apply H3. exact Hx.
  - rewrite LT. destruct sel'; [specialize (H5 (Hs eq_refl))|]; destruct pop, sel; lia.
  - rewrite EH, LT. intros H. rewrite Z.geb_leb in H. apply Z.leb_gt in H. destruct pop, sel, sel'; lia.
  - unfold opend, oq'. rewrite EV, EB. unfold pop, mo_pop in *. rewrite HE in *. destruct oq as [|x t].
    + cbn [negb andb app]. destruct (mo_v o), ready, sel; reflexivity.
    + assert (MX : mo_mem o (mo_rd o mod 32) = x) by (rewrite <- (H3 0%nat x eq_refl); f_equal; f_equal; lia). rewrite MX.
      cbn [negb andb tl]. destruct (mo_v o), ready, sel; cbn [negb orb andb app]; rewrite ?app_nil_r; reflexivity.
Qed.

Lemma out_reset o v ready b : OI (mo_step o true v ready b) [] false /\ opend (mo_step o true v ready b) [] = [].
Proof.
  split; [|reflexivity]. constructor; try (cbn; lia); try (intros [|k] x Hx; discriminate Hx); try reflexivity.
Qed.

Lemma tab_eq n f k : fm_tab n f k = f k.
Proof.
  unfold fm_tab. destruct (Z.ltb_spec k 0) as [L|L]; [reflexivity|]. destruct (nth_error (map (fun k => f (Z.of_nat k)) (seq 0 (Z.to_nat n))) (Z.to_nat k)) as [x|] eqn:E; [|reflexivity].
  rewrite nth_error_map in E. destruct (nth_error (seq 0 (Z.to_nat n)) (Z.to_nat k)) as [y|] eqn:E2; [|discriminate]. injection E as <-.
  assert (H : (Z.to_nat k < length (seq 0 (Z.to_nat n)))%nat) by (apply nth_error_Some; congruence). rewrite seq_length in H.
  apply (nth_error_nth _ _ 0%nat) in E2. rewrite seq_nth in E2 by exact H. rewrite <- E2. f_equal. lia.
Qed.
