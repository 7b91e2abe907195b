From Verif Require Import PyBase RtlModel RtlRamProofs2 RtlTileRxModel RtlTileRxSpec.

(** ** Double words *)
Lemma dwn_psel v j : dwn v j = psel v (32 * Z.of_nat j) 32.
Proof. reflexivity. Qed.
Lemma full_low d id lo w : 0 <= id < 2 ^ 256 -> 0 <= lo -> 0 <= w -> lo + w <= 256 -> psel (d * 2 ^ 256 + id) lo w = psel id lo w.
Proof.
  intros H Hl Hw Hs. assert (E : psel (d * 2 ^ 256 + id) 0 256 = id).
  { unfold psel. rewrite Z.pow_0_r, Z.div_1_r, Z.add_comm, Z.mod_add by lia. apply Z.mod_small. exact H. }
  rewrite <- E at 2. rewrite psel_psel by lia. f_equal; lia.
Qed.
Lemma full_high d id lo w : 0 <= id < 2 ^ 256 -> 256 <= lo -> psel (d * 2 ^ 256 + id) lo w = psel d (lo - 256) w.
Proof.
  intros H Hl. unfold psel. replace lo with (256 + (lo - 256)) at 1 by lia.
  rewrite Z.pow_add_r by lia. rewrite <- Z.div_div by lia. rewrite Z.div_add_l by lia. rewrite (Z.div_small id) by exact H. rewrite Z.add_0_r. reflexivity.
Qed.
Lemma dwn_full d id k j : 0 <= id < 2 ^ 256 -> (k + j < 16)%nat -> (j < 8)%nat ->
  dwn (psel (d * 2 ^ 256 + id) (32 * Z.of_nat k) 256) j = if Nat.ltb (k + j) 8 then dwn id (k + j) else dwn d (k + j - 8).
Proof.
  intros H Hk Hj. rewrite !dwn_psel. rewrite psel_psel by lia.
  destruct (Nat.ltb (k + j) 8) eqn:E.
  - apply PeanoNat.Nat.ltb_lt in E. rewrite full_low by lia. f_equal; lia.
  - apply PeanoNat.Nat.ltb_ge in E. rewrite full_high by lia. f_equal; lia.
Qed.

Lemma len_dwords v n : length (dwords v n) = n.
Proof. unfold dwords. rewrite map_length, seq_length. reflexivity. Qed.
(** The enabled lanes. *)
Lemma enabled c : (c <= 8)%nat -> filter (fun j => Z.testbit (2 ^ Z.of_nat c - 1) (Z.of_nat j)) (seq 0 8) = seq 0 c.
Proof. intros H. do 9 (destruct c as [|c]; [vm_compute; reflexivity|]). lia. Qed.

Ltac eight c H := do 9 (destruct c as [|c]; [|]); [..|exfalso; clear - H; lia].
(** Lanes of the shifted data. *)
Lemma shifted d id k c : 0 <= id < 2 ^ 256 -> (k = 3 \/ k = 4)%nat -> (c <= 8)%nat ->
  dwords (psel (d * 2 ^ 256 + id) (32 * Z.of_nat k) 256) c = firstn c (skipn k (dwords id 8) ++ dwords d 8).
Proof.
  intros H Hk Hc. unfold dwords at 1.
  rewrite (map_ext_in _ (fun j => if Nat.ltb (k + j) 8 then dwn id (k + j) else dwn d (k + j - 8))).
  2:{ intros j Hj. apply in_seq in Hj. apply dwn_full; [exact H|lia|lia]. }
  destruct Hk as [-> | ->]; do 9 (destruct c as [|c]; [reflexivity|]); lia.
Qed.

(** ** Groups *)
Lemma chunks_short l : (length l <= 8)%nat -> chunks l = [l].
Proof. intros H. do 9 (destruct l as [|? l]; [reflexivity|]). cbn [length] in H. lia. Qed.
Lemma chunks_app e l : length e = 8%nat -> l <> [] -> chunks (e ++ l) = e :: chunks l.
Proof.
  intros H Hl. do 8 (destruct e as [|? e]; [discriminate H|]). destruct e; [|discriminate H]. destruct l as [|x l]; [contradiction|]. reflexivity.
Qed.
Lemma fulls_short l : (length l < 8)%nat -> fulls l = [].
Proof. intros H. do 8 (destruct l as [|? l]; [reflexivity|]). cbn [length] in H. lia. Qed.
Lemma fulls_app e l : length e = 8%nat -> fulls (e ++ l) = e :: fulls l.
Proof. intros H. do 8 (destruct e as [|? e]; [discriminate H|]). destruct e; [|discriminate H]. reflexivity. Qed.
Lemma chunks_concat E l : Forall (fun e => length e = 8%nat) E -> l <> [] -> chunks (concat E ++ l) = E ++ chunks l.
Proof.
  induction 1 as [|e E He HE IH]; intros Hl; [reflexivity|]. cbn [concat app]. rewrite <- app_assoc.
  rewrite chunks_app; [rewrite IH by exact Hl; reflexivity|exact He|]. intros Hn. apply app_eq_nil in Hn. tauto.
Qed.
Lemma fulls_concat E l : Forall (fun e => length e = 8%nat) E -> fulls (concat E ++ l) = E ++ fulls l.
Proof. induction 1 as [|e E He HE IH]; [reflexivity|]. cbn [concat app]. rewrite <- app_assoc, fulls_app by exact He. rewrite IH. reflexivity. Qed.
Lemma chunks_some l : chunks l <> [].
Proof. do 9 (destruct l as [|? l]; [discriminate|]). discriminate. Qed.
Lemma mark_app h b f fin E : forall first C, C <> [] ->
  mark h b f first fin (E ++ C) = mark h b f first false E ++ mark h b f (first && match E with [] => true | _ => false end) fin C.
Proof.
  induction E as [|e E IH]; intros first C HC; cbn [app mark]. { rewrite andb_true_r. reflexivity. }
  rewrite IH by exact HC. rewrite !andb_false_r, andb_false_l.
  replace (match E ++ C with [] => true | _ :: _ => false end) with false by (destruct E; [destruct C; [contradiction|reflexivity]|reflexivity]).
  rewrite andb_false_r. reflexivity.
Qed.
Lemma mark_snoc h b f E c : forall first,
  mark h b f first false (E ++ [c]) = mark h b f first false E ++ mark h b f (first && match E with [] => true | _ => false end) false [c].
Proof. intros first. apply mark_app. discriminate. Qed.

(** What is still to come for an open TLP: r has the payload that is not yet put out. *)
Fixpoint rest_of (io : Z) (h : list Z) (bar func : Z) (first : bool) (r : list Z) (l : list sr_in) : list item :=
  match l with
  | [] => []
  | b :: t =>
      let x := r ++ beat_dws b in
      if si_eop b then mark h bar func first true (chunks x) ++ expected io [] t
      else mark h bar func first false [firstn 8 x] ++ rest_of io h bar func false (skipn 8 x) t
  end.

Definition wfb (b : sr_in) : Prop := 0 <= si_empty b < 8.
Lemma beat_len b : wfb b -> (1 <= length (beat_dws b) <= 8)%nat /\ (si_eop b = false -> length (beat_dws b) = 8%nat).
Proof. unfold wfb, beat_dws. intros H. rewrite len_dwords. destruct (si_eop b); split; try lia; discriminate. Qed.

Lemma expected_open io : forall l cur b0 cs k h bar func ds E r,
  cur = b0 :: cs -> ds = concat (map beat_dws cur) -> (8 <= length ds)%nat -> k = hlen ds -> h = firstn k ds -> bar = bar_of io (si_bar b0) -> func = si_func b0 ->
  skipn k ds = concat E ++ r -> Forall (fun e => length e = 8%nat) E -> (4 <= length r <= 5)%nat -> Forall wfb l ->
  expected io cur l = mark h bar func true false E ++ rest_of io h bar func (match E with [] => true | _ => false end) r l.
Proof.
  induction l as [|b t IH]; intros cur b0 cs k h bar func ds E r Hc Hds Hlen Hk Hh Hb Hf Hs HE Hr Hl.
  - cbn [expected rest_of]. rewrite app_nil_r. unfold items. rewrite <- Hds, <- Hk, Hs. rewrite Hc at 1. rewrite <- Hh, <- Hb, <- Hf.
    rewrite fulls_concat by exact HE. rewrite fulls_short by lia. rewrite app_nil_r. reflexivity.
  - inversion Hl as [|? ? Hb1 Ht]; subst l x. pose proof (beat_len b Hb1) as [HL1 HL2].
    assert (Hds' : concat (map beat_dws (cur ++ [b])) = ds ++ beat_dws b) by (rewrite map_app, concat_app; cbn [map concat]; rewrite app_nil_r, Hds; reflexivity).
    assert (Hk' : hlen (ds ++ beat_dws b) = k) by (rewrite Hk; unfold hlen; rewrite app_nth1 by lia; reflexivity).
    assert (Hk4 : (k <= 4)%nat) by (rewrite Hk; unfold hlen; destruct (Z.testbit _ _); lia).
    assert (Hfn : firstn k (ds ++ beat_dws b) = h). { rewrite firstn_app. replace (k - length ds)%nat with 0%nat by lia. cbn [firstn]. rewrite app_nil_r. symmetry. exact Hh. }
    assert (Hsk : skipn k (ds ++ beat_dws b) = concat E ++ (r ++ beat_dws b)). { rewrite skipn_app. replace (k - length ds)%nat with 0%nat by lia. cbn [skipn]. rewrite Hs, app_assoc. reflexivity. }
    cbn [expected rest_of]. destruct (si_eop b) eqn:Ee.
    + unfold items. rewrite Hds', Hk', Hfn, Hsk. rewrite Hc at 1. cbn [app]. rewrite <- Hb, <- Hf.
      rewrite chunks_concat; [|exact HE|intros Hn; apply app_eq_nil in Hn; destruct Hn as [Hn _]; rewrite Hn in Hr; cbn [length] in Hr; lia].
      rewrite mark_app by apply chunks_some. rewrite andb_true_l, <- app_assoc. reflexivity.
    + specialize (HL2 eq_refl).
      assert (Hx : length (r ++ beat_dws b) = (length r + 8)%nat) by (rewrite app_length, HL2; reflexivity).
      rewrite (IH (cur ++ [b]) b0 (cs ++ [b]) k h bar func (ds ++ beat_dws b) (E ++ [firstn 8 (r ++ beat_dws b)]) (skipn 8 (r ++ beat_dws b))).
      * rewrite mark_snoc, andb_true_l, <- app_assoc.
        replace (match E ++ [firstn 8 (r ++ beat_dws b)] with [] => true | _ :: _ => false end) with false by (destruct E; reflexivity). reflexivity.
      * rewrite Hc. reflexivity.
      * symmetry. exact Hds'.
      * rewrite app_length. lia.
      * symmetry. exact Hk'.
      * symmetry. exact Hfn.
      * exact Hb.
      * exact Hf.
      * rewrite Hsk, concat_app. cbn [concat]. rewrite app_nil_r, <- app_assoc, firstn_skipn. reflexivity.
      * apply Forall_app. split; [exact HE|]. constructor; [|constructor]. rewrite firstn_length, Hx. lia.
      * rewrite skipn_length, Hx. lia.
      * exact Ht.
Qed.
