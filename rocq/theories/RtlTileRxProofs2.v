From Verif Require Import PyBase RtlModel RtlRamProofs2 RtlTileRxModel RtlTileRxSpec RtlTileRxProofs.

(** ** The header *)
Lemma dwn_cons x d : 0 <= d < 2 ^ 32 -> dwn (x * 2 ^ 32 + d) 0 = d.
Proof. intros H. unfold dwn. change (2 ^ (32 * Z.of_nat 0)) with 1. rewrite Z.div_1_r, Z.add_comm, Z.mod_add by lia. apply Z.mod_small, H. Qed.
Lemma dwn_consS x d j : 0 <= d < 2 ^ 32 -> dwn (x * 2 ^ 32 + d) (S j) = dwn x j.
Proof.
  intros H. unfold dwn. replace (32 * Z.of_nat (S j)) with (32 + 32 * Z.of_nat j) by lia. rewrite Z.pow_add_r by lia. rewrite <- Z.div_div by lia.
  rewrite Z.div_add_l by lia. rewrite (Z.div_small d) by exact H. rewrite Z.add_0_r. reflexivity.
Qed.
Lemma dwn_range v j : 0 <= dwn v j < 2 ^ 32.
Proof. apply Z.mod_pos_bound. lia. Qed.
Lemma bsel_bit v n : 0 <= n -> (bsel v n =? 1) = Z.testbit v n.
Proof. intros H. unfold bsel, psel. change (2 ^ 1) with 2. rewrite <- Z.testbit_spec' by exact H. destruct (Z.testbit v n); reflexivity. Qed.
Lemma dwn_bit v j n : 0 <= n < 32 -> Z.testbit (dwn v j) n = Z.testbit v (32 * Z.of_nat j + n).
Proof. intros H. unfold dwn. rewrite Z.mod_pow2_bits_low by lia. rewrite Z.div_pow2_bits by lia. f_equal. lia. Qed.

Lemma tlp_hdr_ok s i : 0 <= sr_id s < 2 ^ 256 ->
  rev (dwords (sr_tlp_hdr s i) 4) = dwords (sr_id s) 4 /\ Z.testbit (sr_tlp_hdr s i) 125 = Z.testbit (dwn (sr_id s) 0) 29.
Proof.
  intros H. unfold sr_tlp_hdr, sr_full. rewrite !full_low by lia.
  change (psel (sr_id s) 0 32) with (dwn (sr_id s) 0). change (psel (sr_id s) 32 32) with (dwn (sr_id s) 1).
  change (psel (sr_id s) 64 32) with (dwn (sr_id s) 2). change (psel (sr_id s) 96 32) with (dwn (sr_id s) 3).
  set (v := _ + _).
  assert (E : v = ((dwn (sr_id s) 0 * 2 ^ 32 + dwn (sr_id s) 1) * 2 ^ 32 + dwn (sr_id s) 2) * 2 ^ 32 + dwn (sr_id s) 3) by (unfold v; ring).
  pose proof (dwn_range (sr_id s) 0) as R0. pose proof (dwn_range (sr_id s) 1) as R1. pose proof (dwn_range (sr_id s) 2) as R2. pose proof (dwn_range (sr_id s) 3) as R3.
  assert (D3 : dwn v 3 = dwn (sr_id s) 0).
  { rewrite E. rewrite !dwn_consS by assumption. unfold dwn at 1. change (2 ^ (32 * Z.of_nat 0)) with 1. rewrite Z.div_1_r. apply Z.mod_small, R0. }
  split.
  - change (dwords v 4) with [dwn v 0; dwn v 1; dwn v 2; dwn v 3]. rewrite D3. rewrite E. rewrite !dwn_consS, !dwn_cons by assumption. reflexivity.
  - rewrite <- D3, dwn_bit by lia. reflexivity.
Qed.

(** ** Abstraction *)
Definition K (s : sr_state) : nat := if sr_isop s then hlen (dwords (sr_id s) 8) else if sr_h4 s then 4%nat else 3%nat.
Definition Ln (s : sr_state) : nat := Z.to_nat (Z.log2 (sr_is s + 1)).
Definition out_of (s : sr_state) : list item := seen (mkSe true (sr_valid s) (sr_data s) (sr_strb s) (sr_hdr s) (sr_bar s) (sr_func s) (sr_sop s) (sr_eop s)).
Definition mk (io : Z) (s : sr_state) (fin : bool) (cs : list (list Z)) : list item := mark (firstn (K s) (dwords (sr_id s) 8)) (bar_of io (sr_ibar s)) (sr_ifunc s) (sr_isop s) fin cs.
Definition tail_of (io : Z) (s : sr_state) : list item :=
  if sr_iv s && sr_ieop s then (if sr_isop s || Nat.ltb (K s) (Ln s) then mk io s true [skipn (K s) (dwords (sr_id s) (Ln s))] else []) else [].
Definition isopen (s : sr_state) : bool := sr_iv s && negb (sr_ieop s).
Definition todo (io : Z) (s : sr_state) (l : list sr_in) : list item :=
  if isopen s then rest_of io (firstn (K s) (dwords (sr_id s) 8)) (bar_of io (sr_ibar s)) (sr_ifunc s) (sr_isop s) (skipn (K s) (dwords (sr_id s) 8)) l
  else expected io [] l.

Definition Inv (s : sr_state) : Prop :=
  sr_iv s = true ->
  0 <= sr_id s < 2 ^ 256 /\ 0 <= sr_ibar s < 8 /\
  (exists e, (e < 8)%nat /\ (if sr_ieop s then sr_is s = 255 / 2 ^ Z.of_nat e /\ sr_ise s = 128 / 2 ^ Z.of_nat e else sr_is s = 255 /\ sr_ise s = 0)) /\
  (sr_isop s = true -> sr_ieop s = true -> (K s <= Ln s)%nat).

Lemma K34 s : (K s = 3 \/ K s = 4)%nat.
Proof. unfold K, hlen. destruct (sr_isop s); [destruct (Z.testbit _ _)|destruct (sr_h4 s)]; auto. Qed.
Lemma h4n_K s i : Inv s -> si_fready i = true -> sr_iv s = true -> (if sr_h4n s i then 4 else 3)%nat = K s.
Proof.
  intros HI Hr Hv. unfold sr_h4n, K. rewrite Hr, Hv. cbn [andb]. destruct (sr_isop s); [|reflexivity].
  destruct (HI Hv) as (Hid & _). rewrite bsel_bit by lia. destruct (tlp_hdr_ok s i Hid) as [_ E]. rewrite E. reflexivity.
Qed.
Lemma sr_k_K s i : Inv s -> si_fready i = true -> sr_iv s = true -> sr_k s i = Z.of_nat (K s).
Proof. intros HI Hr Hv. pose proof (h4n_K s i HI Hr Hv) as E. unfold sr_k. rewrite <- E. destruct (sr_h4n s i); reflexivity. Qed.
Lemma bar_ok io b : 0 <= b < 8 -> tile_bar io b = bar_of io b.
Proof.
  intros H. assert (C : b = 0 \/ b = 1 \/ b = 2 \/ b = 3 \/ b = 4 \/ b = 5 \/ b = 6 \/ b = 7) by lia.
  destruct C as [->|[->|[->|[->|[->|[->|[->| ->]]]]]]]; reflexivity.
Qed.

(** The item of the registers after a beat was put out. *)
Lemma item_ok io s i (c : nat) (last : bool) ob of : Inv s -> si_fready i = true -> sr_iv s = true -> (c <= 8)%nat ->
  seen (mkSe true true (psel (sr_full s i) (32 * sr_k s i) 256) (2 ^ Z.of_nat c - 1) (if sr_isop s then sr_tlp_hdr s i else sr_hdr s)
             (if sr_isop s then tile_bar io (sr_ibar s) else ob) (if sr_isop s then sr_ifunc s else of) (sr_isop s) last)
  = mk io s last [firstn c (skipn (K s) (dwords (sr_id s) 8) ++ dwords (si_data i) 8)].
Proof.
  intros HI Hr Hv Hc. pose proof (sr_k_K s i HI Hr Hv) as Ek. destruct (HI Hv) as (Hid & Hbar & _).
  unfold seen, mk. cbn [se_ready se_valid se_hdr se_sop se_eop se_bar se_func se_strb se_data andb mark].
  rewrite enabled by exact Hc. rewrite Ek. unfold sr_full.
  pose proof (shifted (si_data i) (sr_id s) (K s) c Hid (K34 s) Hc) as HS. unfold dwords in HS at 1. rewrite HS.
  assert (HLn : length (firstn c (skipn (K s) (dwords (sr_id s) 8) ++ dwords (si_data i) 8)) = c).
  { rewrite firstn_length, app_length, skipn_length, !len_dwords. destruct (K34 s); lia. }
  rewrite HLn, andb_true_r. f_equal. destruct (sr_isop s) eqn:Es; [|reflexivity].
  destruct (tlp_hdr_ok s i Hid) as [E1 E2]. rewrite E1, E2, bar_ok by exact Hbar.
  f_equal. unfold K, hlen. rewrite Es. change (nth 0 (dwords (sr_id s) 8) 0) with (dwn (sr_id s) 0).
  destruct (Z.testbit (dwn (sr_id s) 0) 29); reflexivity.
Qed.

Lemma mark_false h b f fin cs : forall h' b' f', mark h b f false fin cs = mark h' b' f' false fin cs.
Proof. induction cs as [|c t IH]; intros h' b' f'; cbn [mark]; [reflexivity|]. rewrite (IH h' b' f'). reflexivity. Qed.
Lemma rest_false io l : forall h b f h' b' f' r, rest_of io h b f false r l = rest_of io h' b' f' false r l.
Proof.
  induction l as [|x t IH]; intros h b f h' b' f' r; cbn [rest_of]; [reflexivity|].
  destruct (si_eop x); [rewrite (mark_false h b f _ _ h' b' f'); reflexivity|]. rewrite (mark_false h b f _ _ h' b' f'), (IH h b f h' b' f'). reflexivity.
Qed.

(** The saved beat. *)
Definition saved (s : sr_state) (i : sr_in) : Prop :=
  sr_id s = si_data i /\ sr_is s = sr_lanes i /\ sr_isop s = si_sop i /\ sr_ieop s = si_eop i /\ sr_iv s = true /\ sr_ise s = sr_end i /\ sr_ifunc s = si_func i /\ sr_ibar s = si_bar i.
Lemma Ln_e e : (e < 8)%nat -> Z.to_nat (Z.log2 (255 / 2 ^ Z.of_nat e + 1)) = (8 - e)%nat.
Proof. intros H. do 8 (destruct e as [|e]; [vm_compute; reflexivity|]). lia. Qed.
Lemma saved_Ln s i : saved s i -> 0 <= si_empty i < 8 -> Ln s = length (beat_dws i).
Proof.
  intros (_ & Hs & _) He. unfold Ln, beat_dws. rewrite Hs, len_dwords. unfold sr_lanes. destruct (si_eop i); [|reflexivity].
  rewrite <- (Z2Nat.id (si_empty i)) by lia. rewrite Ln_e by lia. lia.
Qed.
Lemma firstn_dwords v a b : (a <= b)%nat -> firstn a (dwords v b) = dwords v a.
Proof. intros H. unfold dwords. rewrite firstn_map. f_equal. replace b with (a + (b - a))%nat by lia. rewrite seq_app, firstn_app, seq_length, PeanoNat.Nat.sub_diag. cbn [firstn]. rewrite app_nil_r. rewrite <- (seq_length a 0) at 1. apply firstn_all. Qed.
Lemma hlen_beat i : 0 <= si_empty i < 8 -> hlen (beat_dws i) = hlen (dwords (si_data i) 8).
Proof.
  intros H. unfold hlen, beat_dws. destruct (si_eop i); [|reflexivity].
  assert (E : exists m, (8 - Z.to_nat (si_empty i))%nat = S m) by (exists (7 - Z.to_nat (si_empty i))%nat; lia). destruct E as (m & ->). reflexivity.
Qed.

Definition okbeat (i : sr_in) : Prop :=
  0 <= si_data i < 2 ^ 256 /\ 0 <= si_empty i < 8 /\ 0 <= si_bar i < 8 /\ (si_sop i = true -> si_eop i = true -> (hlen (beat_dws i) <= length (beat_dws i))%nat).

Lemma saved_inv s i : saved s i -> okbeat i -> Inv s.
Proof.
  intros Hs (Hd & He & Hb & Hh). pose proof (saved_Ln s i Hs He) as HL. destruct Hs as (S1 & S2 & S3 & S4 & S5 & S6 & S7 & S8). intros _.
  rewrite S1, S8. split; [exact Hd|]. split; [exact Hb|]. split.
  - exists (Z.to_nat (si_empty i)). split; [lia|]. rewrite S4, S2, S6. unfold sr_lanes, sr_end. rewrite Z2Nat.id by lia. destruct (si_eop i); split; reflexivity.
  - intros A B. rewrite HL. unfold K. rewrite A, S1. rewrite <- hlen_beat by exact He. apply Hh; congruence.
Qed.

(** A new TLP. *)
Lemma new_tlp io s i l : saved s i -> okbeat i -> si_sop i = true -> Forall wfb l -> expected io [] (i :: l) = tail_of io s ++ todo io s l.
Proof.
  intros Hs Ho Hsop Hl. pose proof (saved_inv s i Hs Ho) as HI. destruct Ho as (Hd & He & Hb & Hh). pose proof (saved_Ln s i Hs He) as HL.
  pose proof (hlen_beat i He) as Hhl.
  destruct Hs as (S1 & S2 & S3 & S4 & S5 & S6 & S7 & S8).
  assert (HK : K s = hlen (beat_dws i)) by (unfold K; rewrite S3, Hsop, S1; symmetry; exact Hhl).
  assert (Hk34 : (hlen (beat_dws i) <= 4)%nat) by (unfold hlen; destruct (Z.testbit _ _); lia).
  unfold tail_of, todo, isopen. rewrite S5, S4, S3, Hsop. cbn [andb orb expected app].
  destruct (si_eop i) eqn:Ee; cbn [negb].
  - f_equal. unfold items. cbn [map concat]. rewrite app_nil_r. rewrite chunks_short by (rewrite skipn_length; pose proof (beat_len i He); lia).
    unfold mk. rewrite S3, Hsop, S7, S8, HK. specialize (Hh Hsop eq_refl). rewrite HL.
    assert (E1 : beat_dws i = dwords (si_data i) (length (beat_dws i))) by (unfold beat_dws; rewrite len_dwords; reflexivity).
    assert (E2 : forall k, (k <= length (beat_dws i))%nat -> firstn k (dwords (sr_id s) 8) = firstn k (beat_dws i)).
    { intros k Hk. pose proof (beat_len i He) as [HB _]. transitivity (dwords (si_data i) k); [rewrite S1; apply firstn_dwords; lia|].
      rewrite E1. symmetry. apply firstn_dwords. exact Hk. }
    rewrite E2 by exact Hh. rewrite S1, <- E1. reflexivity.
  - assert (E0 : beat_dws i = dwords (si_data i) 8) by (unfold beat_dws; rewrite Ee; reflexivity).
    rewrite (expected_open io l [i] i [] (hlen (beat_dws i)) (firstn (hlen (beat_dws i)) (beat_dws i)) (bar_of io (si_bar i)) (si_func i) (beat_dws i) [] (skipn (hlen (beat_dws i)) (beat_dws i)));
      try reflexivity; [| |rewrite E0, len_dwords; lia|constructor| |exact Hl].
    + cbn [mark app]. rewrite HK, S1, S7, S8, E0. reflexivity.
    + cbn [map concat]. rewrite app_nil_r. reflexivity.
    + rewrite skipn_length, E0, len_dwords. rewrite <- E0. unfold hlen. destruct (Z.testbit _ _); lia.
Qed.
