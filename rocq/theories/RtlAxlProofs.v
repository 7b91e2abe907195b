(** Proofs about read requests of the AXI lite master (C139). *)
From Verif Require Import PyBase RtlModel RtlFcProofs RtlAxlModel RtlAxlSpec.

Lemma some_pair {A B : Type} (a c : A) (b d : B) : Some (a, b) = Some (c, d) -> c = a /\ d = b.
Proof. intros H. now inversion H. Qed.

Section words.
Variables (w : al_who) (hi : Z).
(** All further operations when n words are left, from word a on, d of them in the completion under way. *)
Fixpoint words (m : nat) (a d : Z) : list (Z * al_ent) :=
  match m with
  | O => []
  | S m' => let n := Z.of_nat m in let k := if d =? 0 then (if n <=? 32 then n else 32 - a mod 32) else d in
      (4 * a, mkEnt true false (d =? 0) (k =? 1) 0 k ((4 * n - hi) mod 4096) ((4 * a) mod 128) w) :: words m' (a + 1) (k - 1)
  end.
Definition rinv (q : al_req) (m : nat) (a d : Z) : Prop :=
  let n := Z.of_nat m in
  q_addr q = 4 * a /\ q_op q = n /\ q_bc q = 4 * n - hi /\ q_who q = w /\ 1 <= n <= 1023 /\ 0 <= a /\ a + n <= 2 ^ 62 /\
  ((q_st q = ARead1 /\ d = 0 /\ a mod 32 = 0) \/ (q_st q = ARead2 /\ q_dw q = d /\ q_last q = (d =? 1) /\ 1 <= d <= n /\ d <= 32 /\ (d = n \/ (a + d) mod 32 = 0))).
Hypothesis Hhi : 0 <= hi <= 3.

Lemma up_ok a f : 0 <= a -> a + 1 <= 2 ^ 62 -> 0 <= f <= 3 -> al_up (4 * a + f) = 4 * (a + 1) \/ a + 1 = 2 ^ 62.
Proof.
  intros. destruct (Z.eq_dec (a + 1) (2 ^ 62)) as [E|E]; [now right|left]. unfold al_up. replace ((4 * a + f) / 4) with a by (apply Z.div_unique with f; lia).
  rewrite Z.mod_small; [reflexivity|]. clear - H H0 E. lia.
Qed.
Lemma cut_ok n a f : 1 <= n -> 0 <= a -> 0 <= f <= 3 -> al_cut n (4 * a + f) = (if n <=? 32 then n else 32 - a mod 32) /\ 1 <= al_cut n (4 * a + f) <= 32.
Proof.
  intros. assert (E : psel (4 * a + f) 2 5 = a mod 32).
  { unfold psel. change (2 ^ 2) with 4. change (2 ^ 5) with 32. f_equal. symmetry. apply Z.div_unique with f; lia. }
  unfold al_cut. rewrite E. change (2 ^ 6) with 64. pose proof (Z.mod_pos_bound a 32 ltac:(lia)). destruct (Z.leb_spec n 32); rewrite Z.mod_small by lia; lia.
Qed.

Lemma rd_run f64 c : forall l s m a d, Forall running l -> rinv (s_q s) m a d -> exists rest, words m a d = fst (ops f64 c s l) ++ rest /\ (snd (ops f64 c s l) = true <-> rest = []).
Proof.
  induction l as [|i l IH]; intros s m a d Rn I.
  - exists (words m a d). split; [reflexivity|]. cbn [ops snd]. destruct I as (_ & _ & _ & _ & Hn & _). destruct m as [|m]; [cbn in Hn; lia|]. cbn [words]. split; discriminate.
  - inversion_clear Rn as [|? ? R1 R2]. pose proof I as (Ha & Ho & Hb & Hw & Hn & Pa & Pl & Hc). cbn [ops]. unfold al_step, al_entry, al_comb. rewrite R1.
    set (one := match q_st (s_q s) with ARead1 => true | _ => false end).
    assert (E : match q_st (s_q s) with AIdle => al_idle f64 s i | ARead1 => al_rd true s i | ARead2 => al_rd false s i | AWrite1 => al_wr c true s i | AWrite2 => al_wr c false s i | AWait => al_wait s i end = al_rd one s i).
    { unfold one. destruct Hc as [(-> & _)|(-> & _)]; reflexivity. }
    rewrite E. unfold al_rd. destruct ((negb (o_arv (s_o s)) || ai_arr i) && negb (ai_half i)) eqn:Go.
    2:{ cbn [snd s_q s_o]. destruct (IH (mkAs (s_q s) (al_keep (s_o s) i false)) m a d R2 I) as (rest & A & B). exists rest.
        destruct Hc as [(-> & _)|(-> & _)]; destruct (ops f64 c _ l) as [es dn]; split; assumption. }
    cbn [snd s_q s_o q_st q_addr o_addr al_read]. rewrite Ha, Ho, Hb, Hw. destruct m as [|m]; [cbn in Hn; lia|]. set (n := Z.of_nat (S m)) in *.
    assert (Nm : n - 1 = Z.of_nat m) by (unfold n; lia).
    pose proof (cut_ok n a 0 ltac:(lia) Pa ltac:(lia)) as (C1 & C2). rewrite Z.add_0_r in C1, C2.
    set (k := if d =? 0 then (if n <=? 32 then n else 32 - a mod 32) else d).
    assert (K : (if one then al_cut n (4 * a) else q_dw (s_q s)) = k /\ 1 <= k <= 32 /\ k <= n /\ (k = n \/ (a + k) mod 32 = 0) /\ one = (d =? 0) /\ (if one then n =? 1 else q_last (s_q s)) = (k =? 1)).
    { unfold k, one. destruct Hc as [(Hs & Hd & Hm)|(Hs & Hd & Hl & H1 & H2 & H3)]; rewrite Hs.
      - subst d. cbn [Z.eqb]. rewrite C1 in *. destruct (Z.leb_spec n 32).
        + repeat split; try lia.
        + rewrite Hm in *. rewrite Z.sub_0_r in *. repeat split; try lia. right. rewrite Z.add_mod, Hm by lia. reflexivity.
      - destruct (Z.eqb_spec d 0); [lia|]. repeat split; try assumption; try lia. }
    destruct K as (K1 & K2 & K3 & K4 & K5 & K6). rewrite K1, K6. rewrite (Z.mod_small (k - 1)) by (change (2 ^ 6) with 64; lia). rewrite (Z.mod_small (n - 1)) by (change (2 ^ 11) with 2048; lia).
    assert (Wd : words (S m) a d = (4 * a, mkEnt true false one (k =? 1) 0 k ((4 * n - hi) mod 2 ^ 12) ((4 * a) mod 2 ^ 7) w) :: words m (a + 1) (k - 1)) by (rewrite K5; reflexivity).
    destruct (Z.eqb_spec n 1) as [N1|N1].
    + assert (k = 1) as K7 by lia. rewrite K7 in *. cbn [Z.eqb Pos.eqb]. rewrite N1. replace (one || (1 - 1 =? 0)) with true by (destruct one; reflexivity). cbn [fst snd].
      exists []. rewrite Wd, N1. assert (m = O) as -> by lia. cbn [words app]. split; [reflexivity|split; reflexivity].
    + assert (O : one || (n - 1 =? 0) = one) by (destruct (Z.eqb_spec (n - 1) 0); [lia|now destruct one]). rewrite O.
      assert (On : one = true -> k = 1 -> False).
      { intros X Y. rewrite K5 in X. unfold k in Y. rewrite X in Y. destruct (n <=? 32) eqn:L32; [lia|]. destruct Hc as [(_ & _ & Hm)|(_ & _ & _ & H1 & _)]; [lia|]. apply Z.eqb_eq in X. lia. }
      set (st := if k =? 1 then if one then AIdle else ARead1 else ARead2).
      assert (St : (k = 1 /\ st = ARead1) \/ (k <> 1 /\ st = ARead2)).
      { unfold st. destruct (Z.eqb_spec k 1) as [X|X]; [left|right]; (split; [assumption|]); [|reflexivity]. destruct one; [exfalso; now apply On|reflexivity]. }
      set (q' := mkRq st _ _ _ _ _ _ _ _ _). match goal with |- context [ops f64 c (mkAs q' ?x) l] => set (o' := x) end.
      assert (I' : rinv q' m (a + 1) (k - 1)).
      { unfold rinv, q'. cbn [q_addr q_op q_bc q_who q_st q_dw q_last]. rewrite <- Nm. destruct (up_ok a 0 Pa ltac:(lia) ltac:(lia)) as [U|U]; [|lia]. rewrite Z.add_0_r in U.
        split; [exact U|]. split; [reflexivity|]. split; [rewrite Z.mod_small by (change (2 ^ 13) with 8192; lia); lia|]. split; [reflexivity|]. split; [lia|]. split; [lia|]. split; [lia|].
        destruct St as [(X & Y)|(X & Y)]; rewrite Y.
        - left. split; [reflexivity|]. split; [lia|]. destruct K4 as [K4|K4]; [lia|]. rewrite X in K4. exact K4.
        - right. split; [reflexivity|]. split; [reflexivity|]. split; [reflexivity|]. split; [lia|]. split; [lia|]. destruct K4 as [K4|K4]; [left; lia|right]. rewrite <- K4. f_equal. lia. }
      destruct (IH (mkAs q' o') m (a + 1) (k - 1) R2 I') as (rest & A & B). exists rest. rewrite Wd, A.
      destruct St as [(_ & Y)|(_ & Y)]; rewrite Y; destruct (ops f64 c (mkAs q' o') l) as [es dn]; (split; [reflexivity|exact B]).
Qed.

Lemma words_mid : forall d m a, (1 <= d <= m)%nat -> exists x, words m a (Z.of_nat d) = x ++ words (m - d) (a + Z.of_nat d) 0 /\ length x = d /\
  forall k p e, nth_error x k = Some (p, e) -> p = 4 * (a + Z.of_nat k) /\ e_rd e = true /\ e_wr e = false /\ e_first e = false /\ e_last e = (Z.of_nat k + 1 =? Z.of_nat d) /\ e_stat e = 0 /\ e_who e = w.
Proof.
  induction d as [|d IH]; intros m a H; [lia|]. destruct m as [|m]; [lia|]. cbn [words]. replace (Z.of_nat (S d) =? 0) with false by (symmetry; apply Z.eqb_neq; lia).
  replace (Z.of_nat (S d) - 1) with (Z.of_nat d) by lia. destruct d as [|d].
  - exists [(4 * a, mkEnt true false false (Z.of_nat 1 =? 1) 0 (Z.of_nat 1) ((4 * Z.of_nat (S m) - hi) mod 4096) ((4 * a) mod 128) w)]. split; [cbn [app]; replace (S m - 1)%nat with m by lia; change (Z.of_nat 1) with 1; change (Z.of_nat 0) with 0; reflexivity|]. split; [reflexivity|].
    intros k p e E. destruct k as [|k]; [|destruct k; discriminate]. cbn [nth_error] in E. apply some_pair in E. destruct E as (-> & ->). cbn [e_rd e_wr e_first e_last e_stat e_who]. split; [lia|]. repeat (split; [reflexivity|]). reflexivity.
  - destruct (IH m (a + 1) ltac:(lia)) as (x & E & L & P). rewrite E. eexists (_ :: x). split; [cbn [app]; replace (S m - S (S d))%nat with (m - S d)%nat by lia; replace (a + Z.of_nat (S (S d))) with (a + 1 + Z.of_nat (S d)) by lia; reflexivity|]. split; [cbn [length]; rewrite L; reflexivity|].
    intros k p e H1. destruct k as [|k].
    + cbn [nth_error] in H1. apply some_pair in H1. destruct H1 as (-> & ->). cbn [e_rd e_wr e_first e_last e_stat e_who]. split; [lia|]. split; [reflexivity|]. split; [reflexivity|]. split; [reflexivity|]. split; [|split; reflexivity]. destruct (Z.eqb_spec (Z.of_nat (S (S d))) 1); destruct (Z.eqb_spec (Z.of_nat 0 + 1) (Z.of_nat (S (S d)))); try reflexivity; lia.
    + cbn [nth_error] in H1. destruct (P k p e H1) as (P1 & P2 & P3 & P4 & P5 & P6 & P7). repeat split; try assumption; [lia|]. rewrite P5. destruct (Z.eqb_spec (Z.of_nat k + 1) (Z.of_nat (S d))); destruct (Z.eqb_spec (Z.of_nat (S k) + 1) (Z.of_nat (S (S d)))); try reflexivity; lia.
Qed.
Lemma words_ans : forall N m, (m < N)%nat -> forall off a b k e, 0 <= off <= 3 -> 0 <= a -> 1 <= k <= 32 -> k <= Z.of_nat m + 1 -> k = Z.of_nat m + 1 \/ (a + k) mod 32 = 0 ->
  e = mkEnt true false true (k =? 1) 0 k (b mod 4096) ((4 * a + off) mod 128) w ->
  answered w hi off a (Z.of_nat m + 1) b ((4 * a + off, e) :: words m (a + 1) (k - 1)).
Proof.
  induction N as [|N IH]; intros m HN off a b k e Ho Ha Hk Hm Hc He; [lia|].
  assert (Q : (4 * a + off) / 4 = a) by (symmetry; apply Z.div_unique with off; lia).
  assert (S : exists x, words m (a + 1) (k - 1) = x ++ words (m - Z.to_nat (k - 1)) (a + k) 0 /\ length x = Z.to_nat (k - 1) /\
    forall j p e, nth_error x j = Some (p, e) -> p = 4 * (a + 1 + Z.of_nat j) /\ e_rd e = true /\ e_wr e = false /\ e_first e = false /\ e_last e = (Z.of_nat j + 1 =? k - 1) /\ e_stat e = 0 /\ e_who e = w).
  { destruct (Z.eq_dec k 1) as [->|K1].
    - exists []. split; [cbn [app]; replace (m - Z.to_nat (1 - 1))%nat with m by lia; reflexivity|]. split; [reflexivity|]. intros j p e0 H. destruct j; discriminate.
    - destruct (words_mid (Z.to_nat (k - 1)) m (a + 1) ltac:(lia)) as (x & E & L & P). rewrite Z2Nat.id in * by lia. exists x. split; [rewrite E; do 2 f_equal; lia|]. split; assumption. }
  destruct S as (x & E & L & P). rewrite E. change ((4 * a + off, e) :: x ++ ?t) with (((4 * a + off, e) :: x) ++ t).
  apply (an_cpl w hi off a (Z.of_nat m + 1) b k); try assumption; try lia.
  - split; [unfold zlen; cbn [length]; lia|]. intros j p e0 H. rewrite Q. destruct j as [|j].
    + cbn [nth_error] in H. apply some_pair in H. destruct H as (-> & ->). subst e. cbn [e_rd e_wr e_first e_last e_stat e_who e_dw e_bc e_low Nat.eqb]. repeat split. destruct (Z.eqb_spec k 1); destruct (Z.eqb_spec (Z.of_nat 0 + 1) k); try reflexivity; lia.
    + cbn [nth_error] in H. destruct (P j p e0 H) as (P1 & P2 & P3 & P4 & P5 & P6 & P7). cbn [Nat.eqb]. split; [lia|]. split; [assumption|]. split; [assumption|]. split; [assumption|]. split; [|split; [assumption|split; [assumption|discriminate]]].
      rewrite P5. destruct (Z.eqb_spec (Z.of_nat j + 1) (k - 1)); destruct (Z.eqb_spec (Z.of_nat (S j) + 1) k); try reflexivity; lia.
  - assert (Er : Z.of_nat m + 1 - k = Z.of_nat (m - Z.to_nat (k - 1))) by lia. rewrite Er. destruct (m - Z.to_nat (k - 1))%nat as [|r] eqn:Rr; [constructor|].
    assert (A0 : (a + k) mod 32 = 0) by (destruct Hc as [Hc|Hc]; [lia|exact Hc]).
    cbn [words]. rewrite Z.eqb_refl. set (n := Z.of_nat (S r)) in *. rewrite A0, Z.sub_0_r. set (k' := if n <=? 32 then n else 32).
    assert (K' : 1 <= k' <= 32 /\ k' <= n /\ (k' = n \/ k' = 32)) by (unfold k', n; destruct (Z.leb_spec (Z.of_nat (S r)) 32); lia).
    replace n with (Z.of_nat r + 1) at 1 by (unfold n; lia). replace (4 * (a + k)) with (4 * (a + k) + 0) at 1 by lia. 
    apply IH; try lia.
    + destruct K' as (_ & _ & [X| ->]); [left; unfold n in X; lia|right]. rewrite Z.add_mod, A0 by lia. reflexivity.
    + rewrite Z.add_0_r. reflexivity.
Qed.
End words.

Lemma be16 (P : Z -> bool) : forallb (fun k => P (Z.of_nat k)) (seq 0 16) = true -> forall b, 0 <= b < 16 -> P b = true.
Proof. intros H b Hb. rewrite forallb_forall in H. specialize (H (Z.to_nat b)). rewrite Z2Nat.id in H by lia. apply H. apply in_seq. lia. Qed.
Lemma be_ok b : 0 <= b < 16 -> be_first b = low_byte b /\ be_last b = unused_high b /\ be_len b = (if b =? 0 then 1 else Z.log2 b - low_byte b + 1) /\ 0 <= low_byte b <= 3 /\ 0 <= unused_high b <= 3.
Proof.
  intros H. pose proof (be16 (fun b => (be_first b =? low_byte b) && (be_last b =? unused_high b) && (be_len b =? (if b =? 0 then 1 else Z.log2 b - low_byte b + 1)) &&
    (0 <=? low_byte b) && (low_byte b <=? 3) && (0 <=? unused_high b) && (unused_high b <=? 3)) ltac:(vm_compute; reflexivity) b H) as K. cbv beta in K.
  repeat (apply andb_prop in K; destruct K as [K ?]). repeat match goal with X : (_ =? _) = true |- _ => apply Z.eqb_eq in X | X : (_ <=? _) = true |- _ => apply Z.leb_le in X end. repeat split; assumption.
Qed.

Lemma read_done f64 c s i l : let r := rr_of f64 (ai_hdr i) in takes_read s i -> Forall running (i :: l) -> rr_a r + rr_n r <= 2 ^ 62 -> (rr_n r <= 32 \/ rr_a r mod 32 <> 31) ->
  let es := ops f64 c s (i :: l) in
  exists rest, answered (rr_who r) (unused_high (rr_lbe r)) (low_byte (rr_fbe r)) (rr_a r) (rr_n r) (rr_bytes r) (fst es ++ rest) /\ (snd es = true <-> rest = []).
Proof.
  intros r (Ti & Tr & Tv & Ts & Tt & Tf) Rn HA HX. inversion_clear Rn as [|? ? R1 R2]. set (h := ai_hdr i) in *.
  assert (EL : h_len h = rr_n r). { unfold h_len, r, rr_of. cbn [rr_n]. destruct (Z.eqb_spec (psel h 96 10) 0) as [->|]; [reflexivity|lia]. }
  assert (EA : h_word f64 h = rr_a r) by reflexivity.
  assert (EW : h_who h = rr_who r). { unfold h_who, r, rr_of. cbn [rr_who]. f_equal; lia. }
  pose proof (psel_range h 64 4 ltac:(lia)) as B1. pose proof (psel_range h 68 4 ltac:(lia)) as B2. change (2 ^ 4) with 16 in *.
  destruct (be_ok _ B1) as (F1 & _ & F3 & F4 & _). destruct (be_ok _ B2) as (_ & L2 & _ & _ & L5).
  assert (PA : 0 <= rr_a r) by (unfold r, rr_of; cbn [rr_a]; destruct (Z.testbit h 125 || f64); apply psel_range; lia).
  assert (PN : 1 <= rr_n r <= 1024).
  { unfold r, rr_of. cbn [rr_n]. pose proof (psel_range h 96 10 ltac:(lia)) as X. change (2 ^ 10) with 1024 in X. destruct (Z.eqb_spec (psel h 96 10) 0); lia. }
  assert (EB : rr_bytes r = if rr_n r =? 1 then be_len (psel h 64 4) else 4 * rr_n r - low_byte (psel h 64 4) - unused_high (psel h 68 4)) by (unfold rr_bytes; rewrite F3; reflexivity).
  assert (Ef : rr_fbe r = psel h 64 4) by reflexivity. assert (El : rr_lbe r = psel h 68 4) by reflexivity. rewrite Ef, El. clear Ef El.
  cbn [ops]. unfold al_step, al_entry, al_comb. rewrite Ti, R1. unfold al_idle. rewrite Tr, Tv, Ts. fold h. rewrite Tt, Tf. cbn [andb Z.eqb]. unfold al_take_rd. fold h.
  rewrite EL, EA, EW, F1, L2. set (a := rr_a r) in *. set (n := rr_n r) in *. set (fo := low_byte (psel h 64 4)) in *. set (hi := unused_high (psel h 68 4)) in *. set (w := rr_who r) in *.
  pose proof (cut_ok n a fo ltac:(lia) PA F4) as (C1 & C2). set (k := al_cut n (4 * a + fo)) in *.
  assert (KN : k <= n /\ (k = n \/ (a + k) mod 32 = 0) /\ (k = 1 <-> n = 1)).
  { rewrite C1. pose proof (Z.mod_pos_bound a 32 ltac:(lia)). destruct (Z.leb_spec n 32); [lia|]. split; [lia|]. split; [right|split; intros; destruct HX; lia].
    rewrite (Z.div_mod a 32) at 1 by lia. replace (32 * (a / 32) + a mod 32 + (32 - a mod 32)) with ((a / 32 + 1) * 32) by lia. apply Z.mod_mul. lia. }
  destruct KN as (K1 & K2 & K3). rewrite (Z.mod_small (k - 1)) by (change (2 ^ 6) with 64; lia).
  assert (EBC : (if n =? 1 then be_len (psel h 64 4) else (4 * n - fo - hi) mod 2 ^ 13) = rr_bytes r).
  { rewrite EB. destruct (n =? 1) eqn:N1; [reflexivity|]. apply Z.eqb_neq in N1. apply Z.mod_small. change (2 ^ 13) with 8192. lia. }
  rewrite EBC. assert (K4 : (n =? 1) = (k =? 1)) by (destruct (Z.eqb_spec n 1); destruct (Z.eqb_spec k 1); try reflexivity; tauto).
  set (m := Z.to_nat (n - 1)). assert (Em : n = Z.of_nat m + 1) by (unfold m; lia).
  assert (Hans : answered w hi fo a n (rr_bytes r) ((4 * a + fo, mkEnt true false true (k =? 1) 0 k (rr_bytes r mod 4096) ((4 * a + fo) mod 128) w) :: words w hi m (a + 1) (k - 1))).
  { rewrite Em. apply (words_ans w hi (S m)); [lia|lia|lia|lia|lia| |reflexivity]. rewrite <- Em. exact K2. }
  cbn [snd s_q s_o q_st o_addr al_read]. destruct (Z.eqb_spec n 1) as [N1|N1].
  - assert (m = O) as M0 by lia. rewrite M0 in Hans. cbn [words] in Hans. rewrite <- K4 in Hans. exists []. destruct (ai_eop i); cbn [fst snd app]; (split; [exact Hans|split; reflexivity]).
  - set (q' := mkRq ARead2 _ _ _ _ _ _ _ _ _). match goal with |- context [ops f64 c (mkAs q' ?x) l] => set (o' := x) end.
    assert (I' : rinv w hi q' m (a + 1) (k - 1)).
    { unfold rinv, q'. cbn [q_addr q_op q_bc q_who q_st q_dw q_last]. destruct (up_ok a fo PA ltac:(lia) F4) as [U|U]; [|lia].
      split; [exact U|]. split; [lia|]. split; [rewrite Z.mod_small by (change (2 ^ 13) with 8192; lia); lia|]. split; [reflexivity|]. split; [lia|]. split; [lia|]. split; [lia|].
      right. split; [reflexivity|]. split; [reflexivity|]. split; [reflexivity|]. split; [lia|]. split; [lia|]. destruct K2 as [K2|K2]; [left; lia|right]. rewrite <- K2. f_equal. lia. }
    destruct (rd_run w hi L5 f64 c l (mkAs q' o') m (a + 1) (k - 1) R2 I') as (rest & A & B). exists rest.
    destruct (ops f64 c (mkAs q' o') l) as [es dn]. cbn [fst snd] in *. split; [|exact B]. cbn [app]. rewrite A in Hans. rewrite <- K4 in Hans. exact Hans.
Qed.
