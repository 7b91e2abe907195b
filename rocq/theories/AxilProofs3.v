(** AXI-Lite reads through the master and the RAM (C35), and batches of reads and writes. *)
From Verif Require Import PyBase AxilModel AxilSpec TlpProofs SplitProofs AxilProofs AxilProofs2.
From Coq Require Import Lia.
Ltac Zify.zify_post_hook ::= idtac.
Local Arguments Z.mul : simpl never.

Definition rcr (bw : Z) (c : Z * Z * Z) : lrcmd := mkLr (fst (fst c)) (snd (fst c)) (l_cycles bw (fst (fst c)) (snd (fst c))) (snd c).

Definition rok (bw : Z) (c : lrcmd) : Prop := read_ok (lr_addr c, lr_len c, lr_prot c) /\ lr_cycles c = l_cycles bw (lr_addr c) (lr_len c).

(** Word numbers of a read. *)
Definition ridx (bw : Z) (c : lrcmd) : list Z := map (fun k => lr_addr c / bw + Z.of_nat k) (seq 0 (Z.to_nat (lr_cycles c))).

(** Bytes of a read in its first [k] words. *)
Definition roff (bw : Z) (c : lrcmd) (k : Z) : Z :=
  if k =? 0 then 0 else if k =? lr_cycles c then lr_len c else k * bw - lr_addr c mod bw.

Definition ropt (cur : option (lrcmd * Z * list Z * Z)) : list lrcmd := match cur with None => [] | Some (c, _, _, _) => [c] end.

Definition curidx (bw : Z) (cur : option (lrcmd * Z * list Z * Z)) : list Z :=
  match cur with None => [] | Some (c, k, _, _) => skipn (Z.to_nat k) (ridx bw c) end.

Lemma div_word : forall bw a k, 0 < bw -> (a / bw * bw + k * bw) / bw = a / bw + k.
Proof. intros bw a k H. replace (a / bw * bw + k * bw) with ((a / bw + k) * bw) by ring. apply Z.div_mul. lia. Qed.

Lemma read_addrs_spec : forall bw c, lanes_ok bw -> read_ok c ->
  map (fun a => a / bw) (l_read_addrs bw (fst (fst c)) (snd (fst c))) = ridx bw (rcr bw c) /\
  Forall (fun x => 0 <= x < 2 ^ 53) (l_read_addrs bw (fst (fst c)) (snd (fst c))).
Proof.
  intros bw [[a n] p] Hb (H1 & H2 & H3). cbn [fst snd rcr]. pose proof (lanes_range bw Hb) as Hr.
  destruct (cycles_spec bw a n Hb H1 ltac:(lia) H3) as (C0 & C1 & C2 & _). pose proof (Z.mod_pos_bound a bw ltac:(lia)) as Hm.
  destruct C2 as (C2 & C3 & _); [lia|]. unfold l_read_addrs, ridx. cbn [lr_addr lr_cycles rcr fst snd].
  rewrite truediv_exact by lia. set (C := l_cycles bw a n) in *. pose proof (Z.div_mod a bw ltac:(lia)) as D.
  replace (a / bw * bw + a mod bw) with a by lia.
  replace (Z.to_nat C) with (S (Z.to_nat (C - 1))) by lia. split.
  - cbn [seq map]. f_equal; [lia|]. rewrite map_map. apply map_ext. intro k. apply div_word. lia.
  - constructor; [lia|]. apply Forall_forall. intros x Hx. apply in_map_iff in Hx. destruct Hx as (k & <- & Hk). apply in_seq in Hk.
    assert (0 <= a / bw) by (apply Z.div_pos; lia). assert (0 <= a / bw * bw) by (apply Z.mul_nonneg_nonneg; lia).
    assert (Z.of_nat k * bw <= (C - 1) * bw) by (apply Z.mul_le_mono_nonneg_r; lia). assert (0 <= Z.of_nat k * bw) by (apply Z.mul_nonneg_nonneg; lia). lia.
Qed.

Lemma ridx_skip : forall bw c k, 0 <= k < lr_cycles c -> skipn (Z.to_nat k) (ridx bw c) = (lr_addr c / bw + k) :: skipn (Z.to_nat (k + 1)) (ridx bw c).
Proof.
  intros bw c k Hk. unfold ridx. rewrite !skipn_map. replace (Z.to_nat (k + 1)) with (S (Z.to_nat k)) by lia.
  assert (forall n i z, (i < n)%nat -> skipn i (seq z n) = (z + i)%nat :: skipn (S i) (seq z n)) as H.
  { induction n; intros i z Hi; [lia|]. destruct i; [cbn; rewrite Nat.add_0_r; reflexivity|]. cbn [seq skipn] in *. rewrite (IHn i (S z)) by lia. f_equal. lia. }
  rewrite H by lia. cbn [map]. f_equal. lia.
Qed.

Lemma ridx_len : forall bw c, length (ridx bw c) = Z.to_nat (lr_cycles c).
Proof. intros. unfold ridx. rewrite map_length, seq_length. reflexivity. Qed.

Lemma rok_cycles : forall bw c, lanes_ok bw -> rok bw c -> 1 <= lr_cycles c.
Proof.
  intros bw c Hb [(H1 & H2 & H3) E]. rewrite E. destruct (cycles_spec bw (lr_addr c) (lr_len c) Hb H1 ltac:(lia) H3) as (_ & _ & C2 & _).
  pose proof (lanes_range bw Hb). pose proof (Z.mod_pos_bound (lr_addr c) bw ltac:(lia)). apply C2. lia.
Qed.

Section Read.
Context (bw size : Z) (lat : nat) (m : Z -> Z).
Context (Hb : lanes_ok bw) (Hs : 0 < size) (Hd : (bw | size)) (HB : forall x, 0 <= x < size -> is_byte (m x)).

Definition ww (q : Z) : Z := word_at size bw m (q * bw).

Lemma ww_at : forall a, word_at size bw m a = ww (a / bw).
Proof. intro a. pose proof (lanes_range bw Hb). unfold ww, word_at. rewrite Z.div_mul by lia. reflexivity. Qed.

Definition rans (c : lrcmd) : lrdone := mkLe (lr_addr c) (get_bytes size m (lr_addr c) (lr_len c)) (lr_prot c) 0.

Definition rcok (cur : option (lrcmd * Z * list Z * Z)) : Prop :=
  match cur with
  | None => True
  | Some (c, k, data, resp) => rok bw c /\ 0 <= k <= lr_cycles c /\ data = get_bytes size m (lr_addr c) (roff bw c k) /\ resp = 0
  end.

Lemma rstep : forall c k, rok bw c -> 0 <= k < lr_cycles c ->
  get_bytes size m (lr_addr c) (roff bw c k) ++
  l_lanes (if k =? 0 then lr_addr c mod bw else 0) (if k =? lr_cycles c - 1 then (lr_addr c + lr_len c - 1) mod bw + 1 else bw) (ww (lr_addr c / bw + k)) =
  get_bytes size m (lr_addr c) (roff bw c (k + 1)).
Proof.
  intros c k [(H1 & H2 & H3) E] Hk. pose proof (lanes_range bw Hb) as Hr.
  destruct (cycles_spec bw (lr_addr c) (lr_len c) Hb H1 ltac:(lia) H3) as (C0 & C1 & C2 & _).
  set (a := lr_addr c) in *. set (n := lr_len c) in *. pose proof (Z.mod_pos_bound a bw ltac:(lia)) as Hm. destruct C2 as (C2 & C3 & C4); [lia|].
  rewrite <- E in *. set (C := lr_cycles c) in *. pose proof (Z.div_mod a bw ltac:(lia)) as D. rewrite C4. unfold roff. fold a C n.
  set (s := a mod bw) in *. set (start := if k =? 0 then s else 0). set (stop := if k =? C - 1 then s + n - (C - 1) * bw else bw).
  set (o1 := if k =? 0 then 0 else if k =? C then n else k * bw - s). set (o2 := if k + 1 =? 0 then 0 else if k + 1 =? C then n else (k + 1) * bw - s).
  assert (0 <= start /\ start < bw /\ 0 <= o1 /\ a + o1 = (a / bw + k) * bw + start /\ o2 = o1 + (stop - start) /\ start <= stop <= bw) as (G1 & G2 & G3 & G4 & G5 & G6).
  { assert (k = 0 \/ bw <= k * bw) as K1 by (destruct (Z.eq_dec k 0); [left; assumption|right; rewrite <- (Z.mul_1_l bw) at 1; apply Z.mul_le_mono_nonneg_r; lia]).
    assert ((C - 1) * bw = C * bw - bw) as K2 by ring. assert ((k + 1) * bw = k * bw + bw) as K3 by ring. assert ((a / bw + k) * bw = bw * (a / bw) + k * bw) as K4 by ring.
    rewrite K4. rewrite K2 in C3. assert (k = C - 1 -> k * bw = C * bw - bw) as K5 by (intros ->; assumption). assert (k = 0 -> k * bw = 0) as K6 by (intros ->; ring).
    unfold start, stop, o1, o2. rewrite K2, K3. set (P := k * bw) in *. set (Q := C * bw) in *. set (R := bw * (a / bw)) in *.
    clearbody P Q R s C a n. clear - K1 K5 K6 C1 C2 C3 Hm Hr D Hk H2.
    destruct (Z.eqb_spec k 0), (Z.eqb_spec k C), (Z.eqb_spec k (C - 1)), (Z.eqb_spec (k + 1) 0), (Z.eqb_spec (k + 1) C); try lia. }
  clearbody start stop o1 o2. unfold ww. rewrite lanes_word by (try assumption; lia). rewrite Z.div_mul by lia. rewrite G5, get_bytes_app by lia. f_equal. rewrite <- G4. reflexivity.
Qed.

Lemma rresp_spec : forall fuel cur cmds vs out rest, rcok cur -> Forall (rok bw) cmds -> vs ++ rest = map ww (curidx bw cur ++ flat_map (ridx bw) cmds) ->
  (2 * length cmds + length vs + (match cur with None => 1 | _ => 2 end) <= fuel)%nat ->
  exists cur' rc' vs' fin, l_rresp fuel bw cur cmds (map (fun v => (v, 0)) vs) out = Ok (cur', rc', map (fun v => (v, 0)) vs', out ++ map rans fin) /\
    ropt cur ++ cmds = fin ++ ropt cur' ++ rc' /\ rcok cur' /\ Forall (rok bw) rc' /\ vs' ++ rest = map ww (curidx bw cur' ++ flat_map (ridx bw) rc') /\
    (cur' = None -> rc' = []) /\ (cur' <> None -> vs' = [] /\ curidx bw cur' <> []).
Proof.
  induction fuel; intros cur cmds vs out rest Hc Hp Hq Hf; [destruct cur; lia|]. cbn [l_rresp]. destruct cur as [[[[c k] data] resp]|].
  - destruct Hc as (Hc & Hk & -> & ->). destruct (Z.ltb_spec k (lr_cycles c)) as [L|L].
    + cbn [curidx] in Hq. rewrite ridx_skip in Hq by lia. destruct vs as [|v vs].
      * cbn [map]. exists (Some (c, k, get_bytes size m (lr_addr c) (roff bw c k), 0)), cmds, [], []. cbn [map]. rewrite app_nil_r.
        split; [reflexivity|]. split; [reflexivity|]. split; [repeat split; try assumption; try lia; apply Hc|]. split; [assumption|].
        split; [cbn [curidx]; rewrite ridx_skip by lia; exact Hq|]. split; [discriminate|]. intros _. split; [reflexivity|]. cbn [curidx]. rewrite ridx_skip by lia. discriminate.
      * cbn [map app] in *. injection Hq as -> Hq. rewrite Z.eqb_refl. rewrite rstep by (try assumption; lia).
        destruct (IHfuel (Some (c, k + 1, get_bytes size m (lr_addr c) (roff bw c (k + 1)), 0)) cmds vs out rest) as (cur' & rc' & vs' & fin & G); [split; [assumption|]; split; [lia|]; split; reflexivity|assumption|exact Hq|cbn [length] in Hf; lia|].
        exists cur', rc', vs', fin. exact G.
    + pose proof (rok_cycles bw c Hb Hc). assert (k = lr_cycles c) as Ek by lia.
      destruct (IHfuel None cmds vs (out ++ [rans c]) rest) as (cur' & rc' & vs' & fin & G1 & G2 & G3 & G4 & G5 & G6 & G7); [exact I|assumption| |lia|].
      { rewrite Hq. cbn [curidx app]. rewrite skipn_all2 by (rewrite ridx_len; lia). reflexivity. }
      assert (get_bytes size m (lr_addr c) (roff bw c k) = get_bytes size m (lr_addr c) (lr_len c)) as ->.
      { unfold roff. rewrite Ek, Z.eqb_refl. destruct (Z.eqb_spec (lr_cycles c) 0); [lia|reflexivity]. }
      exists cur', rc', vs', (c :: fin). cbn [map]. fold (rans c). rewrite G1, <- app_assoc. split; [reflexivity|]. cbn [ropt app]. cbn [ropt app] in G2. rewrite G2. repeat (split; [solve [reflexivity|assumption]|]). assumption.
  - destruct cmds as [|c cmds].
    + exists None, [], vs, []. cbn [map]. rewrite app_nil_r. split; [reflexivity|]. split; [reflexivity|]. split; [exact I|]. split; [constructor|]. split; [exact Hq|]. split; [reflexivity|]. congruence.
    + inversion_clear Hp as [|? ? P1 P2]. destruct (IHfuel (Some (c, 0, [], 0)) cmds vs out rest) as (cur' & rc' & vs' & fin & G1 & G2 & G3); [|assumption|exact Hq|cbn [length] in Hf; lia|].
      * split; [assumption|]. pose proof (rok_cycles bw c Hb P1). split; [lia|]. split; reflexivity.
      * exists cur', rc', vs', fin. rewrite G1. split; [reflexivity|]. split; [exact G2|]. exact G3.
Qed.

Definition latidx (ph : lrphase) : list Z := match ph with RLat _ addr => [addr / bw] | _ => [] end.

Definition rphase_ok (r : lrside) : Prop :=
  match rs_ph r with
  | RAddr => rs_arready r = true /\ rs_r r = None
  | RLat n addr => rs_arready r = false /\ rs_r r = None /\ exists x, 0 <= x < 2 ^ 53 /\ addr = int_truediv x bw * bw
  | RResp => rs_arready r = false /\ exists v, rs_r r = Some v
  end.

Definition rmeasure (r : lrside) : nat :=
  (length (ol (rs_ar r) ++ rs_arq r) * (lat + 5) + match rs_ph r with RAddr => 0 | RLat n _ => n + 2 | RResp => 1 end)%nat.

Lemma wquiet_step : forall w mm, wquiet w -> l_ram_w bw size lat w mm = Ok (WAddr, true, false, false, mm) /\ l_master_w bw w (WAddr, true, false, false) = Ok (w, 0).
Proof.
  intros [a1 a2 a3 a4 a5 a6 a7 a8 a9 b1 b2 b3 b4] mm (W1 & W2 & W3 & W4 & W5 & W6 & W7 & W8 & W9 & W10 & W11 & W12). cbn in *. subst. split; [reflexivity|].
  unfold l_master_w. cbn. rewrite Z.sub_diag. reflexivity.
Qed.

Lemma ram_r_spec : forall r l pos, holds size l m -> rphase_ok r -> (rs_ar r = None -> rs_arq r = []) -> Forall (fun x => 0 <= x < 2 ^ 53) (ol (rs_ar r) ++ rs_arq r) ->
  exists ph rdy v pos', l_ram_r bw size lat r (mkLm l pos) = Ok (ph, rdy, v, mkLm l pos') /\
    forall cmd arq rc cur rq done ar ext, ol ar ++ arq = (match rs_ar r with Some _ => if rs_arready r then rs_arq r ++ ext else ol (rs_ar r) ++ rs_arq r ++ ext | None => rs_arq r ++ ext end) ->
      let r' := mkRs cmd arq rc cur rq done ar ph rdy v in
      rphase_ok r' /\
      ol (rs_r r) ++ map ww (latidx (rs_ph r) ++ map (fun a => a / bw) (ol (rs_ar r) ++ rs_arq r)) ++ map ww (map (fun a => a / bw) ext) =
        ol (rs_r r) ++ ol v ++ map ww (latidx ph ++ map (fun a => a / bw) (ol ar ++ arq)) /\
      (ext = [] -> (rmeasure r' < rmeasure r)%nat \/ (rs_ph r = RAddr /\ ol (rs_ar r) ++ rs_arq r = [])).
Proof.
  intros r l pos Hh Hp Ha Hf. unfold rphase_ok in Hp. unfold l_ram_r. pose proof (lanes_range bw Hb) as Hr. destruct (rs_ph r) as [|n addr|] eqn:EP.
  - destruct Hp as [P1 P2]. rewrite P1, P2. destruct (rs_ar r) as [a|] eqn:EA.
    + cbn [ol app] in *. inversion_clear Hf as [|? ? Fa Ff]. destruct lat as [|n] eqn:EL.
      * destruct (rget_spec bw size a l pos m Hb Hs Hd Fa Hh) as (p & R). rewrite R. cbn [bind]. exists RResp, false, (Some (word_at size bw m a)), p. split; [reflexivity|].
        intros cmd arq rc cur rq done ar ext E. cbn zeta. rewrite E. split; [split; [reflexivity|eexists; reflexivity]|]. split.
        -- cbn [ol latidx map app]. rewrite !map_app, ww_at. reflexivity.
        -- intros ->. left. unfold rmeasure. cbn [rs_ph rs_ar rs_arq]. rewrite E, EP, EA, app_nil_r. cbn [ol app length]. lia.
      * exists (RLat n (int_truediv a bw * bw)), false, None, pos. split; [reflexivity|].
        intros cmd arq rc cur rq done ar ext E. cbn zeta. rewrite E. split; [split; [reflexivity|split; [reflexivity|exists a; split; [assumption|reflexivity]]]|]. split.
        -- cbn [ol latidx map app]. rewrite !map_app. rewrite truediv_exact by lia. rewrite Z.div_mul by lia. reflexivity.
        -- intros ->. left. unfold rmeasure. cbn [rs_ph rs_ar rs_arq]. rewrite E, EP, EA, app_nil_r. cbn [ol app length]. lia.
    + rewrite (Ha eq_refl) in *. exists RAddr, true, None, pos. split; [reflexivity|]. intros cmd arq rc cur rq done ar ext E. cbn zeta. rewrite E. cbn [app].
      split; [split; reflexivity|]. split; [reflexivity|]. intros _. right. split; reflexivity.
  - destruct Hp as (P1 & P2 & x & P3 & ->). rewrite P1, P2. destruct n as [|n].
    + destruct (rget_spec bw size x l pos m Hb Hs Hd P3 Hh) as (p & R). rewrite R. cbn [bind]. exists RResp, false, (Some (word_at size bw m x)), p. split; [reflexivity|].
      intros cmd arq rc cur rq done ar ext E. cbn zeta.
      assert (ol ar ++ arq = ol (rs_ar r) ++ rs_arq r ++ ext) as -> by (rewrite E; destruct (rs_ar r); reflexivity).
      split; [split; [reflexivity|eexists; reflexivity]|]. split.
      * cbn [ol latidx map app]. rewrite !map_app, ww_at. rewrite truediv_exact by lia. rewrite Z.div_mul by lia. rewrite <- !app_assoc. reflexivity.
      * intros ->. left. unfold rmeasure. cbn [rs_ph rs_ar rs_arq]. rewrite E, EP, app_nil_r. destruct (rs_ar r); cbn [ol app length]; lia.
    + exists (RLat n (int_truediv x bw * bw)), false, None, pos. split; [reflexivity|]. intros cmd arq rc cur rq done ar ext E. cbn zeta.
      assert (ol ar ++ arq = ol (rs_ar r) ++ rs_arq r ++ ext) as -> by (rewrite E; destruct (rs_ar r); reflexivity).
      split; [split; [reflexivity|split; [reflexivity|exists x; split; [assumption|reflexivity]]]|]. split.
      * cbn [ol latidx map app]. rewrite !map_app, <- !app_assoc. reflexivity.
      * intros ->. left. unfold rmeasure. cbn [rs_ph rs_ar rs_arq]. rewrite E, EP, app_nil_r. destruct (rs_ar r); cbn [ol app length]; lia.
  - destruct Hp as (P1 & v & P2). rewrite P1, P2. exists RAddr, true, None, pos. split; [reflexivity|]. intros cmd arq rc cur rq done ar ext E. cbn zeta.
    assert (ol ar ++ arq = ol (rs_ar r) ++ rs_arq r ++ ext) as -> by (rewrite E; destruct (rs_ar r); reflexivity).
    split; [split; reflexivity|]. split.
    * cbn [ol latidx map app]. rewrite !map_app, <- !app_assoc. reflexivity.
    * intros ->. left. unfold rmeasure. cbn [rs_ph rs_ar rs_arq]. rewrite E, EP, app_nil_r. destruct (rs_ar r); cbn [ol app length]; lia.
Qed.

Record rinv (base : list lrdone) (wd : lwside) (cmds : list (Z * Z * Z)) (s : lstate) : Prop := mkRinv {
  rv_cmds : Forall read_ok cmds;
  rv_flow : exists ec fin vs, cmds = ec ++ rs_cmd (ls_r s) /\ map (rcr bw) ec = fin ++ ropt (rs_cur (ls_r s)) ++ rs_rc (ls_r s) /\
    rs_done (ls_r s) = base ++ map rans fin /\ rs_rq (ls_r s) = map (fun v => (v, 0)) vs /\
    vs ++ ol (rs_r (ls_r s)) ++ map ww (latidx (rs_ph (ls_r s)) ++ map (fun a => a / bw) (ol (rs_ar (ls_r s)) ++ rs_arq (ls_r s))) =
      map ww (curidx bw (rs_cur (ls_r s)) ++ flat_map (ridx bw) (rs_rc (ls_r s)));
  rv_ph : rphase_ok (ls_r s);
  rv_addr : Forall (fun x => 0 <= x < 2 ^ 53) (ol (rs_ar (ls_r s)) ++ rs_arq (ls_r s));
  rv_cur : rcok (rs_cur (ls_r s));
  rv_rc : Forall (rok bw) (rs_rc (ls_r s));
  rv_fly : ls_fly s = zlen (ropt (rs_cur (ls_r s)) ++ rs_rc (ls_r s));
  rv_ar : rs_ar (ls_r s) = None -> rs_arq (ls_r s) = [];
  rv_mem : holds size (lm_data (ls_mem s)) m;
  rv_bytes : Forall is_byte (lm_data (ls_mem s));
  rv_w : ls_w s = wd /\ wquiet wd }.

Lemma rcmds_spec : forall cmds, Forall read_ok cmds -> exists ext, l_rcmds bw cmds = (ext, map (rcr bw) cmds) /\
  map (fun a => a / bw) ext = flat_map (ridx bw) (map (rcr bw) cmds) /\ Forall (fun x => 0 <= x < 2 ^ 53) ext /\ Forall (rok bw) (map (rcr bw) cmds) /\ (cmds = [] -> ext = []).
Proof.
  intros cmds H. eexists. split; [reflexivity|]. induction H as [|c cmds H HF IH]; [cbn; repeat split; constructor|].
  destruct IH as (I1 & I2 & I3 & _). destruct (read_addrs_spec bw c Hb H) as [A1 A2]. cbn [flat_map map].
  split; [rewrite map_app, A1, I1; reflexivity|]. split; [apply Forall_app; split; assumption|]. split; [constructor; [|assumption]|discriminate].
  destruct c as [[a n] p]. split; [exact H|reflexivity].
Qed.

Lemma redge : forall rf base wd cmds s, rinv base wd cmds s ->
  exists s', l_edge bw size lat rf s = Ok s' /\ rinv base wd cmds s' /\ rs_cmd (ls_r s') = [] /\
    (rs_cmd (ls_r s) = [] -> (rmeasure (ls_r s') < rmeasure (ls_r s))%nat \/ (rs_ph (ls_r s) = RAddr /\ ol (rs_ar (ls_r s)) ++ rs_arq (ls_r s) = [] /\ l_idle s' = true)).
Proof.
  intros rf base wd cmds [w r fly [l pos]] [I1 (ec & fin & vs & F1 & F2 & F3 & F4 & F5) I2 I3 I4 I5 I6 I7 I8 I9 [I10 I11]].
  cbn [ls_w ls_r ls_fly ls_mem lm_data lm_pos] in *. subst w.
  destruct (ram_r_spec r l pos I8 I2 I7 I3) as (ph & rdy & v & pos' & R1 & R2).
  assert (Forall read_ok (rs_cmd r)) as Hok by (rewrite F1 in I1; apply Forall_app in I1; tauto).
  destruct (rcmds_spec (rs_cmd r) Hok) as (ext & X1 & X2 & X3 & X4 & X5).
  unfold l_edge. cbn [ls_w ls_r ls_fly ls_mem].
  assert ((if rf
     then let! (ph, rdy, r, m) := l_ram_r bw size lat r (mkLm l pos) in let! (wph, awr, wr, bv, m0) := l_ram_w bw size lat wd m in Ok (wph, awr, wr, bv, (ph, rdy, r), m0)
     else let! (wph, awr, wr, bv, m) := l_ram_w bw size lat wd (mkLm l pos) in let! (ph, rdy, r, m0) := l_ram_r bw size lat r m in Ok (wph, awr, wr, bv, (ph, rdy, r), m0))
    = Ok ((WAddr, true, false, false), (ph, rdy, v), mkLm l pos')) as ->.
  { destruct rf; [rewrite R1; cbn [bind]; rewrite (proj1 (wquiet_step wd _ I11)); reflexivity|].
    rewrite (proj1 (wquiet_step wd _ I11)). cbn [bind]. rewrite R1. reflexivity. }
  cbn [bind]. rewrite (proj2 (wquiet_step wd (mkLm l pos) I11)). cbn [bind]. unfold l_master_r. rewrite X1, F4.
  assert (Forall (rok bw) (rs_rc r ++ map (rcr bw) (rs_cmd r))) as Hcp by (apply Forall_app; split; assumption).
  destruct (rresp_spec (2 * length (rs_rc r ++ map (rcr bw) (rs_cmd r)) + length (map (fun v : Z => (v, 0)) vs) + 3) (rs_cur r) (rs_rc r ++ map (rcr bw) (rs_cmd r)) vs (rs_done r)
     (ol (rs_r r) ++ map ww (latidx (rs_ph r) ++ map (fun a => a / bw) (ol (rs_ar r) ++ rs_arq r)) ++ map ww (map (fun a => a / bw) ext)) I4 Hcp)
    as (cur' & rc' & vs' & fin2 & W1 & W2 & W3 & W4 & W5 & W6 & W7).
  { rewrite X2. rewrite flat_map_app, (app_assoc (curidx bw (rs_cur r))), (map_app ww (curidx bw (rs_cur r) ++ _)), <- F5. rewrite <- !app_assoc. reflexivity. }
  { rewrite map_length. destruct (rs_cur r); lia. }
  rewrite W1. cbn [bind].
  destruct (iface_spec (rs_ar r) (rs_arready r) (rs_arq r ++ ext)) as (ar & arq & A1 & A2 & A3). rewrite A1.
  set (rq' := match rs_r r with Some v0 => map (fun v1 : Z => (v1, 0)) vs' ++ [(v0, 0)] | None => map (fun v0 : Z => (v0, 0)) vs' end).
  assert (rq' = map (fun v => (v, 0)) (vs' ++ ol (rs_r r))) as Hrq by (unfold rq'; destruct (rs_r r); cbn [ol]; [rewrite map_app|rewrite app_nil_r]; reflexivity).
  destruct (R2 [] arq rc' cur' rq' (rs_done r ++ map rans fin2) ar ext) as (P1 & P2 & P3).
  { rewrite A2. destruct (rs_ar r); [destruct (rs_arready r)|]; reflexivity. }
  eexists. split; [reflexivity|]. cbn [ls_w ls_r ls_fly ls_mem]. split; [|split; [reflexivity|]].
  - constructor; cbn [ls_w ls_r ls_fly ls_mem lm_data lm_pos rs_cmd rs_done rs_rq rs_cur rs_rc rs_r rs_ar rs_arq rs_ph]; try assumption.
    + exists (ec ++ rs_cmd r), (fin ++ fin2), (vs' ++ ol (rs_r r)). rewrite app_nil_r. split; [assumption|].
      split; [rewrite map_app, F2, <- !app_assoc; f_equal; exact W2|]. split; [rewrite F3, map_app, app_assoc; reflexivity|]. split; [assumption|].
      rewrite <- app_assoc. rewrite <- P2. exact W5.
    + rewrite A2. destruct (rs_ar r); [destruct (rs_arready r)|]; cbn [ol app] in *; rewrite ?app_assoc; try (apply Forall_app; split; try assumption); try (inversion_clear I3; assumption). constructor; [inversion_clear I3; assumption|]. inversion_clear I3. apply Forall_app. split; assumption.
    + apply (f_equal (@zlen _)) in W2. rewrite !zlen_app in *. rewrite I6. unfold zlen in *. rewrite !map_length in *. lia.
    + split; [reflexivity|assumption].
  - intro HC. assert (ext = []) as Hext by (apply X5, HC).
    destruct (P3 Hext) as [Hlt|[HA Ht]]; [left; exact Hlt|right]. split; [assumption|]. split; [assumption|].
    unfold l_idle. cbn [ls_w ls_r ls_fly rs_cmd]. destruct I11 as (-> & _). rewrite HC in *. cbn [map] in *.
    unfold rphase_ok in I2. rewrite HA in I2. destruct I2 as [I2a I2b].
    rewrite Hext, I2b, HA, Ht in W5. cbn [ol map latidx app] in W5. rewrite app_nil_r in W5.
    assert (cur' = None) as Ec.
    { destruct cur' as [c'|]; [|reflexivity]. exfalso. destruct W7 as [W7a W7b]; [discriminate|]. rewrite W7a in W5. cbn [app] in W5. symmetry in W5. rewrite map_app in W5. apply app_eq_nil in W5. destruct W5 as [W5 _]. apply map_eq_nil in W5. contradiction. }
    specialize (W6 Ec). rewrite Ec, W6 in W2. apply (f_equal (@zlen _)) in W2. cbn [ropt] in W2. rewrite !app_nil_r in W2. rewrite I6, W2.
    rewrite zlen_app. unfold zlen. rewrite map_length. cbn [length]. lia.
Qed.

Lemma rrun : forall evs base wd cmds s, Forall read_ok (reads evs) -> writes evs = [] -> rinv base wd cmds s ->
  exists s', l_run bw size lat evs s = Ok s' /\ rinv base wd (cmds ++ reads evs) s'.
Proof.
  induction evs as [|[a d p|a n p|rf] evs IH]; intros base wd cmds s Hok Hwr Hi; cbn [l_run writes reads] in *.
  - rewrite app_nil_r. exists s. split; [reflexivity|assumption].
  - discriminate.
  - inversion_clear Hok as [|? ? H1 H2]. cbn [l_step bind].
    replace (cmds ++ (a, n, p) :: reads evs) with ((cmds ++ [(a, n, p)]) ++ reads evs) by (rewrite <- app_assoc; reflexivity).
    apply IH; try assumption.
    destruct Hi as [I1 (ec & fin & vs & F1 & F2 & F3 & F4 & F5) I2 I3 I4 I5 I6 I7 I8 I9 I10].
    constructor; cbn [ls_w ls_r ls_fly ls_mem lm_data lm_pos rs_cmd rs_done rs_rq rs_cur rs_rc rs_r rs_ar rs_arq rs_ph]; try assumption.
    + apply Forall_app. split; [assumption|constructor; [assumption|constructor]].
    + exists ec, fin, vs. split; [rewrite F1, app_assoc; reflexivity|]. repeat (split; [assumption|]). assumption.
  - cbn [l_step]. destruct (redge rf base wd cmds s Hi) as (s1 & E & I1 & _). rewrite E. cbn [bind]. apply IH; assumption.
Qed.

Lemma rinv0 : forall s, quiet size m s -> rinv (rs_done (ls_r s)) (ls_w s) [] s.
Proof.
  intros s (Q1 & (W1 & W2 & W3 & W4 & W5 & W6 & W7 & W8 & W9) & Q3 & Q4 & Q5).
  constructor; rewrite ?W1, ?W2, ?W3, ?W4, ?W5, ?W6, ?W7, ?W9; try assumption; try (constructor; fail); try reflexivity.
  - exists [], [], []. cbn. rewrite app_nil_r. repeat split.
  - unfold rphase_ok. rewrite W7. split; assumption.
  - split; [reflexivity|assumption].
Qed.

Lemma ridle : forall base wd cmds s, rinv base wd cmds s -> l_idle s = true ->
  quiet size m s /\ rs_done (ls_r s) = base ++ read_answers size m cmds /\ ls_w s = wd.
Proof.
  intros base wd cmds s [I1 (ec & fin & vs & F1 & F2 & F3 & F4 & F5) I2 I3 I4 I5 I6 I7 I8 I9 [I10 I11]] Hi.
  unfold l_idle in Hi. rewrite I10 in Hi. destruct I11 as (Q1 & Q2). rewrite Q1 in Hi. destruct (rs_cmd (ls_r s)) eqn:EC; [|discriminate]. apply Z.eqb_eq in Hi.
  rewrite app_nil_r in F1. subst ec.
  assert (ropt (rs_cur (ls_r s)) ++ rs_rc (ls_r s) = []) as E by (destruct (ropt (rs_cur (ls_r s)) ++ rs_rc (ls_r s)) as [|c0 l0]; [reflexivity|rewrite zlen_cons1 in I6; pose proof (zlen_nonneg l0); lia]).
  rewrite E, app_nil_r in F2. apply app_eq_nil in E. destruct E as [E1 E2]. assert (rs_cur (ls_r s) = None) as E1' by (destruct (rs_cur (ls_r s)) as [[[[c k] d] x]|]; [discriminate|reflexivity]).
  rewrite E1', E2 in *. cbn [curidx flat_map app map] in F5. apply app_eq_nil in F5. destruct F5 as [F5 F6]. apply app_eq_nil in F6. destruct F6 as [F6 F7].
  apply map_eq_nil, app_eq_nil in F7. destruct F7 as [F7 F8]. apply map_eq_nil in F8.
  unfold rphase_ok in I2. destruct (rs_ph (ls_r s)) eqn:EP; [|discriminate|destruct I2 as (_ & v & I2); rewrite I2 in F6; discriminate].
  apply app_eq_nil in F8. destruct F8 as [F8 F9]. assert (rs_ar (ls_r s) = None) as EA by (destruct (rs_ar (ls_r s)); [discriminate|reflexivity]).
  split; [|split; [|assumption]].
  - split; [rewrite I10; split; assumption|]. split; [|split; [rewrite I6; reflexivity|split; assumption]].
    subst vs. unfold rquiet. destruct I2. repeat split; assumption.
  - rewrite F3. f_equal. rewrite <- F2, map_map. reflexivity.
Qed.

Lemma rcompletes : forall base wd cmds s rf, rinv base wd cmds s ->
  exists n s', l_run bw size lat (edges rf n) s = Ok s' /\ rinv base wd cmds s' /\ l_idle s' = true.
Proof.
  assert (forall k base wd cmds s rf, (rmeasure (ls_r s) <= k)%nat -> rs_cmd (ls_r s) = [] -> rinv base wd cmds s ->
    exists n s', l_run bw size lat (edges rf n) s = Ok s' /\ rinv base wd cmds s' /\ l_idle s' = true) as HP.
  { induction k; intros base wd cmds s rf Hk Hc Hi; destruct (redge rf base wd cmds s Hi) as (s1 & E & I1 & C1 & M); destruct (M Hc) as [M1|(M1 & M2 & M3)]; try lia.
    - exists 1%nat, s1. cbn [edges repeat l_run l_step]. rewrite E. split; [reflexivity|]. split; assumption.
    - destruct (IHk base wd cmds s1 rf) as (n & s' & R1 & R2 & R3); try assumption; [lia|].
      exists (S n), s'. cbn [edges repeat l_run l_step]. rewrite E. split; [exact R1|]. split; assumption.
    - exists 1%nat, s1. cbn [edges repeat l_run l_step]. rewrite E. split; [reflexivity|]. split; assumption. }
  intros base wd cmds s rf Hi. destruct (redge rf base wd cmds s Hi) as (s1 & E & I1 & C1 & _).
  destruct (HP _ base wd cmds s1 rf (le_n _) C1 I1) as (n & s' & R1 & R2 & R3). exists (S n), s'. cbn [edges repeat l_run l_step]. rewrite E. split; [exact R1|]. split; assumption.
Qed.

(** In a run of reads: the answers so far. *)
Lemma rstate : forall base wd cmds s, rinv base wd cmds s ->
  exists k, (k <= length cmds)%nat /\ rs_done (ls_r s) = base ++ read_answers size m (firstn k cmds) /\ holds size (lm_data (ls_mem s)) m.
Proof.
  intros base wd cmds s [I1 (ec & fin & vs & F1 & F2 & F3 & F4 & F5) I2 I3 I4 I5 I6 I7 I8 I9 [I10 I11]]. exists (length fin).
  assert (fin = map (rcr bw) (firstn (length fin) ec)) as Ef.
  { rewrite <- firstn_map, F2, firstn_app, Nat.sub_diag, firstn_all. cbn [firstn]. rewrite app_nil_r. reflexivity. }
  assert (length fin <= length ec)%nat as HL. { apply (f_equal (@length _)) in F2. rewrite map_length, app_length in F2. lia. }
  assert (firstn (length fin) cmds = firstn (length fin) ec) as Efc.
  { rewrite F1, firstn_app. replace (length fin - length ec)%nat with O by lia. cbn [firstn]. apply app_nil_r. }
  rewrite Efc. split; [rewrite F1, app_length; lia|]. split; [|assumption]. rewrite F3, Ef at 1. rewrite map_map. reflexivity.
Qed.

End Read.

(** ** Batches. *)
Section Batches.
Context (bw size : Z) (lat : nat).
Context (Hb : lanes_ok bw) (Hs : 0 < size) (Hd : (bw | size)).

Lemma quiet_bytes : forall m s, quiet size m s -> forall x, 0 <= x < size -> is_byte (m x).
Proof.
  intros m s (_ & _ & _ & (H1 & H2) & H3) x Hx. rewrite <- H2 by assumption. rewrite Forall_forall in H3. apply H3, nth_In. unfold zlen in H1. lia.
Qed.

Lemma batch_idle : forall m s b t, quiet size m s -> batch_ok b -> l_run bw size lat b s = Ok t -> l_idle t = true ->
  quiet size (put_ops size m (all_ops (writes b))) t /\ ws_done (ls_w t) = ws_done (ls_w s) ++ write_answers (writes b) /\
  rs_done (ls_r t) = rs_done (ls_r s) ++ read_answers size m (reads b).
Proof.
  intros m s b t Hq (B1 & B2 & B3) Hr Hi. destruct B3 as [E|E].
  - destruct (wrun bw size lat Hb Hs Hd b m (ws_done (ls_w s)) (ls_r s) [] s B1 E) as (t' & T1 & T2); [apply winv0; assumption|]. rewrite T1 in Hr. injection Hr as ->.
    destruct (widle bw size m _ _ _ t T2 Hi) as (G1 & G2 & G3). rewrite E, G3. cbn [app read_answers map] in *. rewrite app_nil_r. split; [assumption|]. split; [assumption|reflexivity].
  - pose proof (quiet_bytes m s Hq) as HB.
    destruct (rrun bw size lat m Hb Hs Hd HB b (rs_done (ls_r s)) (ls_w s) [] s B2 E) as (t' & T1 & T2); [apply rinv0; assumption|]. rewrite T1 in Hr. injection Hr as ->.
    destruct (ridle bw size m HB _ _ _ t T2 Hi) as (G1 & G2 & G3). rewrite E, G3. cbn [app write_answers map all_ops flat_map put_ops fold_left] in *. rewrite app_nil_r. split; [assumption|]. split; [reflexivity|assumption].
Qed.

Lemma batches_quiet : forall bs m s t, quiet size m s -> batches bw size lat s bs t ->
  quiet size (after size m bs) t /\ ws_done (ls_w t) = ws_done (ls_w s) ++ write_answers (flat_map writes bs) /\ rs_done (ls_r t) = rs_done (ls_r s) ++ answers size m bs.
Proof.
  induction bs as [|b bs IH]; intros m s t Hq H; cbn [batches after answers flat_map] in *.
  - subst t. cbn. rewrite !app_nil_r. repeat split; try reflexivity; apply Hq.
  - destruct H as (H1 & u & H2 & H3 & H4). destruct (batch_idle m s b u Hq H1 H2 H3) as (G1 & G2 & G3).
    destruct (IH _ u t G1 H4) as (K1 & K2 & K3). split; [assumption|]. unfold write_answers in *. rewrite K2, G2, map_app, K3, G3, <- !app_assoc. split; reflexivity.
Qed.

Lemma quiet0 : forall d, zlen d = size -> Forall is_byte d -> quiet size (fun i => nth (Z.to_nat i) d 0) (ls0 d).
Proof. intros d H1 H2. repeat split; assumption. Qed.

Lemma memory : forall d bs s, zlen d = size -> Forall is_byte d -> batches bw size lat (ls0 d) bs s ->
  holds size (lm_data (ls_mem s)) (after size (fun i => nth (Z.to_nat i) d 0) bs) /\
  ws_done (ls_w s) = write_answers (flat_map writes bs) /\ rs_done (ls_r s) = answers size (fun i => nth (Z.to_nat i) d 0) bs.
Proof.
  intros d bs s H1 H2 H. destruct (batches_quiet bs _ _ s (quiet0 d H1 H2) H) as (Q & G1 & G2). split; [apply Q|]. split; assumption.
Qed.

Lemma run_app : forall e1 e2 s, l_run bw size lat (e1 ++ e2) s = let! t := l_run bw size lat e1 s in l_run bw size lat e2 t.
Proof. induction e1 as [|e e1 IH]; intros e2 s; [reflexivity|]. cbn [app l_run]. destruct (l_step bw size lat s e); cbn [bind]; [apply IH|reflexivity]. Qed.

Lemma progress : forall d bs s b, zlen d = size -> Forall is_byte d -> batches bw size lat (ls0 d) bs s -> batch_ok b ->
  exists t, l_run bw size lat b s = Ok t /\
    (forall rf, exists n u, l_run bw size lat (b ++ edges rf n) s = Ok u /\ l_idle u = true).
Proof.
  intros d bs s b H1 H2 H (B1 & B2 & B3). destruct (batches_quiet bs _ _ s (quiet0 d H1 H2) H) as (Q & _ & _). destruct B3 as [E|E].
  - destruct (wrun bw size lat Hb Hs Hd b _ (ws_done (ls_w s)) (ls_r s) [] s B1 E (winv0 bw size _ s Q)) as (t & T1 & T2).
    exists t. split; [assumption|]. intro rf. destruct (wcompletes bw size lat Hb Hs Hd _ _ _ _ t rf T2) as (n & u & U1 & U2 & U3).
    exists n, u. rewrite run_app, T1. split; assumption.
  - destruct (rrun bw size lat _ Hb Hs Hd (quiet_bytes _ s Q) b (rs_done (ls_r s)) (ls_w s) [] s B2 E (rinv0 bw size _ s Q)) as (t & T1 & T2).
    exists t. split; [assumption|]. intro rf. destruct (rcompletes bw size lat _ Hb Hs Hd (quiet_bytes _ s Q) _ _ _ t rf T2) as (n & u & U1 & U2 & U3).
    exists n, u. rewrite run_app, T1. split; assumption.
Qed.

(** Inside a batch of writes, and inside a batch of reads. *)
Lemma write_order : forall d bs s b t, zlen d = size -> Forall is_byte d -> batches bw size lat (ls0 d) bs s -> batch_ok b -> reads b = [] -> l_run bw size lat b s = Ok t ->
  exists k n, (k <= length (writes b))%nat /\ (length (all_ops (firstn k (writes b))) <= n <= length (all_ops (writes b)))%nat /\
    ws_done (ls_w t) = ws_done (ls_w s) ++ write_answers (firstn k (writes b)) /\
    holds size (lm_data (ls_mem t)) (put_ops size (after size (fun i => nth (Z.to_nat i) d 0) bs) (firstn n (all_ops (writes b)))).
Proof.
  intros d bs s b t H1 H2 H (B1 & B2 & _) E Hr. destruct (batches_quiet bs _ _ s (quiet0 d H1 H2) H) as (Q & _ & _).
  destruct (wrun bw size lat Hb Hs Hd b _ (ws_done (ls_w s)) (ls_r s) [] s B1 E (winv0 bw size _ s Q)) as (t' & T1 & T2). rewrite T1 in Hr. injection Hr as ->.
  destruct (wstate bw size _ _ _ _ t T2) as (k & n & K1 & K2 & K3 & K4). exists k, n. cbn [app] in *. repeat (split; [solve [assumption|apply K4]|]). assumption.
Qed.

Lemma read_order : forall d bs s b t, zlen d = size -> Forall is_byte d -> batches bw size lat (ls0 d) bs s -> batch_ok b -> writes b = [] -> l_run bw size lat b s = Ok t ->
  exists k, (k <= length (reads b))%nat /\
    rs_done (ls_r t) = rs_done (ls_r s) ++ read_answers size (after size (fun i => nth (Z.to_nat i) d 0) bs) (firstn k (reads b)) /\
    holds size (lm_data (ls_mem t)) (after size (fun i => nth (Z.to_nat i) d 0) bs).
Proof.
  intros d bs s b t H1 H2 H (B1 & B2 & _) E Hr. destruct (batches_quiet bs _ _ s (quiet0 d H1 H2) H) as (Q & _ & _).
  destruct (rrun bw size lat _ Hb Hs Hd (quiet_bytes _ s Q) b (rs_done (ls_r s)) (ls_w s) [] s B2 E (rinv0 bw size _ s Q)) as (t' & T1 & T2). rewrite T1 in Hr. injection Hr as ->.
  destruct (rstate bw size _ (quiet_bytes _ s Q) _ _ _ t T2) as (k & K1 & K2 & K3). exists k. cbn [app] in *. repeat (split; [assumption|]). assumption.
Qed.

End Batches.
