(** Proofs for bus enumeration, part 1: configuration writes and the BAR loop. *)
From Coq Require Import ZifyBool ZifyNat.
From Verif Require Import PyBase BitLemmas TlpModel TlpSpec TlpProofs BarModel BarSpec BarProofs AllocProofs EnumModel RouteModel EnumSpec.
Ltac Zify.zify_post_hook ::= Z.div_mod_to_equations.

(** * Configuration writes *)
Lemma cw_dword_ops addr w : addr mod 4 = 0 -> 0 <= addr -> 0 <= w < 2^32 ->
  config_write_ops 4 addr (le_bytes 4 w) = Ok [(addr / 4, w, 15)].
Proof.
  intros Ha Ha0 Hw. cbn [le_bytes config_write_ops].
  rewrite Ha.
  set (l := [w mod 256; w / 256 mod 256; w / 256 / 256 mod 256; w / 256 / 256 / 256 mod 256]).
  change (Z.min (zlen l) (4 - 0)) with 4.
  change (slice l 0 4) with l.
  unfold set_be_data, set_be. change (zlen l) with 4.
  rewrite Ha. replace ((addr + 4 - 1) mod 4) with 3 by lia.
  subst l.
  cbn -[Z.div Z.modulo Z.land Z.lnot Z.shiftr Z.mul Z.add].
  cbn -[Z.div Z.modulo Z.mul Z.add Z.shiftr Z.land Z.lnot]. 
  apply (f_equal Ok). f_equal. apply f_equal2; [apply f_equal2|reflexivity].
  - rewrite Z.shiftr_div_pow2 by lia. reflexivity.
  - change (zeros (3 - 3)) with (@nil Z). cbn [firstn le_val]. lia.
Qed.

Lemma cw_bar (bridge : bool) (b : bars) (r : bridge_regs) (bar w : Z) : 0 <= bar < (if bridge then 2 else 6) -> 0 <= w < 2^32 ->
  config_write_dword bridge (b, r) (0x010 + bar * 4) w =
  (let! b' := write_bar b bar w 15 in Ok (b', r)).
Proof.
  intros Hb Hw. unfold config_write_dword. replace ((0 <=? w) && (w <? 2^32)) with true by lia.
  unfold config_write. change (length (le_bytes 4 w)) with 4%nat.
  rewrite cw_dword_ops by lia. cbn [bind fst snd].
  replace ((16 + bar * 4) / 4) with (4 + bar) by lia. cbn [apply_writes].
  replace ((4 <=? 4 + bar) && (4 + bar <? (if bridge then 6 else 10))) with true by (destruct bridge; lia).
  replace (4 + bar - 4) with bar by lia. reflexivity.
Qed.
Lemma cw_bar_big bridge br addr w : ~ (0 <= w < 2^32) -> config_write_dword bridge br addr w = Err OverflowError.
Proof. intros Hw. unfold config_write_dword. replace ((0 <=? w) && (w <? 2^32)) with false by lia. reflexivity. Qed.

(** * Sizing arithmetic *)
Ltac sweep_k k := 
  match goal with H : ?lo <= k < ?hi |- _ =>
    let rec go l := first [ (assert (k = l) as -> by lia; vm_compute; repeat split; (reflexivity || discriminate || trivial)) |
      (destruct (Z.eq_dec k l) as [->|]; [vm_compute; repeat split; (reflexivity || discriminate || trivial)|
       let l' := eval vm_compute in (l + 1) in go l']) ] in go lo
  end.

Lemma io_size k : 2 <= k < 32 -> let val := 2^32 - 2^k + 1 in
  (val =? 0) = false /\ (Z.land val 1 =? 0) = false /\ Z.land val 3 = 1 /\
  Z.lor (Z.land (Z.lnot val) 0xffffffff) 3 = 2^k - 1.
Proof. intros H. cbv zeta. sweep_k k. Qed.
Lemma mem32_size k (pf : bool) : 4 <= k < 32 -> let val := 2^32 - 2^k + (if pf then 8 else 0) in
  (val =? 0) = false /\ (Z.land val 1 =? 0) = true /\ (Z.land val 4 =? 0) = true /\ Z.land val 15 = (if pf then 8 else 0) /\
  Z.lor (Z.land (Z.lnot val) 0xffffffff) 15 = 2^k - 1.
Proof. intros H. cbv zeta. destruct pf; sweep_k k. Qed.
Lemma mem64_size k (pf : bool) : 4 <= k < 32 -> let val := 2^32 - 2^k + 4 + (if pf then 8 else 0) in
  (val =? 0) = false /\ (Z.land val 1 =? 0) = true /\ (Z.land val 4 =? 0) = false /\
  let val := Z.lor val (Z.shiftl (2^32 - 1) 32) in Z.land val 15 = 4 + (if pf then 8 else 0) /\ (Z.land val 8 =? 0) = negb pf /\
  Z.lor (Z.land (Z.lnot val) 0xffffffffffffffff) 15 = 2^k - 1.
Proof. intros H. cbv zeta. destruct pf; sweep_k k. Qed.

Lemma lor_flags n f x : 0 <= n -> 0 <= f < 2^n -> x mod 2^n = 0 -> Z.lor f x = x + f.
Proof.
  intros Hn Hf Hx. pose proof (pow2_split n Hn). replace x with (Z.shiftl (x / 2^n) n).
  - rewrite lor_add_disjoint by assumption. rewrite Z.shiftl_mul_pow2 by lia. ring.
  - rewrite Z.shiftl_mul_pow2 by lia. pose proof (Z.div_mod x (2^n) ltac:(lia)). lia.
Qed.

(** * Chains of windows *)
Fixpoint chain (lo hi : Z) (ws : list (Z * Z)) : Prop :=
  match ws with [] => lo <= hi | (b, n) :: ws => lo <= b /\ 0 <= n /\ chain (b + n) hi ws end.

Lemma chain_le lo hi ws : chain lo hi ws -> lo <= hi.
Proof.
  revert lo. induction ws as [|[b n] ws IH]; intros lo H; cbn [chain] in H; [assumption|].
  destruct H as (H1 & H2 & H3). apply IH in H3. lia.
Qed.
Lemma chain_app lo mid hi w1 w2 : chain lo mid w1 -> chain mid hi w2 -> chain lo hi (w1 ++ w2).
Proof.
  revert lo. induction w1 as [|[b n] w1 IH]; intros lo H1 H2; cbn [chain app] in *.
  - destruct w2 as [|[b n] w2]; cbn [chain] in *; [lia|]. destruct H2 as (A & B & C). repeat split; auto; lia.
  - destruct H1 as (A & B & C). repeat split; auto.
Qed.
Lemma chain_weak lo hi lo' hi' ws : chain lo hi ws -> lo' <= lo -> hi <= hi' -> chain lo' hi' ws.
Proof.
  revert lo lo'. induction ws as [|[b n] ws IH]; intros lo lo' H H1 H2; cbn [chain] in *; [lia|].
  destruct H as (A & B & C). split; [lia|]. split; [lia|]. eapply IH; eauto; lia.
Qed.

Definition nonneg (s : limits) : Prop := 0 <= l_io s /\ 0 <= l_mem s /\ 0 <= l_pf s.

Lemma slots_cons e B : slots (e :: B) = bar_slots e + slots B.
Proof. reflexivity. Qed.
Lemma regs_snoc A e B : regs_of (A ++ e :: B) = regs_of ((A ++ [e]) ++ B).
Proof. now rewrite <- app_assoc. Qed.

Lemma flag_mod x k f : 0 <= k -> x mod 2^k = 0 -> 0 <= f < 2^k -> (x + f) mod 2^k = f.
Proof.
  intros Hk Hx Hf. rewrite Z.add_mod, Hx, Z.add_0_l, Z.mod_mod by (pose proof (pow2_split k); lia).
  apply Z.mod_small; assumption.
Qed.

Lemma bar_loop_ok B : forall fuel A (bridge : bool) r s br' ti s',
  Forall bar_ok B -> (length B <= fuel)%nat -> slots (A ++ B) = (if bridge then 2 else 6) -> nonneg s ->
  bar_loop fuel bridge (slots A) (slots (A ++ B)) (regs_of (A ++ B), r) s = Ok (br', ti, s') ->
  l_mem s' <= 2^64 -> l_pf s' <= 2^64 ->
  exists B', br' = (regs_of (A ++ B'), r) /\ map bar_shape B' = map bar_shape B /\ Forall bar_ok B' /\
    ti = ti_of (slots A) B' /\ forall sp, chain (cur sp s) (cur sp s') (flat_map (ent_win sp) B').
Proof.
  induction B as [|e B IH]; intros fuel A bridge r s br' ti s' HB Hfuel Hslots Hs HL Hm64 Hp64.
  - assert (bar_loop fuel bridge (slots A) (slots (A ++ [])) (regs_of (A ++ []), r) s = Ok ((regs_of (A ++ []), r), [], s)) as E.
    { rewrite app_nil_r. destruct fuel; cbn [bar_loop]; rewrite Z.ltb_irrefl; reflexivity. }
    rewrite E in HL. injection HL as <- <- <-. exists []. repeat split; auto.
    intros []; cbn [flat_map chain]; lia.
  - inversion HB as [|? ? He HB']; subst. destruct fuel as [|fuel]; [cbn in Hfuel; lia|]. cbn [length] in Hfuel.
    pose proof (slots_nonneg A) as HA0. pose proof (slots_nonneg B) as HB0.
    assert (Hsl : slots A + (bar_slots e + slots B) = (if bridge then 2 else 6)) by (rewrite <- slots_cons, <- slots_app; exact Hslots).
    cbn [bar_loop] in HL.
    assert (Hlt : (slots A <? slots (A ++ e :: B)) = true) by (rewrite slots_app, slots_cons; destruct e; cbn [bar_slots]; lia).
    rewrite Hlt in HL.
    rewrite cw_bar in HL; [|destruct e; cbn [bar_slots] in *; lia|lia].
    destruct Hs as (Hs1 & Hs2 & Hs3).
    destruct e as [|k b|k b pf|k b pf].
    + rewrite write_none in HL by lia. cbn [bind fst] in HL. rewrite read_low in HL. cbn [reg_bars nth] in HL.
      change (0 =? 0) with true in HL. cbv iota in HL.
      rewrite regs_snoc in HL. replace (slots A + 1) with (slots (A ++ [BNone])) in HL by (rewrite slots_app; reflexivity).
      replace (A ++ BNone :: B) with ((A ++ [BNone]) ++ B) in HL, Hslots by (now rewrite <- app_assoc).
      destruct (IH fuel (A ++ [BNone]) bridge r s br' ti s' HB' ltac:(lia) Hslots (conj Hs1 (conj Hs2 Hs3)) HL Hm64 Hp64) as (B' & E1 & E2 & E3 & E4 & E5).
      exists (BNone :: B'). rewrite <- app_assoc in E1. split; [exact E1|]. split; [cbn [map]; now rewrite E2|].
      split; [constructor; auto|]. split; [rewrite E4, slots_app; reflexivity|]. intros sp. specialize (E5 sp). destruct sp; exact E5.
    + destruct (write_bar_low A _ B 0xffffffff 15 He ltac:(lia) ltac:(discriminate)) as (b' & Hw & Hok & Hd & Hf).
      rewrite Hw in HL. cbn [bind fst] in HL. rewrite read_low in HL. cbn [set_base reg_bars nth] in HL.
      destruct He as (Hk & Hb & Hbm). cbn [set_base get_base get_k bar_ok] in Hok, Hd, Hf.
      specialize (Hf eq_refl). rewrite ones_mod in Hf by lia. rewrite Z.mod_small in Hf by lia. subst b'.
      destruct (io_size k Hk) as (V1 & V2 & V3 & V4). rewrite V1, V2, V3, V4 in HL. cbn [negb] in HL.
      pose proof (align_pow2 (l_io s) k ltac:(lia)) as (P1 & P2 & _ & _).
      set (io := align (l_io s) (2^k - 1)) in *. clearbody io.
      pose proof (pow2_split k ltac:(lia)) as HP.
      assert (Hk4 : 4 <= 2^k) by (change 4 with (2^2); apply Z.pow_le_mono_r; lia).
      replace (2^k - 1 + 1) with (2^k) in HL by lia.
      rewrite (lor_flags 2 1 io) in HL; [|lia|lia|apply (mod_pow_le io k 2); [lia|exact P2]].
      destruct (Z.ltb_spec (io + 1) (2^32)) as [Hio|Hio]; [|rewrite cw_bar_big in HL by lia; discriminate].
      rewrite cw_bar in HL; [|cbn [bar_slots] in *; lia|lia].
      pose proof (program_io A k (2^32 - 2^k) B (io + 1) Hok ltac:(lia)) as HW. cbn [write_bars] in HW.
      destruct (write_bar (regs_of (A ++ BIo k (2 ^ 32 - 2 ^ k) :: B)) (slots A) (io + 1) 15) as [x|]; [|discriminate].
      cbn [bind] in HW. injection HW as ->.
      rewrite flag_mod in HL by lia. replace (io + 1 - 1) with io in HL by lia. cbn [bind] in HL.
      rewrite regs_snoc in HL. replace (slots A + 1) with (slots (A ++ [BIo k io])) in HL by (rewrite slots_app; reflexivity).
      replace (slots (A ++ BIo k b :: B)) with (slots ((A ++ [BIo k io]) ++ B)) in HL
        by (rewrite !slots_app, !slots_cons; cbn [bar_slots slots fold_right]; lia).
      destruct (bar_loop fuel bridge _ _ _ _) as [[[br1 ti1] s1]|] eqn:ER in HL; [|discriminate].
      cbn [bind] in HL. injection HL as <- <- <-.
      apply IH in ER; [|assumption|lia| |unfold nonneg; cbn; lia|assumption|assumption].
      2:{ rewrite !slots_app, slots_cons; cbn [bar_slots slots fold_right] in *; lia. }
      destruct ER as (B' & E1 & E2 & E3 & E4 & E5). exists (BIo k io :: B'). rewrite <- app_assoc in E1.
      split; [exact E1|]. split; [cbn [map]; rewrite E2; reflexivity|].
      split; [constructor; [cbn [bar_ok]; lia|exact E3]|].
      split; [rewrite E4, slots_app; reflexivity|].
      intros sp. specialize (E5 sp). destruct sp; cbn [flat_map ent_win app chain cur l_io l_mem l_pf] in *; [repeat split; try lia; exact E5|exact E5|exact E5].
    + destruct (write_bar_low A _ B 0xffffffff 15 He ltac:(lia) ltac:(discriminate)) as (b' & Hw & Hok & Hd & Hf).
      rewrite Hw in HL. cbn [bind fst] in HL. rewrite read_low in HL. cbn [set_base reg_bars nth] in HL.
      destruct He as (Hk & Hb & Hbm). cbn [set_base get_base get_k bar_ok] in Hok, Hd, Hf.
      specialize (Hf eq_refl). rewrite ones_mod in Hf by lia. rewrite Z.mod_small in Hf by lia. subst b'.
      destruct (mem32_size k pf Hk) as (V1 & V2 & V3 & V4 & V5). rewrite V1, V2, V3, V4, V5 in HL. cbn [negb] in HL.
      pose proof (align_pow2 (l_mem s) k ltac:(lia)) as (P1 & P2 & _ & _).
      set (m := align (l_mem s) (2^k - 1)) in *. clearbody m.
      pose proof (pow2_split k ltac:(lia)) as HP. pose proof (pow2_ge16 k ltac:(lia)) as Hk4.
      replace (2^k - 1 + 1) with (2^k) in HL by lia.
      set (fl := if pf then 8 else 0) in *. assert (Hfl : 0 <= fl < 16) by (subst fl; destruct pf; lia).
      rewrite (lor_flags 4 fl m) in HL; [|lia|lia|apply (mod_pow_le m k 4); [lia|exact P2]].
      destruct (Z.ltb_spec (m + fl) (2^32)) as [Hio|Hio]; [|rewrite cw_bar_big in HL by lia; discriminate].
      rewrite cw_bar in HL; [|cbn [bar_slots] in *; lia|lia].
      pose proof (program_mem32 A k (2^32 - 2^k) pf B (m + fl) Hok ltac:(lia)) as HW. cbn [write_bars] in HW.
      destruct (write_bar (regs_of (A ++ BMem32 k (2 ^ 32 - 2 ^ k) pf :: B)) (slots A) (m + fl) 15) as [x|]; [|discriminate].
      cbn [bind] in HW. injection HW as ->.
      rewrite flag_mod in HL by lia. replace (m + fl - fl) with m in HL by lia. cbn [bind] in HL.
      rewrite regs_snoc in HL. replace (slots A + 1) with (slots (A ++ [BMem32 k m pf])) in HL by (rewrite slots_app; reflexivity).
      replace (slots (A ++ BMem32 k b pf :: B)) with (slots ((A ++ [BMem32 k m pf]) ++ B)) in HL
        by (rewrite !slots_app, !slots_cons; cbn [bar_slots slots fold_right]; lia).
      destruct (bar_loop fuel bridge _ _ _ _) as [[[br1 ti1] s1]|] eqn:ER in HL; [|discriminate].
      cbn [bind] in HL. injection HL as <- <- <-.
      apply IH in ER; [|assumption|lia| |unfold nonneg; cbn; lia|assumption|assumption].
      2:{ rewrite !slots_app, slots_cons; cbn [bar_slots slots fold_right] in *; lia. }
      destruct ER as (B' & E1 & E2 & E3 & E4 & E5). exists (BMem32 k m pf :: B'). rewrite <- app_assoc in E1.
      split; [exact E1|]. split; [cbn [map]; rewrite E2; reflexivity|].
      split; [constructor; [cbn [bar_ok]; lia|exact E3]|].
      split; [rewrite E4, slots_app; reflexivity|].
      intros sp. specialize (E5 sp). destruct sp; cbn [flat_map ent_win app chain cur l_io l_mem l_pf] in *; [exact E5|repeat split; try lia; exact E5|exact E5].
    + destruct (write_bar_low A _ B 0xffffffff 15 He ltac:(lia) ltac:(discriminate)) as (b' & Hw & Hok & Hd & Hf).
      rewrite Hw in HL. cbn [bind fst] in HL. rewrite read_low in HL. cbn [set_base reg_bars nth] in HL.
      destruct He as (Hk & Hb & Hbm). cbn [set_base get_base get_k] in Hok, Hd, Hf.
      specialize (Hf eq_refl). rewrite ones_mod in Hf by lia. rewrite Hf in HL.
      destruct (mem64_size k pf Hk) as (V1 & V2 & V3 & V4 & V5 & V6). rewrite V1, V2, V3 in HL. cbn [negb] in HL.
      cbn [bar_slots] in Hsl.
      replace (slots A >=? slots (A ++ BMem64 k b pf :: B) - 1) with false in HL by (rewrite slots_app, slots_cons; cbn [bar_slots]; lia).
      rewrite cw_bar in HL by lia.
      destruct (write_bar_high A k b' pf B 0xffffffff 15 Hok ltac:(lia)) as (b2 & Hw2 & Hok2 & Hd2 & Hf2).
      rewrite Hw2 in HL. cbn [bind fst] in HL. rewrite read_high in HL. rewrite (Hf2 eq_refl) in HL. change (0xffffffff mod 2^32) with (2^32 - 1) in HL.
      rewrite V4, V5, V6 in HL.
      pose proof (pow2_split k ltac:(lia)) as HP. pose proof (pow2_ge16 k ltac:(lia)) as Hk4.
      replace (2^k - 1 + 1) with (2^k) in HL by lia.
      set (fl := 4 + if pf then 8 else 0) in *. assert (Hfl : 0 <= fl < 16) by (subst fl; destruct pf; lia).
      (* common tail *)
      assert (Tail : forall m s1, m mod 2^k = 0 -> 0 <= m -> nonneg s1 ->
        (if pf then s1 = mkLim (l_io s) (l_mem s) (m + 2^k) /\ l_pf s <= m else s1 = mkLim (l_io s) (m + 2^k) (l_pf s) /\ l_mem s <= m) ->
        (let! br := config_write_dword bridge (regs_of (A ++ BMem64 k b2 pf :: B), r) (16 + slots A * 4) (Z.land (Z.lor fl m) 0xffffffff) in
         let! br := config_write_dword bridge br (16 + (slots A + 1) * 4) (Z.land (Z.shiftr (Z.lor fl m) 32) 0xffffffff) in
         let! (br, ti, s) := bar_loop fuel bridge (slots A + 2) (slots (A ++ BMem64 k b pf :: B)) br s1 in
         Ok (br, (slots A, Z.lor fl m, 2^k) :: ti, s)) = Ok (br', ti, s') ->
        exists B', br' = (regs_of (A ++ B'), r) /\ map bar_shape B' = map bar_shape (BMem64 k b pf :: B) /\ Forall bar_ok B' /\
          ti = ti_of (slots A) B' /\ forall sp, chain (cur sp s) (cur sp s') (flat_map (ent_win sp) B')).
      { clear HL. intros m s1 Hm0 Hm1 Hs1' Hpf HL.
        rewrite (lor_flags 4 fl m) in HL; [|lia|lia|apply (mod_pow_le m k 4); [lia|exact Hm0]].
        change 0xffffffff with (Z.ones 32) in HL. rewrite !Z.land_ones, Z.shiftr_div_pow2 in HL by lia.
        pose proof (Z.mod_pos_bound (m + fl) (2^64) ltac:(lia)) as Hv.
        set (v := (m + fl) mod 2^64) in *.
        replace ((m + fl) mod 2^32) with (v mod 2^32) in HL
          by (subst v; symmetry; apply (mod_mod_pow (m + fl) 32 64); lia).
        replace ((m + fl) / 2^32 mod 2^32) with (v / 2^32) in HL by (subst v; lia).
        rewrite cw_bar in HL by lia.
        pose proof (program_mem64 A k b2 pf B v Hok2 Hv) as HW. cbn [write_bars] in HW.
        destruct (write_bar (regs_of (A ++ BMem64 k b2 pf :: B)) (slots A) (v mod 2^32) 15) as [x|]; [|discriminate].
        cbn [bind] in HW, HL. rewrite cw_bar in HL by lia.
        destruct (write_bar x (slots A + 1) (v / 2^32) 15) as [x2|]; [|discriminate].
        cbn [bind] in HW, HL. injection HW as ->.
        set (bb := v - v mod 2^k) in *.
        rewrite regs_snoc in HL. replace (slots A + 2) with (slots (A ++ [BMem64 k bb pf])) in HL by (rewrite slots_app; reflexivity).
        replace (slots (A ++ BMem64 k b pf :: B)) with (slots ((A ++ [BMem64 k bb pf]) ++ B)) in HL
          by (rewrite !slots_app, !slots_cons; cbn [bar_slots slots fold_right]; lia).
        destruct (bar_loop fuel bridge _ _ _ _) as [[[br1 ti1] s2]|] eqn:ER in HL; [|discriminate].
        cbn [bind] in HL. injection HL as <- <- <-.
        apply IH in ER; [|assumption|lia| |assumption|assumption|assumption].
        2:{ rewrite !slots_app, slots_cons; cbn [bar_slots slots fold_right] in *; lia. }
        destruct ER as (B' & E1 & E2 & E3 & E4 & E5).
        assert (Hbound : m + 2^k <= 2^64).
        { clear - Hpf E5 Hm64 Hp64. destruct pf; destruct Hpf as [-> _];
          [pose proof (chain_le _ _ _ (E5 SPf)) as Hc|pose proof (chain_le _ _ _ (E5 SMem)) as Hc]; cbn [cur l_mem l_pf] in Hc; lia. }
        assert (Hbb : bb = m).
        { subst bb v. rewrite (Z.mod_small (m + fl)) by (clear - Hbound Hfl Hm1 HP Hk4; lia). rewrite flag_mod by lia. clear; lia. }
        rewrite Hbb in *. clear bb Hbb.
        exists (BMem64 k m pf :: B'). rewrite <- app_assoc in E1.
        split; [exact E1|]. split; [cbn [map]; rewrite E2; reflexivity|].
        split; [constructor; [cbn [bar_ok]; lia|exact E3]|].
        split; [rewrite E4, slots_app; cbn [ti_of bar_reg bar_slots get_k]; f_equal; subst fl; f_equal; f_equal; lia|].
        intros sp. specialize (E5 sp).
        destruct pf; destruct Hpf as [-> Hlo]; destruct sp; cbn [flat_map ent_win app chain cur l_io l_mem l_pf] in *;
          try exact E5; repeat split; try lia; exact E5. }
      destruct pf; cbn [negb] in HL.
      * pose proof (align_pow2 (l_pf s) k ltac:(lia)) as (P1 & P2 & _ & _).
        set (m := align (l_pf s) (2^k - 1)) in *. clearbody m.
        eapply (Tail m); [exact P2|lia| |split; [reflexivity|lia]|exact HL]. unfold nonneg; cbn; lia.
      * pose proof (align_pow2 (l_mem s) k ltac:(lia)) as (P1 & P2 & _ & _).
        set (m := align (l_mem s) (2^k - 1)) in *. clearbody m.
        eapply (Tail m); [exact P2|lia| |split; [reflexivity|lia]|exact HL]. unfold nonneg; cbn; lia.
Qed.
