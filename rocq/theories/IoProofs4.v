(** Lemmas: configuration accesses. *)
From Verif Require Import PyBase BitLemmas TlpModel TlpSpec TlpProofs BarModel SplitModel SplitSpec SplitProofs SplitProofs2 IoModel IoSpec IoProofs IoProofs2 IoProofs3.
From Coq Require Import ZifyBool ZifyNat.
Ltac Zify.zify_post_hook ::= Z.div_mod_to_equations.

Lemma nth_le4 w j : 0 <= j < 4 -> nth (Z.to_nat j) (le_bytes 4 w) 0 = w / 256 ^ j mod 256.
Proof.
  intros Hj. assert (E : j = 0 \/ j = 1 \/ j = 2 \/ j = 3) by lia. destruct E as [-> | [-> | [-> | ->]]].
  - change (w mod 256 = w / 1 mod 256). now rewrite Z.div_1_r.
  - reflexivity.
  - change (w / 256 / 256 mod 256 = w / 65536 mod 256). now rewrite Z.div_div by lia.
  - change (w / 256 / 256 / 256 mod 256 = w / 16777216 mod 256). now rewrite !Z.div_div by lia.
Qed.

Lemma shiftr2 a : Z.shiftr a 2 = a / 4.
Proof. now rewrite Z.shiftr_div_pow2 by lia. Qed.

Definition cfg_fin (a : Z) (t : tlp) : tlp := set_register_number (Z.shiftr a 2) t.

Lemma cfg_read_facts dev tag a k : 1 <= k <= 4 - a mod 4 -> let t := cfg_fin a (fst (set_be a k (cfg_req false dev tag))) in
  cfg_legal false dev t /\ tlp_check t = true /\ t_tag t = tag /\ (forall x, tlp_selects t x = true <-> a <= x < a + k) /\ tlp_check (to_type_0 t) = true /\ t_register_number t = a / 4.
Proof.
  intros Hk t. destruct (req_facts a k (cfg_req false dev tag) Hk) as (Q1 & Q2 & Q3 & Q4 & Q5 & Q6 & Q7 & Q8).
  destruct (same_fields _ _ Q5) as (F1 & F2 & F3 & F4 & F5 & F6 & F7). unfold t, cfg_fin.
  set (t0 := fst (set_be a k (cfg_req false dev tag))) in *. clearbody t0. set (t1 := set_register_number (Z.shiftr a 2) t0).
  assert (EF : t_fmt_type t1 = (0, 5)) by exact F1.
  assert (HC : tlp_check t1 = true) by (apply (np_check t1 0 5); auto; intros; discriminate).
  split. { unfold cfg_legal. rewrite EF. change (t_register_number t1) with (Z.shiftr a 2). rewrite shiftr2. change (t_address t1) with (t_address t0). rewrite Q1.
    repeat (split; [first [reflexivity|assumption|lia]|]). lia. }
  split; [exact HC|]. split; [exact F2|]. split; [exact Q7|].
  split; [|apply shiftr2]. unfold to_type_0. rewrite EF. change (ft_in (0, 5) [TLP_CFG_READ_1]) with true. cbv iota.
  apply (np_check _ 0 4); auto. intros; discriminate.
Qed.

(** Reads of a register file. *)
Lemma config_read_regs {R} (rd : R -> Z -> result Z) wr dev (reg : Z -> Z) f s addr len :
  id_device dev = fn_dev f -> id_function dev = fn_func f -> queues_empty (rq_queues s) -> 0 <= len ->
  (forall r, addr / 4 <= r <= (addr + len - 1) / 4 -> rd (fn_regs f) r = Ok (reg r) /\ 0 <= reg r < 2^32) ->
  exists f' s' ts, config_read dev (fn_serve_cfg rd wr) f s addr len = Ok (f', s', mem_load (reg_byte reg) addr len, ts) /\
    fn_regs f' = fn_regs f /\ fn_dev f' = fn_dev f /\ fn_func f' = fn_func f /\ queues_empty (rq_queues s') /\
    covers addr len ts /\ Forall (cfg_legal false dev) ts /\ tags_from false (rq_tag s) ts.
Proof.
  intros Hd Hf HQ Hlen Hreg.
  destruct (np_read_spec false (cfg_req false dev) cfg_fin cfg_take (fn_serve_cfg rd wr)
    (fun f' => fn_regs f' = fn_regs f /\ fn_dev f' = fn_dev f /\ fn_func f' = fn_func f) (fun _ => reg_byte reg) addr (addr + len) (cfg_legal false dev))
    with (len := len) (st := f) (s := s) (addr := addr) as (f' & s' & d & ts & E1 & E2 & (E3 & E4 & E5) & E6 & E7); auto; try lia.
  - intros f1 tag a k (G1 & G2 & G3) Ha1 Ha2 Hk t. destruct (cfg_read_facts dev tag a k Hk) as (L1 & L2 & L3 & L4 & L5 & L6). fold t in L1, L2, L3, L4, L5, L6.
    clearbody t. split; [exact L1|]. split; [exact L2|]. split; [exact L3|]. split; [exact L4|].
    destruct L1 as (C1 & C2 & C3 & C4 & C5 & C6 & C7 & C8).
    assert (Hr : addr / 4 <= a / 4 <= (addr + len - 1) / 4) by (clear - Ha1 Ha2 Hk; lia).
    destruct (Hreg (a / 4) Hr) as (V1 & V2). set (w := reg (a / 4)) in *.
    set (id := mkId (id_bus dev) (fn_dev f1) (fn_func f1)).
    set (c := set_length 1 (set_byte_count 4 (set_data [w] (set_completion_data (to_type_0 t) id tlp0)))).
    assert (HT : t_tag (to_type_0 t) = tag) by (unfold to_type_0; destruct (ft_in _ _); [exact L3|]; destruct (ft_in _ _); exact L3).
    assert (HD : t_dest_id (to_type_0 t) = dev) by (unfold to_type_0; destruct (ft_in _ _); [exact C2|]; destruct (ft_in _ _); exact C2).
    assert (HR : t_register_number (to_type_0 t) = a / 4) by (unfold to_type_0; destruct (ft_in _ _); [exact L6|]; destruct (ft_in _ _); exact L6).
    assert (HF : t_fmt_type (to_type_0 t) = (0, 4)) by (unfold to_type_0; rewrite C1; reflexivity).
    set (t0 := to_type_0 t) in *.
    assert (HC : tlp_check c = true) by reflexivity.
    exists (mkFn (id_bus dev) (fn_dev f1) (fn_func f1) (fn_regs f1)), [c], (le_bytes 4 w).
    split. { unfold fn_serve_cfg. fold t0. cbv zeta. rewrite L5, HF. change (ft_in (0, 4) [TLP_CFG_READ_0; TLP_CFG_WRITE_0]) with true. cbv iota. unfold fn_handle_config_0.
      rewrite HD, G2, G3, Hd, Hf, !Z.eqb_refl. cbn [andb]. cbv zeta. rewrite HF. change (ft_in (0, 4) [TLP_CFG_READ_0]) with true. cbv iota. rewrite G1, HR, V1. cbn [bind].
      unfold c, id in HC. rewrite G2, G3 in HC. unfold send. rewrite HC. cbn [bind]. unfold c, id. rewrite G2, G3. reflexivity. }
    split; [cbn; auto|]. split; [reflexivity|]. split; [apply (cpl_arrives c tag 2); auto|].
    split. { cbn [hd_error]. unfold cfg_take. change (t_status c) with 0. change (t_length c) with 1. change (t_data c) with [w]. cbn [Z.eqb negb CPL_STATUS_SC Pos.eqb].
      cbv [py_index nth_error Z.ltb Z.compare Z.to_nat bind]. unfold pack_u32. replace ((0 <=? w) && (w <? 2^32)) with true by (clear - V2; lia). reflexivity. }
    split; [reflexivity|]. intros j Hj. rewrite nth_le4 by (clear - Hj Hk; lia). unfold reg_byte.
    replace ((a + j) / 4) with (a / 4) by (clear - Hj Hk; lia). replace ((a + j) mod 4) with (a mod 4 + j) by (clear - Hj Hk; lia). reflexivity.
  - exists f', s', ts. unfold config_read. fold cfg_fin. rewrite E1. cbn [bind fst snd]. rewrite E2. auto.
Qed.

(** No answer or an unsuccessful one reads as all ones. *)
Lemma config_read_failed {S} (serve : S -> tlp -> result (S * list tlp)) dev st s addr len : queues_empty (rq_queues s) -> 0 <= len ->
  (forall st t, cfg_legal false dev t -> exists st' cs, serve st t = Ok (st', cs) /\
     (cs = [] \/ exists c, cs = [c] /\ t_fmt_type c = (0, 10) /\ t_tag c = t_tag t /\ tlp_check c = true /\ t_status c <> 0)) ->
  exists st' s' ts, config_read dev serve st s addr len = Ok (st', s', repeat 0xff (Z.to_nat len), ts) /\ queues_empty (rq_queues s') /\ covers addr len ts /\ Forall (cfg_legal false dev) ts.
Proof.
  intros HQ Hlen HS.
  destruct (np_read_spec false (cfg_req false dev) cfg_fin cfg_take serve (fun _ => True) (fun _ _ => 0xff) addr (addr + len) (cfg_legal false dev))
    with (len := len) (st := st) (s := s) (addr := addr) as (f' & s' & d & ts & E1 & E2 & E3 & E6 & E7 & E8 & E9 & E10); auto; try lia.
  - intros f1 tag a k G1 Ha1 Ha2 Hk t. destruct (cfg_read_facts dev tag a k Hk) as (L1 & L2 & L3 & L4 & L5 & L6). fold t in L1, L2, L3, L4, L5, L6.
    clearbody t. split; [exact L1|]. split; [exact L2|]. split; [exact L3|]. split; [exact L4|].
    destruct (HS f1 t L1) as (st' & cs & S1 & S2). exists st', cs, [0xff; 0xff; 0xff; 0xff]. split; [exact S1|]. split; [exact I|]. split; [reflexivity|].
    assert (HN : forall j, 0 <= j < k -> nth (Z.to_nat (a mod 4 + j)) [255; 255; 255; 255] 0 = 255).
    { intros j Hj. assert (E : a mod 4 + j = 0 \/ a mod 4 + j = 1 \/ a mod 4 + j = 2 \/ a mod 4 + j = 3) by (clear - Hj Hk; lia). destruct E as [-> | [-> | [-> | ->]]]; reflexivity. }
    destruct S2 as [-> | (c & -> & S2 & S3 & S4 & S5)].
    + split; [exact I|]. split; [reflexivity|]. split; [reflexivity|exact HN].
    + split; [apply (cpl_arrives c tag 0); auto; congruence|]. split; [|split; [reflexivity|exact HN]].
      cbn [hd_error cfg_take]. destruct (Z.eqb_spec (t_status c) CPL_STATUS_SC) as [E|E]; [exfalso; apply S5; exact E|]. reflexivity.
  - exists f', s', ts. unfold config_read. fold cfg_fin. rewrite E1. cbn [bind fst snd]. rewrite E2. split; [|auto].
    replace (mem_load (fun _ => 255) addr len) with (repeat 255 (Z.to_nat len)); [reflexivity|].
    apply list_eq_nth; [rewrite repeat_length; pose proof (zlen_mem_load (fun _ => 255) addr len Hlen) as HZ; unfold zlen in HZ; lia|].
    intros i Hi. rewrite repeat_length in Hi. rewrite <- (Nat2Z.id i) at 2. rewrite nth_mem_load by lia. rewrite (nth_indep _ _ 255) by (rewrite repeat_length; exact Hi). apply nth_repeat.
Qed.

(** Writes. *)
Definition one_op (a : Z) (d : list Z) (v m : Z) : Prop :=
  0 <= v < 2^32 /\ 0 < m < 16 /\ forall k, 0 <= k < 4 -> (Z.testbit m k = true <-> a <= 4 * (a / 4) + k < a + zlen d) /\
    (Z.testbit m k = true -> v / 256 ^ k mod 256 = nth (Z.to_nat (4 * (a / 4) + k - a)) d 0).
Definition cfg_step {R} (wr : R -> Z -> Z -> Z -> result R) (f : cfgfn R) (a : Z) (d : list Z) (f' : cfgfn R) : Prop :=
  exists v m, one_op a d v m /\ wr (fn_regs f) (a / 4) v m = Ok (fn_regs f').

Lemma cfg_chain {R} (wr : R -> Z -> Z -> Z -> result R) addr data f f' : wchain (cfg_step wr) addr data f f' ->
  exists ops, cfg_ops_ok addr data ops /\ run_ops wr ops (fn_regs f) = Ok (fn_regs f').
Proof.
  intros HC. induction HC as [addr s|addr d1 d2 s s1 s2 N1 N2 N3 (v & m & (O1 & O2 & O3) & O4) HC (ops & I1 & I2)].
  - exists []. split; [|reflexivity]. split; [intros [|j]; discriminate|]. split; [congruence|reflexivity].
  - exists ((addr / 4, v, m) :: ops). cbn [run_ops]. rewrite O4. cbn [bind]. split; [|exact I2].
    assert (Hz : 0 < zlen d1) by (destruct d1; [congruence|unfold zlen; cbn [length]; lia]).
    assert (HZ : zlen (d1 ++ d2) = zlen d1 + zlen d2) by (unfold zlen; rewrite app_length; lia).
    destruct I1 as (J1 & J2 & J3). destruct d2 as [|y d2].
    + rewrite (J3 eq_refl) in *. rewrite app_nil_r in *. split; [|split; [|congruence]].
      * intros [|j] r v' m' HJ; [|destruct j; discriminate]. injection HJ as <- <- <-. split; [lia|]. split; [assumption|]. split; [assumption|]. exact O3.
      * intros _. unfold zlen at 1. cbn [length]. lia.
    + set (d2' := y :: d2) in *. assert (Hne : d2' <> []) by discriminate. specialize (N3 Hne). assert (Hz2 : 0 < zlen d2') by (unfold zlen, d2'; cbn [length]; lia).
      clearbody d2'. assert (EA : (addr + zlen d1) / 4 = addr / 4 + 1) by (clear - N3; lia).
      split; [|split].
      * intros [|j] r v' m' HJ; cbn [nth_error] in HJ.
        -- injection HJ as <- <- <-. split; [lia|]. split; [assumption|]. split; [assumption|]. intros k Hk. destruct (O3 k Hk) as (P1 & P2). split.
           ++ rewrite P1, HZ. clear - N3 Hk Hz2. lia.
           ++ intros HT. rewrite (P2 HT). apply P1 in HT. rewrite app_nth1; [reflexivity|]. unfold zlen in HT. clear - HT. lia.
        -- destruct (J1 j r v' m' HJ) as (K1 & K2 & K3 & K4). split; [rewrite K1, EA; lia|]. split; [assumption|]. split; [assumption|]. intros k Hk. destruct (K4 k Hk) as (P1 & P2). split.
           ++ rewrite P1, HZ. clear - K1 EA N3 Hk. lia.
           ++ intros HT. rewrite (P2 HT). apply P1 in HT. rewrite app_nth2 by (unfold zlen in *; clear - HT N3 Hz; lia). f_equal. unfold zlen in *. clear - HT Hz. lia.
      * intros _. rewrite HZ. specialize (J2 Hne). unfold zlen at 1. cbn [length]. unfold zlen at 1 in J2. rewrite Nat2Z.inj_succ, J2, EA. replace (addr + zlen d1 + zlen d2') with (addr + (zlen d1 + zlen d2')) by lia. clear. lia.
      * intros E. apply app_eq_nil in E. destruct E; congruence.
Qed.

Lemma config_write_regs {R} (rd : R -> Z -> result Z) wr dev f s addr data :
  id_device dev = fn_dev f -> id_function dev = fn_func f -> queues_empty (rq_queues s) -> Forall is_byte data ->
  (forall r reg v m, 0 <= v < 2^32 -> 0 < m < 16 -> exists r', wr r reg v m = Ok r') ->
  exists f' s' ts ops, config_write dev (fn_serve_cfg rd wr) f s addr data = Ok (f', s', ts) /\
    cfg_ops_ok addr data ops /\ run_ops wr ops (fn_regs f) = Ok (fn_regs f') /\ fn_dev f' = fn_dev f /\ fn_func f' = fn_func f /\ queues_empty (rq_queues s') /\
    covers addr (zlen data) ts /\ Forall (cfg_legal true dev) ts /\ tags_from false (rq_tag s) ts.
Proof.
  intros Hd Hf HQ HB Hwr.
  destruct (np_write_spec false (cfg_req true dev) cfg_fin cfg_takew (fn_serve_cfg rd wr)
    (fun f' => fn_dev f' = fn_dev f /\ fn_func f' = fn_func f) (cfg_step wr) addr (addr + zlen data) (cfg_legal true dev))
    with (data := data) (st := f) (s := s) (addr := addr) as (f' & s' & ts & E1 & (E2 & E3) & E4 & E5); auto; try lia.
  - intros f1 tag a d (G2 & G3) Ha1 Ha2 Hne HBd Hz.
    destruct (data_facts a d (cfg_req true dev tag) Hne HBd Hz) as (t0 & w & D0 & D1 & D2 & Q1 & Q2 & Q3 & Q4 & Q5 & Q7 & Q8 & Q9 & Q10).
    destruct (same_fields _ _ Q5) as (F1 & F2 & F3 & F4 & F5 & F6 & F7).
    exists t0. split; [exact D0|]. set (t := cfg_fin a t0). cbv zeta.
    assert (EF : t_fmt_type t = (2, 5)) by exact F1.
    assert (HC : tlp_check t = true) by (apply (np_check t 2 5); auto; intros; change (t_data t) with (t_data t0); rewrite D1; reflexivity).
    split. { unfold cfg_legal. rewrite EF. change (t_register_number t) with (Z.shiftr a 2). rewrite shiftr2. change (t_address t) with (t_address t0). rewrite Q1.
      repeat (split; [first [reflexivity|assumption|lia]|]). lia. }
    split; [exact HC|]. split; [exact F2|]. split; [exact Q7|].
    destruct (Hwr (fn_regs f1) (a / 4) w (t_first_be t0) D2 Q4) as (r' & W1).
    set (t2 := set_fmt_type TLP_CFG_WRITE_0 t). assert (E0 : to_type_0 t = t2) by (unfold to_type_0; rewrite EF; reflexivity).
    assert (HF : t_fmt_type t2 = (2, 4)) by reflexivity.
    assert (HC2 : tlp_check t2 = true) by (apply (np_check _ 2 4); auto; intros; change (t_data t2) with (t_data t0); rewrite D1; reflexivity).
    set (c := set_completion t2 (mkId (id_bus dev) (fn_dev f1) (fn_func f1)) false CPL_STATUS_SC tlp0).
    assert (HCc : tlp_check c = true) by reflexivity.
    exists (mkFn (id_bus dev) (fn_dev f1) (fn_func f1) r'), [c].
    split. { unfold fn_serve_cfg. rewrite E0. cbv zeta. rewrite HC2, HF. change (ft_in (2, 4) [TLP_CFG_READ_0; TLP_CFG_WRITE_0]) with true. cbv iota. unfold fn_handle_config_0.
      change (t_dest_id t2) with (t_dest_id t0). rewrite F4. change (t_dest_id (cfg_req true dev tag)) with dev.
      rewrite G2, G3, Hd, Hf, !Z.eqb_refl. cbn [andb]. cbv zeta. rewrite HF. change (ft_in (2, 4) [TLP_CFG_READ_0]) with false. change (ft_in (2, 4) [TLP_CFG_WRITE_0]) with true. cbv iota.
      change (t_data t2) with (t_data t0). rewrite D1. change (py_index [w] 0) with (Ok w). cbn [bind].
      change (t_register_number t2) with (Z.shiftr a 2). rewrite shiftr2. change (t_first_be t2) with (t_first_be t0). rewrite W1. cbn [bind].
      unfold c in HCc. rewrite G2, G3 in HCc. unfold send. rewrite HCc. cbn [bind]. unfold c. rewrite G2, G3. reflexivity. }
    split; [cbn; auto|]. split; [|split; [apply (cpl_arrives c tag 0); auto|reflexivity]].
    exists w, (t_first_be t0). split; [|exact W1]. split; [exact D2|]. split; [exact Q4|]. intros k Hk. split; [now apply Q8|]. intros HT. rewrite <- nth_le4 by assumption. now apply Q9.
  - destruct (cfg_chain wr addr data f f' E4) as (ops & O1 & O2). exists f', s', ts, ops. unfold config_write. fold cfg_fin. rewrite E1. auto 10.
Qed.

(** ---- words ---- *)
Lemma le_val_word M a n : le_val (map (fun j => M (a + Z.of_nat j)) (seq 0 n)) = word_at M a n.
Proof.
  revert a. induction n as [|n IH]; intros a; [reflexivity|]. cbn [seq map le_val word_at]. rewrite Z.add_0_r. f_equal. f_equal. rewrite <- IH.
  rewrite <- seq_shift, map_map. f_equal. apply map_ext. intros j. f_equal. lia.
Qed.

Lemma words_of_load M a ws count : 1 <= ws -> 0 <= count -> words_of_bytes ws count (mem_load M a (count * ws)) = words_at M a ws count.
Proof.
  intros Hws Hc. unfold words_of_bytes, words_at. apply map_ext_in. intros k Hk. apply in_seq in Hk.
  assert (Hb : ws * (Z.of_nat k + 1) <= count * ws) by (clear - Hws Hk Hc; nia).
  assert (0 <= ws * Z.of_nat k) by (clear - Hws; nia). rewrite slice_mem_load by lia. replace (ws * (Z.of_nat k + 1) - ws * Z.of_nat k) with ws by lia.
  rewrite <- le_val_word. reflexivity.
Qed.

Lemma bytes_of_words_ok ws words : Forall (fun w => 0 <= w < 2 ^ (8 * ws)) words -> exists d, bytes_of_words ws words = Ok d /\ Forall is_byte d /\ d = flat_map (le_bytes (Z.to_nat ws)) words.
Proof.
  induction words as [|w r IH]; intros H; [exists []; repeat split; constructor|]. inversion H as [|? ? H1 H2]; subst. destruct (IH H2) as (d & D1 & D2 & D3).
  exists (le_bytes (Z.to_nat ws) w ++ d). cbn [bytes_of_words]. replace ((0 <=? w) && (w <? 2 ^ (8 * ws))) with true by lia. rewrite D1. cbn [bind flat_map]. split; [reflexivity|].
  split; [apply Forall_app; split; [apply le_bytes_byte|exact D2]|]. now rewrite D3.
Qed.

Lemma length_le n v : length (le_bytes n v) = n.
Proof. revert v. induction n as [|n IH]; intros v; cbn [le_bytes length]; [reflexivity|]. now rewrite IH. Qed.

Lemma zlen_words ws words : 0 <= ws -> zlen (flat_map (le_bytes (Z.to_nat ws)) words) = ws * zlen words.
Proof.
  intros Hws. induction words as [|w r IH]; [unfold zlen; cbn; lia|]. cbn [flat_map]. unfold zlen in *. rewrite app_length, length_le. cbn [length]. lia.
Qed.

Lemma word_at_ext M M' a n : (forall j, 0 <= j < Z.of_nat n -> M (a + j) = M' (a + j)) -> word_at M a n = word_at M' a n.
Proof.
  revert a. induction n as [|n IH]; intros a H; [reflexivity|]. cbn [word_at]. pose proof (H 0 ltac:(lia)) as H0. rewrite Z.add_0_r in H0. rewrite H0. f_equal. f_equal. apply IH. intros j Hj.
  replace (a + 1 + j) with (a + (j + 1)) by lia. apply H. lia.
Qed.

Lemma word_at_le M a n w : 0 <= w < 256 ^ Z.of_nat n -> (forall j, (j < n)%nat -> M (a + Z.of_nat j) = nth j (le_bytes n w) 0) -> word_at M a n = w.
Proof.
  revert a w. induction n as [|n IH]; intros a w Hw H.
  - change (256 ^ Z.of_nat 0) with 1 in Hw. cbn. lia.
  - cbn [word_at]. rewrite Nat2Z.inj_succ, Z.pow_succ_r in Hw by lia.
    pose proof (H O ltac:(lia)) as H0. cbn [le_bytes nth Z.of_nat] in H0. rewrite Z.add_0_r in H0. rewrite H0.
    rewrite (IH (a + 1) (w / 256)).
    + clear. lia.
    + split; [apply Z.div_pos; lia|]. apply Z.div_lt_upper_bound; lia.
    + intros j Hj. replace (a + 1 + Z.of_nat j) with (a + Z.of_nat (S j)) by lia. rewrite H by lia. reflexivity.
Qed.

(** Storing the bytes of words stores the words. *)
Lemma words_stored M a ws words : 1 <= ws -> Forall (fun w => 0 <= w < 2 ^ (8 * ws)) words ->
  words_at (mem_store M a (flat_map (le_bytes (Z.to_nat ws)) words)) a ws (zlen words) = words.
Proof.
  intros Hws HF. apply list_eq_nth; [unfold words_at, zlen; rewrite map_length, seq_length; lia|].
  unfold words_at. intros i Hi. rewrite map_length, seq_length in Hi. unfold zlen in Hi.
  rewrite (nth_indep _ 0 ((fun k => word_at (mem_store M a (flat_map (le_bytes (Z.to_nat ws)) words)) (a + ws * Z.of_nat k) (Z.to_nat ws)) 0%nat)) by (rewrite map_length, seq_length; unfold zlen; lia).
  rewrite (map_nth (fun k => word_at (mem_store M a (flat_map (le_bytes (Z.to_nat ws)) words)) (a + ws * Z.of_nat k) (Z.to_nat ws))). rewrite seq_nth by (unfold zlen; lia). rewrite Nat.add_0_l.
  apply word_at_le.
  - rewrite Forall_forall in HF. assert (HI : In (nth i words 0) words) by (apply nth_In; lia). apply HF in HI.
    replace (256 ^ Z.of_nat (Z.to_nat ws)) with (2 ^ (8 * ws)); [exact HI|]. rewrite Z2Nat.id by lia. change 256 with (2 ^ 8). rewrite <- Z.pow_mul_r by lia. reflexivity.
  - intros j Hj. unfold mem_store. pose proof (zlen_words ws words ltac:(lia)) as HZ.
    assert (Hle : ws * Z.of_nat i + Z.of_nat j < ws * zlen words) by (unfold zlen; clear - Hi Hj Hws; nia). assert (0 <= ws * Z.of_nat i) by (clear - Hws; nia).
    replace ((a <=? a + ws * Z.of_nat i + Z.of_nat j) && (a + ws * Z.of_nat i + Z.of_nat j <? a + zlen (flat_map (le_bytes (Z.to_nat ws)) words))) with true by lia.
    replace (Z.to_nat (a + ws * Z.of_nat i + Z.of_nat j - a)) with (Z.to_nat ws * i + j)%nat by (clear - Hws; nia).
    assert (Hi' : (i < length words)%nat) by lia. clear - Hi' Hj. revert i Hi'. induction words as [|w r IH]; intros i Hi'; [cbn in Hi'; lia|].
    cbn [flat_map]. destruct i as [|i].
    + rewrite Nat.mul_0_r. rewrite app_nth1 by (rewrite length_le; lia). reflexivity.
    + rewrite app_nth2 by (rewrite length_le; clear - Hj; nia). rewrite length_le. cbn [nth length] in *. rewrite <- (IH i) by lia. f_equal. clear - Hj. nia.
Qed.

Lemma ws_pos ws : ws_ok ws = true -> 1 <= ws.
Proof. unfold ws_ok. lia. Qed.

(** [X_read_words] over any byte function that loads from a memory. *)
Lemma read_words_spec {A} (read : Z -> result (A * list Z)) (r : A) M a ws count : ws_ok ws = true -> 0 <= count ->
  read (count * ws) = Ok (r, mem_load M a (count * ws)) -> read_words read ws count = Ok (r, words_at M a ws count).
Proof.
  intros Hws Hc HR. unfold read_words. rewrite Hws, HR. cbn [bind fst snd]. rewrite words_of_load; [reflexivity|now apply ws_pos|assumption].
Qed.
Lemma write_words_spec {A} (write : list Z -> result A) ws words : ws_ok ws = true -> Forall (fun w => 0 <= w < 2 ^ (8 * ws)) words ->
  write_words write ws words = write (flat_map (le_bytes (Z.to_nat ws)) words) /\ Forall is_byte (flat_map (le_bytes (Z.to_nat ws)) words) /\ zlen (flat_map (le_bytes (Z.to_nat ws)) words) = ws * zlen words.
Proof.
  intros Hws HF. destruct (bytes_of_words_ok ws words HF) as (d & D1 & D2 & D3). unfold write_words. rewrite Hws, D1. cbn [bind]. subst d.
  pose proof (ws_pos ws Hws). split; [reflexivity|]. split; [assumption|]. apply zlen_words. lia.
Qed.
