(** Lemmas: the forms in which the I/O and configuration theorems are stated. *)
From Verif Require Import PyBase BitLemmas TlpModel TlpSpec TlpProofs BarModel BarSpec BarProofs SplitModel SplitSpec SplitProofs SplitProofs2 IoModel IoSpec IoProofs IoProofs2 IoProofs3 IoProofs4.
From Coq Require Import ZifyBool ZifyNat.
Ltac Zify.zify_post_hook ::= Z.div_mod_to_equations.

Lemma io_window_of_layout e L i b k : ep_bars e = regs_of L -> Forall bar_ok L -> 2 <= k -> b mod 2^k = 0 ->
  0 <= i < zlen (ep_regions e) ->
  (forall a, b <= a < b + 2^k -> addr_ok L a /\ spec_match 0 L a true = [(i, a - b)]) -> io_window_at e i b k.
Proof.
  intros HE HL Hk Hb Hi HW. repeat split; auto; try lia. intros a Ha. destruct (HW a Ha) as (A1 & A2).
  rewrite HE, <- A2. now apply match_bar_loop_spec.
Qed.

(** ---- C67 ---- *)
Lemma mask_full m (a : Z) : 0 < m < 16 -> (forall k, 0 <= k < 4 -> Z.testbit m k = true) -> m = 15.
Proof.
  intros Hm H. apply Z.bits_inj'. intros n Hn. destruct (Z.ltb_spec n 4).
  - rewrite H by lia. symmetry. apply (Z.ones_spec_low 4). lia.
  - rewrite (Z.bits_above_log2 15) by (cbn; lia). apply Z.bits_above_log2; [lia|].
    apply Z.log2_lt_pow2; [lia|]. apply Z.lt_le_trans with (2 ^ 4); [lia|]. apply Z.pow_le_mono_r; lia.
Qed.

Lemma v_of_bytes v : 0 <= v < 2^32 -> v = v / 256 ^ 0 mod 256 + 256 * (v / 256 ^ 1 mod 256) + 65536 * (v / 256 ^ 2 mod 256) + 16777216 * (v / 256 ^ 3 mod 256).
Proof.
  intros Hv. change (256 ^ 0) with 1. change (256 ^ 1) with 256. change (256 ^ 2) with 65536. change (256 ^ 3) with 16777216. change (2^32) with 4294967296 in Hv. lia.
Qed.

Lemma dword_ops r w ops : 0 <= w < 2^32 -> cfg_ops_ok (4 * r) (le_bytes 4 w) ops -> ops = [(r, w, 15)].
Proof.
  intros Hw (H1 & H2 & H3). assert (Hne : le_bytes 4 w <> []) by (cbn; discriminate). specialize (H2 Hne).
  change (zlen (le_bytes 4 w)) with 4 in *. replace ((4 * r + 4 - 1) / 4 - 4 * r / 4 + 1) with 1 in H2 by (clear; lia).
  destruct ops as [|[[r0 v] m] [|? ops]]; try (unfold zlen in H2; cbn [length] in H2; lia).
  destruct (H1 O r0 v m eq_refl) as (A1 & A2 & A3 & A4). assert (E : r0 = r) by (clear - A1; lia). clear A1 H1 H2 H3. subst r0.
  assert (EM : m = 15) by (apply (mask_full m 0); [assumption|]; intros k Hk; apply (proj1 (A4 k Hk)); lia). subst m.
  assert (EB : forall k, 0 <= k < 4 -> v / 256 ^ k mod 256 = w / 256 ^ k mod 256).
  { intros k Hk. destruct (A4 k Hk) as (B1 & B2). rewrite B2 by (apply B1; lia). replace (4 * r + k - 4 * r) with k by lia. now apply nth_le4. }
  rewrite (v_of_bytes v A2), (v_of_bytes w Hw), !EB by lia. reflexivity.
Qed.

Lemma config_write_dword_regs {R} (rd : R -> Z -> result Z) wr dev f s r w :
  id_device dev = fn_dev f -> id_function dev = fn_func f -> queues_empty (rq_queues s) -> 0 <= w < 2^32 ->
  (forall r reg v m, 0 <= v < 2^32 -> 0 < m < 16 -> exists r', wr r reg v m = Ok r') ->
  exists f' s' ts, write_word (config_write dev (fn_serve_cfg rd wr) f s (4 * r)) 4 w = Ok (f', s', ts) /\
    wr (fn_regs f) r w 15 = Ok (fn_regs f').
Proof.
  intros Hd Hf HQ Hw Hwr. destruct (config_write_regs rd wr dev f s (4 * r) (le_bytes 4 w) Hd Hf HQ) as (f' & s' & ts & ops & E1 & E2 & E3 & _); auto.
  { apply le_bytes_byte. }
  apply dword_ops in E2; auto. subst ops. cbn [run_ops] in E3. exists f', s', ts.
  unfold write_word, write_words. change (ws_ok 4) with true. cbv iota. cbn [bytes_of_words]. change (8 * 4) with 32. replace ((0 <=? w) && (w <? 2^32)) with true by lia. cbn [bind].
  rewrite app_nil_r. change (Z.to_nat 4) with 4%nat. rewrite E1. split; [reflexivity|].
  destruct (wr (fn_regs f) r w 15) as [x|] eqn:EX; cbn [bind] in E3; congruence.
Qed.

(** ---- C68 ---- *)
Lemma rc_endpoint_io rs ios i b k ops e s l : (forall a, b <= a <= b + 2^k -> find_region rs a = None) ->
  io_window_at e i b k -> region_contents e i l -> zlen l = 2^k -> queues_empty (rq_queues s) -> Forall (ioop_in b (b + 2^k)) ops ->
  exists e' s' l' outs, rc_exec_ios rs ios (e, s) ops = Ok (e', s', outs) /\
    ep_bars e' = ep_bars e /\ ep_id e' = ep_id e /\ region_contents e' i l' /\ zlen l' = 2^k /\ queues_empty (rq_queues s') /\
    (forall j, j <> Z.to_nat i -> nth j (ep_regions e') ENone = nth j (ep_regions e) ENone) /\
    outs = snd (spec_ioops (fun a => mem_of l (a - b)) ops) /\
    forall a, mem_of l' (a - b) = fst (spec_ioops (fun a => mem_of l (a - b)) ops) a.
Proof.
  intros HF HW HC Hl HQ HO. pose proof (ep_like_refl e i l (2^k) HC Hl) as HL.
  destruct (rc_exec_ios_spec rs ios e i b k HF HW ops e s HL HQ HO) as (e' & s' & out & E1 & (L1 & L2 & L3 & L4 & L5 & l' & L6 & L7) & E3 & E4 & E5).
  exists e', s', l', out. assert (HV : forall a, ep_bytes i b e a = mem_of l (a - b)) by (intros a; unfold ep_bytes; rewrite (proj1 HC); reflexivity).
  assert (HV' : forall a, ep_bytes i b e' a = mem_of l' (a - b)) by (intros a; unfold ep_bytes; rewrite (proj1 L6); reflexivity).
  destruct (spec_ioops_ext ops _ _ HV) as (X1 & X2).
  do 7 (split; [first [assumption|congruence]|]). split; [congruence|]. intros a. rewrite <- HV', E5. apply X1.
Qed.

Lemma rc_endpoint_io_requests rs ios i b k o e s l : (forall a, b <= a <= b + 2^k -> find_region rs a = None) ->
  io_window_at e i b k -> region_contents e i l -> zlen l = 2^k -> queues_empty (rq_queues s) -> ioop_in b (b + 2^k) o ->
  match o with
  | IoWrite addr data => exists r ts, rc_io_write rs ios ep_serve_io e s addr data = Ok (ios, fst r, snd r, ts) /\ covers addr (zlen data) ts /\ Forall (io_legal true (mkId 0 0 0)) ts /\ tags_from false (rq_tag s) ts
  | IoRead addr len => exists r ts, rc_io_read rs ios ep_serve_io e s addr len = Ok (r, ts) /\ covers addr len ts /\ Forall (io_legal false (mkId 0 0 0)) ts /\ tags_from false (rq_tag s) ts
  end.
Proof.
  intros HF HW HC Hl HQ HO. pose proof (ep_like_refl e i l (2^k) HC Hl) as HL. destruct o as [addr data|addr len]; destruct HO as (A1 & A2 & A3).
  - pose proof (zlen_nonneg data). destruct (rc_io_write_remote rs ios e i b k e s addr data) as (e' & s' & ts & E1 & _ & _ & _ & E2); auto; [apply HF; lia|]. exists (e', s'), ts. auto.
  - destruct (rc_io_read_remote rs ios e i b k e s addr len) as (e' & s' & ts & E1 & _ & _ & _ & E2); auto; [apply HF; lia|]. eexists _, ts. split; [exact E1|exact E2].
Qed.

(** ---- C69 ---- *)
Lemma fn_rc_io ext rid i lo hi ops ios s : lo mod 4 = 0 -> hi mod 4 = 0 -> regions_wf ios -> in_region ios i lo hi -> queues_empty (rq_queues s) -> Forall (ioop_in lo hi) ops ->
  exists ios' s' outs, fn_exec_ios true ext rid (ios, s) ops = Ok (ios', s', outs) /\ same_map ios' ios /\ regions_wf ios' /\ queues_empty (rq_queues s') /\
    outs = map Some (snd (spec_ioops (rc_mem ios) ops)) /\ forall a, rc_mem ios' a = fst (spec_ioops (rc_mem ios) ops) a.
Proof.
  intros M1 M2 HW HI HQ HO. destruct (fn_exec_ios_spec ext rid ios i lo hi M1 M2 ops ios s) as (ios' & s' & out & E1 & (L1 & L2 & L3) & E3 & E4 & E5); auto.
  { repeat split; auto. }
  exists ios', s', out. auto 10.
Qed.

Lemma fn_rc_io_requests ext rid i lo hi o ios s : lo mod 4 = 0 -> hi mod 4 = 0 -> regions_wf ios -> in_region ios i lo hi -> queues_empty (rq_queues s) -> ioop_in lo hi o ->
  match o with
  | IoWrite addr data => exists r ts, function_io_write true ext rid rc_serve_io ios s addr data = Ok (r, ts) /\ covers addr (zlen data) ts /\ Forall (io_legal true rid) ts /\ tags_from ext (rq_tag s) ts
  | IoRead addr len => exists r ts, function_io_read true ext rid rc_serve_io ios s addr len = Ok (r, ts) /\ covers addr len ts /\ Forall (io_legal false rid) ts /\ tags_from ext (rq_tag s) ts
  end.
Proof.
  intros M1 M2 HW HI HQ HO. pose proof (fn_io_requests rc_serve_io _ _ _ _ ext rid ios s o (rc_io_server ios i lo hi) M1 M2 ltac:(repeat split; auto) HQ HO) as H.
  destruct o as [addr data|addr len]; destruct H as (st' & s' & ts & E1 & _ & _ & E2); eexists _, ts; (split; [exact E1|exact E2]).
Qed.

Lemma fn_io_disabled ext rid ops : forall ios s, fn_exec_ios false ext rid (ios, s) ops = Ok (ios, s, map (fun o => match o with IoWrite _ _ => Some [] | IoRead _ _ => None end) ops).
Proof.
  induction ops as [|o ops IH]; intros ios s; [reflexivity|]. cbn [fn_exec_ios]. destruct o; cbn [fn_exec_io function_io_read function_io_write negb bind fst snd]; rewrite IH; reflexivity.
Qed.

(** ---- C70 ---- *)
Lemma rc_io_local {S} rs ios (serve : S -> tlp -> result (S * list tlp)) st s i addr len data :
  regions_wf ios -> find_region rs addr <> None -> 1 <= len -> in_region ios i addr (addr + len) ->
  rc_io_read rs ios serve st s addr len = Ok (st, s, mem_load (rc_mem ios) addr len, []) /\
  (Forall is_byte data -> zlen data = len -> exists ios', rc_io_write rs ios serve st s addr data = Ok (ios', st, s, []) /\ same_map ios' ios /\ regions_wf ios' /\
     forall a, rc_mem ios' a = mem_store (rc_mem ios) addr data a).
Proof.
  intros HW HF Hn HI. unfold rc_io_read, rc_io_write. destruct (find_region rs addr) as [x|]; [|congruence]. split.
  - rewrite (rc_io_read_ok ios i addr len) by assumption. reflexivity.
  - intros HB HZ. assert (Hne : data <> []) by (intros ->; unfold zlen in HZ; cbn in HZ; lia). subst len.
    destruct (rc_io_write_ok ios i addr data) as (ios' & E1 & E2 & E3 & _ & E4); auto. exists ios'. rewrite E1. cbn [bind]. auto.
Qed.

(** ---- C71 ---- *)
Lemma mem_words_roundtrip mps mrrs i b k e s l addr ws words : 0 <= mps -> 0 <= mrrs -> window_at e i b k -> region_contents e i l -> zlen l = 2^k -> 0 <= ep_mps e -> queues_empty (rq_queues s) ->
  ws_ok ws = true -> Forall (fun w => 0 <= w < 2 ^ (8 * ws)) words -> b <= addr -> addr + ws * zlen words <= b + 2^k ->
  exists st' st'', write_words (fun d => exec_mop mps mrrs (e, s) (MWrite addr d)) ws words = Ok (st', []) /\
    read_words (fun n => exec_mop mps mrrs st' (MRead addr n)) ws (zlen words) = Ok (st'', words).
Proof.
  intros H1 H2 HW HC HL He HQ Hws HF Hlo Hhi. pose proof (ws_pos ws Hws) as Hp. pose proof (zlen_nonneg words) as Hz.
  destruct (write_words_spec (fun d => exec_mop mps mrrs (e, s) (MWrite addr d)) ws words Hws HF) as (W1 & W2 & W3). rewrite W1. set (d := flat_map (le_bytes (Z.to_nat ws)) words) in *.
  destruct (exec_mops_spec mps mrrs i b k H1 H2 [MWrite addr d; MRead addr (zlen words * ws)] e s l HW HC HL He HQ) as (e' & s' & l' & outs & E1 & _ & _ & _ & _ & _ & E2).
  { repeat constructor; cbn [mop_in]; try assumption; try lia. }
  destruct (E2 (fun a => mem_of l (a - b)) (fun _ _ => eq_refl)) as (E3 & _). cbn [spec_mops spec_mop fst snd] in E3.
  cbn [exec_mops] in E1. destruct (exec_mop mps mrrs (e, s) (MWrite addr d)) as [[[e1 s1] o1]|] eqn:X1; cbn [bind fst snd] in E1; [|discriminate].
  assert (o1 = []). { unfold exec_mop in X1. destruct (rc_mem_write [] mps addr d 0 0); cbn [bind] in X1; [|discriminate]. destruct (ep_recv_writes e _); cbn [bind] in X1; [|discriminate]. congruence. }
  subst o1. destruct (exec_mop mps mrrs (e1, s1) (MRead addr (zlen words * ws))) as [[[e2 s2] o2]|] eqn:X2; cbn [bind fst snd] in E1; [|discriminate].
  injection E1 as _ _ E1. rewrite E3 in E1. assert (o2 = mem_load (mem_store (fun a => mem_of l (a - b)) addr d) addr (zlen words * ws)) by congruence. subst o2.
  exists (e1, s1), (e2, s2). split; [reflexivity|].
  rewrite (read_words_spec _ (e2, s2) (mem_store (fun a => mem_of l (a - b)) addr d) addr ws (zlen words)); auto.
  unfold d. now rewrite words_stored.
Qed.

Lemma capability_addr_ok caps cap_id o addr : get_capability_offset caps cap_id = Some o -> o <> 0 -> capability_addr (Some caps) cap_id addr = Ok (addr + o).
Proof. intros H1 H2. unfold capability_addr. rewrite H1. destruct (Z.eqb_spec o 0); [congruence|reflexivity]. Qed.

Lemma cap_offset caps cap_id : match get_capability_offset caps cap_id with
  | Some o => exists k, nth_error caps k = Some (cap_id, o) /\ forall j c, (j < k)%nat -> nth_error caps j = Some c -> fst c <> cap_id
  | None => forall c, In c caps -> fst c <> cap_id end.
Proof.
  induction caps as [|[x o] caps IH]; [intros c []|]. cbn [get_capability_offset fst snd]. destruct (Z.eqb_spec x cap_id) as [->|HN].
  - exists O. split; [reflexivity|]. intros j c Hj. lia.
  - destruct (get_capability_offset caps cap_id) as [o'|].
    + destruct IH as (k & K1 & K2). exists (S k). split; [exact K1|]. intros [|j] c Hj HC; [injection HC as <-; exact HN|]. apply (K2 j c); [lia|exact HC].
    + intros c [<-|HC]; [exact HN|now apply IH].
Qed.

Lemma config_read_words_regs {R} (rd : R -> Z -> result Z) wr dev (reg : Z -> Z) f s addr ws count :
  id_device dev = fn_dev f -> id_function dev = fn_func f -> queues_empty (rq_queues s) -> ws_ok ws = true -> 0 <= count ->
  (forall r, addr / 4 <= r <= (addr + ws * count - 1) / 4 -> rd (fn_regs f) r = Ok (reg r) /\ 0 <= reg r < 2^32) ->
  exists st', read_words (fun n => let! r := config_read dev (fn_serve_cfg rd wr) f s addr n in Ok (fst r)) ws count = Ok (st', words_at (reg_byte reg) addr ws count).
Proof.
  intros Hd Hf HQ Hws Hc Hreg. pose proof (ws_pos ws Hws).
  destruct (config_read_regs rd wr dev reg f s addr (count * ws) Hd Hf HQ) as (f' & s' & ts & E1 & _); [nia|rewrite (Z.mul_comm count); exact Hreg|].
  exists (f', s'). apply read_words_spec; auto. rewrite E1. reflexivity.
Qed.

Lemma capability_read_words_regs {R} (rd : R -> Z -> result Z) wr dev (reg : Z -> Z) f s caps cap_id o addr ws count :
  get_capability_offset caps cap_id = Some o -> o <> 0 ->
  id_device dev = fn_dev f -> id_function dev = fn_func f -> queues_empty (rq_queues s) -> ws_ok ws = true -> 0 <= count ->
  (forall r, (addr + o) / 4 <= r <= (addr + o + ws * count - 1) / 4 -> rd (fn_regs f) r = Ok (reg r) /\ 0 <= reg r < 2^32) ->
  exists st', read_words (fun n => let! r := capability_read (Some caps) dev (fn_serve_cfg rd wr) f s cap_id addr n in Ok (fst r)) ws count = Ok (st', words_at (reg_byte reg) (addr + o) ws count).
Proof.
  intros HO Ho. unfold capability_read. rewrite (capability_addr_ok caps cap_id o addr HO Ho). cbn [bind]. apply config_read_words_regs.
Qed.

(** ---- C72 ---- *)
Definition holds_at (rs : list anyregion) (addr : Z) (i : nat) : Prop :=
  (exists r, nth_error rs i = Some r /\ any_base r <= addr < any_base r + any_size r) /\
  forall j r, (j < i)%nat -> nth_error rs j = Some r -> ~ any_base r <= addr < any_base r + any_size r.

Lemma any_find_holds rs addr i r : holds_at rs addr i -> nth_error rs i = Some r -> any_find rs addr = Some (i, r).
Proof.
  revert i. induction rs as [|x rs IH]; intros i ((r0 & A1 & A2) & A3) HR; [destruct i; discriminate|].
  cbn [any_find]. destruct i as [|i].
  - cbn in A1, HR. injection A1 as ->. injection HR as <-. replace ((any_base r0 <=? addr) && (addr <? any_base r0 + any_size r0)) with true by lia. reflexivity.
  - pose proof (A3 O x ltac:(lia) eq_refl) as HN. replace ((any_base x <=? addr) && (addr <? any_base x + any_size x)) with false by lia.
    rewrite (IH i); [reflexivity| |exact HR]. split; [exists r0; auto|]. intros j r' Hj. apply (A3 (S j) r'). lia.
Qed.

Lemma nth_error_set_nth {A} (l : list A) i v : (i < length l)%nat -> nth_error (set_nth l i v) i = Some v.
Proof. intros H. rewrite (nth_error_nth' _ v) by (rewrite length_set_nth; exact H). now rewrite nth_set_nth_eq. Qed.
Lemma nth_error_set_nth_ne {A} (l : list A) i j v : i <> j -> nth_error (set_nth l i v) j = nth_error l j.
Proof.
  intros H. destruct (nth_error l j) as [x|] eqn:E.
  - assert (j < length l)%nat by (apply nth_error_Some; congruence). rewrite (nth_error_nth' _ x) by (rewrite length_set_nth; assumption). rewrite nth_set_nth_ne by auto. f_equal. now apply nth_error_nth.
  - apply nth_error_None in E. apply nth_error_None. now rewrite length_set_nth.
Qed.

Lemma callback_write rs addr i b n rd log data : holds_at rs addr i -> nth_error rs i = Some (RCb b n rd log) ->
  exists rs', any_write rs addr data = Ok rs' /\ nth_error rs' i = Some (RCb b n rd (log ++ [(addr - b, data)])) /\ forall j, j <> i -> nth_error rs' j = nth_error rs j.
Proof.
  intros HH HR. unfold any_write. rewrite (any_find_holds rs addr i _ HH HR). eexists. split; [reflexivity|]. split.
  - apply nth_error_set_nth. apply nth_error_Some. congruence.
  - intros j Hj. apply nth_error_set_nth_ne. auto.
Qed.

Lemma memory_among_callbacks rs addr i b n m len : holds_at rs addr i -> nth_error rs i = Some (RMem b n m) -> zlen m = n -> 1 <= len -> addr + len <= b + n ->
  any_read rs addr len = Ok (Some (mem_load (mem_of m) (addr - b) len)) /\ any_read_io rs addr len = Ok (Some (mem_load (mem_of m) (addr - b) len)).
Proof.
  intros HH HR HZ Hl He. unfold any_read, any_read_io. rewrite (any_find_holds rs addr i _ HH HR). destruct HH as ((r & A1 & A2) & _). rewrite HR in A1. injection A1 as <-. cbn [any_base any_size] in A2.
  rewrite slice_mem_of by lia. auto.
Qed.

Lemma callback_reads_lost rs addr i b n rd log len : holds_at rs addr i -> nth_error rs i = Some (RCb b n rd log) ->
  any_read rs addr len = Ok None /\ any_read_io rs addr len = Err NameError /\
  (forall mps t, t_address t = addr -> 0 <= mps -> 1 <= t_length t -> addr mod 4096 + 4 * t_length t <= 4096 -> any_handle_mem_read rs mps t = Err TypeError).
Proof.
  intros HH HR. unfold any_handle_mem_read, any_read, any_read_io. rewrite (any_find_holds rs addr i _ HH HR). split; [reflexivity|]. split; [reflexivity|].
  intros mps t HA Hm HL HB. rewrite HA, (any_find_holds rs addr i _ HH HR). change 4095 with (Z.ones 12). rewrite Z.land_ones by lia. change (2^12) with 4096.
  replace (t_length t * 4 >? 4096 - addr mod 4096) with false by lia. cbn [bind]. replace (0 <? t_length t) with true by lia. replace (mps <? 0) with false by lia. reflexivity.
Qed.
