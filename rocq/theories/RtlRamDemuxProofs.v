(** Lemmas on the RAM demultiplexers (C89, C90): pointer FIFOs and the command side. *)
From Verif Require Import PyBase RtlModel RtlProofs RtlFcProofs RtlRamModel RtlRamProofs RtlDemuxModel RtlDemuxProofs RtlRamDemuxModel RtlRamDemuxSpec.
From Coq Require Import Lia.

(** * A FIFO of 32 entries with pointers of 6 bits. *)
Definition ptr_ok (wr rd : Z) : Prop := 0 <= wr < 64 /\ 0 <= rd < 64 /\ (wr - rd) mod 64 <= 32.
Definition ring {A} (wr rd : Z) (mem : Z -> A) : list A := map (fun k => mem ((rd + Z.of_nat k) mod 32)) (seq 0 (Z.to_nat ((wr - rd) mod 64))).

Lemma ring_len : forall A wr rd (mem : Z -> A), Z.of_nat (length (ring wr rd mem)) = (wr - rd) mod 64.
Proof. intros. unfold ring. rewrite map_length, seq_length. pose proof (Z.mod_pos_bound (wr - rd) 64). lia. Qed.

Lemma lxor32 : forall x, 0 <= x < 64 -> Z.lxor x 32 = (x + 32) mod 64.
Proof.
  intros x H. assert (G : forallb (fun k => Z.lxor (Z.of_nat k) 32 =? (Z.of_nat k + 32) mod 64) (seq 0 64) = true) by (vm_compute; reflexivity).
  rewrite forallb_forall in G. specialize (G (Z.to_nat x)). rewrite Z2Nat.id in G by lia. apply Z.eqb_eq. apply G. apply in_seq. lia.
Qed.

Lemma mod64_cases : forall x, -64 < x < 128 -> x mod 64 = x \/ x mod 64 = x + 64 \/ x mod 64 = x - 64.
Proof.
  intros x H. destruct (Z.lt_ge_cases x 0).
  - right. left. symmetry. apply (Z.mod_unique _ _ (-1)); lia.
  - destruct (Z.lt_ge_cases x 64); [left; apply Z.mod_small; lia|]. right. right. symmetry. apply (Z.mod_unique _ _ 1); lia.
Qed.

Lemma full_iff : forall wr rd, ptr_ok wr rd -> (ptr_full wr rd = true <-> (wr - rd) mod 64 = 32).
Proof.
  intros wr rd [A [B C]]. unfold ptr_full. rewrite lxor32 by lia. rewrite Z.eqb_eq.
  pose proof (Z.mod_pos_bound (rd + 32) 64 ltac:(lia)). pose proof (Z.mod_pos_bound (wr - rd) 64 ltac:(lia)).
  pose proof (mod64_cases (rd + 32) ltac:(lia)). pose proof (mod64_cases (wr - rd) ltac:(lia)). lia.
Qed.
Lemma empty_iff : forall wr rd, ptr_ok wr rd -> (ptr_empty wr rd = true <-> (wr - rd) mod 64 = 0).
Proof.
  intros wr rd [A [B C]]. unfold ptr_empty. rewrite Z.eqb_eq. pose proof (mod64_cases (wr - rd) ltac:(lia)).
  pose proof (Z.mod_pos_bound (wr - rd) 64 ltac:(lia)). lia.
Qed.

Lemma push_cnt : forall wr rd, ptr_ok wr rd -> ptr_full wr rd = false -> (ptr_inc wr - rd) mod 64 = (wr - rd) mod 64 + 1.
Proof.
  intros wr rd OK F. assert (N : (wr - rd) mod 64 <> 32) by (rewrite <- (full_iff wr rd OK); congruence). destruct OK as [A [B C]]. unfold ptr_inc.
  rewrite Zminus_mod_idemp_l. replace (wr + 1 - rd) with (wr - rd + 1) by lia. rewrite <- Z.add_mod_idemp_l by lia. apply Z.mod_small. pose proof (Z.mod_pos_bound (wr - rd) 64). lia.
Qed.
Lemma pop_cnt : forall wr rd, ptr_ok wr rd -> ptr_empty wr rd = false -> (wr - ptr_inc rd) mod 64 = (wr - rd) mod 64 - 1.
Proof.
  intros wr rd OK F. assert (N : (wr - rd) mod 64 <> 0) by (rewrite <- (empty_iff wr rd OK); congruence). destruct OK as [A [B C]]. unfold ptr_inc.
  rewrite Zminus_mod_idemp_r. replace (wr - (rd + 1)) with (wr - rd - 1) by lia. rewrite <- Zminus_mod_idemp_l. apply Z.mod_small. pose proof (Z.mod_pos_bound (wr - rd) 64). lia.
Qed.
Lemma inc_range : forall x, 0 <= ptr_inc x < 64.
Proof. intros. apply Z.mod_pos_bound. lia. Qed.

Lemma ring_push : forall A wr rd (mem : Z -> A) x, ptr_ok wr rd -> ptr_full wr rd = false ->
  ptr_ok (ptr_inc wr) rd /\ ring (ptr_inc wr) rd (upd mem (wr mod 32) x) = ring wr rd mem ++ [x].
Proof.
  intros A wr rd mem x OK F. pose proof (push_cnt wr rd OK F) as E. pose proof (full_iff wr rd OK) as FI. pose proof OK as [O1 [O2 O3]].
  pose proof (Z.mod_pos_bound (wr - rd) 64 ltac:(lia)) as B.
  assert (L : (wr - rd) mod 64 < 32). { assert ((wr - rd) mod 64 <> 32) by (rewrite <- FI; congruence). lia. }
  split; [repeat split; try apply inc_range; lia|].
  unfold ring. rewrite E. replace (Z.to_nat ((wr - rd) mod 64 + 1)) with (S (Z.to_nat ((wr - rd) mod 64))) by lia. rewrite seq_S, map_app. cbn [map plus]. f_equal.
  - apply map_ext_in. intros k K. apply in_seq in K. apply upd_other. intros H.
    assert (W : wr = rd + (wr - rd) mod 64 \/ wr = rd + (wr - rd) mod 64 - 64). { pose proof (mod64_cases (wr - rd) ltac:(lia)). lia. }
    set (c := (wr - rd) mod 64) in *. assert (M : wr mod 32 = (rd + c) mod 32).
    { destruct W as [W|W]; rewrite W at 1; [reflexivity|]. replace (rd + c - 64) with (rd + c + (-2) * 32) by lia. apply Z.mod_add. lia. }
    rewrite M in H. pose proof (Z.div_mod (rd + Z.of_nat k) 32 ltac:(lia)). pose proof (Z.div_mod (rd + c) 32 ltac:(lia)).
    assert (rd + c - (rd + Z.of_nat k) = 32 * ((rd + c) / 32 - (rd + Z.of_nat k) / 32)) by lia. lia.
  - f_equal. replace ((rd + Z.of_nat (Z.to_nat ((wr - rd) mod 64))) mod 32) with (wr mod 32); [apply upd_same|].
    rewrite Z2Nat.id by lia. pose proof (mod64_cases (wr - rd) ltac:(lia)) as [H|[H|H]]; rewrite H.
    + f_equal. lia.
    + replace (rd + (wr - rd + 64)) with (wr + 2 * 32) by lia. now rewrite Z.mod_add by lia.
    + replace (rd + (wr - rd - 64)) with (wr + (-2) * 32) by lia. now rewrite Z.mod_add by lia.
Qed.

Lemma ring_pop : forall A wr rd (mem : Z -> A), ptr_ok wr rd -> ptr_empty wr rd = false ->
  ptr_ok wr (ptr_inc rd) /\ ring wr rd mem = mem (rd mod 32) :: ring wr (ptr_inc rd) mem.
Proof.
  intros A wr rd mem OK F. pose proof (pop_cnt wr rd OK F) as E. pose proof (empty_iff wr rd OK) as FI. pose proof OK as [O1 [O2 O3]].
  pose proof (Z.mod_pos_bound (wr - rd) 64 ltac:(lia)) as B.
  assert (L : 0 < (wr - rd) mod 64). { assert ((wr - rd) mod 64 <> 0) by (rewrite <- FI; congruence). lia. }
  split; [repeat split; try apply inc_range; lia|].
  unfold ring. rewrite E. replace (Z.to_nat ((wr - rd) mod 64)) with (S (Z.to_nat ((wr - rd) mod 64 - 1))) by lia. cbn [seq map]. rewrite Z.add_0_r. f_equal.
  rewrite <- seq_shift, map_map. apply map_ext. intros k. f_equal. unfold ptr_inc.
  rewrite <- (Z.mod_mod (_ + _)) by lia.
  replace (rd + Z.of_nat (S k)) with (rd + 1 + Z.of_nat k) by lia.
  pose proof (mod64_cases (rd + 1) ltac:(lia)) as [H|[H|H]]; rewrite H; rewrite ?Z.mod_mod by lia; [reflexivity | |].
  - replace (rd + 1 + 64 + Z.of_nat k) with (rd + 1 + Z.of_nat k + 2 * 32) by lia. now rewrite Z.mod_add by lia.
  - replace (rd + 1 - 64 + Z.of_nat k) with (rd + 1 + Z.of_nat k + (-2) * 32) by lia. now rewrite Z.mod_add by lia.
Qed.

Lemma push_full_other : forall A wr rd (mem : Z -> A) x, ptr_ok wr rd -> ptr_full wr rd = false -> ptr_empty wr rd = false ->
  ptr_ok (ptr_inc wr) (ptr_inc rd) /\ ring wr rd mem ++ [x] = mem (rd mod 32) :: ring (ptr_inc wr) (ptr_inc rd) (upd mem (wr mod 32) x).
Proof.
  intros A wr rd mem x OK F E. destruct (ring_push A wr rd mem x OK F) as [OK1 R1].
  assert (E1 : ptr_empty (ptr_inc wr) rd = false).
  { apply not_true_is_false. rewrite (empty_iff _ _ OK1). rewrite push_cnt by assumption. pose proof (Z.mod_pos_bound (wr - rd) 64). lia. }
  destruct (ring_pop A (ptr_inc wr) rd (upd mem (wr mod 32) x) OK1 E1) as [OK2 R2]. split; [exact OK2|]. rewrite <- R1, R2. f_equal.
  apply upd_other. intros H.
  destruct OK as [O1 [O2 O3]]. assert (N1 : (wr - rd) mod 64 <> 32) by (rewrite <- (full_iff wr rd); [congruence | repeat split; lia]).
  assert (N2 : (wr - rd) mod 64 <> 0) by (rewrite <- (empty_iff wr rd); [congruence | repeat split; lia]).
  pose proof (Z.div_mod wr 32 ltac:(lia)). pose proof (Z.div_mod rd 32 ltac:(lia)). pose proof (mod64_cases (wr - rd) ltac:(lia)). pose proof (Z.mod_pos_bound (wr - rd) 64). lia.
Qed.

(** Push and pop as the modules do it, at one edge. *)
Lemma ring_step : forall A wr rd (mem : Z -> A) (push pop : bool) x, ptr_ok wr rd -> (push = true -> ptr_full wr rd = false) -> (pop = true -> ptr_empty wr rd = false) ->
  let wr' := if push then ptr_inc wr else wr in
  let rd' := if pop then ptr_inc rd else rd in
  let mem' := if push then upd mem (wr mod 32) x else mem in
  ptr_ok wr' rd' /\ ring wr rd mem ++ (if push then [x] else []) = (if pop then [mem (rd mod 32)] else []) ++ ring wr' rd' mem'.
Proof.
  intros A wr rd mem push pop x OK P1 P2. destruct push, pop; cbn zeta; cbn [app].
  - now apply push_full_other; auto.
  - destruct (ring_push A wr rd mem x OK (P1 eq_refl)) as [H1 H2]. now rewrite H2.
  - destruct (ring_pop A wr rd mem OK (P2 eq_refl)) as [H1 H2]. rewrite app_nil_r. now rewrite <- H2.
  - rewrite app_nil_r. auto.
Qed.

Lemma ring_head : forall A wr rd (mem : Z -> A), ptr_ok wr rd -> ptr_empty wr rd = false -> exists r, ring wr rd mem = mem (rd mod 32) :: r.
Proof. intros A wr rd mem OK E. destruct (ring_pop A wr rd mem OK E) as [_ H]. eauto. Qed.
Lemma ring_empty : forall A wr rd (mem : Z -> A), ptr_ok wr rd -> (ptr_empty wr rd = true <-> ring wr rd mem = []).
Proof.
  intros A wr rd mem OK. rewrite empty_iff by exact OK. rewrite <- (ring_len A wr rd mem). destruct (ring wr rd mem); cbn [length]; split; intros H; try reflexivity; try discriminate.
Qed.
Lemma ring_max : forall A wr rd (mem : Z -> A), ptr_ok wr rd -> (length (ring wr rd mem) <= 32)%nat.
Proof. intros A wr rd mem [_ [_ H]]. pose proof (ring_len A wr rd mem). lia. Qed.
Lemma ring_full : forall A wr rd (mem : Z -> A), ptr_ok wr rd -> (ptr_full wr rd = true <-> length (ring wr rd mem) = 32%nat).
Proof. intros A wr rd mem OK. rewrite full_iff by exact OK. rewrite <- (ring_len A wr rd mem). lia. Qed.
Lemma ptr00 : ptr_ok 0 0.
Proof. repeat split; try lia. Qed.

(** * Lists since the last reset. *)
Lemma since_snoc : forall E A (rst : E -> bool) (f : E -> list A) tr e, since rst f (tr ++ [e]) = if rst e then [] else since rst f tr ++ f e.
Proof. intros. unfold since. now rewrite fold_left_app. Qed.

Lemma of_port_app : forall A q (a b : list (Z * A)), of_port q (a ++ b) = of_port q a ++ of_port q b.
Proof. intros. unfold of_port. now rewrite filter_app, map_app. Qed.
Lemma of_port_len : forall A B q (a : list (Z * A)) (b : list (Z * B)), map fst a = map fst b -> length (of_port q a) = length (of_port q b).
Proof.
  intros A B q. induction a as [|x a IH]; intros [|y b] H; try discriminate; [reflexivity|]. cbn [map] in H. injection H as H1 H2.
  unfold of_port in *. cbn [filter]. rewrite H1. destruct (fst y =? q); cbn [map length]; rewrite (IH b H2); reflexivity.
Qed.
Lemma of_port_nth : forall A q (l : list (Z * A)) k x, nth_error l k = Some (q, x) -> nth_error (of_port q l) (length (of_port q (firstn k l))) = Some x.
Proof.
  induction l as [|y l IH]; intros k x H; [destruct k; discriminate|]. destruct k as [|k]; cbn [nth_error firstn] in *.
  - injection H as ->. unfold of_port. cbn [filter fst map length]. rewrite Z.eqb_refl. reflexivity.
  - unfold of_port in *. cbn [filter]. destruct (fst y =? q); cbn [map length nth_error]; now apply IH.
Qed.
Lemma of_port_filter : forall A q (l : list (Z * A)) (g : Z -> bool), g q = true -> of_port q (filter (fun x => g (fst x)) l) = of_port q l.
Proof.
  intros A q l g G. unfold of_port. induction l as [|x l IH]; [reflexivity|]. cbn [filter]. destruct (g (fst x)) eqn:E; cbn [filter].
  - destruct (fst x =? q); cbn [map]; now rewrite IH.
  - destruct (Z.eqb_spec (fst x) q) as [H|H]; [rewrite H in E; congruence | exact IH].
Qed.

(** * The command side. *)
Section cmd.
Context {D : Type}.
Variable p : x_param.
Hypothesis OKP : x_ok p.
Implicit Types (s : x_state D) (i : x_in D).

Lemma select_eq : forall i, x_select p i = port_of p (xi_sel i).
Proof.
  intros i. destruct OKP as [A [B C]]. unfold x_select, port_of, psel, clog2. destruct (Z.ltb_spec 1 (xp_ports p)); [reflexivity|].
  replace (Z.log2_up (xp_ports p)) with 0 by (assert (xp_ports p = 1) as -> by lia; reflexivity). rewrite Z.pow_0_r, Z.mod_1_r. reflexivity.
Qed.
Lemma select_nonneg : forall i, 0 <= x_select p i.
Proof. intros i. rewrite select_eq. unfold port_of. apply Z.mod_pos_bound. apply Z.pow_pos_nonneg; [lia | apply Z.log2_up_nonneg]. Qed.

Lemma shl_exists : forall (b : bool) sel, 0 <= sel -> Z.shiftl (Z.b2z b) sel mod 2 ^ xp_ports p = if b && exists_port p sel then 2 ^ sel else 0.
Proof.
  intros b sel S. destruct OKP as [A _]. rewrite Z.shiftl_mul_pow2 by exact S. pose proof (Z.pow_pos_nonneg 2 (xp_ports p)). unfold exists_port. destruct b; cbn [Z.b2z andb].
  - rewrite Z.mul_1_l. destruct (Z.ltb_spec sel (xp_ports p)).
    + apply Z.mod_small. split; [apply Z.pow_nonneg; lia | apply Z.pow_lt_mono_r; lia].
    + replace sel with (xp_ports p + (sel - xp_ports p)) by lia. rewrite Z.pow_add_r by lia. rewrite Z.mul_comm. apply Z.mod_mul. lia.
  - rewrite Z.mul_0_l. apply Z.mod_0_l. lia.
Qed.

(** [A] asked, [S] sent, [R] the ports taken out of the FIFO. *)
Record xinv s (A S : list (Z * (Z * D))) (R : list Z) : Prop := {
  xi_v : vinv (xp_ports p) (xs_out s); xi_p : ptr_ok (xs_wr s) (xs_rd s);
  xi_s : filter (fun x => exists_port p (fst x)) A = S ++ vcontent (xs_out s);
  xi_r : map fst A = R ++ ring (xs_wr s) (xs_rd s) (xs_sel s) }.

Lemma handed_eq : forall s i, handed p i (vk_valid (xs_out s)) (vk_data (xs_out s)) = vgiven (xp_ports p) (xs_out s) (xi_cready i).
Proof. reflexivity. Qed.

Lemma xstep_ok : forall s i A S R pop, xinv s A S R -> xi_rst i = false -> (pop = true -> ptr_empty (xs_wr s) (xs_rd s) = false) ->
  xinv (x_cmd_step p s i (if pop then ptr_inc (xs_rd s) else xs_rd s)) (A ++ command p i (x_ready s)) (S ++ handed p i (vk_valid (xs_out s)) (vk_data (xs_out s)))
    (R ++ if pop then [xs_sel s (xs_rd s mod 32)] else []).
Proof.
  intros s i A S R pop [I1 I2 I3 I4] NR PO. unfold x_cmd_step. rewrite NR.
  set (take := xi_valid i && x_ready s). pose proof (select_nonneg i) as SN.
  assert (TR : take = true -> vk_ready (xs_out s) = true /\ ptr_full (xs_wr s) (xs_rd s) = false).
  { unfold take, x_ready. intros H. apply andb_true_iff in H. destruct H as [_ H]. apply andb_true_iff in H. destruct H as [H1 H2]. now apply negb_true_iff in H2. }
  rewrite shl_exists by exact SN. set (vint := if take && exists_port p (x_select p i) then 2 ^ x_select p i else 0).
  assert (VP : port (xp_ports p) vint).
  { unfold vint. destruct take; cbn [andb]; [|now left]. unfold exists_port. destruct (Z.ltb_spec (x_select p i) (xp_ports p)); [|now left]. right. exists (x_select p i). split; [lia | reflexivity]. }
  assert (VR : vint <> 0 -> vk_ready (xs_out s) = true). { unfold vint. destruct take; [intros; now apply TR | cbn [andb]; congruence]. }
  set (d := (xi_sel i mod 2 ^ xp_s p, xi_cmd i)).
  destruct (vskid_ok (xp_ports p) (xs_out s) (xi_cready i) vint d I1 VP VR) as [V1 [V2 _]].
  destruct (ring_step Z (xs_wr s) (xs_rd s) (xs_sel s) take pop (x_select p i) I2 (fun H => proj2 (TR H)) PO) as [P1 P2].
  constructor; cbn [xs_out xs_wr xs_rd xs_sel].
  - exact V1.
  - exact P1.
  - rewrite filter_app, I3. rewrite handed_eq, <- !app_assoc. f_equal. etransitivity; [|exact V2]. f_equal.
    unfold command. fold take. unfold vint. destruct take; cbn [andb filter fst].
    + rewrite <- select_eq. destruct (exists_port p (x_select p i)); [|reflexivity]. rewrite item_pow by exact SN. reflexivity.
    + reflexivity.
  - rewrite map_app, I4, <- !app_assoc. f_equal. rewrite <- P2. f_equal. unfold command. fold take. destruct take; [|reflexivity]. cbn [map fst]. now rewrite select_eq.
Qed.

Lemma xstep_reset : forall s i, xi_rst i = true -> xinv (x_cmd_step p s i 0) [] [] [].
Proof.
  intros s i RS. unfold x_cmd_step. rewrite RS. constructor; cbn [xs_out xs_wr xs_rd xs_sel].
  - exact (proj1 (vskid_reset (xp_ports p) _ _ _ _)).
  - apply ptr00.
  - cbn [filter app]. symmetry. exact (proj2 (vskid_reset (xp_ports p) _ _ _ _)).
  - reflexivity.
Qed.

Lemma xinv0 : forall d : Z * D, xinv (mkXs 0 0 (fun _ => 0) (mkVk 0 d 0 d false)) [] [] [].
Proof.
  intros d. constructor; cbn [xs_out xs_wr xs_rd xs_sel].
  - constructor; cbn; try (now left); congruence.
  - apply ptr00.
  - reflexivity.
  - reflexivity.
Qed.

Lemma xkept : forall s i rd A S R, xinv s A S R -> xi_rst i = false -> forall q, 0 <= q < xp_ports p -> Z.testbit (vk_valid (xs_out s)) q = true -> Z.testbit (xi_cready i) q = false ->
  Z.testbit (vk_valid (xs_out (x_cmd_step p s i rd))) q = true /\ vk_data (xs_out (x_cmd_step p s i rd)) = vk_data (xs_out s).
Proof.
  intros s i rd A S R [I1 _ _ _] NR q Q TV TR. unfold x_cmd_step. rewrite NR. cbn [xs_out].
  set (vint := Z.shiftl (Z.b2z (xi_valid i && x_ready s)) (x_select p i) mod 2 ^ xp_ports p).
  assert (VP : port (xp_ports p) vint /\ (vint <> 0 -> vk_ready (xs_out s) = true)).
  { unfold vint. rewrite shl_exists by apply select_nonneg. unfold x_ready. destruct (xi_valid i); [|split; [now left | cbn; congruence]].
    destruct (vk_ready (xs_out s)); [|split; [now left | cbn; congruence]]. split; [|auto]. cbn [andb]. destruct (negb _); [|now left]. cbn [andb]. unfold exists_port.
    destruct (Z.ltb_spec (x_select p i) (xp_ports p)); [|now left]. right. exists (x_select p i). split; [pose proof (select_nonneg i); lia | reflexivity]. }
  destruct VP as [VP VR]. destruct (vskid_ok (xp_ports p) (xs_out s) (xi_cready i) vint (xi_sel i mod 2 ^ xp_s p, xi_cmd i) I1 VP VR) as [_ [_ [_ K]]].
  destruct (v_p1 _ _ I1) as [E|[r [Rr E]]]; [rewrite E, Z.bits_0 in TV; discriminate|].
  assert (r = q). { rewrite E in TV. destruct (Z.eq_dec r q); [assumption|]. rewrite Z.pow2_bits_false in TV by assumption. discriminate. } subst r.
  destruct K as [K1 K2].
  - rewrite E. apply port_pos. lia.
  - rewrite E. apply Z.eqb_eq. rewrite land_port by lia. now rewrite TR.
  - rewrite K1, K2. auto.
Qed.
End cmd.
