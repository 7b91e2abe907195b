(** Lemmas: I/O and configuration accesses end to end. *)
From Verif Require Import PyBase BitLemmas TlpModel TlpSpec TlpProofs BarModel SplitModel SplitSpec SplitProofs SplitProofs2 IoModel IoSpec IoProofs IoProofs2.
From Coq Require Import ZifyBool ZifyNat.
Ltac Zify.zify_post_hook ::= Z.div_mod_to_equations.

Lemma cpl_arrives c tag fmt : t_fmt_type c = (fmt, 10) -> fmt = 0 \/ fmt = 2 -> t_tag c = tag -> tlp_check c = true -> answer_for tag [c].
Proof. intros H1 H2 H3 H4. split; [assumption|]. split; [assumption|]. rewrite H1. destruct H2 as [-> | ->]; reflexivity. Qed.

Lemma io_take_ok c w : t_status c = 0 -> t_length c = 1 -> t_data c = [w] -> 0 <= w < 2^32 -> io_take (Some c) = Ok (le_bytes 4 w).
Proof.
  intros H1 H2 H3 H4. unfold io_take. rewrite H1, H2, H3. cbn [Z.eqb negb CPL_STATUS_SC Pos.eqb]. cbv [py_index nth_error Z.ltb Z.compare Z.to_nat bind].
  unfold pack_u32. replace ((0 <=? w) && (w <? 2^32)) with true by lia. reflexivity.
Qed.

(** ---- I/O requests served by an arbitrary server of a byte memory ---- *)
Definition io_server {S} (serve : S -> tlp -> result (S * list tlp)) (good : S -> Prop) (view : S -> mem) (lo hi : Z) : Prop :=
  (forall st t, good st -> tlp_check t = true -> t_fmt_type t = (0, 2) -> lo <= t_address t -> t_address t + 4 <= hi -> t_length t = 1 -> 0 <= t_first_be t < 16 ->
    exists c w, serve st t = Ok (st, [c]) /\ t_fmt_type c = (2, 10) /\ t_status c = 0 /\ t_tag c = t_tag t /\ t_length c = 1 /\ t_data c = [w] /\ 0 <= w < 2^32 /\ tlp_check c = true /\
      (forall j, 0 <= j < 4 -> nth (Z.to_nat j) (le_bytes 4 w) 0 = if Z.testbit (t_first_be t) j then view st (t_address t + j) else 0)) /\
  (forall st t w, good st -> tlp_check t = true -> t_fmt_type t = (2, 2) -> lo <= t_address t -> t_address t + 4 <= hi -> t_length t = 1 -> t_last_be t = 0 -> t_data t = [w] -> 0 <= w < 2^32 ->
    exists st' c, serve st t = Ok (st', [c]) /\ good st' /\ (forall a, view st' a = apply_write (view st) t a) /\ t_fmt_type c = (0, 10) /\ t_status c = 0 /\ t_tag c = t_tag t /\ tlp_check c = true).

Lemma same_fields t h : same_except_be t h -> t_fmt_type t = t_fmt_type h /\ t_tag t = t_tag h /\ t_requester_id t = t_requester_id h /\ t_dest_id t = t_dest_id h /\ t_register_number t = t_register_number h /\ t_attr t = t_attr h /\ t_tc t = t_tc h.
Proof. intros (H1 & H2 & H3 & H4 & H5 & H6 & H7 & H8 & H9 & H10 & H11 & H12 & H13 & H14 & H15 & H16 & H17). unfold t_fmt_type. rewrite H1, H2. repeat split; assumption. Qed.

Lemma io_read_any {S} (serve : S -> tlp -> result (S * list tlp)) good view lo hi ext rid len st s addr :
  io_server serve good view lo hi -> lo mod 4 = 0 -> hi mod 4 = 0 -> good st -> queues_empty (rq_queues s) -> 0 <= len -> lo <= addr -> addr + len <= hi ->
  exists st' s' d ts, np_read_loop (Z.to_nat len) ext (io_req false rid) (fun _ t => t) io_take serve st s addr len 0 [] = Ok (st', s', d, ts) /\ slice d 0 len = mem_load (view st) addr len /\
      good st' /\ (forall a, view st' a = view st a) /\ queues_empty (rq_queues s') /\ covers addr len ts /\ Forall (io_legal false rid) ts /\ tags_from ext (rq_tag s) ts.
Proof.
  intros (HR & _) Hl4 Hh4 HG HQ Hlen Hlo Hhi.
  apply (np_read_spec ext (io_req false rid) (fun _ t => t) io_take serve good view lo hi (io_legal false rid)); auto.
  intros st1 tag a k G1 Ha1 Ha2 Hk t. destruct (req_facts a k (io_req false rid tag) Hk) as (Q1 & Q2 & Q3 & Q4 & Q5 & Q6 & Q7 & Q8). fold t in Q1, Q2, Q3, Q4, Q5, Q6, Q7, Q8.
  destruct (same_fields _ _ Q5) as (F1 & F2 & F3 & F4 & F5 & F6 & F7).
  assert (HC : tlp_check t = true) by (apply (np_check t 0 2); auto; try (rewrite F1; reflexivity); intros; discriminate).
  split. { unfold io_legal. rewrite F1, F3, F6, F7. repeat (split; [first [reflexivity|assumption|lia]|]). discriminate. }
  split; [exact HC|]. split; [exact F2|]. split; [exact Q7|].
  clearbody t. assert (X1 : lo <= t_address t) by (clear - Q1 Hl4 Ha1; lia). assert (X2 : t_address t + 4 <= hi) by (clear - Q1 Hh4 Ha2 Hk; lia).
  destruct (HR st1 t G1 HC) as (c & w & R1 & R2 & R3 & R4 & R5 & R6 & R7 & R8 & R9); auto; try lia.
  exists st1, [c], (le_bytes 4 w). split; [exact R1|]. split; [exact G1|]. split; [reflexivity|].
  split; [apply (cpl_arrives c tag 2); auto; rewrite R4; exact F2|]. split; [cbn [hd_error]; now apply io_take_ok|]. split; [reflexivity|].
  intros j Hj. rewrite R9 by lia. rewrite (proj2 (Q8 (a mod 4 + j) ltac:(lia))) by lia. f_equal. lia.
Qed.

Lemma io_write_any {S} (serve : S -> tlp -> result (S * list tlp)) good view lo hi ext rid data st s addr :
  io_server serve good view lo hi -> lo mod 4 = 0 -> hi mod 4 = 0 -> good st -> queues_empty (rq_queues s) -> Forall is_byte data -> lo <= addr -> addr + zlen data <= hi ->
  exists st' s' ts, np_write_loop (length data) ext (io_req true rid) (fun _ t => t) io_takew serve st s addr data 0 = Ok (st', s', ts) /\
      good st' /\ (forall a, view st' a = mem_store (view st) addr data a) /\ queues_empty (rq_queues s') /\ covers addr (zlen data) ts /\ Forall (io_legal true rid) ts /\ tags_from ext (rq_tag s) ts.
Proof.
  intros (_ & HW) Hl4 Hh4 HG HQ HB Hlo Hhi.
  destruct (np_write_spec ext (io_req true rid) (fun _ t => t) io_takew serve good (fun s a d s' => forall x, view s' x = mem_store (view s) a d x) lo hi (io_legal true rid)) with (data := data) (st := st) (s := s) (addr := addr)
    as (st' & s' & ts & E1 & E2 & E3 & E4); auto.
  - intros st1 tag a d G1 Ha1 Ha2 Hne HBd Hz.
    destruct (data_facts a d (io_req true rid tag) Hne HBd Hz) as (t & w & D0 & D1 & D2 & Q1 & Q2 & Q3 & Q4 & Q5 & Q7 & Q8 & Q9 & Q10).
    destruct (same_fields _ _ Q5) as (F1 & F2 & F3 & F4 & F5 & F6 & F7).
    assert (Hz0 : 0 < zlen d) by (destruct d; [congruence|unfold zlen; cbn [length]; lia]).
    exists t. split; [exact D0|]. cbv zeta beta.
    assert (HC : tlp_check t = true) by (apply (np_check t 2 2); auto; try (rewrite F1; reflexivity); intros; rewrite D1; reflexivity).
    split. { unfold io_legal. rewrite F1, F3, F6, F7. repeat (split; [first [reflexivity|assumption|lia]|]). intros _. exists w. auto. }
    split; [exact HC|]. split; [exact F2|]. split; [exact Q7|].
    assert (X1 : lo <= t_address t) by (clear - Q1 Hl4 Ha1; lia). assert (X2 : t_address t + 4 <= hi) by (clear - Q1 Hh4 Ha2 Hz0; lia).
    destruct (HW st1 t w G1 HC) as (st2 & c & R1 & R2 & R3 & R4 & R5 & R6 & R7); auto; try lia.
    exists st2, [c]. split; [exact R1|]. split; [exact R2|]. split; [intros x; rewrite R3; apply Q10|].
    split; [apply (cpl_arrives c tag 0); auto; rewrite R6; exact F2|]. cbn [hd_error io_takew]. rewrite R5. reflexivity.
  - exists st', s', ts. split; [exact E1|]. split; [exact E2|]. split; [|exact E4].
    exact (wchain_store (fun s a d s' => forall x, view s' x = mem_store (view s) a d x) view (fun s a d s' H => H) addr data st st' E3).
Qed.

Lemma ep_io_server e0 i b k : io_window_at e0 i b k -> io_server ep_serve_io (ep_like e0 i (2^k)) (ep_bytes i b) b (b + 2^k).
Proof.
  intros HW. split.
  - intros e t G HC HT H1 H2 HL HM. destruct (ep_io_read e0 i b k e t HW G H1 H2 HL HM) as (c & w & R1 & R2 & R3 & R4 & R5 & R6 & R7 & R8 & R9 & R10 & R11 & R12).
    exists c, w. unfold ep_serve_io. rewrite HC, HT. change (ft_in (0, 2) [TLP_IO_READ]) with true. cbv iota. rewrite R1. cbn [bind].
    do 8 (split; [first [reflexivity|assumption]|]). exact R12.
  - intros e t w G HC HT H1 H2 HL HB HD Hw. destruct (ep_io_write e0 i b k e t w HW G H1 H2 HL HB HD Hw) as (e' & c & R1 & R2 & R3 & R4 & R5 & R6 & R7 & R8 & R9 & R10).
    exists e', c. unfold ep_serve_io. rewrite HC, HT. change (ft_in (2, 2) [TLP_IO_READ]) with false. change (ft_in (2, 2) [TLP_IO_WRITE]) with true. cbv iota. rewrite R1.
    do 6 (split; [first [reflexivity|assumption]|]). exact R10.
Qed.

Lemma rc_io_server rs0 i lo hi : io_server rc_serve_io (rc_like rs0 i lo hi) rc_mem lo hi.
Proof.
  split.
  - intros rs t G HC HT H1 H2 HL HM. destruct (rc_h_io_read rs i lo hi t (proj1 G) (proj2 (proj2 G)) H1 H2 HL HM) as (c & w & R1 & R2 & R3 & R4 & R5 & R6 & R7 & R8 & R9 & R10 & R11 & R12).
    exists c, w. unfold rc_serve_io. rewrite HC, HT. change (ft_in (0, 2) [TLP_IO_READ]) with true. cbv iota. rewrite R1. cbn [bind].
    do 8 (split; [first [reflexivity|assumption]|]). exact R12.
  - intros rs t w G HC HT H1 H2 HL HB HD Hw. destruct (rc_h_io_write rs0 rs i lo hi t w G H1 H2 HL HB HD Hw) as (e' & c & R1 & R2 & R3 & R4 & R5 & R6 & R7 & R8 & R9 & R10).
    exists e', c. unfold rc_serve_io. rewrite HC, HT. change (ft_in (2, 2) [TLP_IO_READ]) with false. change (ft_in (2, 2) [TLP_IO_WRITE]) with true. cbv iota. rewrite R1.
    do 6 (split; [first [reflexivity|assumption]|]). exact R10.
Qed.

Lemma io_window_mod4 b k : 2 <= k -> b mod 2^k = 0 -> b mod 4 = 0 /\ (b + 2^k) mod 4 = 0.
Proof.
  intros Hk Hb. assert (E : 2^k = 4 * 2^(k-2)) by (replace 4 with (2^2) by reflexivity; rewrite <- Z.pow_add_r by lia; f_equal; lia).
  assert (0 < 2^(k-2)) by (apply Z.pow_pos_nonneg; lia). rewrite E in *.
  assert (HB : b = 4 * (2^(k-2) * (b / (4 * 2^(k-2))))) by (pose proof (Z.div_mod b (4 * 2^(k-2)) ltac:(lia)); lia).
  set (x := 2^(k-2) * (b / (4 * 2^(k-2)))) in *. set (y := 2^(k-2)) in *. clearbody x y. lia.
Qed.

(** Operations of the root complex on an endpoint. *)
Lemma ep_like_refl e i l n : region_contents e i l -> zlen l = n -> ep_like e i n e.
Proof. intros H1 H2. repeat (split; [reflexivity|]). exists l. auto. Qed.

Lemma rc_io_read_remote rs ios e0 i b k e s addr len : find_region rs addr = None -> io_window_at e0 i b k -> ep_like e0 i (2^k) e -> queues_empty (rq_queues s) -> 0 <= len -> b <= addr -> addr + len <= b + 2^k ->
  exists e' s' ts, rc_io_read rs ios ep_serve_io e s addr len = Ok (e', s', mem_load (ep_bytes i b e) addr len, ts) /\ ep_like e0 i (2^k) e' /\ (forall a, ep_bytes i b e' a = ep_bytes i b e a) /\
    queues_empty (rq_queues s') /\ covers addr len ts /\ Forall (io_legal false (mkId 0 0 0)) ts /\ tags_from false (rq_tag s) ts.
Proof.
  intros HF HW G HQ Hlen Hlo Hhi. destruct (io_window_mod4 b k (proj1 HW) (proj1 (proj2 HW))) as (M1 & M2).
  destruct (io_read_any ep_serve_io _ _ _ _ false (mkId 0 0 0) len e s addr (ep_io_server e0 i b k HW) M1 M2 G HQ Hlen Hlo Hhi) as (e' & s' & d & ts & E1 & E2 & E3).
  exists e', s', ts. unfold rc_io_read. rewrite HF, E1. cbn [bind fst snd]. rewrite E2. split; [reflexivity|exact E3].
Qed.

Lemma rc_io_write_remote rs ios e0 i b k e s addr data : find_region rs addr = None -> io_window_at e0 i b k -> ep_like e0 i (2^k) e -> queues_empty (rq_queues s) -> Forall is_byte data -> b <= addr -> addr + zlen data <= b + 2^k ->
  exists e' s' ts, rc_io_write rs ios ep_serve_io e s addr data = Ok (ios, e', s', ts) /\ ep_like e0 i (2^k) e' /\ (forall a, ep_bytes i b e' a = mem_store (ep_bytes i b e) addr data a) /\
    queues_empty (rq_queues s') /\ covers addr (zlen data) ts /\ Forall (io_legal true (mkId 0 0 0)) ts /\ tags_from false (rq_tag s) ts.
Proof.
  intros HF HW G HQ HB Hlo Hhi. destruct (io_window_mod4 b k (proj1 HW) (proj1 (proj2 HW))) as (M1 & M2).
  destruct (io_write_any ep_serve_io _ _ _ _ false (mkId 0 0 0) data e s addr (ep_io_server e0 i b k HW) M1 M2 G HQ HB Hlo Hhi) as (e' & s' & ts & E1 & E2).
  exists e', s', ts. unfold rc_io_write. rewrite HF, E1. cbn [bind fst snd]. split; [reflexivity|exact E2].
Qed.

Lemma spec_ioops_ext ops : forall m m', (forall a, m a = m' a) -> (forall a, fst (spec_ioops m ops) a = fst (spec_ioops m' ops) a) /\ snd (spec_ioops m ops) = snd (spec_ioops m' ops).
Proof.
  induction ops as [|o ops IH]; intros m m' H; [split; [exact H|reflexivity]|]. cbn [spec_ioops fst snd].
  assert (HX : (forall a, fst (spec_ioop m o) a = fst (spec_ioop m' o) a) /\ snd (spec_ioop m o) = snd (spec_ioop m' o)).
  { destruct o as [a d|a n]; cbn [spec_ioop fst snd]; [split; [apply mem_store_ext; exact H|reflexivity]|split; [exact H|apply mem_load_ext; intros; apply H]]. }
  destruct HX as (X1 & X2). destruct (IH _ _ X1) as (Y1 & Y2). split; [exact Y1|]. now rewrite X2, Y2.
Qed.

Lemma rc_exec_ios_spec rs ios e0 i b k : (forall a, b <= a <= b + 2^k -> find_region rs a = None) -> io_window_at e0 i b k -> forall ops e s, ep_like e0 i (2^k) e -> queues_empty (rq_queues s) ->
  Forall (ioop_in b (b + 2^k)) ops ->
  exists e' s' out, rc_exec_ios rs ios (e, s) ops = Ok (e', s', out) /\ ep_like e0 i (2^k) e' /\ queues_empty (rq_queues s') /\
    out = snd (spec_ioops (ep_bytes i b e) ops) /\ forall a, ep_bytes i b e' a = fst (spec_ioops (ep_bytes i b e) ops) a.
Proof.
  intros HF HW. induction ops as [|o ops IH]; intros e s G HQ HO.
  - exists e, s, []. cbn. auto.
  - inversion HO as [|? ? H1 H2]; subst. cbn [rc_exec_ios spec_ioops].
    assert (HX : exists e1 s1 d, rc_exec_io rs ios (e, s) o = Ok (e1, s1, d) /\ ep_like e0 i (2^k) e1 /\ queues_empty (rq_queues s1) /\ d = snd (spec_ioop (ep_bytes i b e) o) /\
      forall a, ep_bytes i b e1 a = fst (spec_ioop (ep_bytes i b e) o) a).
    { destruct o as [addr data|addr len]; cbn [ioop_in] in H1; cbn [rc_exec_io fst snd spec_ioop].
      - destruct H1 as (A1 & A2 & A3). pose proof (zlen_nonneg data). destruct (rc_io_write_remote rs ios e0 i b k e s addr data) as (e1 & s1 & ts & E1 & E2 & E3 & E4 & _); auto; [apply HF; lia|].
        exists e1, s1, []. rewrite E1. cbn [bind fst snd]. auto.
      - destruct H1 as (A1 & A2 & A3). destruct (rc_io_read_remote rs ios e0 i b k e s addr len) as (e1 & s1 & ts & E1 & E2 & E3 & E4 & _); auto; [apply HF; lia|].
        exists e1, s1, (mem_load (ep_bytes i b e) addr len). rewrite E1. cbn [bind fst snd]. auto. }
    destruct HX as (e1 & s1 & d & X1 & X2 & X3 & X4 & X5). destruct (IH e1 s1 X2 X3 H2) as (e2 & s2 & out & Y1 & Y2 & Y3 & Y4 & Y5).
    exists e2, s2, (d :: out). rewrite X1. cbn [bind fst snd]. rewrite Y1. cbn [bind fst snd].
    destruct (spec_ioops_ext ops _ _ X5) as (Z1 & Z2).
    split; [reflexivity|]. split; [assumption|]. split; [assumption|]. split; [rewrite X4, Y4, Z2; reflexivity|]. intros a. rewrite Y5. apply Z1.
Qed.

(** Operations of a function on the root complex. *)
Lemma fn_exec_ios_spec ext rid rs0 i lo hi : lo mod 4 = 0 -> hi mod 4 = 0 -> forall ops rs s, rc_like rs0 i lo hi rs -> queues_empty (rq_queues s) ->
  Forall (ioop_in lo hi) ops ->
  exists rs' s' out, fn_exec_ios true ext rid (rs, s) ops = Ok (rs', s', out) /\ rc_like rs0 i lo hi rs' /\ queues_empty (rq_queues s') /\
    out = map Some (snd (spec_ioops (rc_mem rs) ops)) /\ forall a, rc_mem rs' a = fst (spec_ioops (rc_mem rs) ops) a.
Proof.
  intros M1 M2. pose proof (rc_io_server rs0 i lo hi) as HS. induction ops as [|o ops IH]; intros rs s G HQ HO.
  - exists rs, s, []. cbn. auto.
  - inversion HO as [|? ? H1 H2]; subst. cbn [fn_exec_ios spec_ioops].
    assert (HX : exists e1 s1 d, fn_exec_io true ext rid (rs, s) o = Ok (e1, s1, Some d) /\ rc_like rs0 i lo hi e1 /\ queues_empty (rq_queues s1) /\ d = snd (spec_ioop (rc_mem rs) o) /\
      forall a, rc_mem e1 a = fst (spec_ioop (rc_mem rs) o) a).
    { destruct o as [addr data|addr len]; cbn [ioop_in] in H1; cbn [fn_exec_io fst snd spec_ioop].
      - destruct H1 as (A1 & A2 & A3). destruct (io_write_any rc_serve_io _ _ _ _ ext rid data rs s addr HS M1 M2 G HQ A3 A1 A2) as (e1 & s1 & ts & E1 & E2 & E3 & E4 & _).
        exists e1, s1, []. unfold function_io_write. cbn [negb]. rewrite E1. cbn [bind fst snd]. auto.
      - destruct H1 as (A1 & A2 & A3). destruct (io_read_any rc_serve_io _ _ _ _ ext rid len rs s addr HS M1 M2 G HQ A3 A1 A2) as (e1 & s1 & d & ts & E1 & E1' & E2 & E3 & E4 & _).
        exists e1, s1, (mem_load (rc_mem rs) addr len). unfold function_io_read. cbn [negb]. rewrite E1. cbn [bind fst snd]. rewrite E1'. auto. }
    destruct HX as (e1 & s1 & d & X1 & X2 & X3 & X4 & X5). destruct (IH e1 s1 X2 X3 H2) as (e2 & s2 & out & Y1 & Y2 & Y3 & Y4 & Y5).
    exists e2, s2, (Some d :: out). rewrite X1. cbn [bind fst snd]. rewrite Y1. cbn [bind fst snd].
    destruct (spec_ioops_ext ops _ _ X5) as (Z1 & Z2).
    split; [reflexivity|]. split; [assumption|]. split; [assumption|]. split; [rewrite X4, Y4, Z2; reflexivity|]. intros a. rewrite Y5. apply Z1.
Qed.

(** The requests of one operation of a function. *)
Lemma fn_io_requests {S} (serve : S -> tlp -> result (S * list tlp)) good view lo hi ext rid st s o : io_server serve good view lo hi -> lo mod 4 = 0 -> hi mod 4 = 0 -> good st -> queues_empty (rq_queues s) -> ioop_in lo hi o ->
  match o with
  | IoWrite addr data => exists st' s' ts, function_io_write true ext rid serve st s addr data = Ok (st', s', ts) /\ good st' /\ (forall a, view st' a = mem_store (view st) addr data a) /\
      covers addr (zlen data) ts /\ Forall (io_legal true rid) ts /\ tags_from ext (rq_tag s) ts
  | IoRead addr len => exists st' s' ts, function_io_read true ext rid serve st s addr len = Ok (st', s', Some (mem_load (view st) addr len), ts) /\ good st' /\ (forall a, view st' a = view st a) /\
      covers addr len ts /\ Forall (io_legal false rid) ts /\ tags_from ext (rq_tag s) ts
  end.
Proof.
  intros HS M1 M2 G HQ HO. destruct o as [addr data|addr len]; destruct HO as (A1 & A2 & A3).
  - destruct (io_write_any serve _ _ _ _ ext rid data st s addr HS M1 M2 G HQ A3 A1 A2) as (e1 & s1 & ts & E1 & E2 & E3 & E4 & E5). exists e1, s1, ts. unfold function_io_write. cbn [negb]. auto.
  - destruct (io_read_any serve _ _ _ _ ext rid len st s addr HS M1 M2 G HQ A3 A1 A2) as (e1 & s1 & d & ts & E1 & E1' & E2 & E3 & E4 & E5). exists e1, s1, ts. unfold function_io_read. cbn [negb]. rewrite E1. cbn [bind fst snd]. rewrite E1'. auto.
Qed.
