From Verif Require Import PyBase RtlModel RtlFcModel RtlFifoModel RtlFifoSpec RtlFifoProofs RtlFmuxModel RtlFmuxSpec RtlFmuxProofs RtlFmuxProofs2 RtlFmuxProofs3 RtlFmuxProofs5 RtlPtTxModel RtlPtTxSpec.

(** The clocks of the multiplexer. *)
Definition mins (f : fi_param) (s : tx_state) (l : list tx_in) : list fm_in := map (fun e => tx_min (snd e) (fst e)) (tx_trace f s l).
Lemma mux_of f : forall l s, fm_trace (tx_mp f) (ts_mux s) (mins f s l) = map (fun e => (tx_min (snd e) (fst e), ts_mux (snd e))) (tx_trace f s l).
Proof. induction l as [|i t IH]; intros s; [reflexivity|]. unfold mins. cbn [tx_trace map fm_trace fst snd]. f_equal. apply (IH (tx_step f s i)). Qed.
Lemma mux_run f : forall l s, ts_mux (tx_run f s l) = fm_run (tx_mp f) (ts_mux s) (mins f s l).
Proof. induction l as [|i t IH]; intros s; [reflexivity|]. unfold mins. cbn [tx_trace map tx_run fm_run fold_left fst snd]. apply (IH (tx_step f s i)). Qed.
Lemma mins_running f : forall l s, Forall t_running l -> Forall m_running (mins f s l).
Proof. induction l as [|i t IH]; intros s H; [constructor|]. inversion H as [|? ? Hi Ht]; subst. unfold mins. cbn [tx_trace map fst snd]. constructor; [exact Hi|apply (IH (tx_step f s i) Ht)]. Qed.
Lemma mp_ok_tx f : fp_ok f -> mp_ok (tx_mp f).
Proof. intros H. split; [cbn; lia|exact H]. Qed.

Definition strip (b : fbeat) : fbeat := t_bare (fb_data b) (fb_hdr b) (fb_sop b) (fb_eop b).
Lemma taken_strip n e : t_taken n e = map strip (m_taken n (tx_min (snd e) (fst e), ts_mux (snd e))).
Proof.
  unfold t_taken, m_taken. cbn [fst snd tx_min mi_valid mi_b]. destruct (ti_valid (fst e) n && _); [|reflexivity]. cbn [map]. f_equal. unfold tx_beat. destruct (n =? 2); [reflexivity|]. destruct (n =? 3); reflexivity.
Qed.
Lemma whole_strip : forall l q, whole (map strip q) (map strip l) = map strip (whole q l).
Proof.
  induction l as [|b t IH]; intros q; [reflexivity|]. cbn [map whole]. change (fb_eop (strip b)) with (fb_eop b). destruct (fb_eop b).
  - rewrite !map_app. cbn [map]. rewrite <- (IH []). reflexivity.
  - rewrite <- (IH (q ++ [b])), map_app. reflexivity.
Qed.
Definition estrip (e : Z * fbeat) : Z * fbeat := (fst e, strip (snd e)).
Lemma together_strip : forall l o, together o l -> together o (map estrip l).
Proof. induction l as [|[n b] t IH]; intros o H; [exact I|]. cbn [map estrip together fst snd] in *. split; [apply H|apply IH, H]. Qed.
Lemma port_strip n l : of_port n (map estrip l) = map strip (of_port n l).
Proof. unfold of_port. induction l as [|[m b] t IH]; [reflexivity|]. cbn [map estrip filter fst snd]. destruct (m =? n); cbn [map snd]; rewrite IH; reflexivity. Qed.

(** What is sent in a clock is what the multiplexer gave in the clock before. *)
Definition osent (o : tx_out) : list fbeat := if to_v o then [t_bare (to_data o) (to_hdr o) (to_sop o) (to_eop o)] else [].
Lemma sent_next f s i : t_running i -> osent (ts_out (tx_step f s i)) = map strip (m_given (tx_min s i, ts_mux s)).
Proof.
  intros Hi. unfold tx_step. rewrite Hi. cbn [ts_out]. unfold tx_out_next, m_given, osent. cbn [fst snd tx_min mi_ready]. destruct (ts_r1 s); [|rewrite andb_false_r; reflexivity]. cbn [to_v to_data to_hdr to_sop to_eop]. rewrite andb_true_r. destruct (mo_v (ms_out (ts_mux s))); reflexivity.
Qed.
Lemma sent_all f : forall l s, Forall t_running l ->
  osent (ts_out s) ++ map strip (flat_map m_given (fm_trace (tx_mp f) (ts_mux s) (mins f s l))) = flat_map t_sent (tx_trace f s l) ++ osent (ts_out (tx_run f s l)).
Proof.
  induction l as [|i t IH]; intros s H; [cbn; rewrite app_nil_r; reflexivity|]. inversion H as [|? ? Hi Ht]; subst. specialize (IH (tx_step f s i) Ht). rewrite (sent_next f s i Hi) in IH.
  unfold mins. cbn [tx_trace map fm_trace flat_map tx_run fold_left fst snd]. change (t_sent (i, s)) with (osent (ts_out s)). rewrite <- app_assoc. f_equal. rewrite map_app. exact IH.
Qed.

Lemma tx_ok f s i l : fp_ok f -> ti_rst i = true -> Forall t_running l -> let tr := tx_trace f (tx_step f s i) l in
  exists ev, (exists rest, map snd ev = flat_map t_sent tr ++ rest /\ (length rest <= 20)%nat) /\
    (forall n, exists rest, whole [] (flat_map (t_taken n) tr) = of_port n ev ++ rest /\ Z.of_nat (length rest) <= fp_d f + 1) /\ together None ev.
Proof.
  intros Hp Hr Hl tr. set (s0 := tx_step f s i) in *.
  destruct (mux_ok (tx_mp f) (ts_mux s) (tx_min s i) (mins f s0 l) (mp_ok_tx f Hp) Hr (mins_running f l s0 Hl)) as (ev & (rest & A & AL) & B & C).
  change (fm_step (tx_mp f) (ts_mux s) (tx_min s i)) with (ts_mux s0) in *. exists (map estrip ev). split; [|split].
  - pose proof (sent_all f l s0 Hl) as E. assert (E0 : osent (ts_out s0) = []) by (unfold s0, tx_step; rewrite Hr; reflexivity). rewrite E0 in E. cbn [app] in E.
    exists (osent (ts_out (tx_run f s0 l)) ++ map strip rest). split.
    + unfold tr. rewrite app_assoc, <- E. rewrite map_map. change (map (fun x => snd (estrip x)) ev) with (map (fun x => strip (snd x)) ev). rewrite <- (map_map snd strip), A, map_app. reflexivity.
    + rewrite app_length, map_length. unfold osent. destruct (to_v _); cbn [length]; lia.
  - intros n. destruct (B n) as (r & E & L). exists (map strip r). rewrite map_length. split; [|exact L]. rewrite port_strip, <- map_app, <- E, <- whole_strip. f_equal.
    rewrite mux_of. unfold tr. clear. induction (tx_trace f s0 l) as [|e t IH]; [reflexivity|]. cbn [flat_map map]. rewrite map_app, <- taken_strip, IH. reflexivity.
  - apply together_strip, C.
Qed.

(** Ready latency, no gaps. *)
Definition TI (f : fi_param) (s : tx_state) : Prop := exists qd qc qo oq, HI (tx_mp f) (ts_mux s) qd qc qo oq.
Lemma ti_step f s i : fp_ok f -> t_running i -> TI f s -> TI f (tx_step f s i).
Proof. intros Hp Hi (a & b & c & d & H). destruct (hi_step (tx_mp f) (ts_mux s) (tx_min s i) _ _ _ _ (mp_ok_tx f Hp) Hi H) as (a' & b' & c' & d' & H'). exists a', b', c', d'. exact H'. Qed.
(** A TLP is open at the output of the multiplexer: it then has the next beat. *)
Lemma rules_ok f : fp_ok f -> forall l s o r3, Forall t_running l -> TI f s -> (to_v (ts_out s) = true -> r3 = true) ->
  (o = true -> r3 = true -> to_v (ts_out s) = true) -> ((if to_v (ts_out s) then negb (to_eop (ts_out s)) else o) = true -> mo_v (ms_out (ts_mux s)) = true) ->
  t_rules (ts_r0 s) (ts_r1 s) r3 o (tx_trace f s l).
Proof.
  intros Hp. induction l as [|i t IH]; intros s o r3 Hl T H1 H2 H3; [exact I|]. inversion Hl as [|? ? Hi Ht]; subst. cbn [tx_trace t_rules]. split; [exact H1|]. split; [exact H2|].
  assert (R0 : ts_r0 (tx_step f s i) = ti_ready i) by (unfold tx_step; rewrite Hi; reflexivity). assert (R1 : ts_r1 (tx_step f s i) = ts_r0 s) by (unfold tx_step; rewrite Hi; reflexivity).
  assert (EO : ts_out (tx_step f s i) = tx_out_next s) by (unfold tx_step; rewrite Hi; reflexivity).
  rewrite <- R0, <- R1. set (o' := if to_v (ts_out s) then negb (to_eop (ts_out s)) else o) in *.
  assert (EV : mo_v (ms_out (ts_mux s)) = true -> fb_eop (mo_b (ms_out (ts_mux s))) = false \/ ts_r1 s = false -> mo_v (ms_out (ts_mux (tx_step f s i))) = true).
  { intros V N. destruct T as (a & b & c & oq & H). pose proof (h_gap _ _ _ _ _ _ H V) as HG. pose proof (oi_empty _ _ _ (g_out _ _ _ _ _ _ (h_gi _ _ _ _ _ _ H))) as HE.
    unfold tx_step. cbn [ts_mux]. unfold fm_step. cbn [tx_min mi_rst mi_ready]. rewrite Hi. cbv zeta. cbn [ms_out]. unfold mo_step. cbn [mo_v]. unfold mo_pop. rewrite HE, V.
    destruct N as [N| ->]; [|destruct oq; reflexivity]. specialize (HG N). destruct oq; [destruct (HG eq_refl)|]. destruct (ts_r1 s); reflexivity. }
  apply IH; [exact Ht|apply ti_step; assumption| | |]; rewrite EO; unfold tx_out_next; destruct (ts_r1 s) eqn:R; cbn [to_v to_eop]; try congruence.
  - intros O _. apply H3, O.
  - destruct (mo_v (ms_out (ts_mux s))) eqn:V.
    + intros N. apply negb_true_iff in N. apply EV; [reflexivity|left; exact N].
    + intros O. specialize (H3 O). discriminate.
  - intros O. apply EV; [apply H3, O|right; reflexivity].
Qed.
Lemma tx_rules f s i l : fp_ok f -> ti_rst i = true -> Forall t_running l -> t_rules false false false false (tx_trace f (tx_step f s i) l).
Proof.
  intros Hp Hr Hl. set (s0 := tx_step f s i). assert (R : ts_r0 s0 = false /\ ts_r1 s0 = false /\ to_v (ts_out s0) = false) by (unfold s0, tx_step; rewrite Hr; repeat split). destruct R as (R0 & R1 & V).
  rewrite <- R0 at 1. rewrite <- R1 at 1. apply rules_ok; [exact Hp|exact Hl| |congruence|congruence|rewrite V; discriminate].
  exists (fun _ => []), (fun _ => []), (fun _ => []), []. apply (hi_reset (tx_mp f) (ts_mux s) (tx_min s i) (mp_ok_tx f Hp) Hr).
Qed.

Lemma tx_run_app f l m s : tx_run f s (l ++ m) = tx_run f (tx_run f s l) m.
Proof. apply fold_left_app. Qed.
Lemma tx_credit f s r l h i j n : fp_ok f -> ti_rst r = true -> Forall t_running l -> t_running h -> t_running i -> t_running j ->
  ms_osqv (ts_mux (tx_run f (tx_step f s r) (l ++ [h; i; j]))) n = true -> 0 <= n < 4 /\ t_credit (tx_run f (tx_step f s r) l) n.
Proof.
  intros Hp Hr Hl Hh Hi Hj H. set (s0 := tx_step f s r) in *. replace (l ++ [h; i; j]) with ((l ++ [h]) ++ [i; j]) in H by (rewrite <- app_assoc; reflexivity).
  rewrite tx_run_app in H. set (s1 := tx_run f s0 (l ++ [h])) in *. cbn [tx_run fold_left] in H.
  destruct (mux_pause (tx_mp f) (ts_mux s) (tx_min s r) (mins f s0 (l ++ [h])) (tx_min s1 i) (tx_min (tx_step f s1 i) j) n (mp_ok_tx f Hp) Hr) as (N & P & _ & _).
  - apply mins_running. apply Forall_app. split; [exact Hl|]. constructor; [exact Hh|constructor].
  - exact Hi.
  - exact Hj.
  - rewrite fm_run_app. change (fm_step (tx_mp f) (ts_mux s) (tx_min s r)) with (ts_mux s0). rewrite <- mux_run. fold s1. exact H.
  - split; [exact N|]. cbn [tx_min mi_pause] in P. unfold tx_pause in P. apply negb_false_iff in P. unfold s1 in P. rewrite tx_run_app in P. cbn [tx_run fold_left] in P. set (s2 := tx_run f s0 l) in *.
    change (fold_left (tx_step f) l s0) with s2 in P. unfold t_credit. unfold tx_step in P. cbn [ts_p ts_np ts_cpl] in P.
    destruct (n =? 1); [|destruct (n =? 2)]; rewrite ?andb_true_iff, ?Z.gtb_lt in P; lia.
Qed.
