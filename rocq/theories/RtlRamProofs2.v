(** Lemmas on the segmented RAMs (C88): whole runs. *)
From Verif Require Import PyBase RtlModel RtlProofs RtlFcProofs RtlRamModel RtlRamSpec RtlRamProofs.
From Coq Require Import Lia.

Lemma on_bsel : forall v n, 0 <= n -> (bsel v n =? 1) = Z.testbit v n.
Proof. intros. rewrite bsel_testbit by lia. now destruct (Z.testbit v n). Qed.

Lemma lane_psel : forall v n w, lane v n w = psel v (n * w) w.
Proof. reflexivity. Qed.

Lemma psel_psel : forall v a w b c, 0 <= a -> 0 <= b -> 0 <= c -> b + c <= w -> psel (psel v a w) b c = psel v (a + b) c.
Proof.
  intros v a w b c A B C D. apply Z.bits_inj'. intros k K. rewrite !psel_bits by lia. destruct (Z.ltb_spec k c); [|reflexivity]. cbn [andb].
  destruct (Z.ltb_spec (b + k) w); [|lia]. cbn [andb]. f_equal. lia.
Qed.

Lemma Forall2_length : forall A B (R : A -> B -> Prop) l1 l2, Forall2 R l1 l2 -> length l1 = length l2.
Proof. induction 1; cbn [length]; lia. Qed.

Section Ram.
Variables (p : ram_param) (n : Z).
Hypothesis OKP : ram_ok p.
Hypothesis HN : 0 <= n.

Lemma addr_eq : forall v, lane v n (rp_aw p) mod 2 ^ rp_iaw p = psel v (rp_aw p * n) (rp_iaw p).
Proof.
  intros v. destruct OKP as [A [B [C D]]]. rewrite lane_psel. transitivity (psel (psel v (n * rp_aw p) (rp_aw p)) 0 (rp_iaw p)).
  - unfold psel at 2. now rewrite Z.pow_0_r, Z.div_1_r.
  - rewrite psel_psel by nia. f_equal. ring.
Qed.

Lemma be_eq : forall v k, 0 <= k < rp_bew p -> Z.testbit (lane v n (rp_bew p)) k = (bsel v (n * rp_bew p + k) =? 1).
Proof.
  intros v k K. rewrite on_bsel by nia. rewrite lane_psel, psel_bits by nia. destruct (Z.ltb_spec k (rp_bew p)); [reflexivity | lia].
Qed.

Lemma data_eq : forall v k, 0 <= k < rp_bew p -> lane (lane v n (8 * rp_bew p)) k 8 = psel v (rp_dw p * n + k * 8) 8.
Proof.
  intros v k K. destruct OKP as [A [B [C D]]]. rewrite !lane_psel. rewrite psel_psel by nia. rewrite B. f_equal. ring.
Qed.

Lemma write_spec : forall i m b, 0 <= m b < 2 ^ (8 * rp_bew p) ->
  0 <= ram_write p n m i b < 2 ^ (8 * rp_bew p)
  /\ forall j, 0 <= j < rp_bew p -> psel (ram_write p n m i b) (j * 8) 8
     = if (bsel (ri_wvalid i) n =? 1) && (bsel (ri_wbe i) (n * rp_bew p + j) =? 1) && (psel (ri_waddr i) (rp_aw p * n) (rp_iaw p) =? b)
       then psel (ri_wdata i) (rp_dw p * n + j * 8) 8 else psel (m b) (j * 8) 8.
Proof.
  intros i m b R. unfold ram_write. set (a := psel (ri_waddr i) (rp_aw p * n) (rp_iaw p)).
  assert (G : forall L m, (forall k, In k L -> 0 <= k < rp_bew p) -> 0 <= m b < 2 ^ (8 * rp_bew p) ->
    let r := fold_left (fun m k => if (bsel (ri_wvalid i) n =? 1) && (bsel (ri_wbe i) (n * rp_bew p + k) =? 1)
      then upd m a (put (m a) (k * 8) 8 (psel (ri_wdata i) (rp_dw p * n + k * 8) 8)) else m) L m in
    0 <= r b < 2 ^ (8 * rp_bew p) /\ forall j, 0 <= j < rp_bew p -> psel (r b) (j * 8) 8
      = if existsb (Z.eqb j) L && ((bsel (ri_wvalid i) n =? 1) && (bsel (ri_wbe i) (n * rp_bew p + j) =? 1) && (a =? b))
        then psel (ri_wdata i) (rp_dw p * n + j * 8) 8 else psel (m b) (j * 8) 8).
  { clear m R. induction L as [|k L IH]; intros m I R; cbn [fold_left existsb andb]; [auto|].
    assert (K : 0 <= k < rp_bew p) by (apply I; now left).
    set (m1 := if (bsel (ri_wvalid i) n =? 1) && (bsel (ri_wbe i) (n * rp_bew p + k) =? 1)
      then upd m a (put (m a) (k * 8) 8 (psel (ri_wdata i) (rp_dw p * n + k * 8) 8)) else m).
    assert (M1 : 0 <= m1 b < 2 ^ (8 * rp_bew p) /\ forall j, 0 <= j -> psel (m1 b) (j * 8) 8
      = if (j =? k) && ((bsel (ri_wvalid i) n =? 1) && (bsel (ri_wbe i) (n * rp_bew p + j) =? 1) && (a =? b)) then psel (ri_wdata i) (rp_dw p * n + j * 8) 8 else psel (m b) (j * 8) 8).
    { unfold m1. destruct (bsel (ri_wvalid i) n =? 1) eqn:W; cbn [andb]; [|split; [exact R | intros; now rewrite andb_false_r]].
      destruct (Z.eqb_spec a b) as [<-|N].
      - destruct (bsel (ri_wbe i) (n * rp_bew p + k) =? 1) eqn:BE.
        + rewrite upd_same. split; [apply put_range; lia|]. intros j J. rewrite psel_put by lia. destruct (Z.eqb_spec j k) as [->|]; [|reflexivity].
          rewrite BE. cbn [andb]. apply Z.mod_small. apply psel_range. lia.
        + split; [exact R|]. intros j J. destruct (Z.eqb_spec j k) as [->|]; [|reflexivity]. now rewrite BE.
      - split.
        + destruct (bsel (ri_wbe i) (n * rp_bew p + k) =? 1); [rewrite upd_other by congruence|]; exact R.
        + intros j J. rewrite andb_false_r, andb_false_r. destruct (bsel (ri_wbe i) (n * rp_bew p + k) =? 1); [now rewrite upd_other by congruence | reflexivity]. }
    destruct M1 as [M1 M2]. destruct (IH m1 (fun x X => I x (or_intror X)) M1) as [R1 R2]. split; [exact R1|].
    intros j J. rewrite R2 by exact J. rewrite M2 by lia. destruct (existsb (Z.eqb j) L); cbn [andb]; [rewrite orb_true_r|rewrite orb_false_r]; cbn [andb].
    - destruct (_ && _ && _) eqn:E; [reflexivity|]. now rewrite andb_false_r.
    - reflexivity. }
  destruct (G (map Z.of_nat (seq 0 (Z.to_nat (rp_bew p)))) m) as [G1 G2]; [|exact R|].
  { intros k I. apply in_map_iff in I. destruct I as [q [<- Q]]. apply in_seq in Q. lia. }
  split; [exact G1|]. intros j J. rewrite G2 by exact J.
  assert (E : existsb (Z.eqb j) (map Z.of_nat (seq 0 (Z.to_nat (rp_bew p)))) = true).
  { apply existsb_exists. exists j. split; [|apply Z.eqb_refl]. apply in_map_iff. exists (Z.to_nat j). split; [lia|]. apply in_seq. lia. }
  rewrite E. reflexivity.
Qed.

Lemma word_step : forall a tr e w m, m a = w -> word_ok p n a tr w ->
  word_ok p n a (tr ++ [e]) ((if ri_wclk (re_in e) then ram_write p n m (re_in e) else m) a).
Proof.
  intros a tr e w m <- [R B]. unfold word_ok, byte. split.
  - destruct (ri_wclk (re_in e)); [|exact R]. now apply write_spec.
  - intros k K. rewrite fold_left_app. cbn [fold_left]. fold (byte p n a k tr). rewrite <- B by exact K.
    unfold byte_step, writes. rewrite addr_eq, be_eq, data_eq by exact K. rewrite <- on_bsel by exact HN.
    destruct (ri_wclk (re_in e)); cbn [andb]; [|reflexivity].
    rewrite lane_psel. destruct (write_spec (re_in e) m a R) as [_ W]. now rewrite W.
Qed.

Lemma trace_app : forall l1 l2 s, ram_trace p n s (l1 ++ l2) = ram_trace p n s l1 ++ ram_trace p n (ram_run p n s l1) l2.
Proof. induction l1 as [|i l1 IH]; intros l2 s; [reflexivity|]. cbn [app ram_trace]. rewrite IH. reflexivity. Qed.
Lemma run_snoc : forall l i s, ram_run p n s (l ++ [i]) = ram_step p n (ram_run p n s l) i.
Proof. intros. unfold ram_run. now rewrite fold_left_app. Qed.

Definition inside (s : ram_seg) : list Z := below (rs_valid s) (rs_data s) (Z.to_nat (rp_pipe p)).

(** One step. *)
Lemma step_reads : forall s i, ri_rclk i = true -> ri_rrst i = false -> rs_valid (ram_step p n s i) = fst (ram_pipe p n s i) /\ rs_data (ram_step p n s i) = snd (ram_pipe p n s i).
Proof. intros s i C R. unfold ram_step. rewrite C. destruct (ram_pipe p n s i). auto. Qed.
Lemma step_reset : forall s i, ri_rclk i = true -> ri_rrst i = true -> inside (ram_step p n s i) = [].
Proof.
  intros s i C R. unfold ram_step, inside. rewrite C. unfold ram_pipe. rewrite R.
  destruct (ram_shift _ _ _ _ _ _) as [v d]. destruct (_ && _); cbn [rs_valid rs_data]; apply below_none.
Qed.
Lemma step_idle : forall s i, ri_rclk i = false -> rs_valid (ram_step p n s i) = rs_valid s /\ rs_data (ram_step p n s i) = rs_data s.
Proof. intros s i C. unfold ram_step. rewrite C. auto. Qed.
Lemma step_mem : forall s i, rs_mem (ram_step p n s i) = if ri_wclk i then ram_write p n (rs_mem s) i else rs_mem s.
Proof. intros s i. unfold ram_step. destruct (if ri_rclk i then _ else _). reflexivity. Qed.
Lemma step_done : forall s i, rs_done (ram_step p n s i) = if ri_wclk i then ram_done p n i else rs_done s.
Proof. intros s i. unfold ram_step. destruct (if ri_rclk i then _ else _). reflexivity. Qed.

Definition good (q : list ram_ev * Z) (w : Z) : Prop := word_ok p n (snd q) (fst q) w.

Definition ram_inv (tr : list ram_ev) (s : ram_seg) : Prop :=
  (forall a, word_ok p n a tr (rs_mem s a)) /\ rs_done s = fold_left (last_write n) tr false
  /\ fst (fold_left (asked_step p n) tr ([], [])) = tr /\ Forall2 good (asked p n tr) (answers n tr ++ inside s).

Lemma ram_inv_run : forall l, ram_inv (ram_trace p n ram0 l) (ram_run p n ram0 l).
Proof.
  destruct OKP as [O1 [O2 [O3 O4]]].
  induction l as [|i l IH] using rev_ind.
  - unfold ram_inv. cbn [ram_trace ram_run fold_left fst]. split; [|split; [reflexivity | split; [reflexivity|]]].
    + intros a. split; [cbn [rs_mem ram0]; pose proof (Z.pow_pos_nonneg 2 (8 * rp_bew p)); lia|]. intros k K. cbn [rs_mem ram0]. unfold lane.
      rewrite Z.div_0_l by (apply Z.pow_nonzero; lia). reflexivity.
    + unfold inside. cbn [rs_valid rs_data ram0]. rewrite below_none. constructor.
  - rewrite trace_app, run_snoc. cbn [ram_trace]. set (tr := ram_trace p n ram0 l) in *. set (s := ram_run p n ram0 l) in *.
    set (e := ram_event p n s i). assert (EI : re_in e = i) by reflexivity. destruct IH as [A [B [C D]]].
    unfold ram_inv, asked, answers. rewrite !fold_left_app. cbn [fold_left]. split; [|split; [|split]].
    + intros a. rewrite step_mem. apply (word_step a tr e (rs_mem s a)); [reflexivity | apply A].
    + rewrite step_done, <- B. unfold last_write. rewrite EI. destruct (ri_wclk i); [|reflexivity].
      unfold ram_done. rewrite on_bsel by exact HN. destruct (Z.ltb_spec 0 (rp_bew p)); [reflexivity | lia].
    + unfold asked_step at 1. destruct (fold_left (asked_step p n) tr ([], [])) as [past q] eqn:E. cbn [fst] in *. now rewrite C.
    + unfold asked in D. unfold asked_step at 1. destruct (fold_left (asked_step p n) tr ([], [])) as [past q] eqn:E. cbn [fst snd] in *. subst past.
      fold (answers n tr). unfold ans_step. rewrite EI. destruct (ri_rclk i) eqn:CK; cbn [negb andb].
      2:{ unfold takes. rewrite EI, CK. cbn [andb]. unfold inside in *. destruct (step_idle s i CK) as [-> ->]. exact D. }
      destruct (ri_rrst i) eqn:RS.
      { rewrite step_reset by assumption. constructor. }
      destruct (step_reads s i CK RS) as [SV SD]. unfold inside in *. rewrite SV, SD.
      pose proof (pipe_conserve p n s i ltac:(lia) RS) as PC.
      assert (TK : takes n e = taking p n s i). { unfold takes, taking. rewrite EI, CK, <- on_bsel by exact HN. reflexivity. }
      rewrite TK. set (N := below (fst (ram_pipe p n s i)) (snd (ram_pipe p n s i)) (Z.to_nat (rp_pipe p))) in *.
      set (O := below (rs_valid s) (rs_data s) (Z.to_nat (rp_pipe p))) in *.
      assert (OUT : (if re_valid e && Z.testbit (ri_rready i) n then answers n tr ++ [re_data e] else answers n tr)
        = answers n tr ++ (if bsel (ri_rready i) n =? 1 then cell (rs_valid s) (rs_data s) (rp_pipe p - 1) else [])).
      { rewrite <- on_bsel by exact HN. unfold e, ram_event, cell. cbn [re_valid re_data]. destruct (rs_valid s (rp_pipe p - 1)); destruct (bsel (ri_rready i) n =? 1); cbn [andb]; now rewrite ?app_nil_r. }
      rewrite OUT, <- app_assoc, <- PC. rewrite app_assoc.
      destruct (taking p n s i); [|now rewrite app_nil_r]. apply Forall2_app; [exact D|]. constructor; [|constructor].
      unfold good. cbn [fst snd]. rewrite addr_eq. apply A.
Qed.

Lemma Forall2_split : forall A B (R : A -> B -> Prop) l1 l2 l, Forall2 R l (l1 ++ l2) -> exists x y, l = x ++ y /\ Forall2 R x l1 /\ Forall2 R y l2.
Proof.
  induction l1 as [|b l1 IH]; intros l2 l H; cbn [app] in *.
  - exists [], l. auto.
  - inversion H as [|a b' l' l'' H1 H2]; subst. destruct (IH _ _ H2) as [x [y [E [F G]]]]. subst l'. exists (a :: x), y. repeat split; auto.
Qed.

Lemma ram_answered : forall l, answered p n (ram_trace p n ram0 l).
Proof.
  intros l. destruct (ram_inv_run l) as [_ [_ [_ D]]]. apply Forall2_split in D. destruct D as [x [y [E [F G]]]]. exists x, y. split; [exact E|]. split; [exact F|].
  apply Forall2_length in G. pose proof (below_len (rs_valid (ram_run p n ram0 l)) (rs_data (ram_run p n ram0 l)) (Z.to_nat (rp_pipe p))). unfold inside in G.
  destruct OKP as [_ [_ [_ O]]]. lia.
Qed.

Lemma trace_split : forall l s a e b, ram_trace p n s l = a ++ e :: b ->
  exists l1 i l2, l = l1 ++ i :: l2 /\ a = ram_trace p n s l1 /\ e = ram_event p n (ram_run p n s l1) i /\ b = ram_trace p n (ram_step p n (ram_run p n s l1) i) l2.
Proof.
  induction l as [|i l IH]; intros s a e b E; [destruct a; discriminate|]. cbn [ram_trace] in E. destruct a as [|x a]; cbn [app] in E.
  - injection E as <- <-. exists [], i, l. auto.
  - injection E as <- E. destruct (IH _ _ _ _ E) as [l1 [j [l2 [-> [-> [-> ->]]]]]]. exists (i :: l1), j, l2. auto.
Qed.

Lemma ram_kept : forall l s, kept n (ram_trace p n s l).
Proof.
  intros l s a e1 e2 b E H V. apply trace_split in E. destruct E as [l1 [i [l2 [-> [-> [-> E2]]]]]].
  destruct l2 as [|j l2]; [discriminate|]. cbn [ram_trace] in E2. injection E2 as -> _.
  set (q := ram_run p n s l1) in *. unfold ram_event in *. cbn [re_in re_valid re_data] in *.
  destruct (ri_rclk i) eqn:CK; cbn [andb] in H.
  - apply orb_false_iff in H. destruct H as [RS RY]. destruct (step_reads q i CK RS) as [-> ->].
    apply pipe_kept; auto; [destruct OKP as [_ [_ [_ O]]]; lia|]. now rewrite on_bsel.
  - destruct (step_idle q i CK) as [-> ->]. auto.
Qed.

Lemma ram_done_ok : forall l, done_ok n (ram_trace p n ram0 l).
Proof.
  intros l a e b E. apply trace_split in E. destruct E as [l1 [i [l2 [-> [-> [-> _]]]]]]. destruct (ram_inv_run l1) as [_ [D _]]. exact D.
Qed.

Lemma below_full : forall v d m, length (below v d m) = m -> forall k, 0 <= k < Z.of_nat m -> v k = true.
Proof.
  induction m as [|m IH]; intros H k K; [lia|]. cbn [below] in H. rewrite app_length in H. pose proof (below_len v d m). unfold cell in H.
  destruct (v (Z.of_nat m)) eqn:V; cbn [length] in H; [|lia]. destruct (Z.eq_dec k (Z.of_nat m)) as [->|]; [exact V|]. apply IH; lia.
Qed.
Lemma below_notfull : forall v d m, (length (below v d m) < m)%nat -> exists k, 0 <= k < Z.of_nat m /\ v k = false.
Proof.
  induction m as [|m IH]; intros H; [lia|]. cbn [below] in H. rewrite app_length in H. unfold cell in H. destruct (v (Z.of_nat m)) eqn:V; cbn [length] in H.
  - destruct (IH ltac:(lia)) as [k [K E]]. exists k. split; [lia | exact E].
  - exists (Z.of_nat m). split; [lia | exact V].
Qed.

Lemma ram_ready_ok : forall l a e b, ram_trace p n ram0 l = a ++ e :: b ->
  (re_ready e = true <-> on (ri_rready (re_in e)) n \/ Z.of_nat (length (asked p n a)) < Z.of_nat (length (answers n a)) + rp_pipe p).
Proof.
  intros l a e b E. apply trace_split in E. destruct E as [l1 [i [l2 [-> [-> [-> _]]]]]]. destruct (ram_inv_run l1) as [_ [_ [_ D]]]. apply Forall2_length in D. rewrite app_length in D.
  set (s := ram_run p n ram0 l1) in *. destruct OKP as [_ [_ [_ O]]].
  unfold ram_event. cbn [re_ready re_in]. unfold ram_rready. rewrite on_bsel by exact HN. rewrite orb_true_iff, room_spec by lia. unfold on.
  unfold inside in D. split.
  - intros [H|[k [_ [K V]]]]; [now left|]. right. pose proof (below_len (rs_valid s) (rs_data s) (Z.to_nat (rp_pipe p))) as BL.
    destruct (Nat.eq_dec (length (below (rs_valid s) (rs_data s) (Z.to_nat (rp_pipe p)))) (Z.to_nat (rp_pipe p))) as [F|F]; [|lia].
    rewrite (below_full _ _ _ F k) in V by lia. discriminate.
  - intros [H|H]; [now left|]. right. destruct (below_notfull (rs_valid s) (rs_data s) (Z.to_nat (rp_pipe p)) ltac:(lia)) as [k [K V]]. exists k. repeat split; auto; lia.
Qed.

(** * Every read is answered. *)
Section Live.
Variables (l : list ram_in) (f : nat -> ram_in).
Hypothesis FAIR : client_fair n f.
Let st (k : nat) : ram_seg := ram_run p n ram0 (ram_inputs l f k).
Let tr (k : nat) : list ram_ev := ram_trace p n ram0 (ram_inputs l f k).
(** What has got to entry [m] or beyond. *)
Let past (m k : nat) : nat := (length (asked p n (tr k)) - length (below (rs_valid (st k)) (rs_data (st k)) m))%nat.

Lemma inputs_S : forall k, ram_inputs l f (S k) = ram_inputs l f k ++ [f k].
Proof. intros k. unfold ram_inputs. rewrite seq_S, map_app, app_assoc. reflexivity. Qed.
Lemma st_S : forall k, st (S k) = ram_step p n (st k) (f k).
Proof. intros. unfold st. now rewrite inputs_S, run_snoc. Qed.
Lemma asked_S : forall k, length (asked p n (tr (S k))) = (length (asked p n (tr k)) + (if ri_rclk (f k) && taking p n (st k) (f k) then 1 else 0))%nat.
Proof.
  intros k. unfold tr. rewrite inputs_S, trace_app. cbn [ram_trace]. unfold asked. rewrite fold_left_app. cbn [fold_left].
  unfold asked_step at 1. destruct (fold_left (asked_step p n) _ ([], [])) as [q r]. cbn [fst snd].
  unfold ram_event. cbn [re_in]. destruct FAIR as [NR _]. rewrite NR. unfold takes. cbn [re_in re_ready]. fold (st k). unfold taking. rewrite on_bsel by exact HN. rewrite <- andb_assoc.
  destruct (_ && _); [rewrite app_length; cbn [length]|]; lia.
Qed.
Lemma total : forall k, length (asked p n (tr k)) = (length (answers n (tr k)) + length (inside (st k)))%nat.
Proof. intros k. destruct (ram_inv_run (ram_inputs l f k)) as [_ [_ [_ D]]]. apply Forall2_length in D. now rewrite app_length in D. Qed.

Lemma below_le : forall v d m m', (m <= m')%nat -> (length (below v d m) <= length (below v d m'))%nat.
Proof. induction 1 as [|m' L IH]; [lia|]. cbn [below]. rewrite app_length. lia. Qed.

Lemma past_mono : forall m k, (m <= Z.to_nat (rp_pipe p))%nat -> (past m k <= past m (S k))%nat.
Proof.
  intros m k L. unfold past. rewrite asked_S, st_S. destruct (ri_rclk (f k)) eqn:CK; cbn [andb].
  - destruct FAIR as [NR _]. specialize (NR k). rewrite CK in NR. cbn [andb] in NR. destruct (step_reads (st k) (f k) CK NR) as [-> ->].
    destruct OKP as [_ [_ [_ O]]]. destruct (pipe_part p n (st k) (f k) ltac:(lia) NR m L) as [x [y [[E1 E2]| ->]]].
    + rewrite E1, E2. rewrite !app_length. destruct (taking p n (st k) (f k)); cbn [length]; lia.
    + cbn [below length]. lia.
  - destruct (step_idle (st k) (f k) CK) as [-> ->]. lia.
Qed.
Lemma past_later : forall m k j, (m <= Z.to_nat (rp_pipe p))%nat -> (past m k <= past m (k + j))%nat.
Proof. intros m k j L. induction j as [|j IH]; [rewrite Nat.add_0_r; lia|]. rewrite Nat.add_succ_r. etransitivity; [exact IH | now apply past_mono]. Qed.
Lemma past_moves : forall m k, (S m <= Z.to_nat (rp_pipe p))%nat -> ri_rclk (f k) = true -> Z.testbit (ri_rready (f k)) n = true -> (past m k <= past (S m) (S k))%nat.
Proof.
  intros m k L CK RY. unfold past. rewrite asked_S, st_S, CK. cbn [andb]. destruct FAIR as [NR _]. specialize (NR k). rewrite CK in NR. cbn [andb] in NR.
  destruct (step_reads (st k) (f k) CK NR) as [-> ->]. rewrite below_moved; [|destruct OKP as [_ [_ [_ O]]]; lia | exact NR | exact L|].
  - rewrite app_length. destruct (taking p n (st k) (f k)); cbn [length]; lia.
  - unfold moves. now rewrite on_bsel, RY.
Qed.

Lemma ram_served : forall k, exists j, (length (asked p n (ram_trace p n ram0 (ram_inputs l f k))) <= length (answers n (ram_trace p n ram0 (ram_inputs l f (k + j)))))%nat.
Proof.
  intros k. assert (G : forall m, (m <= Z.to_nat (rp_pipe p))%nat -> exists j, (past 0 k <= past m (k + j))%nat).
  { induction m as [|m IH]; intros L; [exists O; rewrite Nat.add_0_r; lia|]. destruct (IH ltac:(lia)) as [j J].
    destruct FAIR as [_ FR]. destruct (FR (k + j)%nat) as [h [H1 H2]]. exists (j + h + 1)%nat.
    etransitivity; [exact J|]. etransitivity; [apply (past_later m (k + j) h); lia|]. replace (k + (j + h + 1))%nat with (S (k + j + h)) by lia. now apply past_moves. }
  destruct (G (Z.to_nat (rp_pipe p)) ltac:(lia)) as [j J]. exists j. unfold past in J. cbn [below length] in J. pose proof (total (k + j)) as T. unfold inside in T. unfold tr in *. lia.
Qed.
End Live.
End Ram.
