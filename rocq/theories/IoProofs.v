(** Lemmas: the non-posted request loops. *)
From Verif Require Import PyBase BitLemmas TlpModel TlpSpec TlpProofs BarModel SplitModel SplitSpec SplitProofs SplitProofs2 IoModel IoSpec.
From Coq Require Import ZifyBool ZifyNat.
Ltac Zify.zify_post_hook ::= Z.div_mod_to_equations.

Definition tag_mod (ext : bool) : Z := if ext then 256 else 32.

Lemma free_tag_eq ext s : queues_empty (rq_queues s) ->
  get_free_tag ext s = (mkRq ((rq_tag s + 1) mod tag_mod ext) (rq_queues s), Some ((rq_tag s + 1) mod tag_mod ext)).
Proof.
  intros H. unfold get_free_tag. cbv zeta. fold (tag_mod ext).
  assert (HN : exists f, Z.to_nat (tag_mod ext) = S f) by (exists (pred (Z.to_nat (tag_mod ext))); unfold tag_mod; destruct ext; lia).
  destruct HN as (f & ->). cbn [free_tag_loop]. rewrite H. reflexivity.
Qed.

(** A completion that reaches the queue of [tag]. *)
Definition arrives (tag : Z) (c : tlp) : Prop :=
  tlp_check c = true /\ t_tag c = tag /\ ft_in (t_fmt_type c) [TLP_CPL; TLP_CPL_DATA; TLP_CPL_LOCKED; TLP_CPL_LOCKED_DATA] = true.
Definition answer_for (tag : Z) (cs : list tlp) : Prop := match cs with [] => True | [c] => arrives tag c | _ => False end.

Lemma deliver_recv q tag cs : queues_empty q -> answer_for tag cs ->
  exists q', deliver_all q cs = Ok q' /\ fst (recv_cpl q' tag) = hd_error cs /\ queues_empty (snd (recv_cpl q' tag)).
Proof.
  intros HQ HA. destruct cs as [|c [|c2 cs]]; [| |contradiction].
  - exists q. split; [reflexivity|]. unfold recv_cpl. rewrite HQ. split; [reflexivity|exact HQ].
  - destruct HA as (A1 & A2 & A3). eexists. cbn [deliver_all]. unfold deliver. rewrite A1, A3. cbn [bind]. split; [reflexivity|].
    unfold recv_cpl. rewrite A2, Z.eqb_refl, HQ. cbn [app hd_error fst snd]. split; [reflexivity|]. intros k. cbn beta. destruct (k =? tag) eqn:E; [reflexivity|apply HQ].
Qed.

Definition tags_from (ext : bool) (start : Z) (ts : list tlp) : Prop :=
  forall j t, nth_error ts j = Some t -> t_tag t = (start + 1 + Z.of_nat j) mod tag_mod ext.

Lemma tags_cons ext start t ts : t_tag t = (start + 1) mod tag_mod ext -> tags_from ext ((start + 1) mod tag_mod ext) ts -> tags_from ext start (t :: ts).
Proof.
  intros H1 H2 [|j] t' HJ; cbn in HJ.
  - injection HJ as <-. rewrite H1. f_equal. lia.
  - rewrite (H2 j t' HJ).
    replace ((start + 1) mod tag_mod ext + 1 + Z.of_nat j) with ((start + 1) mod tag_mod ext + (1 + Z.of_nat j)) by lia.
    rewrite Zplus_mod_idemp_l. f_equal. lia.
Qed.

Section ReadLoop.
  Context {S : Type} (ext : bool) (mk : Z -> tlp) (fin : Z -> tlp -> tlp) (take : option tlp -> result (list Z)) (serve : S -> tlp -> result (S * list tlp)).
  Context (good : S -> Prop) (view : S -> mem) (lo hi : Z) (legal : tlp -> Prop).
  Hypothesis Hstep : forall st tag addr k, good st -> lo <= addr -> addr + k <= hi -> 1 <= k <= 4 - addr mod 4 ->
    let t := fin addr (fst (set_be addr k (mk tag))) in
    legal t /\ tlp_check t = true /\ t_tag t = tag /\ (forall a, tlp_selects t a = true <-> addr <= a < addr + k) /\
    exists st' cs d, serve st t = Ok (st', cs) /\ good st' /\ (forall a, view st' a = view st a) /\ answer_for tag cs /\
      take (hd_error cs) = Ok d /\ length d = 4%nat /\ forall i, 0 <= i < k -> nth (Z.to_nat (addr mod 4 + i)) d 0 = view st (addr + i).

  Lemma np_read_loop_spec len : forall fuel st s addr n data, good st -> queues_empty (rq_queues s) -> 0 <= n <= len -> (Z.to_nat (len - n) <= fuel)%nat ->
    lo <= addr -> addr + (len - n) <= hi ->
    exists st' s' ts extra, np_read_loop fuel ext mk fin take serve st s addr len n data = Ok (st', s', data ++ mem_load (view st) addr (len - n) ++ extra, ts) /\
      good st' /\ (forall a, view st' a = view st a) /\ queues_empty (rq_queues s') /\ covers addr (len - n) ts /\ Forall legal ts /\ tags_from ext (rq_tag s) ts.
  Proof.
    induction fuel as [|f IH]; intros st s addr n data HG HQ Hn Hf Hlo Hhi.
    - exists st, s, [], []. cbn [np_read_loop]. replace (n <? len) with false by lia. replace (len - n) with 0 by lia.
      cbn. rewrite app_nil_r. repeat split; auto. intros j t HJ. destruct j; discriminate.
    - cbn [np_read_loop]. destruct (Z.ltb_spec n len).
      2:{ exists st, s, [], []. replace (len - n) with 0 by lia. cbn. rewrite app_nil_r. repeat split; auto. intros j t HJ. destruct j; discriminate. }
      rewrite free_tag_eq by assumption. set (tag := (rq_tag s + 1) mod tag_mod ext). cbv zeta beta iota.
      set (k := Z.min (len - n) (4 - addr mod 4)).
      assert (Hk : 1 <= k <= len - n /\ k <= 4 - addr mod 4 /\ (k < len - n -> k = 4 - addr mod 4)) by lia.
      clearbody k. destruct Hk as (Hk1 & Hk2 & Hk3).
      destruct (Hstep st tag addr k HG ltac:(lia) ltac:(lia) ltac:(lia)) as (L1 & L2 & L3 & L4 & st' & cs & d & R1 & R2 & R3 & R4 & R5 & R6 & R7).
      set (t := fin addr (fst (set_be addr k (mk tag)))) in *. clearbody t.
      unfold send. rewrite L2. cbn [bind]. rewrite R1. cbn [bind fst snd]. cbn [rq_queues rq_tag].
      destruct (deliver_recv (rq_queues s) tag cs HQ R4) as (q' & D1 & D2 & D3).
      rewrite D1. cbn [bind]. rewrite D2, R5. cbn [bind].
      destruct (IH st' (mkRq tag (snd (recv_cpl q' tag))) (addr + k) (n + k) (data ++ skipn (Z.to_nat (addr mod 4)) d)) as (st2 & s2 & ts & extra & E1 & E2 & E3 & E4 & E5 & E6 & E7); auto; try lia.
      rewrite E1. cbn [bind fst snd].
      assert (HD : skipn (Z.to_nat (addr mod 4)) d = mem_load (view st) addr k ++ skipn (Z.to_nat (addr mod 4 + k)) d).
      { pose proof (zlen_mem_load (view st) addr k ltac:(lia)) as HZ. unfold zlen in HZ. apply list_eq_nth.
        - rewrite app_length, !skipn_length. clear - HZ R6 Hk1 Hk2. lia.
        - intros i Hi. rewrite skipn_length in Hi. rewrite nth_skipn_add. destruct (Z.ltb_spec (Z.of_nat i) k).
          + rewrite app_nth1 by lia. rewrite <- (Nat2Z.id i) at 2. rewrite nth_mem_load by lia.
            replace (Z.to_nat (addr mod 4) + i)%nat with (Z.to_nat (addr mod 4 + Z.of_nat i)) by lia. apply R7. lia.
          + rewrite app_nth2 by lia. rewrite nth_skipn_add. f_equal. clear - HZ R6 Hk1 Hk2 H0. lia. }
      assert (HT : exists extra', (data ++ skipn (Z.to_nat (addr mod 4)) d) ++ mem_load (view st') (addr + k) (len - (n + k)) ++ extra = data ++ mem_load (view st) addr (len - n) ++ extra').
      { rewrite HD. rewrite (mem_load_ext (view st') (view st) (addr + k) (addr + k)) by (intros; apply R3).
        destruct (Z.eq_dec k (len - n)) as [Ek|Ek].
        - replace (len - (n + k)) with 0 by lia. rewrite Ek. eexists. rewrite <- !app_assoc. reflexivity.
        - exists extra. rewrite (skipn_all2 (n := Z.to_nat (addr mod 4 + k))) by lia. rewrite app_nil_r, <- !app_assoc. rewrite (app_assoc (mem_load (view st) addr k)).
          replace (len - (n + k)) with ((len - n) - k) by lia. rewrite mem_load_app by lia. replace (k + (len - n - k)) with (len - n) by lia. reflexivity. }
      destruct HT as (extra' & HT). rewrite HT. exists st2, s2, (t :: ts), extra'. split; [reflexivity|]. split; [assumption|].
      split; [intros a; rewrite E3; apply R3|]. split; [assumption|].
      split; [exists k; split; [lia|]; split; [exact L4|]; replace (len - n - k) with (len - (n + k)) by lia; exact E5|].
      split; [constructor; assumption|]. apply tags_cons; assumption.
  Qed.

  Lemma np_read_spec len st s addr : good st -> queues_empty (rq_queues s) -> 0 <= len -> lo <= addr -> addr + len <= hi ->
    exists st' s' d ts, np_read_loop (Z.to_nat len) ext mk fin take serve st s addr len 0 [] = Ok (st', s', d, ts) /\ slice d 0 len = mem_load (view st) addr len /\
      good st' /\ (forall a, view st' a = view st a) /\ queues_empty (rq_queues s') /\ covers addr len ts /\ Forall legal ts /\ tags_from ext (rq_tag s) ts.
  Proof.
    intros. destruct (np_read_loop_spec len (Z.to_nat len) st s addr 0 []) as (st' & s' & ts & extra & E); auto; try lia.
    rewrite Z.sub_0_r in E. destruct E as (E1 & E2). exists st', s', (mem_load (view st) addr len ++ extra), ts. split; [exact E1|]. split; [|exact E2].
    pose proof (zlen_mem_load (view st) addr len ltac:(lia)) as HZ. unfold zlen in HZ.
    unfold slice. rewrite Z.sub_0_r. change (skipn (Z.to_nat 0) (mem_load (view st) addr len ++ extra)) with (mem_load (view st) addr len ++ extra).
    rewrite firstn_app. replace (Z.to_nat len - length (mem_load (view st) addr len))%nat with O by lia. cbn [firstn]. rewrite app_nil_r. apply firstn_all2. lia.
  Qed.
End ReadLoop.

(** The chunks a write is cut into. *)
Inductive wchain {S} (step : S -> Z -> list Z -> S -> Prop) : Z -> list Z -> S -> S -> Prop :=
| wc_nil addr s : wchain step addr [] s s
| wc_cons addr d1 d2 s s1 s2 : d1 <> [] -> zlen d1 <= 4 - addr mod 4 -> (d2 <> [] -> zlen d1 = 4 - addr mod 4) -> step s addr d1 s1 ->
    wchain step (addr + zlen d1) d2 s1 s2 -> wchain step addr (d1 ++ d2) s s2.

Section WriteLoop.
  Context {S : Type} (ext : bool) (mk : Z -> tlp) (fin : Z -> tlp -> tlp) (take : option tlp -> result unit) (serve : S -> tlp -> result (S * list tlp)).
  Context (good : S -> Prop) (step : S -> Z -> list Z -> S -> Prop) (lo hi : Z) (legal : tlp -> Prop).
  Hypothesis Hstep : forall st tag addr d, good st -> lo <= addr -> addr + zlen d <= hi -> d <> [] -> Forall is_byte d -> zlen d <= 4 - addr mod 4 ->
    exists t0, set_be_data addr d (mk tag) = Ok t0 /\
    let t := fin addr t0 in
    legal t /\ tlp_check t = true /\ t_tag t = tag /\ (forall a, tlp_selects t a = true <-> addr <= a < addr + zlen d) /\
    exists st' cs, serve st t = Ok (st', cs) /\ good st' /\ step st addr d st' /\ answer_for tag cs /\ take (hd_error cs) = Ok tt.

  Lemma np_write_loop_spec data : Forall is_byte data -> forall fuel st s addr n, good st -> queues_empty (rq_queues s) -> 0 <= n <= zlen data ->
    (Z.to_nat (zlen data - n) <= fuel)%nat -> lo <= addr -> addr + (zlen data - n) <= hi ->
    exists st' s' ts, np_write_loop fuel ext mk fin take serve st s addr data n = Ok (st', s', ts) /\
      good st' /\ wchain step addr (skipn (Z.to_nat n) data) st st' /\ queues_empty (rq_queues s') /\ covers addr (zlen data - n) ts /\ Forall legal ts /\ tags_from ext (rq_tag s) ts.
  Proof.
    intros HB. induction fuel as [|f IH]; intros st s addr n HG HQ Hn Hf Hlo Hhi.
    - exists st, s, []. cbn [np_write_loop]. replace (n <? zlen data) with false by lia. replace (zlen data - n) with 0 by lia.
      rewrite skipn_all2 by (unfold zlen in *; lia). repeat split; auto; [constructor|]. intros j t HJ. destruct j; discriminate.
    - cbn [np_write_loop]. destruct (Z.ltb_spec n (zlen data)).
      2:{ exists st, s, []. replace (zlen data - n) with 0 by lia. rewrite skipn_all2 by (unfold zlen in *; lia). repeat split; auto; [constructor|]. intros j t HJ. destruct j; discriminate. }
      rewrite free_tag_eq by assumption. set (tag := (rq_tag s + 1) mod tag_mod ext). cbv zeta beta iota.
      set (k := Z.min (zlen data - n) (4 - addr mod 4)).
      assert (Hk : 1 <= k <= zlen data - n /\ k <= 4 - addr mod 4 /\ (k < zlen data - n -> k = 4 - addr mod 4)) by lia.
      clearbody k. destruct Hk as (Hk1 & Hk2 & Hk3).
      assert (HZ : zlen (slice data n (n + k)) = k) by (rewrite zlen_slice; lia).
      destruct (Hstep st tag addr (slice data n (n + k)) HG ltac:(lia) ltac:(lia)) as (t0 & B1 & L1 & L2 & L3 & L4 & st' & cs & R1 & R2 & R3 & R4 & R5).
      { intros E. rewrite E in HZ. unfold zlen in HZ. cbn in HZ. lia. } { now apply Forall_slice. } { lia. }
      rewrite B1. cbn [bind]. set (t := fin addr t0) in *. clearbody t.
      unfold send. rewrite L2. cbn [bind]. rewrite R1. cbn [bind fst snd]. cbn [rq_queues rq_tag].
      destruct (deliver_recv (rq_queues s) tag cs HQ R4) as (q' & D1 & D2 & D3).
      rewrite D1. cbn [bind]. rewrite D2, R5. cbn [bind].
      destruct (IH st' (mkRq tag (snd (recv_cpl q' tag))) (addr + k) (n + k)) as (st2 & s2 & ts & E1 & E2 & E3 & E4 & E5 & E6 & E7); auto; try lia.
      rewrite E1. cbn [bind fst snd]. exists st2, s2, (t :: ts). split; [reflexivity|]. split; [assumption|].
      split.
      { rewrite <- (slice_skipn_cons data n k) by lia. apply (wc_cons step addr _ _ st st' st2); auto; rewrite ?HZ; auto.
        - intros E. rewrite E in HZ. unfold zlen in HZ. cbn in HZ. lia.
        - intros E. apply Hk3. destruct (Z.eq_dec k (zlen data - n)) as [Ek|Ek]; [|lia]. exfalso. apply E. apply skipn_all2. unfold zlen in *. lia. }
      split; [assumption|].
      split; [exists k; split; [lia|]; split; [rewrite HZ in L4; exact L4|]; replace (zlen data - n - k) with (zlen data - (n + k)) by lia; exact E5|].
      split; [constructor; assumption|]. apply tags_cons; assumption.
  Qed.

  Lemma np_write_spec data st s addr : Forall is_byte data -> good st -> queues_empty (rq_queues s) -> lo <= addr -> addr + zlen data <= hi ->
    exists st' s' ts, np_write_loop (length data) ext mk fin take serve st s addr data 0 = Ok (st', s', ts) /\
      good st' /\ wchain step addr data st st' /\ queues_empty (rq_queues s') /\ covers addr (zlen data) ts /\ Forall legal ts /\ tags_from ext (rq_tag s) ts.
  Proof.
    intros HB HG HQ Hlo Hhi. destruct (np_write_loop_spec data HB (length data) st s addr 0) as (st' & s' & ts & E); auto; try (unfold zlen in *; lia).
    rewrite Z.sub_0_r in E. exists st', s', ts. exact E.
  Qed.
End WriteLoop.

(** Chunks that store bytes add up to one store. *)
Lemma wchain_store {S} (step : S -> Z -> list Z -> S -> Prop) (view : S -> mem) :
  (forall s a d s', step s a d s' -> forall x, view s' x = mem_store (view s) a d x) ->
  forall addr data s s', wchain step addr data s s' -> forall x, view s' x = mem_store (view s) addr data x.
Proof.
  intros H addr data s s' HC. induction HC as [|addr d1 d2 s s1 s2 N1 N2 N3 HS HC IH]; intros x.
  - now rewrite mem_store_nil.
  - rewrite IH. rewrite (mem_store_ext _ _ _ _ (H _ _ _ _ HS)). apply mem_store_app.
Qed.
