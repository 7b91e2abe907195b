(** The AXI lite channels of the AXI lite master (C140). *)
From Verif Require Import PyBase RtlModel RtlAxlModel RtlAxlSpec.

Definition axj (s : al_state) : Prop :=
  let o := s_o s in
  match q_st (s_q s) with
  | AIdle => o_rdy o = true -> o_awv o = false /\ o_wv o = false /\ o_arv o = false
  | ARead1 | ARead2 => o_awv o = false /\ o_wv o = false
  | AWrite1 => o_arv o = false /\ (o_rdy o = true -> o_awv o = false /\ o_wv o = false)
  | AWrite2 => o_arv o = false
  | AWait => True
  end.
Ltac bools := repeat match goal with
  | |- context [if ?b then _ else _] => destruct b eqn:?
  | H : context [if ?b then _ else _] |- _ => destruct b eqn:? end.
Lemma free_all o i : al_free o i = true -> o_awv o && negb (ai_awr i) = false /\ o_wv o && negb (ai_wr i) = false /\ o_arv o && negb (ai_arr i) = false.
Proof. unfold al_free. destruct (o_awv o), (o_wv o), (o_arv o), (ai_awr i), (ai_wr i), (ai_arr i), (ai_half i); cbn; intros; try discriminate; auto. Qed.
Lemma wfree_all o i : al_wfree o i = true -> o_awv o && negb (ai_awr i) = false /\ o_wv o && negb (ai_wr i) = false.
Proof. unfold al_wfree. destruct (o_awv o), (o_wv o), (ai_awr i), (ai_wr i), (ai_half i); cbn; intros; try discriminate; auto. Qed.

Lemma axj_step f64 c s i : axj s -> axj (al_step f64 c s i).
Proof.
  intros J. unfold al_step. destruct (ai_rst i) eqn:R.
  { destruct (al_comb f64 c s i) as [[q o] e]. cbn. intros H; discriminate. }
  unfold axj in J. unfold al_comb. destruct (q_st (s_q s)) eqn:St.
  - unfold al_idle. destruct (o_rdy (s_o s) && ai_valid i && ai_sop i) eqn:T.
    + apply andb_prop in T. destruct T as [T _]. apply andb_prop in T. destruct T as [T _]. destruct (J T) as (A & B & C).
      destruct (psel (ai_hdr i) 120 5 =? 0); [destruct (Z.testbit (ai_hdr i) 126)|].
      * unfold al_take_wr, axj. cbn [s_q s_o q_st al_write o_rdy o_awv o_wv o_arv al_keep]. destruct (h_len (ai_hdr i) =? 1); [destruct (ai_eop i); cbn; [discriminate|exact Logic.I]|]. rewrite C. reflexivity.
      * unfold al_take_rd, axj. cbn [s_q s_o q_st al_read o_rdy o_awv o_wv o_arv al_keep]. destruct (h_len (ai_hdr i) =? 1); [destruct (ai_eop i); cbn; [discriminate|exact Logic.I]|]. rewrite A, B. split; reflexivity.
      * unfold al_take_other, axj. cbn [s_q s_o q_st o_rdy o_awv o_wv o_arv al_keep]. destruct (ai_eop i); [|exact Logic.I]. rewrite A, B, C. intros _. repeat split.
    + unfold axj. cbn [s_q s_o q_st o_rdy o_awv o_wv o_arv al_keep]. apply free_all.
  - unfold al_rd. destruct J as (A & B). bools; unfold axj; cbn [s_q s_o q_st al_read o_rdy o_awv o_wv o_arv al_keep]; rewrite ?St, ?A, ?B; try (intros; discriminate); split; reflexivity.
  - unfold al_rd. destruct J as (A & B). bools; unfold axj; cbn [s_q s_o q_st al_read o_rdy o_awv o_wv o_arv al_keep]; rewrite ?St, ?A, ?B; try (intros; discriminate); split; reflexivity.
  - unfold al_wr. destruct J as (A & B). destruct (o_rdy (s_o s) && ai_valid i) eqn:T.
    + unfold axj. cbn [s_q s_o q_st al_write o_rdy o_awv o_wv o_arv al_keep]. rewrite A. bools; cbn; try reflexivity; try (intros; discriminate). split; [reflexivity|intros; discriminate].
    + unfold axj. cbn [s_q s_o]. rewrite St. cbn [o_rdy o_awv o_wv o_arv al_keep andb]. rewrite A. split; [reflexivity|]. apply wfree_all.
  - unfold al_wr. destruct (al_wfree (s_o s) i) eqn:T.
    + unfold axj. cbn [s_q s_o q_st al_write o_rdy o_awv o_wv o_arv al_keep]. rewrite J. bools; cbn; try reflexivity; try (intros; discriminate). split; [reflexivity|intros; discriminate].
    + unfold axj. cbn [s_q s_o]. rewrite St. cbn [o_rdy o_awv o_wv o_arv al_keep andb]. rewrite J. reflexivity.
  - unfold al_wait, axj. cbn [s_q s_o q_st o_rdy o_awv o_wv o_arv al_keep]. destruct (o_rdy (s_o s) && ai_valid i && ai_eop i); [apply free_all|exact Logic.I].
Qed.
Lemma axj_reset f64 c s i : ai_rst i = true -> axj (al_step f64 c s i).
Proof. intros R. unfold al_step. destruct (al_comb f64 c s i) as [[q o] e]. rewrite R. cbn. intros H; discriminate. Qed.
Lemma axj_run f64 c s i l : ai_rst i = true -> axj (fold_left (al_step f64 c) (i :: l) s).
Proof.
  intros R. cbn [fold_left]. pose proof (axj_reset f64 c s i R) as J. revert J. generalize (al_step f64 c s i). induction l as [|j l IH]; intros t J; [exact J|]. cbn [fold_left]. apply IH. now apply axj_step.
Qed.

Lemma held f64 c s i : axj s -> ai_rst i = false -> let t := al_step f64 c s i in let o := s_o s in let p := s_o t in
  held_ch (o_arv o) (ai_arr i) (o_arv p) (o_addr p = o_addr o) /\ held_ch (o_awv o) (ai_awr i) (o_awv p) (o_addr p = o_addr o) /\ held_ch (o_wv o) (ai_wr i) (o_wv p) (o_wd p = o_wd o /\ o_ws p = o_ws o) /\
  match al_entry f64 c s i with
  | Some e => (e_rd e = true -> o_arv p = true /\ (o_arv o = true -> ai_arr i = true)) /\ (e_wr e = true -> o_awv p = true /\ o_wv p = true /\ (o_awv o = true -> ai_awr i = true) /\ (o_wv o = true -> ai_wr i = true))
  | None => (o_arv p = true -> o_arv o = true /\ ai_arr i = false) /\ (o_awv p = true -> o_awv o = true /\ ai_awr i = false) /\ (o_wv p = true -> o_wv o = true /\ ai_wr i = false)
  end.
Proof.
  intros J R. cbv zeta. unfold al_step, al_entry, held_ch. rewrite R. unfold axj in J.
  assert (KP : forall r, (o_arv (s_o s) = true -> ai_arr i = false -> o_arv (al_keep (s_o s) i r) = true) /\ (o_awv (s_o s) = true -> ai_awr i = false -> o_awv (al_keep (s_o s) i r) = true) /\ (o_wv (s_o s) = true -> ai_wr i = false -> o_wv (al_keep (s_o s) i r) = true) /\
     (o_arv (al_keep (s_o s) i r) = true -> o_arv (s_o s) = true /\ ai_arr i = false) /\ (o_awv (al_keep (s_o s) i r) = true -> o_awv (s_o s) = true /\ ai_awr i = false) /\ (o_wv (al_keep (s_o s) i r) = true -> o_wv (s_o s) = true /\ ai_wr i = false)).
  { intros r. cbn [al_keep o_arv o_awv o_wv]. destruct (o_arv (s_o s)), (o_awv (s_o s)), (o_wv (s_o s)), (ai_arr i), (ai_awr i), (ai_wr i); cbn; repeat split; intros; try discriminate; try reflexivity. }
  assert (KEEP : forall q r, let x := (q, al_keep (s_o s) i r, @None al_ent) in
    (o_arv (s_o s) = true -> ai_arr i = false -> o_arv (s_o (let '(q, o, _) := x in mkAs q o)) = true /\ o_addr (s_o (let '(q, o, _) := x in mkAs q o)) = o_addr (s_o s)) /\
    (o_awv (s_o s) = true -> ai_awr i = false -> o_awv (s_o (let '(q, o, _) := x in mkAs q o)) = true /\ o_addr (s_o (let '(q, o, _) := x in mkAs q o)) = o_addr (s_o s)) /\
    (o_wv (s_o s) = true -> ai_wr i = false -> o_wv (s_o (let '(q, o, _) := x in mkAs q o)) = true /\ o_wd (s_o (let '(q, o, _) := x in mkAs q o)) = o_wd (s_o s) /\ o_ws (s_o (let '(q, o, _) := x in mkAs q o)) = o_ws (s_o s)) /\
    match snd x with
    | Some e => (e_rd e = true -> o_arv (s_o (let '(q, o, _) := x in mkAs q o)) = true /\ (o_arv (s_o s) = true -> ai_arr i = true)) /\ (e_wr e = true -> o_awv (s_o (let '(q, o, _) := x in mkAs q o)) = true /\ o_wv (s_o (let '(q, o, _) := x in mkAs q o)) = true /\ (o_awv (s_o s) = true -> ai_awr i = true) /\ (o_wv (s_o s) = true -> ai_wr i = true))
    | None => (o_arv (s_o (let '(q, o, _) := x in mkAs q o)) = true -> o_arv (s_o s) = true /\ ai_arr i = false) /\ (o_awv (s_o (let '(q, o, _) := x in mkAs q o)) = true -> o_awv (s_o s) = true /\ ai_awr i = false) /\ (o_wv (s_o (let '(q, o, _) := x in mkAs q o)) = true -> o_wv (s_o s) = true /\ ai_wr i = false)
    end).
  { intros q r. cbv zeta. cbn [snd s_o]. destruct (KP r) as (K1 & K2 & K3 & K4 & K5 & K6). cbn [al_keep o_addr o_wd o_ws] in *.
    split; [intros; split; [auto|reflexivity]|]. split; [intros; split; [auto|reflexivity]|]. split; [intros; split; [auto|split; reflexivity]|]. split; [exact K4|]. split; [exact K5|exact K6]. }
  unfold al_comb. destruct (q_st (s_q s)) eqn:St.
  - unfold al_idle. destruct (o_rdy (s_o s) && ai_valid i && ai_sop i) eqn:T; [|apply KEEP].
    apply andb_prop in T. destruct T as [T _]. apply andb_prop in T. destruct T as [T _]. destruct (J T) as (A & B & C). rewrite A, B, C.
    destruct (psel (ai_hdr i) 120 5 =? 0); [destruct (Z.testbit (ai_hdr i) 126)|].
    + unfold al_take_wr. cbn [snd s_o al_write o_arv o_awv o_wv al_went e_rd e_wr]. repeat split; intros; try discriminate; reflexivity.
    + unfold al_take_rd. cbn [snd s_o al_read o_arv o_awv o_wv e_rd e_wr]. repeat split; intros; try discriminate; reflexivity.
    + unfold al_take_other. cbn [snd s_o o_arv o_awv o_wv al_keep]. rewrite A, B, C.
      match goal with |- context [match (if ?b then _ else _) with _ => _ end] => destruct b end; cbn [e_rd e_wr andb]; repeat split; intros; try discriminate; reflexivity.
  - unfold al_rd. destruct ((negb (o_arv (s_o s)) || ai_arr i) && negb (ai_half i)) eqn:Go; [|apply KEEP]. destruct J as (A & B). rewrite A, B. cbn [snd s_o al_read o_arv o_awv o_wv e_rd e_wr].
    apply andb_prop in Go. destruct Go as [Go _]. destruct (o_arv (s_o s)), (ai_arr i); try discriminate Go; repeat split; intros; try discriminate; reflexivity.
  - unfold al_rd. destruct ((negb (o_arv (s_o s)) || ai_arr i) && negb (ai_half i)) eqn:Go; [|apply KEEP]. destruct J as (A & B). rewrite A, B. cbn [snd s_o al_read o_arv o_awv o_wv e_rd e_wr].
    apply andb_prop in Go. destruct Go as [Go _]. destruct (o_arv (s_o s)), (ai_arr i); try discriminate Go; repeat split; intros; try discriminate; reflexivity.
  - unfold al_wr. destruct (o_rdy (s_o s) && ai_valid i) eqn:Go; [|apply KEEP]. apply andb_prop in Go. destruct Go as [Go _]. destruct J as (A & B). destruct (B Go) as (B1 & B2). rewrite A, B1, B2.
    cbn [snd s_o al_write o_arv o_awv o_wv al_went e_rd e_wr]. repeat split; intros; try discriminate; reflexivity.
  - unfold al_wr. destruct (al_wfree (s_o s) i) eqn:Go; [|apply KEEP]. rewrite J. cbn [snd s_o al_write o_arv o_awv o_wv al_went e_rd e_wr]. unfold al_wfree in Go.
    destruct (o_awv (s_o s)), (o_wv (s_o s)), (ai_awr i), (ai_wr i); try discriminate Go; repeat split; intros; try discriminate; reflexivity.
  - unfold al_wait. apply KEEP.
Qed.
