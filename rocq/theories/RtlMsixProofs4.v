(** Runs in which the MSI-X module loses requests, sends messages without request, and starves vectors (C95, C96). *)
From Verif Require Import PyBase RtlModel RtlProofs RtlFcProofs RtlRamModel RtlMsixModel RtlMsixSpec RtlMsixProofs RtlMsixProofs2 RtlMsixProofs3.

(** The module with the parameters of the code. *)
Definition mx_default : mx_param := mkMx 11 16 32 false.
(** Clocks: nothing; a table write; a request. *)
Definition mi_idle (mask : bool) : mx_in := mkMi false 0 false 0 0 false true 0 false true 0 false true 5 true mask.
Definition mi_write (mask : bool) (a d st : Z) : mx_in := mkMi false a true d st true true 0 false true 0 false true 5 true mask.
Definition mi_req (mask : bool) (v : Z) : mx_in := mkMi false 0 false 0 0 false true 0 false true v true true 5 true mask.

(** Address of vector 96 is 0x1000; the function is masked; vector 32 is requested; then the function is not masked any more. *)
Definition mx_run32 : list mx_in := [mi_write true 1536 0x1000 15; mi_idle true; mi_req true 32; mi_idle true; mi_idle true; mi_idle true; mi_idle true].
Definition mx_run96 : list mx_in := mx_run32 ++ repeat (mi_idle false) 50.
Lemma run96_wide : forall i, In i mx_run96 -> mx_wide mx_default i /\ mi_rst i = false.
Proof.
  assert (H : forallb (fun i => (0 <=? mi_rid i) && (mi_rid i <? 2 ^ 16) && (0 <=? mi_index i) && (mi_index i <? 2 ^ 11) && negb (mi_rst i)) mx_run96 = true) by (vm_compute; reflexivity).
  rewrite forallb_forall in H. intros i Hi. specialize (H i Hi). repeat (apply andb_prop in H; destruct H as [H ?]). split; [|destruct (mi_rst i); [discriminate|reflexivity]].
  unfold mx_wide. change (mx_w mx_default) with 11. split; [|intros _]; lia.
Qed.

Lemma split_at {A} (l : list A) k d : (k < length l)%nat -> l = firstn k l ++ nth k l d :: skipn (S k) l.
Proof. revert k. induction l as [|x l IH]; intros [|k] H; cbn in *; try lia; [reflexivity|]. f_equal. apply IH. lia. Qed.

(** The request for vector 32 is lost. *)
Definition ev0 : mx_ev := mx_event mx0 (mi_idle true).
Lemma lost : ~ no_loss false (mx_trace mx_default mx0 mx_run32).
Proof.
  intros H. set (tr := mx_trace mx_default mx0 mx_run32) in *.
  assert (E : tr = firstn 2 tr ++ nth 2 tr ev0 :: firstn 3 (skipn 3 tr) ++ [nth 6 tr ev0]) by (unfold tr; cbn; reflexivity).
  assert (Hr : forall x, In x (firstn 3 (skipn 3 tr)) -> mi_rst (mv_in x) = false) by (intros x Hx; cbn in Hx; repeat (destruct Hx as [<-|Hx]; [reflexivity|]); destruct Hx).
  specialize (H (firstn 2 tr) (nth 2 tr ev0) (firstn 3 (skipn 3 tr)) (nth 6 tr ev0) 32 E ltac:(vm_compute; reflexivity) ltac:(vm_compute; reflexivity) Hr).
  destruct H as [H|[H|(x & m & Hx & Hm & _)]].
  - vm_compute in H. discriminate.
  - vm_compute in H. discriminate.
  - assert (Hn : forallb (fun e => negb (mv_txvalid e)) tr = true) by (vm_compute; reflexivity). rewrite forallb_forall in Hn.
    assert (Hin : In x tr). { rewrite E. apply in_or_app. right. right. exact Hx. }
    specialize (Hn x Hin). unfold offered in Hm. destruct (mv_txvalid x); discriminate.
Qed.
(** The message of vector 96 is sent. *)
Lemma spurious : ~ no_spurious false (mx_trace mx_default mx0 mx_run96).
Proof.
  intros [H _]. set (tr := mx_trace mx_default mx0 mx_run96) in *.
  assert (Hk : exists k, (k < length tr)%nat /\ offered (nth k tr ev0) = Some (msg_hdr false 5 0x1000, 0)) by (exists 45%nat; split; vm_compute; [lia|reflexivity]).
  destruct Hk as (k & Hk & Hoff). destruct (H _ _ _ _ (split_at tr k ev0 Hk) Hoff) as (v & Hv & e1 & e2 & e3 & He1 & He2 & He3 & Hm & _).
  assert (Ha : forallb (fun e => match accepted e with Some w => w =? 32 | None => true end) tr = true) by (vm_compute; reflexivity).
  assert (Ht : forallb (fun e => mv_tbl e 64 =? 0) tr = true) by (vm_compute; reflexivity).
  assert (Hr : forallb (fun e => mi_rid (mv_in e) =? 5) tr = true) by (vm_compute; reflexivity).
  rewrite forallb_forall in *. assert (Hsub : forall e, In e (firstn k tr) -> In e tr) by (intros e He; rewrite (split_at tr k ev0 Hk); apply in_or_app; left; exact He).
  apply in_map_iff in Hv. destruct Hv as (e & Hv & He). specialize (Ha e (Hsub e He)). rewrite Hv in Ha. apply Z.eqb_eq in Ha. subst v.
  injection Hm as Hm _. unfold entry_addr in Hm. specialize (Ht e1 (Hsub e1 He1)). specialize (Hr e3 (Hsub e3 He3)). apply Z.eqb_eq in Ht. apply Z.eqb_eq in Hr. change (2 * 32) with 64 in Hm. rewrite Ht, Hr in Hm.
  vm_compute in Hm. discriminate.
Qed.

(** Vectors 0 and 1 are masked in the table and requested; then vector 1 is not masked any more. *)
Definition mx_two : mx_param := mkMx 1 6 64 false.
Definition mx_starve : list mx_in := [mi_write false 8 (2 ^ 32) 255; mi_idle false; mi_write false 24 (2 ^ 32) 255; mi_idle false; mi_req false 0; mi_idle false; mi_idle false; mi_req false 1; mi_idle false; mi_idle false;
  mi_write false 24 7 255; mi_idle false; mi_idle false; mi_idle false; mi_idle false].
Record stuck (s : mx_state) : Prop := {
  sk_idx : co_index (ms_core s) = 0; sk_on : co_enable (ms_core s) && negb (co_mask (ms_core s)) = true; sk_tx : co_txvalid (ms_core s) = false;
  sk_pba : ms_pba s 0 = 3; sk_t1 : Z.testbit (ms_tbl s 1) 32 = true; sk_t3 : Z.testbit (ms_tbl s 3) 32 = false; sk_pbard : co_pbard (ms_core s) = 3;
  sk_st : co_st (ms_core s) = Idle \/ co_st (ms_core s) = ReadTbl1 \/ (co_st (ms_core s) = ReadTbl2 /\ Z.testbit (co_tblrd (ms_core s)) 32 = true) }.
Lemma stuck_step s : stuck s -> stuck (mx_step mx_two s (mi_idle false)).
Proof.
  intros [A1 A2 A3 A4 A5 A6 A7 A8].
  assert (Ht : ms_tbl (mx_step mx_two s (mi_idle false)) = ms_tbl s) by reflexivity.
  pose proof (step_core mx_two s (mi_idle false) eq_refl) as Hc.
  assert (Hcn : core_next mx_two (ms_core s) (mi_idle false) = match co_st (ms_core s) with
     | Idle => mkDo ReadTbl1 0 (co_addr (ms_core s)) (co_data (ms_core s)) (co_vmask (ms_core s)) false None (Some 0) (Some 0) None
     | ReadTbl1 => mkDo ReadTbl2 0 (psel (co_tblrd (ms_core s)) 2 62 * 4) (co_data (ms_core s)) (co_vmask (ms_core s)) false None (Some 1) None None
     | _ => mkDo Idle 0 (co_addr (ms_core s)) (psel (co_tblrd (ms_core s)) 0 32) true true None None None (Some (0, 3)) end).
  { unfold core_next. rewrite A1, A7. destruct A8 as [E|[E|[E E2]]]; rewrite E; cbn [mi_idle mi_valid andb negb].
    - rewrite A2. reflexivity.
    - reflexivity.
    - rewrite bsel_eqb by lia. rewrite E2. cbn [negb]. rewrite andb_false_r. reflexivity. }
  assert (Hpb : ms_pba (mx_step mx_two s (mi_idle false)) 0 = 3).
  { unfold mx_step. cbn [ms_pba]. rewrite Hcn. destruct A8 as [E|[E|[E E2]]]; rewrite E; cbn [do_pba_wr]; [exact A4|exact A4|rewrite pba_put0; reflexivity]. }
  constructor; auto; rewrite ?Hc, ?Ht; auto; rewrite Hcn; destruct A8 as [E|[E|[E E2]]]; rewrite E; cbn; auto; try (rewrite A3; reflexivity).
Qed.
Lemma starves_one : starves mx_two 1.
Proof.
  exists mx_starve, (mi_idle false). split; [repeat split|]. split; [reflexivity|]. split; [vm_compute; tauto|]. split.
  - intros x Hx. cbn in Hx. repeat (destruct Hx as [<-|Hx]; [repeat split; vm_compute; congruence|]). destruct Hx.
  - assert (H0 : stuck (mx_run mx_two mx0 mx_starve)) by (constructor; vm_compute; tauto).
    assert (Hgen : forall k s, stuck s -> forall e, In e (mx_trace mx_two s (repeat (mi_idle false) k)) -> Z.testbit (mv_pba e 0) 1 = true /\ entry_masked (mv_tbl e) 1 = false /\ offered e = None).
    { induction k as [|k IH]; intros s Hs e He; [destruct He|]. cbn [repeat mx_trace] in He. destruct He as [<-|He]; [|apply (IH _ (stuck_step s Hs) e He)].
      destruct Hs as [A1 A2 A3 A4 A5 A6 A7 A8]. unfold entry_masked, offered. cbn [mx_event mv_pba mv_tbl mv_txvalid]. rewrite A4, A3. change (2 * 1 + 1) with 3. rewrite A6. auto. }
    intros k e He. exact (Hgen k _ H0 e He).
Qed.
