(** Lemmas for UltrascalePCIe: dispatch, credits, requester requests, outputs. *)
From Verif Require Import PyBase BitLemmas TlpModel TlpProofs BarModel BarSpec BarProofs RouteModel UsModel UsProofs DevModel DevSpec DevProofs.
From Coq Require Import ZifyBool ZifyNat.
Ltac Zify.zify_post_hook ::= Z.div_mod_to_equations.

Lemma first_laid fs Ls k fL : laid_out fs Ls -> nth_error (combine fs Ls) k = Some fL ->
  exists f0 r L0 R, fs = f0 :: r /\ Ls = L0 :: R /\ fn_bars f0 = regs_of L0 /\ Forall bar_ok L0 /\ In (snd fL) Ls.
Proof.
  intros H HN. pose proof (nth_error_In _ _ HN) as HI. destruct fL as [f L]. pose proof (in_combine_r _ _ _ _ HI) as HIr.
  inversion H as [|f0 L0 r R (H1 & H2) H3]; subst; [destruct HIr|]. exists f0, r, L0, R. repeat split; assumption.
Qed.

Lemma combine_nth_fst {A B} : forall k (l : list A) (m : list B) x y, nth_error (combine l m) k = Some (x, y) -> nth_error l k = Some x.
Proof. induction k; intros [|a l] [|b m] x y H; try discriminate; cbn in *; [injection H; congruence|eauto]. Qed.

Lemma us_recv_request_ok d en Ls t io : laid_out (dv_fns d) Ls -> same_shape Ls -> 0 <= t_address t < 2^64 ->
  kind_of t = Some (if io : bool then KIo else KMem) ->
  exists out, us_recv d en t = Ok (d, out) /\
  match out with
  | UCq u => exists k f L i s, nth_error (combine (dv_fns d) Ls) k = Some (f, L) /\
      first_at (claims (t_address t) io) (combine (dv_fns d) Ls) k /\ one_hit L (t_address t) io i s /\
      u_tlp u = set_th 0 (set_completer_id (mkId (dv_bus d) (dv_num d) (fn_num f)) t) /\ u_bar_id u = i /\ u_bar_aperture u = s
  | UReply c => existsb (claims (t_address t) io) (combine (dv_fns d) Ls) = false /\ nonposted t = true /\ answers c t (dv_bus d) (dv_num d) 1
  | UDrop => existsb (claims (t_address t) io) (combine (dv_fns d) Ls) = false /\ nonposted t = false
  | _ => False
  end.
Proof.
  intros HL HS Ha HK. pose proof (kind_flags t) as HF. unfold us_recv, nonposted. rewrite HK in *.
  destruct io; injection HF; intros F4 F3 F2 F1; rewrite F1, F2, F3, ?F4; clear HF.
  - destruct (find_bar1_spec (t_address t) true Ha _ _ HL 0) as (r & -> & HR). cbn [bind]. destruct r as [[k i]|].
    + destruct HR as (_ & HR & f & L & HN & HOk & s & HO). rewrite Nat.sub_0_r in *.
      pose proof (first_laid _ _ _ _ HL HN) as (f0 & rr & L0 & R & Ef & EL & HB & HL0 & HI). cbn [snd] in HI.
      unfold same_shape in HS. rewrite Forall_forall in HS. pose proof (HS _ HI) as HSL. rewrite EL in HSL. cbn [hd] in HSL.
      pose proof HO as (A & e & B & E1 & E2 & _ & _ & Ei & Es).
      pose proof (io_aperture_ok f0 rr L0 A e B L HB HOk HSL E1 _ E2) as HA. rewrite <- Ef, <- Ei in HA. rewrite HA. cbn [bind].
      eexists. split; [reflexivity|]. cbn. exists k, f, L, i, s. split; [assumption|]. split; [assumption|]. split; [assumption|].
      unfold us_request. cbn [u_tlp u_bar_id u_bar_aperture]. rewrite (combine_nth_fst _ _ _ _ _ HN). split; [|split; [reflexivity|congruence]]. reflexivity.
    + eexists. split; [reflexivity|]. cbn. split; [assumption|]. split; [reflexivity|]. apply ur_answers.
  - rewrite (read_flag t HK). destruct (find_bar1_spec (t_address t) false Ha _ _ HL 0) as (r & -> & HR). cbn [bind]. destruct r as [[k i]|].
    + destruct HR as (_ & HR & f & L & HN & HOk & s & HO). rewrite Nat.sub_0_r in *.
      pose proof (first_laid _ _ _ _ HL HN) as (f0 & rr & L0 & R & Ef & EL & HB & HL0 & HI). cbn [snd] in HI.
      unfold same_shape in HS. rewrite Forall_forall in HS. pose proof (HS _ HI) as HSL. rewrite EL in HSL. cbn [hd] in HSL.
      pose proof HO as (A & e & B & E1 & E2 & _ & _ & Ei & Es).
      pose proof (mem_aperture_ok f0 rr L0 A e B L HB HOk HL0 HSL E1 _ E2) as HA. rewrite <- Ef, <- Ei in HA. rewrite HA. cbn [bind].
      eexists. split; [reflexivity|]. cbn. exists k, f, L, i, s. split; [assumption|]. split; [assumption|]. split; [assumption|].
      unfold us_request. cbn [u_tlp u_bar_id u_bar_aperture]. rewrite (combine_nth_fst _ _ _ _ _ HN). split; [|split; [reflexivity|congruence]]. reflexivity.
    + destruct (t_fmt t <? 2); (eexists; split; [reflexivity|]); cbn; (split; [assumption|]).
      * split; [reflexivity|]. apply ur_answers.
      * reflexivity.
Qed.

Lemma us_recv_other_ok d en Ls t : laid_out (dv_fns d) Ls -> kind_of t = Some KCfg \/ kind_of t = Some KCpl ->
  exists d' out, us_recv d en t = Ok (d', out) /\
  (kind_of t = Some KCfg -> en = false -> d' = d /\ exists c, out = UReply c /\ answers c t (dv_bus d) (dv_num d) 2) /\
  (kind_of t = Some KCfg -> en = true -> d' = captured d t /\
     match out with
     | UFn k => first_at (targets (dv_bus d) (dv_num d) t) (combine (dv_fns d) Ls) k
     | UReply c => existsb (targets (dv_bus d) (dv_num d) t) (combine (dv_fns d) Ls) = false /\ answers c t (dv_bus (captured d t)) (dv_num d) 1
     | _ => False
     end) /\
  (kind_of t = Some KCpl -> d' = d /\
     match out with
     | URc u => existsb (targets (dv_bus d) (dv_num d) t) (combine (dv_fns d) Ls) = true /\ u_tlp u = set_th 0 t
     | UDrop => existsb (targets (dv_bus d) (dv_num d) t) (combine (dv_fns d) Ls) = false
     | _ => False
     end).
Proof.
  intros HL HK. pose proof (laid_length _ _ HL) as HLen. pose proof (kind_flags t) as HF. unfold us_recv, targets, captured.
  assert (HNone : forall (l : list (fn * list barent)), existsb (fun '(_, _) => false) l = false) by (induction l as [|[? ?] l IH]; [reflexivity|exact IH]).
  destruct HK as [HK|HK]; rewrite HK in *; injection HF; intros F4 F3 F2 F1; rewrite F1, ?F2; clear HF.
  - destruct en; cbn [negb].
    + destruct (id_device (t_dest_id t) =? dv_num d) eqn:ED.
      * cbn [dv_fns dv_bus dv_num]. pose proof (find_num_spec (id_function (t_dest_id t)) (map (set_fn_bus (id_bus (t_dest_id t))) (dv_fns d)) 0) as HN.
        destruct (find_num _ 0 _) as [k|].
        -- destruct HN as (_ & HN1 & f & HN2 & HN3). rewrite Nat.sub_0_r in *. eexists _, _. split; [reflexivity|].
           split; [discriminate|]. split; [|discriminate]. intros _ _. split; [reflexivity|].
           rewrite firstn_map, existsb_map in HN1. rewrite nth_error_map in HN2. destruct (nth_error (dv_fns d) k) as [g|] eqn:EG; [|discriminate]. injection HN2 as <-.
           eapply first_at_ext; [|eapply (first_at_fn (fun f => fn_num f =? id_function (t_dest_id t)) (dv_fns d) Ls k g HLen HN1 EG)].
           ++ intros [f L]. cbn. reflexivity.
           ++ cbn in HN3. lia.
        -- eexists _, _. split; [reflexivity|]. split; [discriminate|]. split; [|discriminate]. intros _ _. split; [reflexivity|]. split; [|apply ur_answers].
           rewrite existsb_map in HN. change (existsb (fun f => fn_num f =? id_function (t_dest_id t)) (dv_fns d) = false) in HN. rewrite <- (combine_existsb (fun f => fn_num f =? id_function (t_dest_id t)) (dv_fns d) Ls HLen) in HN.
           (etransitivity; [|exact HN]). apply existsb_ext'. intros [f L]. reflexivity.
      * eexists _, _. split; [reflexivity|]. split; [discriminate|]. split; [|discriminate]. intros _ _. split; [reflexivity|]. split; [|apply ur_answers].
        cbn [andb]. apply HNone.
    + eexists _, _. split; [reflexivity|]. split; [|split; discriminate]. intros _ _. split; [reflexivity|]. eexists. split; [reflexivity|]. repeat split.
  - destruct ((id_bus (t_requester_id t) =? dv_bus d) && (id_device (t_requester_id t) =? dv_num d)) eqn:ED.
    + pose proof (find_num_spec (id_function (t_requester_id t)) (dv_fns d) 0) as HN. destruct (find_num _ 0 _) as [k|].
      * destruct HN as (_ & HN1 & f & HN2 & HN3). eexists _, _. split; [reflexivity|]. split; [discriminate|]. split; [discriminate|]. intros _. split; [reflexivity|].
        split; [|reflexivity]. transitivity (existsb (fun f => fn_num f =? id_function (t_requester_id t)) (dv_fns d)).
        -- rewrite <- (combine_existsb (fun f => fn_num f =? id_function (t_requester_id t)) (dv_fns d) Ls HLen). apply existsb_ext'. intros [g L]. reflexivity.
        -- apply existsb_exists. exists f. split; [now apply nth_error_In in HN2|lia].
      * eexists _, _. split; [reflexivity|]. split; [discriminate|]. split; [discriminate|]. intros _. split; [reflexivity|].
        (etransitivity; [|exact HN]). rewrite <- (combine_existsb (fun f => fn_num f =? id_function (t_requester_id t)) (dv_fns d) Ls HLen). apply existsb_ext'. intros [g L]. reflexivity.
    + eexists _, _. split; [reflexivity|]. split; [discriminate|]. split; [discriminate|]. intros _. split; [reflexivity|]. cbn [andb]. apply HNone.
Qed.

(** Credits. *)
Lemma credit_kind u : request u -> needs_credit u = nonposted (u_tlp u).
Proof.
  unfold request, needs_credit, nonposted, kind_of, ft_in, t_fmt_type, ft_eqb, TLP_IO_READ, TLP_IO_WRITE, TLP_MEM_READ, TLP_MEM_READ_64. cbn [existsb fst snd].
  generalize (t_fmt (u_tlp u)) (t_type (u_tlp u)). intros a b.
  destruct a as [|p|?]; [|do 2 (try destruct p as [p|p|])|]; try reflexivity; (destruct b as [|q|?]; [|do 4 (try destruct q as [q|q|])|]); try reflexivity; intros [H|H]; discriminate H.
Qed.

Lemma drain_ok : forall q cnt s q' c, 0 <= cnt -> drain_np q cnt = (s, q', c) ->
  q = s ++ q' /\ c = cnt - zlen s /\ 0 <= c /\ (q' <> [] -> c = 0).
Proof.
  induction q as [|x q IH]; intros cnt s q' c Hc H; cbn [drain_np] in H.
  - injection H as <- <- <-. cbn. repeat split; try lia. congruence.
  - destruct (Z.gtb_spec cnt 0).
    + destruct (drain_np q (cnt - 1)) as [[s1 q1] c1] eqn:E. injection H as <- <- <-. apply IH in E; [|lia]. destruct E as (-> & -> & H1 & H2).
      unfold zlen in *. cbn [length app]. split; [reflexivity|]. split; [lia|]. split; [lia|]. intros Hq. specialize (H2 Hq). lia.
    + injection H as <- <- <-. cbn. repeat split; lia.
Qed.

Lemma skipn_len {A} (a b : list A) : skipn (length a) (a ++ b) = b.
Proof. rewrite skipn_app, skipn_all, Nat.sub_diag. reflexivity. Qed.

Notation npf := (filter (fun u => nonposted (u_tlp u))).
Notation pf := (filter posted).

Lemma new_ok : forall l npq cnt s q' c, Forall request l -> 0 <= cnt -> (npq <> [] -> cnt = 0) -> new_reqs l npq cnt = (s, q', c) ->
  pf s = pf l /\ npq ++ npf l = npq ++ npf s ++ skipn (length npq) q' /\ (exists t, q' = npq ++ t) /\
  c = cnt - zlen (npf s) /\ 0 <= c /\ (q' <> [] -> c = 0) /\ (npq <> [] -> npf s = []) /\
  (forall s1 x s2, s = s1 ++ x :: s2 -> nonposted (u_tlp x) = true -> pf s1 = posted_before (length (npf s1)) l).
Proof.
  induction l as [|x l IH]; intros npq cnt s q' c HR Hc Hq H; cbn [new_reqs] in H.
  - injection H as <- <- <-. cbn [filter app]. rewrite skipn_all, !app_nil_r. split; [reflexivity|]. split; [reflexivity|]. split; [exists []; now rewrite app_nil_r|].
    cbn. split; [lia|]. split; [lia|]. split; [assumption|]. split; [reflexivity|]. intros [|? ?]; discriminate.
  - inversion HR as [|? ? HX HR']; subst. rewrite (credit_kind x HX) in H. cbn [filter]. unfold posted at 2. destruct (nonposted (u_tlp x)) eqn:EN; cbn [negb].
    + destruct (Z.gtb_spec cnt 0).
      * destruct (new_reqs l npq (cnt - 1)) as [[s1 q1] c1] eqn:E. injection H as <- <- <-.
        assert (npq = []) as -> by (destruct npq; [reflexivity|]; assert (cnt = 0) by (apply Hq; discriminate); lia).
        apply IH in E; [|assumption|lia|congruence]. destruct E as (E1 & E2 & E3 & E4 & E5 & E6 & E7 & E8). cbn [filter app length skipn] in *.
        assert (EP : posted x = false) by (unfold posted; rewrite EN; reflexivity).
        rewrite EN, EP. split; [assumption|]. split; [cbn [app]; now rewrite <- E2|]. split; [assumption|].
        split; [unfold zlen in *; cbn [length]; lia|]. split; [lia|]. split; [assumption|]. split; [congruence|].
        intros sa y sb HE HY. destruct sa as [|z sa]; cbn in HE; injection HE as -> HE.
        -- cbn [filter length posted_before]. rewrite EP. reflexivity.
        -- cbn [filter posted_before]. rewrite EN, EP. cbn [length]. apply (E8 _ _ _ HE HY).
      * apply IH in H; [|assumption|lia|intros; lia]. destruct H as (E1 & E2 & (t & ->) & E4 & E5 & E6 & E7 & E8).
        assert (npf s = []) as EN0 by (apply E7; destruct npq; discriminate).
        split; [assumption|]. rewrite EN0 in *. rewrite <- app_assoc. cbn [app].
        split; [|split; [eauto|]].
        -- rewrite skipn_len in *. cbn [app] in *. apply app_inv_head in E2. now rewrite E2.
        -- split; [assumption|]. split; [assumption|]. split; [rewrite <- app_assoc in E6; assumption|]. split; [reflexivity|].
           intros s1 y s2 HE HY. exfalso. apply (f_equal (fun l => npf l)) in HE. rewrite EN0, filter_app in HE. cbn [filter] in HE. rewrite HY in HE. destruct (npf s1); discriminate.
    + destruct (new_reqs l npq cnt) as [[s1 q1] c1] eqn:E. injection H as <- <- <-.
      apply IH in E; [|assumption|lia|assumption]. destruct E as (E1 & E2 & E3 & E4 & E5 & E6 & E7 & E8).
      assert (EP : posted x = true) by (unfold posted; rewrite EN; reflexivity). cbn [filter]. rewrite EN, EP.
      split; [now rewrite E1|]. split; [assumption|]. split; [assumption|]. split; [assumption|]. split; [assumption|]. split; [assumption|]. split; [assumption|].
      intros sa y sb HE HY. destruct sa as [|z sa]; cbn in HE; injection HE as -> HE.
      * rewrite EN in HY. discriminate.
      * cbn [filter posted_before]. rewrite EN, EP. f_equal. apply (E8 _ _ _ HE HY).
Qed.

Lemma pb_lt : forall a r n, (n < length (npf a))%nat -> posted_before n (a ++ r) = posted_before n a.
Proof.
  induction a as [|x a IH]; intros r n H; [cbn in H; lia|]. cbn [app posted_before filter] in *. unfold posted in *. destruct (nonposted (u_tlp x)); cbn [negb] in *.
  - destruct n; [reflexivity|]. apply IH. cbn [length] in H. lia.
  - f_equal. apply IH. assumption.
Qed.
Lemma pb_ge : forall a r n, (length (npf a) <= n)%nat -> posted_before n (a ++ r) = pf a ++ posted_before (n - length (npf a)) r.
Proof.
  induction a as [|x a IH]; intros r n H; [cbn [filter app length]; now rewrite Nat.sub_0_r|]. cbn [app posted_before filter] in *. unfold posted in *. destruct (nonposted (u_tlp x)); cbn [negb length app] in *.
  - destruct n; [lia|]. apply IH. lia.
  - f_equal. apply IH. assumption.
Qed.
Lemma pb_prefix : forall a n, exists t, pf a = posted_before n a ++ t.
Proof.
  induction a as [|x a IH]; intros n; [exists []; reflexivity|]. cbn [posted_before filter]. destruct (posted x).
  - destruct (IH n) as (t & E). exists t. cbn. now rewrite E.
  - destruct n; [eexists; reflexivity|]. apply IH.
Qed.

Lemma pf_np l : Forall (fun u => nonposted (u_tlp u) = true) l -> pf l = [] /\ npf l = l.
Proof.
  intros H. induction H as [|x l Hx H (IH1 & IH2)]; [split; reflexivity|]. cbn [filter]. unfold posted at 1. rewrite Hx. cbn [negb]. rewrite IH2. split; [assumption|reflexivity].
Qed.

Definition np_ok (s : np_state) : Prop :=
  Forall (fun u => nonposted (u_tlp u) = true) (np_queue s) /\ 0 <= np_cnt s <= 32 /\ (np_queue s <> [] -> np_cnt s = 0).

Lemma app_cons_inv {A} : forall (a b c : list A) x d, a ++ b = c ++ x :: d ->
  (exists e, a = c ++ x :: e /\ d = e ++ b) \/ (exists e, c = a ++ e /\ b = e ++ x :: d).
Proof.
  induction a as [|y a IH]; intros b c x d H; cbn in H; [right; exists c; split; [reflexivity|assumption]|].
  destruct c as [|z c]; cbn in H; injection H as -> H.
  - left. exists a. split; [reflexivity|now symmetry].
  - apply IH in H. destruct H as [(e & -> & ->)|(e & -> & ->)]; [left; exists e; split; reflexivity|right; exists e; split; reflexivity].
Qed.

Lemma np_step_ok s i s' o : np_ok s -> Forall request (ni_arrive i) -> np_step s i = (s', o) ->
  np_ok s' /\ pf o = pf (ni_arrive i) /\ np_queue s ++ npf (ni_arrive i) = npf o ++ np_queue s' /\
  zlen (npf o) + np_cnt s' <= np_cnt s + (if negb (ni_reset i) && ni_req i then 1 else 0) /\
  (forall s1 x s2, o = s1 ++ x :: s2 -> nonposted (u_tlp x) = true -> (length (np_queue s) <= length (npf s1))%nat ->
     pf s1 = posted_before (length (npf s1) - length (np_queue s)) (ni_arrive i) /\ (length (npf s1) - length (np_queue s) < length (npf (ni_arrive i)))%nat).
Proof.
  intros (HF & HC & HQ) HR H. unfold np_step in H.
  set (cnt := if ni_reset i then 0 else if ni_req i then if np_cnt s <? 32 then np_cnt s + 1 else np_cnt s else np_cnt s) in *.
  assert (Hcnt : 0 <= cnt <= 32 /\ cnt <= np_cnt s + (if negb (ni_reset i) && ni_req i then 1 else 0)).
  { unfold cnt. destruct (ni_reset i); cbn [negb andb]; [lia|]. destruct (ni_req i); cbn [andb]; [|lia]. destruct (Z.ltb_spec (np_cnt s) 32); lia. }
  clearbody cnt. destruct (drain_np (np_queue s) cnt) as [[d q1] c1] eqn:ED. destruct (new_reqs (ni_arrive i) q1 c1) as [[s2 q2] c2] eqn:EN.
  injection H as <- <-. apply drain_ok in ED; [|lia]. destruct ED as (Hq & Hc1 & Hc1' & Hq1). rewrite Hq in HF. apply Forall_app in HF. destruct HF as (HFd & HFq).
  apply new_ok in EN; [|assumption|lia|assumption]. destruct EN as (E1 & E2 & (t & ->) & E4 & E5 & E6 & E7 & E8).
  destruct (pf_np _ HFd) as (P1 & P2). rewrite skipn_len in E2. apply app_inv_head in E2.
  cbn [np_queue np_cnt]. split; [|split; [|split; [|split]]].
  - split; [|split; [unfold zlen in *; cbn [np_cnt]; lia|exact E6]]. cbn [np_queue]. apply Forall_app. split; [assumption|].
    assert (HI : forall y, In y t -> In y (npf (ni_arrive i))) by (intros y Hy; rewrite E2; apply in_or_app; right; assumption).
    apply Forall_forall. intros y Hy. apply HI in Hy. apply filter_In in Hy. apply Hy.
  - rewrite filter_app, P1. exact E1.
  - rewrite filter_app, P2, Hq, E2. rewrite <- !app_assoc. f_equal. destruct q1 as [|y q1]; [reflexivity|]. rewrite (E7 ltac:(discriminate)). reflexivity.
  - rewrite filter_app, P2. unfold zlen in *. rewrite app_length. lia.
  - intros sa x sb HE HX HL. apply app_cons_inv in HE. destruct HE as [(e & -> & ->)|(e & -> & HE)].
    + exfalso. rewrite Hq, !app_length in HL. rewrite Forall_app in HFd. destruct HFd as (HFa & _). destruct (pf_np _ HFa) as (_ & P3). rewrite P3 in HL. cbn [length] in HL. lia.
    + assert (q1 = []) as ->.
      { destruct q1 as [|y q1]; [reflexivity|]. exfalso. specialize (E7 ltac:(discriminate)). rewrite HE, filter_app in E7. cbn [filter] in E7. rewrite HX in E7. destruct (npf e); discriminate. }
      rewrite app_nil_r in Hq. rewrite Hq. rewrite !filter_app, P1, P2, app_length. cbn [app].
      replace (length d + length (npf e) - length d)%nat with (length (npf e)) by lia. split; [apply (E8 _ _ _ HE HX)|].
      rewrite E2, HE, filter_app. cbn [filter]. rewrite HX, !app_length. cbn [length]. lia.
Qed.

Lemma np_run_ok : forall l s s' o, np_ok s -> Forall request (arrived l) -> np_run s l = (s', o) ->
  np_ok s' /\ pf o = pf (arrived l) /\ np_queue s ++ npf (arrived l) = npf o ++ np_queue s' /\
  zlen (npf o) + np_cnt s' <= np_cnt s + grants l /\
  (forall s1 x s2, o = s1 ++ x :: s2 -> nonposted (u_tlp x) = true -> (length (np_queue s) <= length (npf s1))%nat ->
     exists t, pf s1 = posted_before (length (npf s1) - length (np_queue s)) (arrived l) ++ t).
Proof.
  induction l as [|i l IH]; intros s s' o HS HR H; cbn [np_run] in H.
  - injection H as <- <-. cbn. rewrite app_nil_r. repeat split; try assumption; try apply HS; try lia. intros [|? ?]; discriminate.
  - destruct (np_step s i) as [s1 o1] eqn:E1. destruct (np_run s1 l) as [s2 o2] eqn:E2. injection H as <- <-.
    unfold arrived in HR. cbn [flat_map] in HR. apply Forall_app in HR. destruct HR as (HR1 & HR2). change (flat_map ni_arrive l) with (arrived l) in *.
    destruct (np_step_ok _ _ _ _ HS HR1 E1) as (A1 & A2 & A3 & A4 & A5). destruct (IH _ _ _ A1 HR2 E2) as (B1 & B2 & B3 & B4 & B5).
    unfold arrived. cbn [flat_map]. change (flat_map ni_arrive l) with (arrived l).
    split; [assumption|]. split; [rewrite !filter_app; congruence|]. split; [|split].
    + rewrite !filter_app, app_assoc, A3, <- !app_assoc. f_equal. exact B3.
    + unfold grants in *. cbn [filter]. rewrite filter_app. unfold zlen in *. rewrite app_length. destruct (negb (ni_reset i) && ni_req i); cbn [length]; lia.
    + intros sa x sb HE HX HL. apply app_cons_inv in HE. destruct HE as [(e & HE & _)|(e & -> & HE)].
      * destruct (A5 _ _ _ HE HX HL) as (C1 & C2). exists []. rewrite app_nil_r, pb_lt by assumption. exact C1.
      * rewrite !filter_app in *. rewrite A2. apply (f_equal (@length tlp_us)) in A3. rewrite !app_length in *.
        destruct (Nat.le_gt_cases (length (np_queue s1)) (length (npf e))) as [HG|HG].
        -- destruct (B5 _ _ _ HE HX HG) as (t & C1). rewrite pb_ge by lia. exists t. rewrite <- app_assoc. f_equal. rewrite C1. f_equal. f_equal. lia.
        -- rewrite pb_lt by lia. destruct (pb_prefix (ni_arrive i) (length (npf o1) + length (npf e) - length (np_queue s))) as (t & C1). exists (t ++ pf e).
           rewrite app_assoc, <- C1. reflexivity.
Qed.
Lemma np_ok0 : np_ok (mkNp [] 0).
Proof. split; [constructor|]. split; [cbn; lia|reflexivity]. Qed.
