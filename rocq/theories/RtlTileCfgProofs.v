From Coq Require Import String.
From Verif Require Import PyBase RtlModel RtlTileCfgModel RtlTileCfgSpec.
Local Open Scope string_scope.
Local Open Scope Z_scope.

Lemma ins_bits_spec : forall v lo w x tot j, 0 <= lo -> 0 <= w -> 0 <= tot -> 0 <= j < tot ->
  Z.testbit (ins_bits v lo w x tot) j = if (lo <=? j) && (j <? lo + w) then Z.testbit x (j - lo) else Z.testbit v j.
Proof.
  intros v lo w x tot j Hlo Hw Ht Hj. unfold ins_bits.
  rewrite Z.land_spec, Z.lor_spec, Z.ldiff_spec, !Z.shiftl_spec by lia.
  rewrite (Z.testbit_ones tot) by lia.
  replace (0 <=? j) with true by (symmetry; apply Z.leb_le; lia). replace (j <? tot) with true by (symmetry; apply Z.ltb_lt; lia).
  change (true && true) with true. rewrite andb_true_r.
  destruct (lo <=? j) eqn:E1.
  - apply Z.leb_le in E1. rewrite Z.land_spec, Z.testbit_ones by lia.
    replace (0 <=? j - lo) with true by (symmetry; apply Z.leb_le; lia). cbn [andb].
    destruct (j <? lo + w) eqn:E2.
    + apply Z.ltb_lt in E2. replace (j - lo <? w) with true by (symmetry; apply Z.ltb_lt; lia).
      cbn [negb]. rewrite andb_false_r, andb_true_r. reflexivity.
    + apply Z.ltb_ge in E2. replace (j - lo <? w) with false by (symmetry; apply Z.ltb_ge; lia).
      cbn [negb]. rewrite andb_false_r, andb_true_r, orb_false_r. reflexivity.
  - apply Z.leb_gt in E1. rewrite !(Z.testbit_neg_r _ (j - lo)) by lia.
    cbn [andb negb]. rewrite andb_true_r, orb_false_r. reflexivity.
Qed.

Lemma psel_bit : forall v lo w j, 0 <= lo -> 0 <= w -> 0 <= j -> Z.testbit (psel v lo w) j = if j <? w then Z.testbit v (lo + j) else false.
Proof.
  intros v lo w j Hl Hw Hj. unfold psel. destruct (j <? w) eqn:E.
  - apply Z.ltb_lt in E. rewrite Z.mod_pow2_bits_low by lia. rewrite Z.div_pow2_bits by lia. f_equal. lia.
  - apply Z.ltb_ge in E. apply Z.mod_pow2_bits_high. lia.
Qed.

(** Which bit of the word a list of assignments gives to bit b of field n: not assigned, assigned zero, or a bit. *)
Fixpoint hit (l : list cfg_asg) (n : string) (b : Z) : option (option Z) :=
  match l with
  | [] => None
  | a :: t =>
      match hit t n b with
      | Some x => Some x
      | None => if String.eqb n (ca_name a) && (ca_off a <=? b) && (b <? ca_off a + ca_width a)
                then Some (if b - ca_off a <? ca_hi a - ca_lo a + 1 then Some (ca_lo a + (b - ca_off a)) else None)
                else None
      end
  end.

(** Assignments that stay in the part of the vector for their function; for function 0 they may be wholly above it. *)
Definition asg_ok (n : string) (w : Z) (zero : bool) (a : cfg_asg) : bool :=
  negb (String.eqb n (ca_name a))
  || ((ca_stride a =? w) && (0 <=? ca_off a) && (0 <=? ca_width a) && (0 <=? ca_lo a) && (ca_lo a <=? ca_hi a)
      && ((ca_off a + ca_width a <=? w) || (zero && (w <=? ca_off a)))).

Lemma fold_bit : forall ports pf f0 ctl f n b (zero : bool) l s,
  let w := cfg_w ports n in
  0 <= b < w -> 0 <= f < pf -> 0 <= f0 < pf -> (zero = true -> f = 0) -> forallb (asg_ok n w zero) l = true ->
  Z.testbit (fold_left (cfg_assign ports pf f0 ctl) l s n) (f * w + b)
  = if f =? f0 then match hit l n b with Some (Some k) => Z.testbit ctl k | Some None => false | None => Z.testbit (s n) (f * w + b) end
    else Z.testbit (s n) (f * w + b).
Proof.
  intros ports pf f0 ctl f n b zero l. induction l as [|a t IH]; intros s w Hb Hf Hf0 Hz Hok; cbn [fold_left hit].
  { destruct (f =? f0); reflexivity. }
  cbn [forallb] in Hok. apply andb_prop in Hok. destruct Hok as [Ha Ht].
  rewrite IH by assumption. fold w.
  assert (HA : Z.testbit (cfg_assign ports pf f0 ctl s a n) (f * w + b)
    = if (f =? f0) && (String.eqb n (ca_name a) && (ca_off a <=? b) && (b <? ca_off a + ca_width a))
      then (if b - ca_off a <? ca_hi a - ca_lo a + 1 then Z.testbit ctl (ca_lo a + (b - ca_off a)) else false)
      else Z.testbit (s n) (f * w + b)).
  { unfold cfg_assign. unfold asg_ok in Ha. destruct (String.eqb n (ca_name a)) eqn:En; cbn [andb]; [|rewrite andb_false_r; reflexivity].
    cbn [negb orb] in Ha. fold w.
    repeat (apply andb_prop in Ha; destruct Ha as [Ha ?]).
    apply Z.eqb_eq in Ha. rewrite Ha.
    repeat match goal with H : (_ <=? _) = true |- _ => apply Z.leb_le in H end.
    assert (Hin : 0 <= f * w + b < pf * w) by nia.
    assert (Hlo : 0 <= f0 * w + ca_off a) by nia.
    rewrite ins_bits_spec by lia.
    match goal with H : _ || _ = true |- _ => apply orb_prop in H; destruct H as [Hr|Hr] end.
    - apply Z.leb_le in Hr.
      destruct (f =? f0) eqn:Ef.
      + apply Z.eqb_eq in Ef. subst f0. cbn [andb].
        replace (f * w + ca_off a <=? f * w + b) with (ca_off a <=? b) by (apply eq_true_iff_eq; rewrite !Z.leb_le; lia).
        replace (f * w + b <? f * w + ca_off a + ca_width a) with (b <? ca_off a + ca_width a) by (apply eq_true_iff_eq; rewrite !Z.ltb_lt; lia).
        destruct ((ca_off a <=? b) && (b <? ca_off a + ca_width a)) eqn:Ec; [|reflexivity].
        apply andb_prop in Ec. destruct Ec as [Ec1 _]. apply Z.leb_le in Ec1.
        rewrite psel_bit by lia. replace (f * w + b - (f * w + ca_off a)) with (b - ca_off a) by lia. reflexivity.
      + apply Z.eqb_neq in Ef. cbn [andb].
        replace ((f0 * w + ca_off a <=? f * w + b) && (f * w + b <? f0 * w + ca_off a + ca_width a)) with false; [reflexivity|].
        symmetry. apply andb_false_iff. rewrite Z.leb_gt, Z.ltb_ge.
        assert (f < f0 \/ f0 < f) as [L|L] by lia; [left|right]; nia.
    - apply andb_prop in Hr. destruct Hr as [Hzt Hr]. apply Z.leb_le in Hr. rewrite (Hz Hzt).
      replace (f0 * w + ca_off a <=? 0 * w + b) with false by (symmetry; apply Z.leb_gt; nia).
      replace (ca_off a <=? b) with false by (symmetry; apply Z.leb_gt; lia). cbn [andb]. rewrite andb_false_r. reflexivity. }
  rewrite HA. clear HA IH.
  destruct (f =? f0); cbn [andb]; [|reflexivity].
  destruct (hit t n b) as [[k|]|]; [reflexivity|reflexivity|].
  destruct (String.eqb n (ca_name a) && (ca_off a <=? b) && (b <? ca_off a + ca_width a)); [|reflexivity].
  destruct (b - ca_off a <? ca_hi a - ca_lo a + 1); reflexivity.
Qed.

Definition zs (k : nat) : list Z := map Z.of_nat (seq 0 k).
Lemma zs_in : forall k x, 0 <= x < Z.of_nat k -> In x (zs k).
Proof. intros k x H. unfold zs. apply in_map_iff. exists (Z.to_nat x). split; [lia|]. apply in_seq. lia. Qed.

(** No register has bit b of field n. *)
Definition nowhere (t : cfg_tile) (n : string) (b : Z) : bool :=
  forallb (fun r => match bit_of t (reg t r) n b with None => true | Some _ => false end) (zs 32).
(** The assignments of all registers agree with the rows in bit b of field n. *)
Definition agree (t : cfg_tile) (n : string) (b : Z) : bool :=
  forallb (fun r => match bit_of t (reg t r) n b, hit (cfg_case t r) n b with
                    | Some k, Some (Some k') => k =? k'
                    | None, None => true
                    | None, Some None => nowhere t n b
                    | _, _ => false
                    end) (zs 32).
Definition fits (t : cfg_tile) (zero : bool) (n : string) : bool :=
  forallb (fun r => forallb (asg_ok n (cfg_w (cfg_ports t) n) zero) (cfg_case t r)) (zs 32).

Lemma nowhere_shown : forall t f n b ins, nowhere t n b = true -> Forall (report t) ins -> shown t f n b ins false = false.
Proof.
  intros t f n b ins Hn. induction ins as [|i l IH]; intros Hr; cbn [shown]; [reflexivity|].
  inversion Hr; subst. destruct (ci_rst i); [auto|]. destruct (ci_func i =? f); [|auto].
  unfold nowhere in Hn. rewrite forallb_forall in Hn.
  assert (Hi : In (ci_add i) (zs 32)) by (apply zs_in; destruct H1 as (_ & H1 & _); lia).
  specialize (Hn _ Hi). destruct (bit_of t (reg t (ci_add i)) n b); [discriminate|auto].
Qed.

Lemma step_bit : forall t pf f n b (zero : bool) s i,
  0 < pf -> 0 <= f < pf -> has_bit t n b -> report t i -> (zero = true -> f = 0) -> fits t zero n = true ->
  out_bit t (cfg_step t pf s i) f n b
  = if ci_rst i then false
    else if ci_func i =? f then match hit (cfg_case t (ci_add i)) n b with Some (Some k) => Z.testbit (ci_ctl i) k | Some None => false | None => out_bit t s f n b end
    else out_bit t s f n b.
Proof.
  intros t pf f n b zero s i Hpf Hf Hb (Hf0 & Ha & Hc) Hz Hfit. unfold out_bit, cfg_step.
  destruct (ci_rst i); [apply Z.testbit_0_l|].
  destruct (ci_func i <? pf) eqn:E.
  - apply Z.ltb_lt in E. unfold fits in Hfit. rewrite forallb_forall in Hfit.
    rewrite (fold_bit _ pf (ci_func i) (ci_ctl i) f n b zero) by (auto || (apply Hfit, zs_in; lia)).
    rewrite (Z.eqb_sym f). reflexivity.
  - apply Z.ltb_ge in E. replace (ci_func i =? f) with false by (symmetry; apply Z.eqb_neq; lia). reflexivity.
Qed.

Lemma run_bit : forall t pf f n b (zero : bool),
  0 < pf -> 0 <= f < pf -> has_bit t n b -> (zero = true -> f = 0) -> fits t zero n = true -> agree t n b = true ->
  forall ins s, Forall (report t) ins -> (nowhere t n b = true -> out_bit t s f n b = false) ->
  out_bit t (cfg_run t pf s ins) f n b = shown t f n b ins (out_bit t s f n b).
Proof.
  intros t pf f n b zero Hpf Hf Hb Hz Hfit Hag. induction ins as [|i l IH]; intros s Hr Hs; [reflexivity|].
  inversion Hr as [|? ? Hi Hl]; subst.
  cbn [shown]. change (cfg_run t pf s (i :: l)) with (cfg_run t pf (cfg_step t pf s i) l).
  pose proof (step_bit t pf f n b zero s i Hpf Hf Hb Hi Hz Hfit) as HS.
  assert (HE : out_bit t (cfg_step t pf s i) f n b =
    if ci_rst i then false
    else if ci_func i =? f then match bit_of t (reg t (ci_add i)) n b with Some k => Z.testbit (ci_ctl i) k | None => out_bit t s f n b end
    else out_bit t s f n b).
  { rewrite HS. destruct (ci_rst i); [reflexivity|]. destruct (ci_func i =? f); [|reflexivity].
    unfold agree in Hag. rewrite forallb_forall in Hag.
    assert (Hin : In (ci_add i) (zs 32)) by (apply zs_in; destruct Hi as (_ & Hi & _); lia).
    specialize (Hag _ Hin).
    destruct (bit_of t (reg t (ci_add i)) n b) as [k|], (hit (cfg_case t (ci_add i)) n b) as [[k'|]|]; try discriminate Hag; try reflexivity.
    - apply Z.eqb_eq in Hag. rewrite Hag. reflexivity.
    - symmetry. apply Hs, Hag. }
  rewrite <- HE. apply IH; [exact Hl|].
  intros Hn. rewrite HE. destruct (ci_rst i); [reflexivity|]. destruct (ci_func i =? f); [|auto].
  unfold nowhere in Hn. rewrite forallb_forall in Hn.
  assert (Hin : In (ci_add i) (zs 32)) by (apply zs_in; destruct Hi as (_ & Hi & _); lia).
  specialize (Hn _ Hin) as Hx. destruct (bit_of t (reg t (ci_add i)) n b); [discriminate|].
  apply Hs. unfold nowhere. rewrite forallb_forall. exact Hn.
Qed.

(** Checks of the tables over all fields. *)
Definition fields (t : cfg_tile) : list (string * Z) := cfg_ports t.
Definition good (t : cfg_tile) (bad : list string) : bool :=
  forallb (fun nw => existsb (String.eqb (fst nw)) bad
                     || (fits t false (fst nw) && forallb (agree t (fst nw)) (zs (Z.to_nat (cfg_w (cfg_ports t) (fst nw)))))) (cfg_ports t).
Lemma cfg_w_in : forall ports n, 0 < cfg_w ports n -> exists w, In (n, w) ports.
Proof.
  induction ports as [|(m, w) t IH]; intros n H; cbn [cfg_w] in H; [lia|].
  destruct (String.eqb n m) eqn:E.
  - apply String.eqb_eq in E. subst. exists w. left. reflexivity.
  - destruct (IH n H) as (w' & Hw). exists w'. right. exact Hw.
Qed.
Lemma good_field : forall t bad n b, good t bad = true -> has_bit t n b -> ~ In n bad -> fits t false n = true /\ agree t n b = true.
Proof.
  intros t bad n b Hg Hb Hn. unfold has_bit in Hb. destruct (cfg_w_in (cfg_ports t) n ltac:(lia)) as (w & Hw).
  unfold good in Hg. rewrite forallb_forall in Hg. specialize (Hg _ Hw). cbn [fst] in Hg.
  apply orb_prop in Hg. destruct Hg as [Hg|Hg].
  - exfalso. apply existsb_exists in Hg. destruct Hg as (x & Hx & He). apply String.eqb_eq in He. subst. auto.
  - apply andb_prop in Hg. destruct Hg as [Hf Ha]. split; [exact Hf|]. rewrite forallb_forall in Ha. apply Ha, zs_in. lia.
Qed.

Definition aer : list string := ["aer_uncor_err_mask"; "aer_corr_err_mask"; "aer_uncor_err_severity"].
Lemma good_h : good HTile [] = true. Proof. vm_compute. reflexivity. Qed.
Lemma good_l : good LTile [] = true. Proof. vm_compute. reflexivity. Qed.
Lemma good_p : good PTile aer = true. Proof. vm_compute. reflexivity. Qed.
Definition excluded (t : cfg_tile) : list string := match t with PTile => aer | _ => [] end.
Lemma good_t : forall t, good t (excluded t) = true.
Proof. destruct t; [apply good_h|apply good_l|apply good_p]. Qed.

Lemma run_reset : forall t pf s i ins, ci_rst i = true -> cfg_run t pf s (i :: ins) = cfg_run t pf (fun _ => 0) ins.
Proof. intros t pf s i ins H. unfold cfg_run. cbn [fold_left]. unfold cfg_step at 2. rewrite H. reflexivity. Qed.

Lemma shown_ok : forall t pf s i ins f n b,
  0 < pf -> ci_rst i = true -> Forall (report t) ins -> 0 <= f < pf -> has_bit t n b -> ~ In n (excluded t) ->
  out_bit t (cfg_run t pf s (i :: ins)) f n b = shown t f n b ins false.
Proof.
  intros t pf s i ins f n b Hpf Hr Hins Hf Hb Hn. rewrite run_reset by exact Hr.
  destruct (good_field t _ n b (good_t t) Hb Hn) as [Hfit Hag].
  rewrite (run_bit t pf f n b false) by (auto; discriminate || (intros; apply Z.testbit_0_l)).
  unfold out_bit. rewrite Z.testbit_0_l. reflexivity.
Qed.

Lemma isolated_ok : forall t pf s i f n b,
  0 < pf -> report t i -> ci_rst i = false -> 0 <= f < pf -> f <> ci_func i -> has_bit t n b -> ~ In n (excluded t) ->
  out_bit t (cfg_step t pf s i) f n b = out_bit t s f n b.
Proof.
  intros t pf s i f n b Hpf Hi Hr Hf Hne Hb Hn.
  destruct (good_field t _ n b (good_t t) Hb Hn) as [Hfit Hag].
  rewrite (step_bit t pf f n b false) by (auto; discriminate). rewrite Hr.
  replace (ci_func i =? f) with false by (symmetry; apply Z.eqb_neq; lia). reflexivity.
Qed.

(** Only one register has bit b of field n. *)
Definition single (t : cfg_tile) (n : string) (b : Z) : bool :=
  forallb (fun r => forallb (fun r' => (reg t r =? reg t r') || match bit_of t (reg t r) n b, bit_of t (reg t r') n b with Some _, Some _ => false | _, _ => true end) (zs 32)) (zs 32).
Definition singles (t : cfg_tile) (bad : list string) : bool :=
  forallb (fun nw => existsb (String.eqb (fst nw)) bad || forallb (single t (fst nw)) (zs (Z.to_nat (cfg_w (cfg_ports t) (fst nw))))) (cfg_ports t).
Lemma singles_field : forall t bad n b, singles t bad = true -> has_bit t n b -> ~ In n bad -> single t n b = true.
Proof.
  intros t bad n b Hg Hb Hn. unfold has_bit in Hb. destruct (cfg_w_in (cfg_ports t) n ltac:(lia)) as (w & Hw).
  unfold singles in Hg. rewrite forallb_forall in Hg. specialize (Hg _ Hw). cbn [fst] in Hg.
  apply orb_prop in Hg. destruct Hg as [Hg|Hg].
  - exfalso. apply existsb_exists in Hg. destruct Hg as (x & Hx & He). apply String.eqb_eq in He. subst. auto.
  - rewrite forallb_forall in Hg. apply Hg, zs_in. lia.
Qed.
Definition repeated (t : cfg_tile) : list string := match t with LTile => ["an_link_width"; "an_link_speed"] | _ => [] end.
Lemma singles_t : forall t, singles t (repeated t) = true.
Proof. destruct t; vm_compute; reflexivity. Qed.

Lemma shown_word : forall t f n b r k, single t n b = true -> 0 <= r < 32 -> bit_of t (reg t r) n b = Some k ->
  forall ins cur, Forall (report t) ins -> shown t f n b ins (Z.testbit cur k) = Z.testbit (word t f (reg t r) ins cur) k.
Proof.
  intros t f n b r k Hs Hr Hk. induction ins as [|i l IH]; intros cur Hi; cbn [shown word]; [reflexivity|].
  inversion Hi as [|? ? Hi1 Hl]; subst.
  destruct (ci_rst i). { rewrite <- (Z.testbit_0_l k). apply IH, Hl. }
  destruct (ci_func i =? f); cbn [andb]; [|apply IH, Hl].
  destruct (reg t (ci_add i) =? reg t r) eqn:E.
  - apply Z.eqb_eq in E. rewrite E, Hk. apply IH, Hl.
  - unfold single in Hs. rewrite forallb_forall in Hs. specialize (Hs r (zs_in 32 r ltac:(lia))).
    rewrite forallb_forall in Hs. specialize (Hs (ci_add i) (zs_in 32 (ci_add i) ltac:(destruct Hi1 as (_ & Hx & _); lia))).
    rewrite Hk in Hs. rewrite Z.eqb_sym, E in Hs. cbn [orb] in Hs.
    destruct (bit_of t (reg t (ci_add i)) n b); [discriminate|]. apply IH, Hl.
Qed.

Lemma words_ok : forall t pf s i ins f r n b k,
  0 < pf -> ci_rst i = true -> Forall (report t) ins -> 0 <= f < pf -> 0 <= r < 32 -> has_bit t n b ->
  bit_of t (reg t r) n b = Some k -> ~ In n (excluded t) -> ~ In n (repeated t) ->
  out_bit t (cfg_run t pf s (i :: ins)) f n b = Z.testbit (word t f (reg t r) ins 0) k.
Proof.
  intros t pf s i ins f r n b k Hpf Hr Hins Hf Hrr Hb Hk Hn Hn'. rewrite shown_ok by assumption.
  rewrite <- (Z.testbit_0_l k). apply shown_word; auto.
  apply (singles_field t (repeated t)); auto. apply singles_t.
Qed.

Lemma aer_fits : forallb (fun n => fits PTile true n && forallb (agree PTile n) (zs 16)) aer = true.
Proof. vm_compute. reflexivity. Qed.
Lemma aer_low_ok : forall pf s i ins n b,
  0 < pf -> ci_rst i = true -> Forall (report PTile) ins -> In n aer -> 0 <= b < 16 ->
  out_bit PTile (cfg_run PTile pf s (i :: ins)) 0 n b = shown PTile 0 n b ins false.
Proof.
  intros pf s i ins n b Hpf Hr Hins Hn Hb. rewrite run_reset by exact Hr.
  pose proof aer_fits as HA. rewrite forallb_forall in HA. specialize (HA n Hn). apply andb_prop in HA. destruct HA as [Hfit Hag].
  rewrite forallb_forall in Hag. specialize (Hag b (zs_in 16 b ltac:(lia))).
  assert (Hw : has_bit PTile n b).
  { unfold has_bit. unfold aer in Hn. cbn [In] in Hn. destruct Hn as [<-|[<-|[<-|[]]]]; change (0 <= b < 32); lia. }
  rewrite (run_bit PTile pf 0 n b true) by (auto; lia || (intros; apply Z.testbit_0_l)).
  unfold out_bit. rewrite Z.testbit_0_l. reflexivity.
Qed.
