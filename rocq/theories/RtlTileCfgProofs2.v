From Coq Require Import String.
From Verif Require Import PyBase RtlModel RtlTileCfgModel RtlTileCfgSpec RtlTileCfgProofs.
Local Open Scope string_scope.
Local Open Scope Z_scope.

Lemma tile_shown : forall t pf s i ins f n b, t <> PTile ->
  0 < pf -> ci_rst i = true -> Forall (report t) ins -> 0 <= f < pf -> has_bit t n b ->
  out_bit t (cfg_run t pf s (i :: ins)) f n b = shown t f n b ins false.
Proof. intros t pf s i ins f n b Ht Hp Hr Hi Hf Hb. apply shown_ok; auto. destruct t; [intros []|intros []|contradiction]. Qed.

Lemma tile_isolated : forall t pf s i f n b, t <> PTile ->
  0 < pf -> report t i -> ci_rst i = false -> 0 <= f < pf -> f <> ci_func i -> has_bit t n b ->
  out_bit t (cfg_step t pf s i) f n b = out_bit t s f n b.
Proof. intros t pf s i f n b Ht Hp Hi Hr Hf Hne Hb. apply isolated_ok; auto. destruct t; [intros []|intros []|contradiction]. Qed.

Lemma htile_words : forall pf s i ins f r n b k,
  0 < pf -> ci_rst i = true -> Forall (report HTile) ins -> 0 <= f < pf -> 0 <= r < 32 -> has_bit HTile n b -> bit_of HTile r n b = Some k ->
  out_bit HTile (cfg_run HTile pf s (i :: ins)) f n b = Z.testbit (word HTile f r ins 0) k.
Proof. intros. apply (words_ok HTile pf s i ins f r n b k); auto. Qed.

Lemma ltile_words : forall pf s i ins f r n b k,
  0 < pf -> ci_rst i = true -> Forall (report LTile) ins -> 0 <= f < pf -> 0 <= r < 16 -> has_bit LTile n b -> bit_of LTile r n b = Some k ->
  ~ In n ["an_link_width"; "an_link_speed"] ->
  out_bit LTile (cfg_run LTile pf s (i :: ins)) f n b = Z.testbit (word LTile f r ins 0) k.
Proof.
  intros pf s i ins f r n b k Hp Hr Hi Hf Hrr Hb Hk Hn.
  assert (E : reg LTile r = r) by (apply Z.mod_small; lia).
  pose proof (words_ok LTile pf s i ins f r n b k) as HW. rewrite E in HW. apply HW; auto. lia.
Qed.

(** A clock of reset, then reports. *)
Definition rst_in : cfg_in := mkCi true 0 0 0.
Definition rep (f a w : Z) : cfg_in := mkCi false w a f.

Lemma report_by : forall t ins, forallb (fun i => (0 <=? ci_func i) && ((0 <=? ci_add i) && (ci_add i <? 32)) && ((0 <=? ci_ctl i) && (ci_ctl i <? 2 ^ wordlen t))) ins = true -> Forall (report t) ins.
Proof.
  intros t ins H. rewrite forallb_forall in H. apply Forall_forall. intros i Hi. specialize (H i Hi).
  rewrite !andb_true_iff, !Z.leb_le, !Z.ltb_lt in H. unfold report. lia.
Qed.

Lemma ltile_words_refuted : exists pf s i ins f r n b k,
  0 < pf /\ ci_rst i = true /\ Forall (report LTile) ins /\ 0 <= f < pf /\ 0 <= r < 16 /\ has_bit LTile n b /\ bit_of LTile r n b = Some k /\
  out_bit LTile (cfg_run LTile pf s (i :: ins)) f n b <> Z.testbit (word LTile f r ins 0) k.
Proof.
  exists 1, (fun _ => 0), rst_in, [rep 0 7 16; rep 0 1 0], 0, 7, "an_link_width", 4, 4.
  split; [lia|]. split; [reflexivity|]. split; [apply report_by; vm_compute; reflexivity|]. split; [lia|]. split; [lia|].
  split; [change (0 <= 4 < 6); lia|]. split; [vm_compute; reflexivity|]. vm_compute. discriminate.
Qed.

Lemma ptile_shown_refuted : exists pf s i ins f n b,
  0 < pf /\ ci_rst i = true /\ Forall (report PTile) ins /\ 0 <= f < pf /\ has_bit PTile n b /\
  out_bit PTile (cfg_run PTile pf s (i :: ins)) f n b <> shown PTile f n b ins false.
Proof.
  exists 1, (fun _ => 0), rst_in, [rep 0 15 64], 0, "aer_uncor_err_mask", 22.
  split; [lia|]. split; [reflexivity|]. split; [apply report_by; vm_compute; reflexivity|]. split; [lia|].
  split; [change (0 <= 22 < 32); lia|]. vm_compute. discriminate.
Qed.

Lemma ptile_isolated_refuted : exists pf s i f n b,
  0 < pf /\ report PTile i /\ ci_rst i = false /\ 0 <= f < pf /\ f <> ci_func i /\ has_bit PTile n b /\
  out_bit PTile (cfg_step PTile pf s i) f n b <> out_bit PTile s f n b.
Proof.
  exists 2, (fun _ => 0), (rep 0 17 64), 1, "aer_corr_err_mask", 6.
  split; [lia|]. split. { assert (H : Forall (report PTile) [rep 0 17 64]) by (apply report_by; vm_compute; reflexivity). inversion H; assumption. }
  split; [reflexivity|]. split; [lia|]. split; [discriminate|].
  split; [change (0 <= 6 < 32); lia|]. vm_compute. discriminate.
Qed.
