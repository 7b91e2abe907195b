From Coq Require Import String.
From Verif Require Import PyBase RtlModel RtlTileCfgModel RtlTileCfgSpec RtlTileCfgProofs RtlTileCfgProofs2.
Local Open Scope string_scope.
Local Open Scope Z_scope.

(** C116: the outputs of the H-Tile and L-Tile interfaces show the last reports, function by function. *)
Theorem C116_reports_shown : forall t pf s i ins f n b, t <> PTile ->
  0 < pf -> ci_rst i = true -> Forall (report t) ins -> 0 <= f < pf -> has_bit t n b ->
  out_bit t (cfg_run t pf s (i :: ins)) f n b = shown t f n b ins false.
Proof. exact tile_shown. Qed.
Print Assumptions C116_reports_shown.

(** A bus number of 0x5A for function 2 of 4, then one of 0x33 for function 1. *)
Example C116_example :
  let ins := [rep 2 0 (0x5A * 2 ^ 16); rep 1 0 (0x33 * 2 ^ 16); rep 2 1 7] in
  Forall (report HTile) ins /\ has_bit HTile "bus_num" 1 /\ cfg_run HTile 4 (fun _ => 0) (rst_in :: ins) "bus_num" = 0x5A3300
  /\ shown HTile 2 "bus_num" 1 ins false = true /\ shown HTile 1 "bus_num" 2 ins false = false.
Proof. split; [apply report_by; vm_compute; reflexivity|]. split; [split; vm_compute; congruence|]. vm_compute. repeat split. Qed.
(** The rows are words of full length. *)
Example C116_rows :
  forallb (fun t => forallb (fun c => fold_right (fun x a => a + match x with F _ h l => h - l + 1 | R k => k end) 0 c =? wordlen t) (rows t)) [HTile; LTile; PTile] = true.
Proof. vm_compute. reflexivity. Qed.

Theorem C116_isolated : forall t pf s i f n b, t <> PTile ->
  0 < pf -> report t i -> ci_rst i = false -> 0 <= f < pf -> f <> ci_func i -> has_bit t n b ->
  out_bit t (cfg_step t pf s i) f n b = out_bit t s f n b.
Proof. exact tile_isolated. Qed.
Print Assumptions C116_isolated.

Example C116_isolated_example :
  Forall (report LTile) [rep 3 2 0xFFFFFFFF] /\ has_bit LTile "num_vf" 7 /\ cfg_step LTile 4 (fun _ => 0) (rep 3 2 0xFFFFFFFF) "num_vf" = 0xFF * 2 ^ 48.
Proof. split; [apply report_by; vm_compute; reflexivity|]. split; [split; vm_compute; congruence|]. vm_compute. reflexivity. Qed.

(** C117: the last word of each register can be read from the outputs. Proved for the H-Tile; false for the L-Tile in link width and link speed. *)
Theorem C117_htile_words : forall pf s i ins f r n b k,
  0 < pf -> ci_rst i = true -> Forall (report HTile) ins -> 0 <= f < pf -> 0 <= r < 32 -> has_bit HTile n b -> bit_of HTile r n b = Some k ->
  out_bit HTile (cfg_run HTile pf s (i :: ins)) f n b = Z.testbit (word HTile f r ins 0) k.
Proof. exact htile_words. Qed.
Print Assumptions C117_htile_words.

Theorem C117_ltile_words_partial : forall pf s i ins f r n b k,
  0 < pf -> ci_rst i = true -> Forall (report LTile) ins -> 0 <= f < pf -> 0 <= r < 16 -> has_bit LTile n b -> bit_of LTile r n b = Some k ->
  ~ In n ["an_link_width"; "an_link_speed"] ->
  out_bit LTile (cfg_run LTile pf s (i :: ins)) f n b = Z.testbit (word LTile f r ins 0) k.
Proof. exact ltile_words. Qed.
Print Assumptions C117_ltile_words_partial.

Example C117_example :
  let ins := [rep 0 6 0x80010025; rep 0 22 0x40020000; rep 0 3 5] in
  Forall (report LTile) ins /\ has_bit LTile "msi_data" 14 /\ bit_of LTile 6 "msi_data" 14 = Some 30 /\ bit_of HTile 6 "msi_data" 14 = Some 30 /\
  word LTile 0 6 ins 0 = 0x40020000 /\ word HTile 0 6 ins 0 = 0x80010025 /\
  cfg_run LTile 1 (fun _ => 0) (rst_in :: ins) "msi_data" = 0x4002 /\ cfg_run HTile 1 (fun _ => 0) (rst_in :: ins) "msi_data" = 0x8001.
Proof. split; [apply report_by; vm_compute; reflexivity|]. split; [split; vm_compute; congruence|]. vm_compute. repeat split. Qed.

Theorem C117_link_width_refuted : exists pf s i ins f r n b k,
  0 < pf /\ ci_rst i = true /\ Forall (report LTile) ins /\ 0 <= f < pf /\ 0 <= r < 16 /\ has_bit LTile n b /\ bit_of LTile r n b = Some k /\
  out_bit LTile (cfg_run LTile pf s (i :: ins)) f n b <> Z.testbit (word LTile f r ins 0) k.
Proof. exact ltile_words_refuted. Qed.
Print Assumptions C117_link_width_refuted.

(** C118: the outputs of the P-Tile interface show the last reports, function by function. False of the three AER outputs. *)
Theorem C118_reports_shown_partial : forall pf s i ins f n b,
  0 < pf -> ci_rst i = true -> Forall (report PTile) ins -> 0 <= f < pf -> has_bit PTile n b ->
  ~ In n ["aer_uncor_err_mask"; "aer_corr_err_mask"; "aer_uncor_err_severity"] ->
  out_bit PTile (cfg_run PTile pf s (i :: ins)) f n b = shown PTile f n b ins false.
Proof. exact (shown_ok PTile). Qed.
Print Assumptions C118_reports_shown_partial.

Theorem C118_aer_low_partial : forall pf s i ins n b,
  0 < pf -> ci_rst i = true -> Forall (report PTile) ins -> In n ["aer_uncor_err_mask"; "aer_corr_err_mask"; "aer_uncor_err_severity"] -> 0 <= b < 16 ->
  out_bit PTile (cfg_run PTile pf s (i :: ins)) 0 n b = shown PTile 0 n b ins false.
Proof. exact aer_low_ok. Qed.
Print Assumptions C118_aer_low_partial.

Theorem C118_isolated_partial : forall pf s i f n b,
  0 < pf -> report PTile i -> ci_rst i = false -> 0 <= f < pf -> f <> ci_func i -> has_bit PTile n b ->
  ~ In n ["aer_uncor_err_mask"; "aer_corr_err_mask"; "aer_uncor_err_severity"] ->
  out_bit PTile (cfg_step PTile pf s i) f n b = out_bit PTile s f n b.
Proof. exact (isolated_ok PTile). Qed.
Print Assumptions C118_isolated_partial.

Example C118_example :
  let ins := [rep 0 13 0x1234; rep 1 13 0x5678; rep 0 29 0xFEDC; rep 0 14 0x0020; rep 1 28 0x0310] in
  Forall (report PTile) ins /\ has_bit PTile "msi_data" 31 /\ cfg_run PTile 2 (fun _ => 0) (rst_in :: ins) "msi_data" = 0x5678FEDC1234
  /\ shown PTile 0 "msi_data" 31 ins false = true /\ shown PTile 0 "aer_uncor_err_mask" 5 ins false = true /\ shown PTile 1 "an_link_width" 4 ins false = true.
Proof. split; [apply report_by; vm_compute; reflexivity|]. split; [split; vm_compute; congruence|]. vm_compute. repeat split. Qed.

Theorem C118_reports_shown_refuted : exists pf s i ins f n b,
  0 < pf /\ ci_rst i = true /\ Forall (report PTile) ins /\ 0 <= f < pf /\ has_bit PTile n b /\
  out_bit PTile (cfg_run PTile pf s (i :: ins)) f n b <> shown PTile f n b ins false.
Proof. exact ptile_shown_refuted. Qed.
Print Assumptions C118_reports_shown_refuted.

Theorem C118_isolated_refuted : exists pf s i f n b,
  0 < pf /\ report PTile i /\ ci_rst i = false /\ 0 <= f < pf /\ f <> ci_func i /\ has_bit PTile n b /\
  out_bit PTile (cfg_step PTile pf s i) f n b <> out_bit PTile s f n b.
Proof. exact ptile_isolated_refuted. Qed.
Print Assumptions C118_isolated_refuted.
