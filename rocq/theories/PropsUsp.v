(** Property theorems C73-C76 (user-side interfaces of the UltraScale and
    UltraScale+ cores). *)
From Verif Require Import PyBase TlpModel SplitSpec UsModel UsStreamModel DevModel DevSpec CfgModel MsiModel UspModel UspSpec UspProofs.
From Coq Require Import ZifyBool ZifyNat.

(** C73: when the function numbers are 0, 1, 2, ... the UltraScale+ core sends
    upstream the requests not discontinued of functions with bus mastering
    enabled, in order; their sequence numbers are shown in order, slot 0 before
    slot 1, each once. *)
Theorem C73_sequence_numbers : forall d ls, contiguous (dv_fns d) -> Forall (rq_fit d) (concat ls) -> exists shown left,
  usp_rq_run d [] ls = Ok (map (rq_tlp d) (filter (rq_sent d) (concat ls)), shown, left) /\
  concat (map seqs shown) ++ left = map u_seq_num (filter (rq_sent d) (concat ls)) /\
  length shown = length ls /\ Forall slots_ok shown.
Proof. intros d ls HC HF. exact (usp_rq_run_ok d HC ls [] HF). Qed.
Print Assumptions C73_sequence_numbers.

(** C73: numbers left over are shown two per edge once requests stop. *)
Theorem C73_sequence_drains : forall d n sq, (length sq <= 2 * n)%nat -> exists shown,
  usp_rq_run d sq (repeat [] n) = Ok ([], shown, []) /\ concat (map seqs shown) = sq.
Proof. exact usp_idle. Qed.
Print Assumptions C73_sequence_drains.

Definition ex_ufn (n : Z) (bme rcb en : bool) : fn := mkFn n 3 0 (BarModel.mkBars [] []) bme rcb false en 2 false false.
Definition ex_udev : dev := mkDev 3 0 [ex_ufn 0 true true false; ex_ufn 1 false false false].
Definition ex_ureq (f seq : Z) : tlp_us := mkUs (set_requester_id (mkId 0 0 f) (set_address 0x1000 (set_length 1 tlp0))) 0 0 false false false seq 0.
Example C73_example : contiguous (dv_fns ex_udev) /\ Forall (rq_fit ex_udev) [ex_ureq 0 5; ex_ureq 1 6; ex_ureq 0 7; ex_ureq 0 8] /\
  exists ts, usp_rq_run ex_udev [] [[ex_ureq 0 5; ex_ureq 1 6; ex_ureq 0 7; ex_ureq 0 8]; []] = Ok (ts, [(Some 5, Some 7); (Some 8, None)], []) /\ length ts = 3%nat.
Proof.
  split. { intros [|[|[|k]]] f H; cbn in H; try discriminate; injection H as <-; reflexivity. }
  split. { repeat (apply Forall_cons || apply Forall_nil); intros _; (split; [cbn; lia|reflexivity]). }
  eexists. vm_compute. split; reflexivity.
Qed.

(** C73 is false for functions numbered with gaps, as C52: the request of a
    disabled function goes out because another function's bit is tested. *)
Theorem C73_bus_master_refuted : exists d u ts sh left, rq_fit d u /\ master_on (dv_fns d) (id_function (t_requester_id (u_tlp u))) = false /\
  usp_rq_run d [] [[u]] = Ok (ts, sh, left) /\ ts <> [].
Proof.
  exists (mkDev 3 0 [ex_ufn 0 true true true; ex_ufn 2 false false true; ex_ufn 3 true true true]), (ex_ureq 2 5). do 3 eexists.
  split; [intros _; split; [cbn; lia|reflexivity]|]. split; [reflexivity|]. split; [vm_compute; reflexivity|discriminate].
Qed.
Print Assumptions C73_bus_master_refuted.

(** C74: with at most four functions, the field of function [k] of
    cfg_function_status and cfg_rcb_status shows that function's bus master
    enable, interrupt disable and read completion boundary. *)
Theorem C74_status : forall fns, zlen fns <= 4 -> exists a b, usp_function_status fns = Ok a /\ usp_rcb_status fns = Ok b /\
  (forall k, (k < 4)%nat -> field 4 (Z.of_nat k) a = shows (fun f => (if fn_bme f then 7 else 0) + (if fn_int_dis f then 8 else 0)) fns k) /\
  (forall k, (k < 4)%nat -> field 1 (Z.of_nat k) b = shows (fun f => if fn_rcb f then 1 else 0) fns k).
Proof. exact usp_status. Qed.
Print Assumptions C74_status.
Example C74_example : zlen [ex_ufn 0 true true true; ex_ufn 1 false false true; ex_ufn 2 true true true] <= 4 /\
  usp_function_status [ex_ufn 0 true true true; ex_ufn 1 false false true; ex_ufn 2 true true true] = Ok 0x707 /\
  usp_rcb_status [ex_ufn 0 true true true; ex_ufn 1 false false true; ex_ufn 2 true true true] = Ok 5.
Proof. split; [cbn; lia|]. split; vm_compute; reflexivity. Qed.

(** C74: link width, speed and size encodings: UltraScale+ shows log2 of the width
    and the generation minus one, UltraScale the width itself and one bit per
    generation. *)
Theorem C74_link_status : (forall j, 0 <= j <= 4 -> usp_negotiated_width (2 ^ j) = Ok j) /\ (forall g, 1 <= g <= 4 -> usp_current_speed g = Ok (g - 1)) /\
  (forall m, 0 <= m <= 3 -> usp_max_payload m = Ok m) /\ (forall m, 0 <= m <= 5 -> usp_max_read_req m = Ok m) /\
  (forall w, 0 <= w <= 8 -> us_negotiated_width w = Ok w) /\ (forall g, 1 <= g <= 3 -> us_current_speed g = Ok (2 ^ (g - 1))).
Proof. exact link_status. Qed.
Print Assumptions C74_link_status.

(** C74 is false with more than four functions: a bus master beyond the fourth
    function raises ValueError. *)
Theorem C74_overflow_refuted : exists fns, zlen fns <= 8 /\ usp_function_status fns = Err ValueError.
Proof. exists [ex_ufn 0 true true true; ex_ufn 1 true true true; ex_ufn 2 true true true; ex_ufn 3 true true true; ex_ufn 4 true true true]. split; [cbn; lia|vm_compute; reflexivity]. Qed.
Print Assumptions C74_overflow_refuted.

(** C74 is false of cfg_interrupt_msi_enable and cfg_interrupt_msi_mmenable, which
    have fields for four functions but show only the first two. *)
Theorem C74_msi_enable_refuted : exists fns v, zlen fns <= 4 /\ cfg_msi_enable fns = Ok v /\
  field 1 2 v <> shows (fun f => if fn_msi_en f then 1 else 0) fns 2.
Proof.
  exists [ex_ufn 0 true true true; ex_ufn 1 true true true; ex_ufn 2 true true true]. eexists. split; [cbn; lia|]. split; [vm_compute; reflexivity|vm_compute; discriminate].
Qed.
Print Assumptions C74_msi_enable_refuted.
Theorem C74_mmenable_refuted : exists fns v, zlen fns <= 4 /\ cfg_mmenable fns = Ok v /\ field 3 2 v <> shows fn_mme fns 2.
Proof.
  exists [ex_ufn 0 true true true; ex_ufn 1 true true true; ex_ufn 2 true true true]. eexists. split; [cbn; lia|]. split; [vm_compute; reflexivity|vm_compute; discriminate].
Qed.
Print Assumptions C74_mmenable_refuted.

(** C75: a one-hot MSI request of an existing function that can send that message
    sends exactly that message and reports it sent; both cores. *)
Theorem C75_msi_request : forall fs i k f, ii_int i = 2 ^ k -> 0 <= k < 32 -> 0 <= ii_fn i -> nth_error fs (Z.to_nat (ii_fn i)) = Some f ->
  0 <= if_mps f -> msi_able (if_attrs f) k -> ii_msix i = false ->
  exists t, us_int_step fs i = Ok ([t], true, false) /\ usp_int_step fs i = Ok ([t], true) /\
    dword_msg f (ii_attr i) (if_attrs f A_msi_message_address) (msi_value (if_attrs f) k) t.
Proof.
  intros fs i k f HI Hk Hf HN Hm HA HX. destruct (msi_request_ok fs i k f HI Hk Hf HN Hm HA) as (t & HT & HM). exists t.
  unfold us_int_step, usp_int_step. rewrite HT, (msix_request_none fs i (or_introl HX)). cbn [bind]. split; [reflexivity|]. split; [reflexivity|exact HM].
Qed.
Print Assumptions C75_msi_request.

(** C75: a request with no bit or several bits set, or for a function that does
    not exist, sends nothing and is not reported sent. *)
Theorem C75_msi_ignored : forall fs i, ii_msix i = false ->
  ii_int i = 0 \/ zlen fs <= ii_fn i \/
    (exists k j, 0 <= k < 32 /\ 0 <= j < 32 /\ k <> j /\ Z.testbit (ii_int i) k = true /\ Z.testbit (ii_int i) j = true) ->
  us_int_step fs i = Ok ([], false, false) /\ usp_int_step fs i = Ok ([], false).
Proof.
  intros fs i HX H. unfold us_int_step, usp_int_step. rewrite (msi_request_none fs i H), (msix_request_none fs i (or_introl HX)). split; reflexivity.
Qed.
Print Assumptions C75_msi_ignored.

(** C75: an MSI-X request writes the given data to the given address. *)
Theorem C75_msix_request : forall fs i f, ii_msix i = true -> ii_int i = 0 -> 0 <= ii_fn i -> nth_error fs (Z.to_nat (ii_fn i)) = Some f -> 0 <= if_mps f ->
  if_attrs f A_msix_enable <> 0 -> if_attrs f A_bus_master_enable <> 0 -> ii_addr i mod 4 = 0 -> 0 <= ii_data i < 2 ^ 32 ->
  exists t, us_int_step fs i = Ok ([t], false, true) /\ usp_int_step fs i = Ok ([t], true) /\ dword_msg f (ii_attr i) (ii_addr i) (ii_data i) t.
Proof.
  intros fs i f HX HI Hf HN Hm H1 H2 H3 H4. destruct (msix_request_ok fs i f HX Hf HN Hm H1 H2 H3 H4) as (t & HT & HM). exists t.
  unfold us_int_step, usp_int_step. rewrite HT, (msi_request_none fs i (or_introl HI)). cbn [bind]. split; [reflexivity|]. split; [reflexivity|exact HM].
Qed.
Print Assumptions C75_msix_request.

(** C75: user logic's pending bits reach exactly the numbered function. *)
Theorem C75_pending : forall fs num status, 0 <= num < zlen fs -> exists fs', msi_pending_in fs true num status = Ok fs' /\
  forall k, nth_error fs' k = if Z.of_nat k =? num
    then match nth_error fs k with Some f => Some (mkIfn (set_attr (if_attrs f) A_msi_pending_bits status) (if_id f) (if_mps f)) | None => None end
    else nth_error fs k.
Proof.
  intros fs num status H. unfold msi_pending_in. replace (num <? zlen fs) with true by lia. cbn [andb]. unfold py_index. replace (num <? 0) with false by lia.
  destruct (nth_error fs (Z.to_nat num)) as [f|] eqn:E; [|apply nth_error_None in E; unfold zlen in H; lia]. cbn [bind]. eexists. split; [reflexivity|].
  intros k. rewrite list_upd_nth. destruct (k =? Z.to_nat num)%nat eqn:EK.
  - replace (Z.of_nat k =? num) with true by lia. assert (k = Z.to_nat num) as -> by lia. rewrite E. reflexivity.
  - replace (Z.of_nat k =? num) with false by lia. reflexivity.
Qed.
Print Assumptions C75_pending.

Definition ex_iattrs (en : Z) (a : attr) : Z :=
  if attr_id a =? attr_id A_msi_message_address then 0xfee00000 else if attr_id a =? attr_id A_msi_message_data then 0x4320
  else if attr_id a =? attr_id A_msi_enable then en
  else if attr_id a =? attr_id A_msi_multiple_message_enable then 3 else if attr_id a =? attr_id A_msi_multiple_message_capable then 5 else 1.
Definition ex_ifns : list ifn := [mkIfn (ex_iattrs 1) (mkId 3 0 0) 0; mkIfn (ex_iattrs 0) (mkId 3 0 1) 0].
Example C75_example : msi_able (ex_iattrs 1) 6 /\ 0x40 = 2 ^ 6 /\
  (let! (ts, s) := usp_int_step ex_ifns (mkInt 0x40 0 0 false 0 0) in Ok (map (fun t => (t_address t, t_data t)) ts, s)) = Ok ([(0xfee00000, [0x4326])], true) /\
  (let! (ts, s, x) := us_int_step ex_ifns (mkInt 0 1 0 true 0xfed00010 0x77) in Ok (map (fun t => (t_address t, t_data t)) ts, s, x)) = Ok ([(0xfed00010, [0x77])], false, true).
Proof. split; [repeat split; vm_compute; congruence|]. split; [reflexivity|]. split; vm_compute; reflexivity. Qed.

(** C75 is false when MSI is disabled (or the message number is out of range): the
    request is reported sent although nothing is. *)
Theorem C75_sent_refuted : exists fs i, usp_int_step fs i = Ok ([], true) /\ us_int_step fs i = Ok ([], true, false).
Proof. exists ex_ifns, (mkInt 1 1 0 false 0 0). split; vm_compute; reflexivity. Qed.
Print Assumptions C75_sent_refuted.

(** C76: user logic that holds its request until done performs each configuration
    access exactly once, in order, on the addressed function, and reads return
    the register; whatever the gaps between accesses.  UltraScale. *)
Theorem C76_us_management : forall (R : Type) (rd : R -> Z -> result Z) wr rd' wr' (d : R) l fs v,
  (forall f reg, 0 <= reg < 1024 -> rd f reg = Ok (rd' f reg) /\ 0 <= rd' f reg < 2 ^ 32) ->
  (forall f reg data be, 0 <= reg < 1024 -> wr f reg data be = Ok (wr' f reg data be)) ->
  Forall (fun p => acc_ok fs (snd p) /\ acc_fn (snd p) < 128) l -> exists v',
  user_run (us_mgmt_step rd wr) us_drive (mkMgmt 0 0 false false 0 0) l fs (mkMgmtSt false v) =
    Ok (fst (acc_run rd' wr' d fs (map snd l)), mkMgmtSt false v', snd (acc_run rd' wr' d fs (map snd l))).
Proof.
  intros R rd wr rd' wr' d l fs v Hr Hw HF. apply (user_run_ok rd wr rd' wr' d Hr Hw); [reflexivity| |reflexivity|assumption].
  intros fs' v' a HA HL. apply us_mgmt_acc; assumption.
Qed.
Print Assumptions C76_us_management.
(** UltraScale+. *)
Theorem C76_usp_management : forall (R : Type) (rd : R -> Z -> result Z) wr rd' wr' (d : R) l fs v,
  (forall f reg, 0 <= reg < 1024 -> rd f reg = Ok (rd' f reg) /\ 0 <= rd' f reg < 2 ^ 32) ->
  (forall f reg data be, 0 <= reg < 1024 -> wr f reg data be = Ok (wr' f reg data be)) ->
  Forall (fun p => acc_ok fs (snd p) /\ acc_fn (snd p) < 128) l -> exists v',
  user_run (usp_mgmt_step rd wr) usp_drive (mkMgmt 0 0 false false 0 0) l fs (mkMgmtSt false v) =
    Ok (fst (acc_run rd' wr' d fs (map snd l)), mkMgmtSt false v', snd (acc_run rd' wr' d fs (map snd l))).
Proof.
  intros R rd wr rd' wr' d l fs v Hr Hw HF. apply (user_run_ok rd wr rd' wr' d Hr Hw); [reflexivity| |reflexivity|assumption].
  intros fs' v' a HA HL. destruct a; reflexivity.
Qed.
Print Assumptions C76_usp_management.
Definition ex_rd (f reg : Z) : Z := (f + reg) mod 2 ^ 32.
Definition ex_wr (f reg data be : Z) : Z := data.
Example C76_example : Forall (fun p => acc_ok [10; 20] (snd p) /\ acc_fn (snd p) < 128) [(3%nat, ARead 1 4); (0%nat, AWrite 1 4 77 15); (0%nat, ARead 1 4)] /\
  acc_run ex_rd ex_wr 0 [10; 20] [ARead 1 4; AWrite 1 4 77 15; ARead 1 4] = ([10; 77], [Some 24; None; Some 81]) /\
  exists s, user_run (us_mgmt_step (fun f r => Ok (ex_rd f r)) (fun f r x b => Ok (ex_wr f r x b))) us_drive (mkMgmt 0 0 false false 0 0)
    [(3%nat, ARead 1 4); (0%nat, AWrite 1 4 77 15); (0%nat, ARead 1 4)] [10; 20] (mkMgmtSt false 0) = Ok ([10; 77], s, [Some 24; None; Some 81]).
Proof.
  split; [repeat (apply Forall_cons || apply Forall_nil); cbn; lia|]. split; [vm_compute; reflexivity|]. eexists. vm_compute. reflexivity.
Qed.
(** C76 is false for a function that does not exist: the access raises IndexError
    instead of completing. *)
Theorem C76_no_function_refuted : exists fs i, zlen fs = 1 /\ mi_fn i = 1 /\ mi_read i = true /\
  usp_mgmt_step (fun f r => Ok (ex_rd f r)) (fun f r x b => Ok (ex_wr f r x b)) fs (mkMgmtSt false 0) i = Err IndexError.
Proof. exists [10], (mkMgmt 4 1 true false 0 0). repeat split. Qed.
Print Assumptions C76_no_function_refuted.
