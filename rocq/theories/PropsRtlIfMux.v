(** C133, C134: the DMA interface multiplexers. *)
From Verif Require Import PyBase RtlModel RtlSpec RtlMuxModel RtlMuxSpec RtlDemuxModel RtlRamDemuxModel RtlRamDemuxSpec RtlIfMuxModel RtlIfMuxSpec RtlIfMuxProofs.

Theorem C133_home : forall D p (d : Z * D) l, im_ok p -> Forall (fun i => id_ok p (ir_d i)) l -> let tr := ir_trace p (ir0 d) l in
  exists src img, merged (im_n p) false (fun q _ x => img q x) (map ire_d tr) src /\ kept_fields (im_n p) src img /\
    routed_home src img (delivered (map ire_d tr)) (ir_asked tr) (w_sent (im_x p) (map ire_x tr)) /\ status_home (fun e => ir_rst (ire_in e)) (fun e => ir_d (ire_in e)) ire_st src img tr.
Proof. exact ir_home. Qed.

(** The events above are those of the ports of the module, for the given inputs. *)
Theorem C133_ports : forall D p (d : Z * D) l, let tr := ir_trace p (ir0 d) l in map ire_in tr = l /\ Forall (fun e => wired false (ir_rst (ire_in e)) (ir_d (ire_in e)) (ire_d e) /\ wired_wr (ire_in e) (ire_x e)) tr.
Proof. intros. apply ir_wired. Qed.

Theorem C134_home : forall D p (d : Z * D) l, im_ok p -> Forall (fun i => id_ok p (iw_d i)) l -> let tr := iw_trace p (iw0 d) l in
  exists src img, merged (im_n p) false (fun q _ x => img q x) (map iwe_d tr) src /\ kept_fields (im_n p) src img /\ kept_imm (im_imm p) img /\
    routed_home src img (delivered (map iwe_d tr)) (iw_asked tr) (r_sent (im_x p) (map iwe_x tr)) /\ status_home (fun e => iw_rst (iwe_in e)) (fun e => iw_d (iwe_in e)) iwe_st src img tr.
Proof. exact iw_home. Qed.

Theorem C134_ports : forall D p (d : Z * D) l, let tr := iw_trace p (iw0 d) l in map iwe_in tr = l /\ Forall (fun e => wired true (iw_rst (iwe_in e)) (iw_d (iwe_in e)) (iwe_d e) /\ wired_rd (iwe_in e) (iwe_x e)) tr.
Proof. intros. apply iw_wired. Qed.

Theorem C134_answers : forall D p (d : Z * D) l, im_ok p -> let tr := map iwe_x (iw_trace p (iw0 d) l) in r_causal (im_x p) tr -> r_own (im_x p) tr.
Proof. exact iw_own. Qed.

(** Three ports; ports 0 and 2 give a descriptor with the same select 1 and the same tag 6; the DMA interface then has a RAM command for each, and
    a status for that of port 2. *)
Definition bp : im_param := mkIm 3 2 4 false 8 10 true true.
Definition bd (v t : Z) (sv : bool) : id_in := mkId v (fun q => mkDd (1000 * q) 1 64 0 false 16 6) true t 0 sv.
Definition bl : list (ir_in Z) := map (fun k => mkIr false (bd (if k <? 2 then 5 else 0) 518 (k =? 12)) ((k =? 8) || (k =? 9)) (if k =? 8 then 9 else 1) (100 + k) 7 0) (map Z.of_nat (seq 0 16)).
Definition btr := ir_trace bp (ir0 (0, 0)) bl.
Example C133_example : im_ok bp /\ Forall (fun i => id_ok bp (ir_d i)) bl /\ map (fun x => (dd_dma x, dd_sel x, dd_tag x)) (delivered (map ire_d btr)) = [(0, 1, 6); (2000, 9, 518)] /\
  ir_asked btr = [(9, 108); (1, 109)] /\ w_sent (im_x bp) (map ire_x btr) = [(2, (1, 108)); (0, (1, 109))] /\ map (fun e => ds_valid (ire_st e)) (skipn 12 btr) = [0; 4; 0; 0].
Proof.
  split; [unfold im_ok; cbn; lia|]. split; [|vm_compute; repeat split]. apply Forall_forall. intros i Hi. unfold bl in Hi. apply in_map_iff in Hi. destruct Hi as (k & <- & _). cbn [ir_d]. unfold id_ok, bd. cbn [id_valid id_data dd_sel dd_tag]. unfold vec. cbn. destruct (k <? 2); (split; [lia|intros _; lia]).
Qed.
Definition bm : list (iw_in Z) := map (fun k => mkIw false (bd (if k <? 2 then 5 else 0) 518 (k =? 12)) ((k =? 8) || (k =? 9)) (if k =? 8 then 9 else 1) (100 + k) 7 (if k <? 12 then 0 else 7) (fun q => 70 + q) true) (map Z.of_nat (seq 0 18)).
Definition bts := iw_trace bp (iw0 (0, 0)) bm.
Example C134_example : Forall (fun i => id_ok bp (iw_d i)) bm /\ map (fun x => (dd_dma x, dd_sel x, dd_tag x)) (delivered (map iwe_d bts)) = [(0, 1, 6); (2000, 9, 518)] /\
  iw_asked bts = [(9, 108); (1, 109)] /\ r_sent (im_x bp) (map iwe_x bts) = [(2, (1, 108)); (0, (1, 109))] /\ r_answers (map iwe_x bts) = [72; 70].
Proof.
  split; [|vm_compute; repeat split]. apply Forall_forall. intros i Hi. unfold bm in Hi. apply in_map_iff in Hi. destruct Hi as (k & <- & _). cbn [iw_d]. unfold id_ok, bd. cbn [id_valid id_data dd_sel dd_tag]. unfold vec. cbn. destruct (k <? 2); (split; [lia|intros _; lia]).
Qed.
Example C134_answers_example : r_causal (im_x bp) (map iwe_x bts).
Proof.
  intros q. assert (H : q = 0 \/ q = 2 \/ q <> 0 /\ q <> 2) by lia. destruct H as [->|[->|[H1 H2]]]; [vm_compute; lia|vm_compute; lia|].
  assert (E : r_got (im_x bp) (map iwe_x bts) = [(2, 72); (0, 70)]) by (vm_compute; reflexivity). rewrite E. unfold of_port. cbn [filter fst map length]. destruct (Z.eqb_spec 2 q) as [Eq|_]; [exfalso; apply H2; symmetry; exact Eq|]. destruct (Z.eqb_spec 0 q) as [Eq|_]; [exfalso; apply H1; symmetry; exact Eq|]. cbn [map length]. apply Nat.le_0_l.
Qed.

Print Assumptions C133_home.
Print Assumptions C133_ports.
Print Assumptions C134_home.
Print Assumptions C134_ports.
Print Assumptions C134_answers.
