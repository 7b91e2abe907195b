(** Property theorems C30, C50-C57 (device containers). *)
From Verif Require Import PyBase TlpModel BarModel BarSpec RouteModel UsModel DevModel DevSpec DevProofs DevProofs2 DevProofs3.
From Coq Require Import ZifyBool ZifyNat.

(** C30: from an idle start, whatever the arrivals, credit grants and resets:
    posted requests are all forwarded in arrival order; non-posted requests are
    forwarded in arrival order, each at most once, the rest waiting in the
    queue; and never more than the credits granted; no request waits while a
    credit is left; the counter stays within 0..32. *)
Theorem C30_credits : forall l s o, Forall request (arrived l) -> np_run (mkNp [] 0) l = (s, o) ->
  filter posted o = filter posted (arrived l) /\
  filter (fun u => nonposted (u_tlp u)) (arrived l) = filter (fun u => nonposted (u_tlp u)) o ++ np_queue s /\
  zlen (filter (fun u => nonposted (u_tlp u)) o) + np_cnt s <= grants l /\
  0 <= np_cnt s <= 32 /\ (np_queue s <> [] -> np_cnt s = 0).
Proof.
  intros l s o HR H. destruct (np_run_ok l (mkNp [] 0) s o) as ((_ & A2 & A3) & B & C & D & _); [exact np_ok0|assumption|assumption|].
  cbn [np_queue np_cnt app] in *. repeat split; try assumption; try lia.
Qed.
Print Assumptions C30_credits.

(** C30, ordering: a non-posted request is never forwarded before a posted request
    that arrived earlier. *)
Theorem C30_no_passing : forall l s o s1 x s2, Forall request (arrived l) -> np_run (mkNp [] 0) l = (s, o) ->
  o = s1 ++ x :: s2 -> nonposted (u_tlp x) = true ->
  exists t, filter posted s1 = posted_before (length (filter (fun u => nonposted (u_tlp u)) s1)) (arrived l) ++ t.
Proof.
  intros l s o s1 x s2 HR H HE HX. destruct (np_run_ok l (mkNp [] 0) s o) as (_ & _ & _ & _ & E); [exact np_ok0|assumption|assumption|].
  destruct (E s1 x s2 HE HX) as (t & HT); [cbn; lia|]. cbn [np_queue length] in HT. rewrite Nat.sub_0_r in HT. exists t. exact HT.
Qed.
Print Assumptions C30_no_passing.

(** C30: a posted request is forwarded at the edge at which it is seen. *)
Theorem C30_posted_at_once : forall l s o i s' o', Forall request (arrived l) -> Forall request (ni_arrive i) ->
  np_run (mkNp [] 0) l = (s, o) -> np_step s i = (s', o') -> filter posted o' = filter posted (ni_arrive i).
Proof.
  intros l s o i s' o' HR HI H HS. destruct (np_run_ok l (mkNp [] 0) s o) as (A & _); [exact np_ok0|assumption|assumption|].
  apply (np_step_ok s i s' o' A HI HS).
Qed.
Print Assumptions C30_posted_at_once.

Definition ex_rd (tag : Z) : tlp_us := mkUs (set_tag tag tlp0) 0 12 false false false 0 0.
Definition ex_wr (tag : Z) : tlp_us := mkUs (set_tag tag (set_fmt 2 tlp0)) 0 12 false false false 0 0.
Definition ex_np : list np_in :=
  [mkNpIn false true [ex_rd 1; ex_wr 2; ex_rd 3]; mkNpIn false false [ex_wr 4; ex_rd 5]; mkNpIn false true [ex_wr 6]].
Example C30_example : Forall request (arrived ex_np) /\
  np_run (mkNp [] 0) ex_np = (mkNp [ex_rd 5] 0, [ex_rd 1; ex_wr 2; ex_wr 4; ex_rd 3; ex_wr 6]) /\
  posted_before 1 (arrived ex_np) = [ex_wr 2] /\ grants ex_np = 2.
Proof. split; [repeat constructor; right; reflexivity|]. vm_compute. repeat split. Qed.

(** C50: a device passes a TLP to the first function it is meant for, answers
    Unsupported Request when there is none and the request needs an answer, and
    drops the rest; it takes over the bus number of configuration requests. *)
Theorem C50_device_dispatch : forall d Ls t, laid_out (dv_fns d) Ls -> kind_of t <> None -> tlp_check t = true -> 0 <= t_address t < 2^64 ->
  exists out, dev_recv d t = Ok (captured d t, out) /\
  match out with
  | DFn k => first_at (targets (dv_bus d) (dv_num d) t) (combine (dv_fns d) Ls) k
  | DReply c => existsb (targets (dv_bus d) (dv_num d) t) (combine (dv_fns d) Ls) = false /\ nonposted t = true /\
      answers c t (dv_bus (captured d t)) (dv_num d) 1
  | DDrop => existsb (targets (dv_bus d) (dv_num d) t) (combine (dv_fns d) Ls) = false /\ nonposted t = false
  end.
Proof. exact dev_recv_ok. Qed.
Print Assumptions C50_device_dispatch.

Definition ex_lay0 : list barent := [BMem32 12 0x80000000 false; BIo 5 0x1000; BMem64 16 0x8000000000000000 true; BNone; BNone].
Definition ex_lay1 : list barent := [BMem32 12 0x80001000 false; BIo 5 0x1020; BMem64 16 0x8000000000010000 true; BNone; BNone].
Definition ex_lay2 : list barent := [BMem32 20 0x90000000 false; BNone; BMem64 16 0x8000000000020000 true; BNone; BNone].
Definition ex_fn (n : Z) (L : list barent) (bme rcb : bool) : fn := mkFn n 3 0 (regs_of L) bme rcb false false 0 false false.
Definition ex_dev : dev := mkDev 3 0 [ex_fn 0 ex_lay0 true true; ex_fn 1 ex_lay1 false false].
Definition ex_mem (a : Z) : tlp := set_tag 7 (set_address a (set_length 1 tlp0)).
Lemma ex_laid : laid_out (dv_fns ex_dev) [ex_lay0; ex_lay1].
Proof.
  repeat (apply Forall2_cons || apply Forall2_nil); (split; [reflexivity|]); repeat (apply Forall_cons || apply Forall_nil); cbn [bar_ok]; try exact I; (split; [lia|]); (split; [lia|]); vm_compute; reflexivity.
Qed.
Example C50_example : laid_out (dv_fns ex_dev) [ex_lay0; ex_lay1] /\ kind_of (ex_mem 0x80001010) <> None /\ tlp_check (ex_mem 0x80001010) = true /\
  dev_recv ex_dev (ex_mem 0x80001010) = Ok (ex_dev, DFn 1) /\
  exists c, dev_recv ex_dev (ex_mem 0x80002010) = Ok (ex_dev, DReply c).
Proof. split; [exact ex_laid|]. split; [discriminate|]. split; [reflexivity|]. split; [reflexivity|]. eexists. vm_compute. reflexivity. Qed.

(** C50, UltraScale core: configuration requests and completions. *)
Theorem C50_us_dispatch : forall d en Ls t, laid_out (dv_fns d) Ls -> kind_of t = Some KCfg \/ kind_of t = Some KCpl ->
  exists d' out, us_recv d en t = Ok (d', out) /\
  (kind_of t = Some KCfg -> en = false -> d' = d /\ exists c, out = UReply c /\ answers c t (dv_bus d) (dv_num d) 2) /\
  (kind_of t = Some KCfg -> en = true -> d' = captured d t /\
     match out with
     | UFn k => first_at (targets (dv_bus d) (dv_num d) t) (combine (dv_fns d) Ls) k
     | UReply c => existsb (targets (dv_bus d) (dv_num d) t) (combine (dv_fns d) Ls) = false /\ answers c t (dv_bus (captured d t)) (dv_num d) 1
     | _ => False
     end) /\
  (kind_of t = Some KCpl -> d' = d /\
     match out with
     | URc u => existsb (targets (dv_bus d) (dv_num d) t) (combine (dv_fns d) Ls) = true /\ u_tlp u = set_th 0 t
     | UDrop => existsb (targets (dv_bus d) (dv_num d) t) (combine (dv_fns d) Ls) = false
     | _ => False
     end).
Proof. exact us_recv_other_ok. Qed.
Print Assumptions C50_us_dispatch.

(** C51: an I/O or memory request goes to the CQ interface with the BAR index, the
    BAR aperture and the completer ID of the first function exactly one of whose
    BARs claims it, when all functions have BARs of the same kinds and sizes;
    unclaimed requests are answered Unsupported Request or dropped. *)
Theorem C51_us_request : forall d en Ls t io, laid_out (dv_fns d) Ls -> same_shape Ls -> 0 <= t_address t < 2^64 ->
  kind_of t = Some (if io : bool then KIo else KMem) ->
  exists out, us_recv d en t = Ok (d, out) /\
  match out with
  | UCq u => exists k f L i s, nth_error (combine (dv_fns d) Ls) k = Some (f, L) /\
      first_at (claims (t_address t) io) (combine (dv_fns d) Ls) k /\ one_hit L (t_address t) io i s /\
      u_tlp u = set_th 0 (set_completer_id (mkId (dv_bus d) (dv_num d) (fn_num f)) t) /\ u_bar_id u = i /\ u_bar_aperture u = s
  | UReply c => existsb (claims (t_address t) io) (combine (dv_fns d) Ls) = false /\ nonposted t = true /\ answers c t (dv_bus d) (dv_num d) 1
  | UDrop => existsb (claims (t_address t) io) (combine (dv_fns d) Ls) = false /\ nonposted t = false
  | _ => False
  end.
Proof. exact us_recv_request_ok. Qed.
Print Assumptions C51_us_request.

Example C51_example : laid_out (dv_fns ex_dev) [ex_lay0; ex_lay1] /\ same_shape [ex_lay0; ex_lay1] /\
  exists u, us_recv ex_dev true (ex_mem 0x8000000000010010) = Ok (ex_dev, UCq u) /\ u_bar_id u = 2 /\ u_bar_aperture u = 16 /\
    t_completer_id (u_tlp u) = mkId 3 0 1.
Proof. split; [exact ex_laid|]. split; [repeat constructor|]. eexists. vm_compute. repeat split. Qed.

(** C51 is false when the functions differ: the aperture is read from the first
    function whichever function the request is for. *)
Definition ex_dev2 : dev := mkDev 3 0 [ex_fn 0 ex_lay0 true true; ex_fn 1 ex_lay2 false false].
Theorem C51_aperture_refuted : exists d Ls t u i s, laid_out (dv_fns d) Ls /\ 0 <= t_address t < 2^64 /\ kind_of t = Some KMem /\
  us_recv d true t = Ok (d, UCq u) /\ (exists f L, nth_error (combine (dv_fns d) Ls) 1 = Some (f, L) /\ one_hit L (t_address t) false i s) /\
  first_at (claims (t_address t) false) (combine (dv_fns d) Ls) 1 /\ u_bar_id u = i /\ u_bar_aperture u <> s.
Proof.
  exists ex_dev2, [ex_lay0; ex_lay2], (ex_mem 0x90000010). eexists. exists 0, 20.
  split. { repeat (apply Forall2_cons || apply Forall2_nil); (split; [reflexivity|]); repeat (apply Forall_cons || apply Forall_nil); cbn [bar_ok]; try exact I; (split; [lia|]); (split; [lia|]); vm_compute; reflexivity. }
  split; [cbn; lia|]. split; [reflexivity|]. split; [vm_compute; reflexivity|].
  split. { do 2 eexists. split; [reflexivity|]. exists [], (BMem32 20 0x90000000 false), [BNone; BMem64 16 0x8000000000020000 true; BNone; BNone]. vm_compute. repeat split. }
  split. { split; [reflexivity|]. eexists. split; [reflexivity|]. vm_compute. reflexivity. }
  split; [reflexivity|]. vm_compute. discriminate.
Qed.
Print Assumptions C51_aperture_refuted.

(** C52: when the function numbers are 0, 1, 2, ... the requests sent upstream are
    those not discontinued of functions with bus mastering enabled, in order,
    with the core's bus and device number; the sequence numbers shown are theirs,
    in order, at most one per edge. *)
Theorem C52_requester : forall d ls, contiguous (dv_fns d) -> Forall (rq_fit d) (concat ls) -> exists shown left,
  rq_run d [] ls = Ok (map (rq_tlp d) (filter (rq_sent d) (concat ls)), shown, left) /\
  shown ++ left = map u_seq_num (filter (rq_sent d) (concat ls)) /\ (length shown <= length ls)%nat.
Proof. intros d ls HC HF. exact (rq_run_ok d HC ls [] HF). Qed.
Print Assumptions C52_requester.

(** C52: sequence numbers left are shown one per edge once requests stop. *)
Theorem C52_sequence_drains : forall d sq n, (length sq <= n)%nat -> rq_run d sq (repeat [] n) = Ok ([], sq, []).
Proof. intros d sq n H. rewrite rq_idle, firstn_all2, skipn_all2 by assumption. reflexivity. Qed.
Print Assumptions C52_sequence_drains.

Definition ex_req (fn seq : Z) : tlp_us := mkUs (set_requester_id (mkId 0 0 fn) (ex_mem 0x1000)) 0 0 false false false seq 0.
Example C52_example : contiguous (dv_fns ex_dev) /\ Forall (rq_fit ex_dev) [ex_req 0 5; ex_req 1 6; ex_req 0 7] /\
  filter (rq_sent ex_dev) [ex_req 0 5; ex_req 1 6; ex_req 0 7] = [ex_req 0 5; ex_req 0 7] /\
  exists ts, rq_run ex_dev [] [[ex_req 0 5; ex_req 1 6; ex_req 0 7]; []] = Ok (ts, [5; 7], []) /\ length ts = 2%nat.
Proof.
  split. { intros [|[|[|k]]] f H; cbn in H; try discriminate; injection H as <-; reflexivity. }
  split. { repeat (apply Forall_cons || apply Forall_nil); intros _; (split; [cbn; lia|reflexivity]). }
  split; [reflexivity|]. eexists. vm_compute. split; reflexivity.
Qed.

(** C52 is false for functions numbered with gaps: the bus master enable of
    another function is tested, so a disabled function's request goes out. *)
Definition ex_dev3 : dev := mkDev 3 0 [ex_fn 0 ex_lay0 true true; ex_fn 2 ex_lay1 false false; ex_fn 3 ex_lay2 true true].
Theorem C52_bus_master_refuted : exists d u t n, rq_fit d u /\ rq_forward d u = Ok (Some (t, n)) /\
  master_on (dv_fns d) (id_function (t_requester_id (u_tlp u))) = false.
Proof.
  exists ex_dev3, (ex_req 2 5). do 2 eexists. split; [intros _; split; [cbn; lia|reflexivity]|]. split; vm_compute; reflexivity.
Qed.
Print Assumptions C52_bus_master_refuted.

(** ... or the request of an enabled function raises IndexError. *)
Theorem C52_index_refuted : exists d u, master_on (dv_fns d) (id_function (t_requester_id (u_tlp u))) = true /\ tlp_check (rq_tlp d u) = true /\
  u_discontinue u = false /\ rq_forward d u = Err IndexError.
Proof. exists ex_dev3, (ex_req 3 5). vm_compute. repeat split. Qed.
Print Assumptions C52_index_refuted.

(** C53: the error code of a completion with an error status must not be normal
    termination; it always is. *)
Theorem C53_error_code_refuted : exists d t u, tlp_check t = true /\ t_status t <> 0 /\ us_recv d true t = Ok (d, URc u) /\ u_error_code u = 0.
Proof.
  exists ex_dev, (set_status 1 (set_type 10 (set_requester_id (mkId 3 0 0) tlp0))). eexists. split; [reflexivity|]. split; [discriminate|]. split; [vm_compute; reflexivity|reflexivity].
Qed.
Print Assumptions C53_error_code_refuted.
Theorem C53_error_code_always_normal : forall d en t d' u, us_recv d en t = Ok (d', URc u) -> u_error_code u = 0.
Proof.
  intros d en t d' u H. unfold us_recv in H.
  destruct (is_cfg0 t).
  { exfalso. destruct en; cbn [negb] in H; [|discriminate]. destruct (id_device _ =? _); [|discriminate]. destruct (find_num _ _ _); discriminate. }
  destruct (is_cpl t).
  { destruct (_ && _); [|discriminate]. destruct (find_num _ _ _); [|discriminate]. injection H as _ <-. reflexivity. }
  exfalso. destruct (is_io t).
  { destruct (find_bar1 _ _ _ _) as [[[? ?]|]|]; cbn [bind] in H; try discriminate. destruct (io_aperture _ _); discriminate. }
  destruct (is_mem t); [|discriminate].
  destruct (find_bar1 _ _ _ _) as [[[? ?]|]|]; cbn [bind] in H; try discriminate; [destruct (mem_aperture _ _); discriminate|]. destruct (ft_in _ _); discriminate.
Qed.
Print Assumptions C53_error_code_always_normal.

(** C54: the TLP check accepts exactly the TLPs that meet the four conditions. *)
Theorem C54_check_exact : forall t, tlp_check t = true <-> sound_tlp t.
Proof. exact tlp_check_ok. Qed.
Print Assumptions C54_check_exact.
Example C54_example : sound_tlp (ex_mem 0xffc) /\ ~ sound_tlp (set_length 2 (ex_mem 0xffc)).
Proof.
  split.
  - apply tlp_check_ok. reflexivity.
  - intros H. apply tlp_check_ok in H. vm_compute in H. discriminate.
Qed.
(** For memory writes this includes the length range ... *)
Theorem C54_memory_length : forall t, tlp_check t = true -> memory_request t -> t_length t <= 1024.
Proof. intros t H HM. apply tlp_check_ok in H. destruct H as (_ & H & _). specialize (H HM). pose proof (Z.mod_pos_bound (t_address t) 4096). lia. Qed.
Print Assumptions C54_memory_length.
(** ... but the length range itself is never checked: the test
    [0 > length > 1024] holds for no length. *)
Theorem C54_length_range_refuted : exists t, tlp_check t = true /\ ~ length_in_range t.
Proof.
  exists (set_data (repeat 0 1025) (set_byte_count 4100 (set_length 1025 (set_fmt 2 (set_type 10 tlp0))))). split; [vm_compute; reflexivity|].
  intros H. unfold length_in_range, has_payload in H. cbn [t_fmt t_length set_data set_byte_count set_length set_fmt set_type] in H. lia.
Qed.
Print Assumptions C54_length_range_refuted.

(** C55: function numbers after any successful sequence of add and append calls are
    distinct, in increasing order, in 0..7; with more than one function every
    header has the multi-function bit. *)
Theorem C55_function_numbers : forall os l, Forall op_valid os -> fn_ops [] os = Ok l ->
  increasing (map fn_num l) /\ NoDup (map fn_num l) /\ Forall (fun n => 0 <= n < 8) (map fn_num l) /\ length l = length os /\
  (1 < zlen l -> Forall (fun f => Z.testbit (fn_hdr f) 7 = true) l).
Proof.
  intros os l HV H. destruct (fn_ops_ok os [] l) as ((H1 & H2 & H3) & H4); [split; [exact I|split; [constructor|intros; constructor]]|assumption|assumption|].
  split; [assumption|]. split; [now apply fn_nodup|]. split; [assumption|]. split; assumption.
Qed.
Print Assumptions C55_function_numbers.
(** C55: an appended function gets the smallest free number; it fails only when
    0..7 are all used. *)
Theorem C55_append_smallest : forall os l f, Forall op_valid os -> fn_ops [] os = Ok l ->
  match append_function l f with
  | Ok l' => exists n, smallest_free n (map fn_num l) /\ n < 8 /\ forall m, In m (map fn_num l') <-> m = n \/ In m (map fn_num l)
  | Err _ => forall m, 0 <= m < 8 -> In m (map fn_num l)
  end.
Proof.
  intros os l f HV H. destruct (fn_ops_ok os [] l) as (HL & _); [split; [exact I|split; [constructor|intros; constructor]]|assumption|assumption|].
  pose proof (append_ok l f HL) as HA. destruct (append_function l f) as [l'|e]; [|exact HA]. destruct HA as (n & A1 & A2 & _ & A3 & _). exists n. repeat split; try apply A1; try apply A3; assumption.
Qed.
Print Assumptions C55_append_smallest.
Example C55_example : exists l, fn_ops [] [AddFn (ex_fn 2 ex_lay0 true true); AppendFn (ex_fn 9 ex_lay1 true true); AppendFn (ex_fn 9 ex_lay1 true true); AppendFn (ex_fn 9 ex_lay2 true true)] = Ok l /\
  map fn_num l = [0; 1; 2; 3] /\ map fn_hdr l = [128; 128; 128; 128].
Proof. eexists. split; [vm_compute; reflexivity|]. split; reflexivity. Qed.

(** C56: the per-function status outputs show the state of functions 0 and 1. *)
Theorem C56_status_outputs : forall fns, fns <> [] ->
  cfg_function_status fns = Ok (per_fn 4 (fun f => (if fn_bme f then 7 else 0) + (if fn_int_dis f then 8 else 0)) fns) /\
  cfg_msi_enable fns = Ok (per_fn 1 (fun f => if fn_msi_en f then 1 else 0) fns) /\
  cfg_mmenable fns = Ok (per_fn 3 (fun f => fn_mme f mod 8) fns) /\
  cfg_msix_enable fns = Ok (per_fn 1 (fun f => if fn_msix_en f then 1 else 0) fns) /\
  cfg_msix_mask fns = Ok (per_fn 1 (fun f => if fn_msix_mask f then 1 else 0) fns).
Proof. exact status_ok. Qed.
Print Assumptions C56_status_outputs.
Example C56_example : cfg_function_status (dv_fns ex_dev) = Ok 7 /\ dv_fns ex_dev <> [].
Proof. split; [reflexivity|discriminate]. Qed.
(** C56 is false of the read completion boundary output. *)
Theorem C56_rcb_refuted : exists fns, fns <> [] /\ cfg_rcb_status fns <> Ok (per_fn 1 (fun f => if fn_rcb f then 1 else 0) fns).
Proof. exists (dv_fns ex_dev). split; [discriminate|]. vm_compute. discriminate. Qed.
Print Assumptions C56_rcb_refuted.

(** C57: the copy of a TLP has every field of the original but one. *)
Theorem C57_copy : forall t, t_th t = 0 -> tlp_copy t = t.
Proof. intros t H. destruct t. cbn in H. subst. reflexivity. Qed.
Print Assumptions C57_copy.
Theorem C57_copy_refuted : exists t, tlp_copy t <> t.
Proof. exists (set_th 1 (ex_mem 0x1000)). intros H. apply (f_equal t_th) in H. discriminate. Qed.
Print Assumptions C57_copy_refuted.
