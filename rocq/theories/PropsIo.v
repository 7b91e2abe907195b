(** Theorems C67 to C72: I/O and configuration accesses, word helpers, callback
    regions. *)
From Verif Require Import PyBase TlpModel TlpSpec BarModel BarSpec SplitModel SplitSpec IoModel IoSpec IoProofs IoProofs2 IoProofs3 IoProofs4 IoProofs5.
From Coq Require Import ZifyBool ZifyNat.
Ltac Zify.zify_post_hook ::= Z.div_mod_to_equations.

Definition exq : rqstate := mkRq 0 (fun _ => []).

(** C67: reading any byte range of configuration space through TLPs returns the
    bytes of the registers. *)
Theorem C67_config_read : forall R (rd : R -> Z -> result Z) wr dev (reg : Z -> Z) f s addr len,
  id_device dev = fn_dev f -> id_function dev = fn_func f -> queues_empty (rq_queues s) -> 0 <= len ->
  (forall r, addr / 4 <= r <= (addr + len - 1) / 4 -> rd (fn_regs f) r = Ok (reg r) /\ 0 <= reg r < 2^32) ->
  exists f' s' ts, config_read dev (fn_serve_cfg rd wr) f s addr len = Ok (f', s', mem_load (reg_byte reg) addr len, ts) /\
    fn_regs f' = fn_regs f /\ fn_dev f' = fn_dev f /\ fn_func f' = fn_func f /\ queues_empty (rq_queues s') /\
    covers addr len ts /\ Forall (cfg_legal false dev) ts /\ tags_from false (rq_tag s) ts.
Proof. intros R rd wr. exact (config_read_regs rd wr). Qed.
Print Assumptions C67_config_read.
(** Six BAR registers at configuration registers 4 to 9. *)
Definition ex_rd (b : bars) (r : Z) : result Z := Ok (if (4 <=? r) && (r <=? 9) then read_bar b (r - 4) else 0).
Definition ex_wr (b : bars) (r v m : Z) : result bars := if (4 <=? r) && (r <=? 9) && (0 <? m) && (m <? 16) then write_bar b (r - 4) v m else Ok b.
Definition ex_fn : cfgfn bars := mkFn 0 3 1 (regs_of [BMem32 12 0x80000000 false; BMem64 16 0x123450000 true; BIo 8 0x300; BNone; BNone]).
Example C67_read_example : id_device (mkId 5 3 1) = fn_dev ex_fn /\
  (forall r, 18 / 4 <= r <= (18 + 9 - 1) / 4 -> exists w, ex_rd (fn_regs ex_fn) r = Ok w /\ 0 <= w < 2^32) /\
  (let! r := config_read (mkId 5 3 1) (fn_serve_cfg ex_rd ex_wr) ex_fn exq 18 9 in
   Ok (snd (fst r), map t_register_number (snd r), map t_first_be (snd r), map t_tag (snd r))) =
  Ok ([0; 0x80; 0x0c; 0; 0x45; 0x23; 1; 0; 0], [4; 5; 6], [12; 15; 7], [1; 2; 3]).
Proof.
  split; [reflexivity|]. split; [|vm_compute; reflexivity].
  intros r Hr. change (18 / 4) with 4 in Hr. change ((18 + 9 - 1) / 4) with 6 in Hr. assert (E : r = 4 \/ r = 5 \/ r = 6) by lia.
  destruct E as [-> | [-> | ->]]; (eexists; split; [reflexivity|]; vm_compute; split; [discriminate|reflexivity]).
Qed.

(** C67: a device that does not answer, or answers with a status other than
    Successful Completion, reads as all ones. *)
Theorem C67_config_read_failed : forall S (serve : S -> tlp -> result (S * list tlp)) dev st s addr len, queues_empty (rq_queues s) -> 0 <= len ->
  (forall st t, cfg_legal false dev t -> exists st' cs, serve st t = Ok (st', cs) /\
     (cs = [] \/ exists c, cs = [c] /\ t_fmt_type c = (0, 10) /\ t_tag c = t_tag t /\ tlp_check c = true /\ t_status c <> 0)) ->
  exists st' s' ts, config_read dev serve st s addr len = Ok (st', s', repeat 0xff (Z.to_nat len), ts) /\ queues_empty (rq_queues s') /\ covers addr len ts /\ Forall (cfg_legal false dev) ts.
Proof. intros S serve. exact (config_read_failed serve). Qed.
Print Assumptions C67_config_read_failed.
Definition ex_ur (st : unit) (t : tlp) : result (unit * list tlp) := Ok (st, if t_tag t mod 2 =? 0 then [] else [set_ur_completion t (mkId 0 0 0) tlp0]).
Example C67_failed_example : (forall st t, cfg_legal false (mkId 7 0 0) t -> exists st' cs, ex_ur st t = Ok (st', cs) /\
     (cs = [] \/ exists c, cs = [c] /\ t_fmt_type c = (0, 10) /\ t_tag c = t_tag t /\ tlp_check c = true /\ t_status c <> 0)) /\
  (let! r := config_read (mkId 7 0 0) ex_ur tt exq 2 7 in Ok (snd (fst r))) = Ok [255; 255; 255; 255; 255; 255; 255].
Proof.
  split; [|vm_compute; reflexivity]. intros st t _. eexists _, _. split; [reflexivity|]. destruct (t_tag t mod 2 =? 0); [left; reflexivity|right].
  eexists. split; [reflexivity|]. split; [reflexivity|]. split; [reflexivity|]. split; [reflexivity|]. discriminate.
Qed.

(** C67: writing bytes performs, for each register touched and in order, one
    register write with exactly the bytes given and exactly those byte enables. *)
Theorem C67_config_write : forall R (rd : R -> Z -> result Z) wr dev f s addr data,
  id_device dev = fn_dev f -> id_function dev = fn_func f -> queues_empty (rq_queues s) -> Forall is_byte data ->
  (forall r reg v m, 0 <= v < 2^32 -> 0 < m < 16 -> exists r', wr r reg v m = Ok r') ->
  exists f' s' ts ops, config_write dev (fn_serve_cfg rd wr) f s addr data = Ok (f', s', ts) /\
    cfg_ops_ok addr data ops /\ run_ops wr ops (fn_regs f) = Ok (fn_regs f') /\ fn_dev f' = fn_dev f /\ fn_func f' = fn_func f /\ queues_empty (rq_queues s') /\
    covers addr (zlen data) ts /\ Forall (cfg_legal true dev) ts /\ tags_from false (rq_tag s) ts.
Proof. intros R rd wr. exact (config_write_regs rd wr). Qed.
Print Assumptions C67_config_write.
(** A register file recording its writes. *)
Definition ex_wlog (l : list (Z * Z * Z)) (r v m : Z) : result (list (Z * Z * Z)) := Ok (l ++ [(r, v, m)]).
Example C67_write_example : (forall r reg v m, 0 <= v < 2^32 -> 0 < m < 16 -> exists r', ex_wlog r reg v m = Ok r') /\
  (let! r := config_write (mkId 5 3 1) (fn_serve_cfg (fun _ _ => Ok 0) ex_wlog) (mkFn 0 3 1 []) exq 18 [1;2;3;4;5;6;7] in Ok (fn_regs (fst (fst r)))) =
  Ok [(4, 0x02010000, 12); (5, 0x06050403, 15); (6, 7, 1)].
Proof. split; [intros; eexists; reflexivity|vm_compute; reflexivity]. Qed.

(** C67: config_write_dword of an aligned register is one full register write. *)
Theorem C67_config_write_dword : forall R (rd : R -> Z -> result Z) wr dev f s r w,
  id_device dev = fn_dev f -> id_function dev = fn_func f -> queues_empty (rq_queues s) -> 0 <= w < 2^32 ->
  (forall r reg v m, 0 <= v < 2^32 -> 0 < m < 16 -> exists r', wr r reg v m = Ok r') ->
  exists f' s' ts, write_word (config_write dev (fn_serve_cfg rd wr) f s (4 * r)) 4 w = Ok (f', s', ts) /\
    wr (fn_regs f) r w 15 = Ok (fn_regs f').
Proof. intros R rd wr. exact (config_write_dword_regs rd wr). Qed.
Print Assumptions C67_config_write_dword.
Example C67_dword_example : (let! r := write_word (config_write (mkId 5 3 1) (fn_serve_cfg ex_rd ex_wr) ex_fn exq (4 * 4)) 4 0xffffffff in Ok (b_bar (fn_regs (fst (fst r))))) =
  Ok [0xfffff000; 0x2345000c; 1; 0x301; 0; 0].
Proof. vm_compute. reflexivity. Qed.

(** C68: root complex I/O operations inside an endpoint's I/O window behave like
    a byte memory; other regions are untouched. *)
Theorem C68_rc_endpoint_io : forall rs ios i b k ops e s l, (forall a, b <= a <= b + 2^k -> find_region rs a = None) ->
  io_window_at e i b k -> region_contents e i l -> zlen l = 2^k -> queues_empty (rq_queues s) -> Forall (ioop_in b (b + 2^k)) ops ->
  exists e' s' l' outs, rc_exec_ios rs ios (e, s) ops = Ok (e', s', outs) /\
    ep_bars e' = ep_bars e /\ ep_id e' = ep_id e /\ region_contents e' i l' /\ zlen l' = 2^k /\ queues_empty (rq_queues s') /\
    (forall j, j <> Z.to_nat i -> nth j (ep_regions e') ENone = nth j (ep_regions e) ENone) /\
    outs = snd (spec_ioops (fun a => mem_of l (a - b)) ops) /\
    forall a, mem_of l' (a - b) = fst (spec_ioops (fun a => mem_of l (a - b)) ops) a.
Proof. exact rc_endpoint_io. Qed.
Print Assumptions C68_rc_endpoint_io.
Definition ex_iomem : list Z := [0;1;2;3;4;5;6;7;8;9;10;11;12;13;14;15].
Definition ex_ioep : endpoint := mkEp (mkId 1 0 0) 0 (regs_of [BIo 4 0x400; BMem32 4 0x400 false]) [EMem ex_iomem; EMem [1;2;3]].
Lemma ex_iowindow : io_window_at ex_ioep 0 0x400 4.
Proof.
  apply (io_window_of_layout ex_ioep [BIo 4 0x400; BMem32 4 0x400 false]); try reflexivity; try lia.
  - repeat constructor; lia.
  - vm_compute. split; [discriminate|reflexivity].
  - intros a Ha. change (2^4) with 16 in Ha. split.
    + split; [split; lia|]. intros H. exfalso. lia.
    + cbn [spec_match negb andb bar_slots]. unfold in_window. change (2^4) with 16. replace ((0x400 <=? a) && (a <? 0x400 + 16)) with true by lia. reflexivity.
Qed.
Definition ex_ioops : list ioop := [IoWrite 0x403 [0xa0; 0xa1; 0xa2; 0xa3; 0xa4; 0xa5]; IoRead 0x402 9; IoWrite 0x40f [0xff]; IoRead 0x40e 2].
Example C68_example : io_window_at ex_ioep 0 0x400 4 /\ region_contents ex_ioep 0 ex_iomem /\ Forall (ioop_in 0x400 (0x400 + 2^4)) ex_ioops /\
  (let! r := rc_exec_ios [mkRegion 0 16 (repeat 0 16)] [] (ex_ioep, exq) ex_ioops in Ok (snd r)) = Ok [[]; [2; 0xa0; 0xa1; 0xa2; 0xa3; 0xa4; 0xa5; 9; 10]; []; [14; 0xff]].
Proof.
  split; [exact ex_iowindow|]. split; [split; [reflexivity|repeat constructor; lia]|]. split; [|vm_compute; reflexivity].
  unfold ex_ioops. repeat (constructor; [cbn; repeat split; try lia; repeat constructor; lia|]). constructor.
Qed.

(** C68: the requests are legal one-DWORD I/O requests covering exactly the bytes,
    with consecutive tags. *)
Theorem C68_rc_endpoint_io_requests : forall rs ios i b k o e s l, (forall a, b <= a <= b + 2^k -> find_region rs a = None) ->
  io_window_at e i b k -> region_contents e i l -> zlen l = 2^k -> queues_empty (rq_queues s) -> ioop_in b (b + 2^k) o ->
  match o with
  | IoWrite addr data => exists r ts, rc_io_write rs ios ep_serve_io e s addr data = Ok (ios, fst r, snd r, ts) /\ covers addr (zlen data) ts /\ Forall (io_legal true (mkId 0 0 0)) ts /\ tags_from false (rq_tag s) ts
  | IoRead addr len => exists r ts, rc_io_read rs ios ep_serve_io e s addr len = Ok (r, ts) /\ covers addr len ts /\ Forall (io_legal false (mkId 0 0 0)) ts /\ tags_from false (rq_tag s) ts
  end.
Proof. exact rc_endpoint_io_requests. Qed.
Print Assumptions C68_rc_endpoint_io_requests.
Example C68_requests_example : ioop_in 0x400 (0x400 + 2^4) (IoRead 0x402 9) /\
  (let! r := rc_io_read [] [] ep_serve_io ex_ioep exq 0x402 9 in Ok (map t_address (snd r), map t_first_be (snd r))) = Ok ([0x400; 0x404; 0x408], [12; 15; 7]).
Proof. split; [cbn; lia|vm_compute; reflexivity]. Qed.

(** C68: the window hypothesis follows from a BAR layout. *)
Theorem C68_window_of_layout : forall e L i b k, ep_bars e = regs_of L -> Forall bar_ok L -> 2 <= k -> b mod 2^k = 0 ->
  0 <= i < zlen (ep_regions e) ->
  (forall a, b <= a < b + 2^k -> addr_ok L a /\ spec_match 0 L a true = [(i, a - b)]) -> io_window_at e i b k.
Proof. exact io_window_of_layout. Qed.
Print Assumptions C68_window_of_layout.
Example C68_window_example : ep_bars ex_ioep = regs_of [BIo 4 0x400; BMem32 4 0x400 false] /\ spec_match 0 [BIo 4 0x400; BMem32 4 0x400 false] 0x40f true = [(0, 15)].
Proof. split; reflexivity. Qed.

(** C69: I/O operations of a bus-mastering function inside an I/O region of the
    root complex behave like a byte memory. *)
Theorem C69_function_rc_io : forall ext rid i lo hi ops ios s, lo mod 4 = 0 -> hi mod 4 = 0 -> regions_wf ios -> in_region ios i lo hi -> queues_empty (rq_queues s) -> Forall (ioop_in lo hi) ops ->
  exists ios' s' outs, fn_exec_ios true ext rid (ios, s) ops = Ok (ios', s', outs) /\ same_map ios' ios /\ regions_wf ios' /\ queues_empty (rq_queues s') /\
    outs = map Some (snd (spec_ioops (rc_mem ios) ops)) /\ forall a, rc_mem ios' a = fst (spec_ioops (rc_mem ios) ops) a.
Proof. exact fn_rc_io. Qed.
Print Assumptions C69_function_rc_io.
Definition ex_ios : list region := [mkRegion 0x100 8 (repeat 7 8); mkRegion 0x400 16 ex_iomem].
Example C69_example : regions_wf ex_ios /\ in_region ex_ios 1 0x400 0x410 /\ Forall (ioop_in 0x400 0x410) ex_ioops /\
  (let! r := fn_exec_ios true true (mkId 1 0 0) (ex_ios, exq) ex_ioops in Ok (snd r)) = Ok [Some []; Some [2; 0xa0; 0xa1; 0xa2; 0xa3; 0xa4; 0xa5; 9; 10]; Some []; Some [14; 0xff]].
Proof.
  split; [repeat constructor; lia|]. split.
  - intros a Ha. exists (mkRegion 0x400 16 ex_iomem). unfold ex_ios. cbn [find_region r_base r_size]. replace ((0x100 <=? a) && (a <? 0x100 + 8)) with false by lia.
    replace ((0x400 <=? a) && (a <? 0x400 + 16)) with true by lia. reflexivity.
  - split; [|vm_compute; reflexivity]. unfold ex_ioops. repeat (constructor; [cbn; repeat split; try lia; repeat constructor; lia|]). constructor.
Qed.

(** C69: the requests sent. *)
Theorem C69_function_io_requests : forall ext rid i lo hi o ios s, lo mod 4 = 0 -> hi mod 4 = 0 -> regions_wf ios -> in_region ios i lo hi -> queues_empty (rq_queues s) -> ioop_in lo hi o ->
  match o with
  | IoWrite addr data => exists r ts, function_io_write true ext rid rc_serve_io ios s addr data = Ok (r, ts) /\ covers addr (zlen data) ts /\ Forall (io_legal true rid) ts /\ tags_from ext (rq_tag s) ts
  | IoRead addr len => exists r ts, function_io_read true ext rid rc_serve_io ios s addr len = Ok (r, ts) /\ covers addr len ts /\ Forall (io_legal false rid) ts /\ tags_from ext (rq_tag s) ts
  end.
Proof. exact fn_rc_io_requests. Qed.
Print Assumptions C69_function_io_requests.
Example C69_requests_example : ioop_in 0x400 0x410 (IoWrite 0x401 [1; 2; 3; 4]) /\
  (let! r := function_io_write true false (mkId 1 0 0) rc_serve_io ex_ios (mkRq 31 (fun _ => [])) 0x401 [1; 2; 3; 4] in Ok (map t_address (snd r), map t_first_be (snd r), map t_tag (snd r))) =
  Ok ([0x400; 0x404], [14; 1], [0; 1]).
Proof. split; [cbn; repeat split; try lia; repeat constructor; lia|vm_compute; reflexivity]. Qed.

(** C69: with bus mastering off nothing is sent or changed and reads give None. *)
Theorem C69_bus_mastering_off : forall ext rid ops ios s,
  fn_exec_ios false ext rid (ios, s) ops = Ok (ios, s, map (fun o => match o with IoWrite _ _ => Some [] | IoRead _ _ => None end) ops).
Proof. exact fn_io_disabled. Qed.
Print Assumptions C69_bus_mastering_off.
Example C69_off_example : (let! r := fn_exec_ios false true (mkId 1 0 0) (ex_ios, exq) ex_ioops in Ok (snd r)) = Ok [Some []; None; Some []; None].
Proof. vm_compute. reflexivity. Qed.

(** C70 (false): root complex io_read of its own I/O region returns its bytes. *)
Theorem C70_local_io_refuted : exists ios addr len e s, regions_wf ios /\ in_region ios 0 addr (addr + len) /\ 1 <= len /\ queues_empty (rq_queues s) /\
  rc_io_read [] ios ep_serve_io e s addr len = Err (PyException 1876) /\
  rc_io_write [] ios ep_serve_io e s addr [0] = Err (PyException 1944).
Proof.
  exists [mkRegion 0x100 8 (repeat 7 8)], 0x100, 4, ex_ioep, exq. split; [repeat constructor; lia|]. split.
  - intros a Ha. eexists. cbn [find_region r_base r_size]. replace ((0x100 <=? a) && (a <? 0x100 + 8)) with true by lia. reflexivity.
  - split; [lia|]. split; [intros k; reflexivity|]. split; vm_compute; reflexivity.
Qed.
Print Assumptions C70_local_io_refuted.

(** C70 (false): a memory region of the root complex at the same numeric address
    makes a device's I/O window unreachable. *)
Theorem C70_memory_region_hides_io_refuted : exists rs e i b k l s, io_window_at e i b k /\ region_contents e i l /\ zlen l = 2^k /\ regions_wf rs /\ queues_empty (rq_queues s) /\
  rc_io_read rs [] ep_serve_io e s b 4 = Err (PyException 3351) /\ rc_io_read [] [] ep_serve_io e s b 4 <> Err (PyException 3351).
Proof.
  exists [mkRegion 0x400 8 (repeat 7 8)], ex_ioep, 0, 0x400, 4, ex_iomem, exq. split; [exact ex_iowindow|]. split; [split; [reflexivity|repeat constructor; lia]|].
  split; [reflexivity|]. split; [repeat constructor; lia|]. split; [intros k; reflexivity|]. split; [reflexivity|vm_compute; discriminate].
Qed.
Print Assumptions C70_memory_region_hides_io_refuted.

(** C70, what does hold: the access is served locally, correctly and without any
    TLP, if a memory region also contains the address. *)
Theorem C70_local_io_partial : forall S rs ios (serve : S -> tlp -> result (S * list tlp)) st s i addr len data,
  regions_wf ios -> find_region rs addr <> None -> 1 <= len -> in_region ios i addr (addr + len) ->
  rc_io_read rs ios serve st s addr len = Ok (st, s, mem_load (rc_mem ios) addr len, []) /\
  (Forall is_byte data -> zlen data = len -> exists ios', rc_io_write rs ios serve st s addr data = Ok (ios', st, s, []) /\ same_map ios' ios /\ regions_wf ios' /\
     forall a, rc_mem ios' a = mem_store (rc_mem ios) addr data a).
Proof. intros S. exact (@rc_io_local S). Qed.
Print Assumptions C70_local_io_partial.
Example C70_local_example : find_region [mkRegion 0x400 16 (repeat 0 16)] 0x405 <> None /\
  (let! r := rc_io_read [mkRegion 0x400 16 (repeat 0 16)] ex_ios ep_serve_io ex_ioep exq 0x405 3 in Ok (snd (fst r))) = Ok [5; 6; 7].
Proof. split; [discriminate|vm_compute; reflexivity]. Qed.

(** C71: words written with mem_write_words and read back with mem_read_words of
    the same size are the same words, for all word sizes. *)
Theorem C71_mem_words : forall mps mrrs i b k e s l addr ws words, 0 <= mps -> 0 <= mrrs -> window_at e i b k -> region_contents e i l -> zlen l = 2^k -> 0 <= ep_mps e -> queues_empty (rq_queues s) ->
  ws_ok ws = true -> Forall (fun w => 0 <= w < 2 ^ (8 * ws)) words -> b <= addr -> addr + ws * zlen words <= b + 2^k ->
  exists st' st'', write_words (fun d => exec_mop mps mrrs (e, s) (MWrite addr d)) ws words = Ok (st', []) /\
    read_words (fun n => exec_mop mps mrrs st' (MRead addr n)) ws (zlen words) = Ok (st'', words).
Proof. exact mem_words_roundtrip. Qed.
Print Assumptions C71_mem_words.
Definition ex_wep : endpoint := mkEp (mkId 1 0 0) 0 (regs_of [BMem32 4 0x1000 false]) [EMem (repeat 0 16)].
Lemma ex_wwindow : window_at ex_wep 0 0x1000 4.
Proof.
  apply (SplitProofs2.window_of_layout ex_wep [BMem32 4 0x1000 false]); try reflexivity; try lia.
  - repeat constructor; lia.
  - vm_compute. split; [discriminate|reflexivity].
  - intros a Ha. change (2^4) with 16 in Ha. split.
    + split; [split; lia|]. intros H. exfalso. lia.
    + cbn [spec_match negb andb bar_slots]. unfold in_window. change (2^4) with 16. replace ((0x1000 <=? a) && (a <? 0x1000 + 16)) with true by lia. reflexivity.
Qed.
Example C71_mem_example : window_at ex_wep 0 0x1000 4 /\ region_contents ex_wep 0 (repeat 0 16) /\
  (let! r := write_words (fun d => exec_mop 0 0 (ex_wep, exq) (MWrite 0x1003 d)) 4 [0x11223344; 0xdeadbeef] in
   let! q := exec_mop 0 0 (fst r) (MRead 0x1000 12) in
   let! w := read_words (fun n => exec_mop 0 0 (fst r) (MRead 0x1003 n)) 8 1 in Ok (snd q, snd w)) =
  Ok ([0; 0; 0; 0x44; 0x33; 0x22; 0x11; 0xef; 0xbe; 0xad; 0xde; 0], [0xdeadbeef11223344]).
Proof. split; [exact ex_wwindow|]. split; [split; [reflexivity|repeat constructor; lia]|vm_compute; reflexivity]. Qed.

(** C71: [read_words] returns little-endian words of whatever the byte function
    loads, and [write_words] passes it their little-endian bytes. *)
Theorem C71_words : (forall A (read : Z -> result (A * list Z)) (r : A) M a ws count, ws_ok ws = true -> 0 <= count ->
    read (count * ws) = Ok (r, mem_load M a (count * ws)) -> read_words read ws count = Ok (r, words_at M a ws count)) /\
  (forall A (write : list Z -> result A) ws words, ws_ok ws = true -> Forall (fun w => 0 <= w < 2 ^ (8 * ws)) words ->
    exists d, write_words write ws words = write d /\ zlen d = ws * zlen words /\ Forall is_byte d /\
      forall M a, words_at (mem_store M a d) a ws (zlen words) = words).
Proof.
  split; [intros A; exact (@read_words_spec A)|]. intros A write ws words H1 H2. destruct (write_words_spec write ws words H1 H2) as (E1 & E2 & E3).
  exists (flat_map (le_bytes (Z.to_nat ws)) words). repeat (split; [assumption|]). intros M a. apply words_stored; [now apply ws_pos|assumption].
Qed.
Print Assumptions C71_words.
Example C71_words_example : read_words (fun n => Ok (tt, mem_load (fun a => a) 1 n)) 4 2 = Ok (tt, [0x04030201; 0x08070605]) /\
  write_words (fun d => Ok d) 2 [0x1234; 0xff] = Ok [0x34; 0x12; 0xff; 0] /\ write_words (fun d => Ok d) 2 [0x10000] = Err OverflowError.
Proof. repeat split; vm_compute; reflexivity. Qed.

(** C71: configuration and capability words. *)
Theorem C71_config_words : forall R (rd : R -> Z -> result Z) wr dev (reg : Z -> Z) f s addr ws count,
  id_device dev = fn_dev f -> id_function dev = fn_func f -> queues_empty (rq_queues s) -> ws_ok ws = true -> 0 <= count ->
  (forall r, addr / 4 <= r <= (addr + ws * count - 1) / 4 -> rd (fn_regs f) r = Ok (reg r) /\ 0 <= reg r < 2^32) ->
  exists st', read_words (fun n => let! r := config_read dev (fn_serve_cfg rd wr) f s addr n in Ok (fst r)) ws count = Ok (st', words_at (reg_byte reg) addr ws count).
Proof. intros R rd wr. exact (config_read_words_regs rd wr). Qed.
Print Assumptions C71_config_words.
Example C71_config_example : (let! r := read_words (fun n => let! r := config_read (mkId 5 3 1) (fn_serve_cfg ex_rd ex_wr) ex_fn exq 0x14 n in Ok (fst r)) 8 1 in Ok (snd r)) = Ok [0x12345000c].
Proof. vm_compute. reflexivity. Qed.

(** C71: a capability access is a configuration access at the offset of the first
    entry with that id. *)
Theorem C71_capability_words : forall R (rd : R -> Z -> result Z) wr dev (reg : Z -> Z) f s caps cap_id k o addr ws count,
  nth_error caps k = Some (cap_id, o) -> (forall j c, (j < k)%nat -> nth_error caps j = Some c -> fst c <> cap_id) -> o <> 0 ->
  id_device dev = fn_dev f -> id_function dev = fn_func f -> queues_empty (rq_queues s) -> ws_ok ws = true -> 0 <= count ->
  (forall r, (addr + o) / 4 <= r <= (addr + o + ws * count - 1) / 4 -> rd (fn_regs f) r = Ok (reg r) /\ 0 <= reg r < 2^32) ->
  exists st', read_words (fun n => let! r := capability_read (Some caps) dev (fn_serve_cfg rd wr) f s cap_id addr n in Ok (fst r)) ws count = Ok (st', words_at (reg_byte reg) (addr + o) ws count).
Proof.
  intros R rd wr dev reg f s caps cap_id k o addr ws count HN HF. apply capability_read_words_regs.
  pose proof (cap_offset caps cap_id) as H. destruct (get_capability_offset caps cap_id) as [o'|].
  - destruct H as (k' & K1 & K2). destruct (Nat.lt_trichotomy k k') as [L|[L|L]].
    + exfalso. exact (K2 k _ L HN eq_refl).
    + subst k'. congruence.
    + exfalso. exact (HF k' _ L K1 eq_refl).
  - exfalso. exact (H _ (nth_error_In _ _ HN) eq_refl).
Qed.
Print Assumptions C71_capability_words.
Example C71_capability_example : (let! r := read_words (fun n => let! r := capability_read (Some [(1, 0x40); (5, 0x10); (5, 0x60)]) (mkId 5 3 1) (fn_serve_cfg ex_rd ex_wr) ex_fn exq 5 4 n in Ok (fst r)) 4 1 in Ok (snd r)) = Ok [0x2345000c].
Proof. vm_compute. reflexivity. Qed.

(** C71 (false): the I/O word helpers and all *_write_byte helpers raise for every
    argument. *)
Theorem C71_io_words_refuted : exists rs ios e s addr, io_window_at e 0 addr 4 /\
  (forall ws count, ws_ok ws = true -> io_read_words (fun n => let! r := rc_io_read rs ios ep_serve_io e s addr n in Ok (fst r)) ws count = Err TypeError) /\
  (forall w, 0 <= w < 2^32 -> io_write_words (rc_io_write rs ios ep_serve_io e s addr) 4 [w] = Err TypeError) /\
  io_read_byte (fun n => let! r := rc_io_read rs ios ep_serve_io e s addr n in Ok (fst r)) = Err TypeError /\
  (forall b, io_write_byte (rc_io_write rs ios ep_serve_io e s addr) b = Err TypeError).
Proof.
  exists [], [], ex_ioep, exq, 0x400. split; [exact ex_iowindow|]. split; [intros ws count H; unfold io_read_words; rewrite H; reflexivity|].
  split; [|split; reflexivity]. intros w Hw. unfold io_write_words. change (ws_ok 4) with true. cbv iota. cbn [bytes_of_words]. change (8 * 4) with 32. replace ((0 <=? w) && (w <? 2^32)) with true by lia. reflexivity.
Qed.
Print Assumptions C71_io_words_refuted.
Theorem C71_write_byte_refuted : exists e addr (i k : Z), window_at e i addr k /\
  forall s b, write_byte (fun d => exec_mop 0 0 (e, s) (MWrite addr d)) b = Err TypeError.
Proof. exists ex_wep, 0x1000, 0, 4. split; [exact ex_wwindow|]. intros s b. reflexivity. Qed.
Print Assumptions C71_write_byte_refuted.

(** C72 (false): reading a region served by callbacks gives what the callback
    returns. *)
Theorem C72_callback_read_refuted : exists rs addr i b n (rd : Z -> Z -> list Z) log, holds_at rs addr i /\ nth_error rs i = Some (RCb b n rd log) /\ rd (addr - b) 4 = [1; 2; 3; 4] /\
  any_read rs addr 4 = Ok None /\ any_read_io rs addr 4 = Err NameError /\
  any_handle_mem_read rs 0 (set_address addr (set_length 1 (set_fmt_type TLP_MEM_READ tlp0))) = Err TypeError /\
  ep_write_region [ECb rd] 0 0 [1] = Err NameError.
Proof.
  exists [RCb 0x1000 16 (fun o n => mem_load (fun a => a) (o + 1) n) []], 0x1000, O, 0x1000, 16, (fun o n => mem_load (fun a => a) (o + 1) n), [].
  split; [split; [eexists; split; [reflexivity|cbn; lia]|intros j r Hj; lia]|]. repeat split; vm_compute; reflexivity.
Qed.
Print Assumptions C72_callback_read_refuted.

(** C72: in fact every read of such a region is lost, whatever the callback. *)
Theorem C72_callback_reads_lost : forall rs addr i b n rd log len, holds_at rs addr i -> nth_error rs i = Some (RCb b n rd log) ->
  any_read rs addr len = Ok None /\ any_read_io rs addr len = Err NameError /\
  (forall mps t, t_address t = addr -> 0 <= mps -> 1 <= t_length t -> addr mod 4096 + 4 * t_length t <= 4096 -> any_handle_mem_read rs mps t = Err TypeError).
Proof. exact callback_reads_lost. Qed.
Print Assumptions C72_callback_reads_lost.

(** C72, what holds: a write reaches the write callback of the first region that
    contains the address, with the offset and the data, and nothing else changes. *)
Theorem C72_callback_write_partial : forall rs addr i b n rd log data, holds_at rs addr i -> nth_error rs i = Some (RCb b n rd log) ->
  exists rs', any_write rs addr data = Ok rs' /\ nth_error rs' i = Some (RCb b n rd (log ++ [(addr - b, data)])) /\ forall j, j <> i -> nth_error rs' j = nth_error rs j.
Proof. exact callback_write. Qed.
Print Assumptions C72_callback_write_partial.
Definition ex_any : list anyregion := [RMem 0 16 (repeat 9 16); RCb 8 16 (fun _ _ => []) [(0, [1])]].
Example C72_write_example : holds_at ex_any 0x12 1 /\ (let! r := any_write ex_any 0x12 [5; 6] in Ok (match nth_error r 1 with Some (RCb _ _ _ l) => l | _ => [] end)) = Ok [(0, [1]); (10, [5; 6])].
Proof.
  split; [|vm_compute; reflexivity]. split; [eexists; split; [reflexivity|cbn; lia]|]. intros j r Hj HR. assert (j = O) by lia. subst. cbn in HR. injection HR as <-. cbn. lia.
Qed.

(** C72: memory regions beside callback regions still read their bytes. *)
Theorem C72_memory_region_partial : forall rs addr i b n m len, holds_at rs addr i -> nth_error rs i = Some (RMem b n m) -> zlen m = n -> 1 <= len -> addr + len <= b + n ->
  any_read rs addr len = Ok (Some (mem_load (mem_of m) (addr - b) len)) /\ any_read_io rs addr len = Ok (Some (mem_load (mem_of m) (addr - b) len)).
Proof. exact memory_among_callbacks. Qed.
Print Assumptions C72_memory_region_partial.
Example C72_memory_example : holds_at ex_any 10 0 /\ any_read ex_any 10 3 = Ok (Some [9; 9; 9]).
Proof. split; [|reflexivity]. split; [eexists; split; [reflexivity|cbn; lia]|]. intros j r Hj. lia. Qed.
