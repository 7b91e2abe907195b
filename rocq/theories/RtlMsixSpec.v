(** Independent specification of the MSI-X module (C94, C95, C96). *)
From Verif Require Import PyBase RtlModel RtlMsixModel.

(** * The interrupts (C95, C96) *)

(** A 128 bit TLP header from its four words, and the header of the memory write of one word for a table entry with address [addr]
    (its two low bits are reserved): a 64 bit address if needed or forced. *)
Definition words (l : list Z) : Z := fold_left (fun h d => h * 2 ^ 32 + d) l 0.
Definition msg_hdr (force : bool) (rid addr : Z) : Z :=
  let a := addr - addr mod 4 in
  if force || (2 ^ 32 <=? a) then words [3 * 2 ^ 29 + 1; rid * 2 ^ 16 + 15; a / 2 ^ 32; a mod 2 ^ 32]
  else words [2 * 2 ^ 29 + 1; rid * 2 ^ 16 + 15; a; 0].
(** Table entry of vector [v]: address in the even word, data and mask bit in the odd word. *)
Definition entry_addr (tbl : Z -> Z) (v : Z) : Z := tbl (2 * v).
Definition entry_data (tbl : Z -> Z) (v : Z) : Z := tbl (2 * v + 1) mod 2 ^ 32.
Definition entry_masked (tbl : Z -> Z) (v : Z) : bool := Z.testbit (tbl (2 * v + 1)) 32.

Definition accepted (e : mx_ev) : option Z := if mi_valid (mv_in e) && mv_ready e then Some (mi_index (mv_in e)) else None.
Definition offered (e : mx_ev) : option (Z * Z) := if mv_txvalid e then Some (mv_txhdr e, mv_txdata e) else None.
Definition on_at (e : mx_ev) : bool := mi_enable (mv_in e) && negb (mi_mask (mv_in e)).

(** What an MSI-X function does: it serves one vector at a time; for this it reads the table entry; if the vector or the function is masked it sets the pending bit, otherwise it
    clears the pending bit and sends the message. *)
Inductive act := Wait | Start (v : Z) | Store (v : Z) | Send (v : Z).
Record job := mkJob { j_vec : Z; j_age : nat; j_addr : Z; j_data : Z; j_masked : bool }.
Record mon := mkMon { n_pend : Z; n_job : option job; n_out : option (Z * Z); n_on : bool }.
Definition mon0 : mon := mkMon 0 None None false.

Definition legal (n : mon) (e : mx_ev) (a : act) : Prop :=
  match a with
  | Start v => n_job n = None /\ (accepted e = Some v \/ (mi_valid (mv_in e) = false /\ n_on n = true /\ Z.testbit (n_pend n) v = true))
  | Wait => accepted e = None /\
    match n_job n with
    | None => True
    | Some j => j_age j = 1%nat \/ (j_age j = 2%nat /\ n_on n = true /\ j_masked j = false) \/ (j_age j = 3%nat /\ n_out n <> None /\ mi_ready (mv_in e) = false)
    end
  | Store v => exists j, n_job n = Some j /\ j_vec j = v /\ j_age j = 2%nat /\ (n_on n = false \/ j_masked j = true)
  | Send v => exists j, n_job n = Some j /\ j_vec j = v /\ j_age j = 3%nat /\ (n_out n = None \/ mi_ready (mv_in e) = true)
  end.
Definition next (force : bool) (n : mon) (e : mx_ev) (a : act) : mon :=
  let i := mv_in e in
  let job' := match a, n_job n with
    | Start v, _ => Some (mkJob v 1 (entry_addr (mv_tbl e) v) 0 false)
    | Wait, Some (mkJob v 1 ad _ _) => Some (mkJob v 2 ad (entry_data (mv_tbl e) v) (entry_masked (mv_tbl e) v))
    | Wait, Some (mkJob v _ ad da ma) => Some (mkJob v 3 ad da ma)
    | _, _ => None
    end in
  let out' := match a, n_job n with
    | Send _, Some j => Some (msg_hdr force (mi_rid i) (j_addr j), j_data j)
    | _, _ => if mi_ready i then None else n_out n
    end in
  mkMon (match a with Store v => Z.setbit (n_pend n) v | Send v => Z.clearbit (n_pend n) v | _ => n_pend n end)
    (if mi_rst i then None else job') (if mi_rst i then None else out') (on_at e).
(** What must be seen: the pending bits, the message, and no request is taken while a vector is served. *)
Definition shows (n : mon) (e : mx_ev) : Prop :=
  mv_pba e 0 = n_pend n /\ (forall k, 0 < k -> mv_pba e k = 0) /\ offered e = n_out n /\ (mv_ready e = true -> n_job n = None).
Fixpoint follows (force : bool) (n : mon) (tr : list mx_ev) (acts : list act) : Prop :=
  match tr, acts with
  | [], [] => True
  | e :: tr', a :: acts' => shows n e /\ legal n e a /\ follows force (next force n e a) tr' acts'
  | _, _ => False
  end.

Definition mx_ok (p : mx_param) : Prop := 1 <= mx_w p.
(** Inputs as wide as the ports; requests only for the first 32 vectors. *)
Definition mx_wide (p : mx_param) (i : mx_in) : Prop := 0 <= mi_rid i < 2 ^ 16 /\ (mi_valid i = true -> 0 <= mi_index i < 2 ^ mx_w p).
Definition mx_low (i : mx_in) : Prop := mi_valid i = true -> mi_index i < 32.

(** In terms of what is seen only. The message of vector [v] as in the table at some clocks of the trace. *)
Definition message (force : bool) (tr : list mx_ev) (v : Z) (m : Z * Z) : Prop :=
  exists e1 e2 e3, In e1 tr /\ In e2 tr /\ In e3 tr /\ m = (msg_hdr force (mi_rid (mv_in e3)) (entry_addr (mv_tbl e1) v), entry_data (mv_tbl e2) v) /\ entry_masked (mv_tbl e2) v = false.
(** No message without a request: each message offered is that of a vector requested before, and no more messages are sent than requests were accepted. *)
Definition no_spurious (force : bool) (tr : list mx_ev) : Prop :=
  (forall a e b m, tr = a ++ e :: b -> offered e = Some m -> exists v, In (Some v) (map accepted a) /\ message force a v m)
  /\ (length (filter (fun e => mv_txvalid e && mi_ready (mv_in e)) tr) <= length (filter (fun e => mi_valid (mv_in e) && mv_ready e) tr))%nat.
(** No request is lost without reset: it is pending, or still served, or its message was offered since, or is so at the next clock. *)
Definition no_loss (force : bool) (tr : list mx_ev) : Prop :=
  forall a e b z v, tr = a ++ e :: b ++ [z] -> accepted e = Some v -> mi_rst (mv_in e) = false -> (forall x, In x b -> mi_rst (mv_in x) = false) ->
  Z.testbit (mv_pba z (v / 64)) (v mod 64) = true \/ mv_ready z = false \/ exists x m, In x (b ++ [z]) /\ offered x = Some m /\ message force (e :: b ++ [z]) v m.
(** A message not taken is kept. *)
Definition tlp_kept (tr : list mx_ev) : Prop := forall a e1 e2 b m, tr = a ++ e1 :: e2 :: b -> mi_rst (mv_in e1) = false -> mi_ready (mv_in e1) = false ->
  offered e1 = Some m -> offered e2 = Some m.

(** * Delivery (C96) *)
(** No reset, no new request, the function enabled and not masked. *)
Definition lively (i : mx_in) : Prop := mi_rst i = false /\ mi_valid i = false /\ mi_enable i = true /\ mi_mask i = false.
Definition readies (l : list mx_in) : nat := length (filter mi_ready l).
(** After a request at [i] and further clocks [b] without reset, clocks [l] in which nothing is masked deliver the message if enough of them take messages. *)
Definition delivers (p : mx_param) (bound : nat) : Prop := forall a i b l v,
  (forall x, In x (a ++ i :: b ++ l) -> mx_wide p x /\ mx_low x) ->
  let s := mx_run p mx0 a in accepted (mx_event s i) = Some v -> (forall x, In x (i :: b ++ l) -> mi_rst x = false) ->
  (forall x, In x l -> lively x) -> (forall e u, In e (mx_trace p (mx_run p s (i :: b)) l) -> entry_masked (mv_tbl e) u = false) ->
  (bound <= readies l)%nat ->
  let tr := mx_trace p s (i :: b ++ l) in exists x m, In x (tl tr) /\ offered x = Some m /\ message (mx_force p) tr v m.

(** One masked vector keeps others from being delivered: [v] is requested, its pending bit is set, it is not masked, the function is enabled and not masked, messages are taken, and no message ever comes. *)
Definition starves (p : mx_param) (v : Z) : Prop := exists h i, lively i /\ mi_ready i = true /\ In (Some v) (map accepted (mx_trace p mx0 h))
  /\ (forall x, In x (h ++ [i]) -> mi_rst x = false /\ mx_wide p x /\ mx_low x)
  /\ forall k e, In e (mx_trace p (mx_run p mx0 h) (repeat i k)) -> Z.testbit (mv_pba e 0) v = true /\ entry_masked (mv_tbl e) v = false /\ offered e = None.

(** * The AXI lite interface (C94) *)
Definition ax_ok (p : mx_param) : Prop := 1 <= mx_w p /\ mx_w p + 5 <= mx_aw p /\ (mx_dw p = 8 \/ mx_dw p = 16 \/ mx_dw p = 32 \/ mx_dw p = 64).
Definition ax_wide (p : mx_param) (i : mx_in) : Prop := 0 <= mi_awaddr i < 2 ^ mx_aw p /\ 0 <= mi_araddr i < 2 ^ mx_aw p /\ 0 <= mi_wstrb i < 2 ^ (mx_dw p / 8).
(** Requests are held until they are taken. *)
Definition ax_held (tr : list mx_ev) : Prop := forall a e1 e2 b, tr = a ++ e1 :: e2 :: b ->
  (mi_awvalid (mv_in e1) = true -> mv_awready e1 = false -> mi_awvalid (mv_in e2) = true /\ mi_awaddr (mv_in e2) = mi_awaddr (mv_in e1))
  /\ (mi_wvalid (mv_in e1) = true -> mv_wready e1 = false -> mi_wvalid (mv_in e2) = true /\ mi_wdata (mv_in e2) = mi_wdata (mv_in e1) /\ mi_wstrb (mv_in e2) = mi_wstrb (mv_in e1))
  /\ (mi_arvalid (mv_in e1) = true -> mv_arready e1 = false -> mi_arvalid (mv_in e2) = true /\ mi_araddr (mv_in e2) = mi_araddr (mv_in e1)).

(** Bytes of a memory of 64 bit words. *)
Definition byte_of (m : Z -> Z) (b : Z) : Z := (m (b / 8) / 2 ^ (8 * (b mod 8))) mod 2 ^ 8.
(** The first byte of the word at an address: the table has 2^(W+4) bytes, and appears again and again in the lower half of the addresses. *)
Definition first_byte (p : mx_param) (a : Z) : Z := (a / (mx_dw p / 8) * (mx_dw p / 8)) mod 2 ^ (mx_w p + 4).
Definition in_table (p : mx_param) (a : Z) : bool := a <? 2 ^ (mx_aw p - 1).
Definition read_bytes (p : mx_param) (m : Z -> Z) (a : Z) : Z :=
  fold_right (fun j acc => m (first_byte p a + j) * 2 ^ (8 * j) + acc) 0 (map Z.of_nat (seq 0 (Z.to_nat (mx_dw p / 8)))).
Definition write_bytes (p : mx_param) (m : Z -> Z) (a d st : Z) : Z -> Z := fun b =>
  let j := b - first_byte p a in if (0 <=? j) && (j <? mx_dw p / 8) && Z.testbit st j then (d / 2 ^ (8 * j)) mod 2 ^ 8 else m b.
(** Pending bits: 64 in a word; nothing is said about words that do not exist. *)
Definition pba_bytes (p : mx_param) (a : Z) : bool := first_byte p a <? 8 * 2 ^ Z.max 0 (mx_w p - 6).

(** The bytes of the table, the answers to the reads that were taken (None: any answer), the write answers outstanding, and the pending bits at the clock before. *)
Record ax_mon := mkAm { am_mem : Z -> Z; am_reads : list (option Z); am_writes : nat; am_pba : Z -> Z }.
Definition aw_taken (e : mx_ev) : bool := mi_awvalid (mv_in e) && mv_awready e.
Definition ar_taken (e : mx_ev) : bool := mi_arvalid (mv_in e) && mv_arready e.
Definition am_next (p : mx_param) (m : ax_mon) (e : mx_ev) : ax_mon :=
  let i := mv_in e in
  mkAm (if aw_taken e && in_table p (mi_awaddr i) then write_bytes p (am_mem m) (mi_awaddr i) (mi_wdata i) (mi_wstrb i) else am_mem m)
    ((if mv_rvalid e && mi_rready i then tl (am_reads m) else am_reads m) ++
     (if ar_taken e then [if in_table p (mi_araddr i) then Some (read_bytes p (am_mem m) (mi_araddr i)) else if pba_bytes p (mi_araddr i) then Some (read_bytes p (byte_of (am_pba m)) (mi_araddr i)) else None] else []))
    (am_writes m + (if aw_taken e then 1 else 0) - (if mv_bvalid e && mi_bready i then 1 else 0)) (mv_pba e).
Definition am_shows (p : mx_param) (m : ax_mon) (e : mx_ev) : Prop :=
  (mv_awready e = true -> mi_awvalid (mv_in e) = true) /\ (mv_arready e = true -> mi_arvalid (mv_in e) = true) /\ mv_wready e = mv_awready e /\ (mv_awready e = true -> mi_wvalid (mv_in e) = true)
  /\ aw_taken e && ar_taken e = false
  /\ mv_bvalid e = (0 <? am_writes m + (if aw_taken e then 1 else 0))%nat
  /\ mv_rvalid e = negb (Nat.eqb (length (am_reads m)) 0)
  /\ (forall r q, am_reads m = Some r :: q -> mv_rdata e = r)
  /\ (length (am_reads m) <= 2)%nat
  /\ (forall b, 0 <= b < 2 ^ (mx_w p + 4) -> byte_of (mv_tbl e) b = am_mem (am_next p m e) b).
Fixpoint am_checks (p : mx_param) (m : ax_mon) (tr : list mx_ev) : Prop :=
  match tr with
  | [] => True
  | e :: r => am_shows p m e /\ am_checks p (am_next p m e) r
  end.
(** After power up, or after a reset. *)
Definition ax_fresh (p : mx_param) (s : mx_state) : Prop := s = mx0 \/ exists h r, s = mx_run p mx0 (h ++ [r]) /\ mi_rst r = true.
Definition r_kept_ax (tr : list mx_ev) : Prop := forall a e1 e2 b, tr = a ++ e1 :: e2 :: b -> mi_rst (mv_in e1) = false -> mv_rvalid e1 = true -> mi_rready (mv_in e1) = false ->
  mv_rvalid e2 = true /\ mv_rdata e2 = mv_rdata e1.
(** A write and a read are taken within three clocks if the answers are taken. *)
Definition aw_served (tr : list mx_ev) : Prop := forall a e1 e2 e3 b, tr = a ++ e1 :: e2 :: e3 :: b ->
  (forall e, In e [e1; e2; e3] -> mi_rst (mv_in e) = false /\ mi_awvalid (mv_in e) = true /\ mi_wvalid (mv_in e) = true /\ mi_bready (mv_in e) = true /\ mi_rready (mv_in e) = true) ->
  exists e, In e [e1; e2; e3] /\ mv_awready e = true.
Definition ar_served (tr : list mx_ev) : Prop := forall a e1 e2 e3 b, tr = a ++ e1 :: e2 :: e3 :: b ->
  (forall e, In e [e1; e2; e3] -> mi_rst (mv_in e) = false /\ mi_arvalid (mv_in e) = true /\ mi_bready (mv_in e) = true /\ mi_rready (mv_in e) = true) ->
  exists e, In e [e1; e2; e3] /\ mv_arready e = true.
