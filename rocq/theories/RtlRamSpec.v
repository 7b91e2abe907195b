(** Independent specification of the segmented RAMs (C88). *)
From Verif Require Import PyBase RtlModel RtlRamModel.

(** SEG_COUNT segments; segment [n] of a bus whose lanes are [w] bits wide. *)
Definition lane (v n w : Z) : Z := (v / 2 ^ (n * w)) mod 2 ^ w.
Definition on (v n : Z) : Prop := Z.testbit v n = true.

(** Byte [k] of word [a] of segment [n] after the steps: what the last write to it put there. *)
Definition writes (p : ram_param) (n a k : Z) (i : ram_in) : bool :=
  ri_wclk i && Z.testbit (ri_wvalid i) n && Z.testbit (lane (ri_wbe i) n (rp_bew p)) k && (lane (ri_waddr i) n (rp_aw p) mod 2 ^ rp_iaw p =? a).
Definition byte_step (p : ram_param) (n a k : Z) (b : Z) (e : ram_ev) : Z :=
  if writes p n a k (re_in e) then lane (lane (ri_wdata (re_in e)) n (8 * rp_bew p)) k 8 else b.
Definition byte (p : ram_param) (n a k : Z) (tr : list ram_ev) : Z := fold_left (byte_step p n a k) tr 0.

(** A word made of these bytes. *)
Definition word_ok (p : ram_param) (n a : Z) (tr : list ram_ev) (w : Z) : Prop :=
  0 <= w < 2 ^ (8 * rp_bew p) /\ forall k, 0 <= k < rp_bew p -> lane w k 8 = byte p n a k tr.

(** The reads taken since the last reset of the read port: the steps before, and the word asked for. *)
Definition takes (n : Z) (e : ram_ev) : bool := ri_rclk (re_in e) && Z.testbit (ri_rvalid (re_in e)) n && re_ready e.
Definition asked_step (p : ram_param) (n : Z) (st : list ram_ev * list (list ram_ev * Z)) (e : ram_ev) :=
  let '(past, l) := st in
  (past ++ [e], if ri_rclk (re_in e) && ri_rrst (re_in e) then [] else if takes n e then l ++ [(past, lane (ri_raddr (re_in e)) n (rp_aw p) mod 2 ^ rp_iaw p)] else l).
Definition asked (p : ram_param) (n : Z) (tr : list ram_ev) : list (list ram_ev * Z) := snd (fold_left (asked_step p n) tr ([], [])).
(** The answers given since the last reset. *)
Definition ans_step (n : Z) (l : list Z) (e : ram_ev) : list Z :=
  if negb (ri_rclk (re_in e)) then l else if ri_rrst (re_in e) then [] else if re_valid e && Z.testbit (ri_rready (re_in e)) n then l ++ [re_data e] else l.
Definition answers (n : Z) (tr : list ram_ev) : list Z := fold_left (ans_step n) tr [].

(** The answers are, in order, the words at the time each read was taken; at most PIPELINE reads are unanswered. *)
Definition answered (p : ram_param) (n : Z) (tr : list ram_ev) : Prop :=
  exists done todo, asked p n tr = done ++ todo /\ Forall2 (fun q w => word_ok p n (snd q) (fst q) w) done (answers n tr) /\ Z.of_nat (length todo) <= rp_pipe p.

Definition ram_ok (p : ram_param) : Prop := 1 <= rp_bew p /\ rp_dw p = 8 * rp_bew p /\ 0 <= rp_iaw p <= rp_aw p /\ 1 <= rp_pipe p.

(** An answer not taken is kept. *)
Definition kept (n : Z) (tr : list ram_ev) : Prop :=
  forall a e1 e2 b, tr = a ++ e1 :: e2 :: b -> ri_rclk (re_in e1) && (ri_rrst (re_in e1) || Z.testbit (ri_rready (re_in e1)) n) = false -> re_valid e1 = true ->
  re_valid e2 = true /\ re_data e2 = re_data e1.
(** wr_done tells of the write at the last clock of the write port. *)
Definition last_write (n : Z) (d : bool) (e : ram_ev) : bool := if ri_wclk (re_in e) then Z.testbit (ri_wvalid (re_in e)) n && negb (ri_wrst (re_in e)) else d.
Definition done_ok (n : Z) (tr : list ram_ev) : Prop := forall a e b, tr = a ++ e :: b -> re_done e = fold_left (last_write n) a false.

(** The client takes answers again and again, and does not reset. *)
Definition client_fair (n : Z) (f : nat -> ram_in) : Prop :=
  (forall k, ri_rclk (f k) && ri_rrst (f k) = false) /\ forall k, exists m, ri_rclk (f (k + m)%nat) = true /\ Z.testbit (ri_rready (f (k + m)%nat)) n = true.
Definition ram_inputs (l : list ram_in) (f : nat -> ram_in) (k : nat) : list ram_in := l ++ map f (seq 0 k).
