(** Independent specification of the RAM demultiplexers (C89, C90). *)
From Verif Require Import PyBase RtlModel RtlDemuxModel RtlRamDemuxModel.

(** What happened since the last reset. *)
Definition since {E A} (rst : E -> bool) (f : E -> list A) (tr : list E) : list A := fold_left (fun l e => if rst e then [] else l ++ f e) tr [].
(** What concerns port [q]. *)
Definition of_port {A} (q : Z) (l : list (Z * A)) : list A := map snd (filter (fun x => fst x =? q) l).
Definition ports_list (p : x_param) : list Z := map Z.of_nat (seq 0 (Z.to_nat (xp_ports p))).
Definition x_ok (p : x_param) : Prop := 1 <= xp_ports p /\ 0 <= xp_s p /\ xp_s p + Z.log2_up (xp_ports p) <= xp_m p.
Definition exists_port (p : x_param) (q : Z) : bool := q <? xp_ports p.

(** The port a command is for: the top bits of the select input. *)
Definition port_of (p : x_param) (sel : Z) : Z := (sel / 2 ^ (xp_m p - Z.log2_up (xp_ports p))) mod 2 ^ Z.log2_up (xp_ports p).

Section spec.
Context {D : Type}.

Definition command (p : x_param) (i : x_in D) (ready : bool) : list (Z * (Z * D)) :=
  if xi_valid i && ready then [(port_of p (xi_sel i), (xi_sel i mod 2 ^ xp_s p, xi_cmd i))] else [].
Definition handed (p : x_param) (i : x_in D) (cvalid : Z) (c : Z * D) : list (Z * (Z * D)) :=
  map (fun q => (q, c)) (filter (fun q => Z.testbit cvalid q && Z.testbit (xi_cready i) q) (ports_list p)).

(** * Reads *)
Definition r_rst (e : rd_ev D) : bool := xi_rst (rd_cmd (rde_in e)).
(** Commands taken from the client; commands taken by the ports; answers taken from the ports; answers taken by the client. *)
Definition r_asked (p : x_param) : list (rd_ev D) -> list (Z * (Z * D)) := since r_rst (fun e => command p (rd_cmd (rde_in e)) (rde_ready e)).
Definition r_sent (p : x_param) : list (rd_ev D) -> list (Z * (Z * D)) := since r_rst (fun e => handed p (rd_cmd (rde_in e)) (rde_cvalid e) (rde_cmd e)).
Definition r_got (p : x_param) : list (rd_ev D) -> list (Z * Z) :=
  since r_rst (fun e => map (fun q => (q, rd_rdata (rde_in e) q)) (filter (fun q => Z.testbit (rd_rvalid (rde_in e)) q && Z.testbit (rde_rready e) q) (ports_list p))).
Definition r_answers : list (rd_ev D) -> list Z := since r_rst (fun e => if rde_valid e && rd_rready (rde_in e) then [rde_data e] else []).

(** Commands for existing ports go there in order, answers are taken in the order of the commands, and none is lost. *)
Definition r_routed (p : x_param) (tr : list (rd_ev D)) : Prop :=
  exists rest, filter (fun x => exists_port p (fst x)) (r_asked p tr) = r_sent p tr ++ rest /\ (length rest <= 2)%nat.
Definition r_ordered (p : x_param) (tr : list (rd_ev D)) : Prop :=
  exists rest, map fst (r_asked p tr) = map fst (r_got p tr) ++ rest /\ (length rest <= 32)%nat.
Definition r_passed (p : x_param) (tr : list (rd_ev D)) : Prop :=
  exists rest, map snd (r_got p tr) = r_answers tr ++ rest /\ (length rest <= 18)%nat.

(** No port has answered more commands than it got. *)
Definition r_causal (p : x_param) (tr : list (rd_ev D)) : Prop :=
  forall q, (length (of_port q (r_got p tr)) <= length (of_port q (r_sent p tr)))%nat.
(** The k-th answer is the one its port gave to the k-th command. *)
Definition r_own (p : x_param) (tr : list (rd_ev D)) : Prop :=
  forall k w, nth_error (r_answers tr) k = Some w ->
  exists q c j, nth_error (r_asked p tr) k = Some (q, c) /\ nth_error (of_port q (r_sent p tr)) j = Some c /\ nth_error (of_port q (r_got p tr)) j = Some w.

(** Commands and answers not taken are kept. *)
Definition r_kept (p : x_param) (tr : list (rd_ev D)) : Prop := forall a e1 e2 b, tr = a ++ e1 :: e2 :: b -> r_rst e1 = false ->
  (forall q, 0 <= q < xp_ports p -> Z.testbit (rde_cvalid e1) q = true -> Z.testbit (xi_cready (rd_cmd (rde_in e1))) q = false ->
    Z.testbit (rde_cvalid e2) q = true /\ rde_cmd e2 = rde_cmd e1)
  /\ (rde_valid e1 = true -> rd_rready (rde_in e1) = false -> rde_valid e2 = true /\ rde_data e2 = rde_data e1).

Definition r_inputs (l : list (rd_in D)) (f : nat -> rd_in D) (k : nat) : list (rd_in D) := l ++ map f (seq 0 k).
(** Ports that take commands again and again, answer each, and keep their answers until taken; a client that takes answers again and
    again and asks only ports that exist. *)
Record r_fair (p : x_param) (tr : nat -> list (rd_ev D)) (f : nat -> rd_in D) : Prop := {
  rf_rst : forall k, xi_rst (rd_cmd (f k)) = false;
  rf_exist : forall k x, In x (r_asked p (tr k)) -> exists_port p (fst x) = true;
  rf_take : forall q k, 0 <= q < xp_ports p -> exists m, Z.testbit (xi_cready (rd_cmd (f (k + m)%nat))) q = true;
  rf_answer : forall q k, 0 <= q < xp_ports p -> (length (of_port q (r_got p (tr k))) < length (of_port q (r_sent p (tr k))))%nat -> exists m, Z.testbit (rd_rvalid (f (k + m)%nat)) q = true;
  rf_keep : forall q k, 0 <= q < xp_ports p -> Z.testbit (rd_rvalid (f k)) q = true -> of_port q (r_got p (tr (S k))) = of_port q (r_got p (tr k)) -> Z.testbit (rd_rvalid (f (S k))) q = true;
  rf_client : forall k, exists m, rd_rready (f (k + m)%nat) = true }.

(** * Writes *)
Definition w_rst (e : wr_ev D) : bool := xi_rst (wr_cmd (wre_in e)).
(** Commands taken from the client; commands taken by the ports; done bits of the ports; done bits to the client. *)
Definition w_asked (p : x_param) : list (wr_ev D) -> list (Z * (Z * D)) := since w_rst (fun e => command p (wr_cmd (wre_in e)) (wre_ready e)).
Definition w_sent (p : x_param) : list (wr_ev D) -> list (Z * (Z * D)) := since w_rst (fun e => handed p (wr_cmd (wre_in e)) (wre_cvalid e) (wre_cmd e)).
Definition w_dones (p : x_param) : list (wr_ev D) -> list (Z * unit) :=
  since w_rst (fun e => map (fun q => (q, tt)) (filter (fun q => Z.testbit (wr_done (wre_in e)) q) (ports_list p))).
Definition w_told : list (wr_ev D) -> list unit := since w_rst (fun e => if wre_done e then [tt] else []).

Definition w_routed (p : x_param) (tr : list (wr_ev D)) : Prop :=
  exists rest, filter (fun x => exists_port p (fst x)) (w_asked p tr) = w_sent p tr ++ rest /\ (length rest <= 2)%nat.
(** When the client has been told of m writes, the first m writes are done: each port has said so often enough. *)
Definition w_sound (p : x_param) (tr : list (wr_ev D)) : Prop :=
  (length (w_told tr) <= length (w_asked p tr))%nat
  /\ forall q, (length (of_port q (firstn (length (w_told tr)) (w_asked p tr))) <= length (of_port q (w_dones p tr)))%nat.
Definition w_kept (p : x_param) (tr : list (wr_ev D)) : Prop := forall a e1 e2 b, tr = a ++ e1 :: e2 :: b -> w_rst e1 = false ->
  forall q, 0 <= q < xp_ports p -> Z.testbit (wre_cvalid e1) q = true -> Z.testbit (xi_cready (wr_cmd (wre_in e1))) q = false ->
    Z.testbit (wre_cvalid e2) q = true /\ wre_cmd e2 = wre_cmd e1.

Definition w_inputs (l : list (wr_in D)) (f : nat -> wr_in D) (k : nat) : list (wr_in D) := l ++ map f (seq 0 k).
(** At no time has a port said more often that a write is done than it got writes. *)
Definition w_causal (p : x_param) (tr : list (wr_ev D)) : Prop :=
  forall a b, tr = a ++ b -> forall q, (length (of_port q (w_dones p a)) <= length (of_port q (w_sent p a)))%nat.
(** Ports that take writes again and again and do each of them; a client that uses only ports that exist. *)
Record w_fair (p : x_param) (tr : nat -> list (wr_ev D)) (f : nat -> wr_in D) : Prop := {
  wf_rst : forall k, xi_rst (wr_cmd (f k)) = false;
  wf_exist : forall k x, In x (w_asked p (tr k)) -> exists_port p (fst x) = true;
  wf_take : forall q k, 0 <= q < xp_ports p -> exists m, Z.testbit (xi_cready (wr_cmd (f (k + m)%nat))) q = true;
  wf_causal : forall k, w_causal p (tr k);
  wf_does : forall q k, 0 <= q < xp_ports p -> exists m, (length (of_port q (w_sent p (tr k))) <= length (of_port q (w_dones p (tr (k + m)%nat))))%nat }.
End spec.
