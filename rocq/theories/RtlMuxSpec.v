(** Independent specification of the arbitrating multiplexers (C85, C86). *)
From Verif Require Import PyBase RtlModel RtlSpec RtlMuxModel.

Section spec.
Context {S M : Type}.
Notation ev := (mux_ev S M).

(** The beats taken from port [q] since the last reset, each with its tlast: valid and ready at a clock edge. *)
Definition acc_step (q : Z) (a : list (bool * S)) (e : ev) : list (bool * S) :=
  if mv_rst e then [] else if Z.testbit (mv_valid e) q && Z.testbit (mv_ready e) q then a ++ [(Z.testbit (mv_last e) q, mv_data e q)] else a.
Definition accepted (q : Z) (tr : list ev) : list (bool * S) := fold_left (acc_step q) tr [].

(** The beats given to the sink since the last reset. *)
Definition del_step (a : list M) (e : ev) : list M := if mv_rst e then [] else if mv_ovalid e && mv_oready e then a ++ [mv_odata e] else a.
Definition delivered (tr : list ev) : list M := fold_left del_step tr [].

Definition beat := (Z * (bool * S))%type.
Definition from (q : Z) (src : list beat) : list (bool * S) := map snd (filter (fun x => fst x =? q) src).
(** A beat that ends its frame; without tlast every beat does. *)
Definition ends (use_last : bool) (x : beat) : bool := if use_last then fst (snd x) else true.
(** Frames are not interleaved: what follows an unfinished frame comes from the same port. *)
Definition whole_frames (use_last : bool) (src : list beat) : Prop :=
  forall a x y b, src = a ++ x :: y :: b -> ends use_last x = false -> fst y = fst x.

(** The output is the merge [src] of the beats of the ports: what the sink got is [src], beat for beat, under [image]; the
    beats of each port are those taken from it, in order, without loss or repetition, but for at most three still inside;
    frames are whole. *)
Record merged (n : Z) (use_last : bool) (image : Z -> bool -> S -> M) (tr : list ev) (src : list beat) : Prop := {
  m_ports : Forall (fun x => 0 <= fst x < n) src;
  m_out : delivered tr = map (fun x => image (fst x) (fst (snd x)) (snd (snd x))) src;
  m_in : forall q, 0 <= q < n -> exists inside, accepted q tr = from q src ++ inside /\ (length inside <= 3)%nat;
  m_frames : whole_frames use_last src }.

(** An offer the sink does not take is kept. *)
Definition stable (tr : list ev) : Prop :=
  forall a e1 e2 b, tr = a ++ e1 :: e2 :: b -> mv_rst e1 = false -> mv_ovalid e1 = true -> mv_oready e1 = false -> mv_ovalid e2 = true /\ mv_odata e2 = mv_odata e1.

(** The unfinished frame of a port: the beats taken since the last one that ended a frame. *)
Definition unfinished (use_last : bool) (a : list (bool * S)) : list (bool * S) :=
  fold_left (fun u x => if if use_last then fst x else true then [] else u ++ [x]) a [].
End spec.

Definition mux_in_ok {S} (n : Z) (i : mux_in S) : Prop := vec n (mi_valid i) /\ vec n (mi_last i).

(** What the output of axis_arb_mux should show of a beat of port [q]: signals not enabled are constant; with UPDATE_TID the
    top bits of tid are the port number. *)
Definition ax_image (p : ax_param) (q : Z) (last : bool) (b : ax_beat) : ax_out :=
  let low := 2 ^ (xp_mid_w p - Z.log2_up (xp_n p)) in
  mkAo (ab_data b) (if xp_keep_en p then ab_keep b else 2 ^ xp_keep_w p - 1) (negb (xp_last_en p) || last)
    (if negb (xp_id_en p) then 0 else if xp_update p then q * low + ab_id b mod low else ab_id b mod 2 ^ xp_mid_w p)
    (if xp_dest_en p then ab_dest b else 0) (if xp_user_en p then ab_user b else 0).
Definition ax_ok (p : ax_param) : Prop := 2 <= xp_n p /\ 0 <= xp_mid_w p /\ (xp_update p = true -> Z.log2_up (xp_n p) <= xp_mid_w p).

(** What the descriptor multiplexers should show of a descriptor of port [q]. *)
Definition pd_image (p : pd_param) (q : Z) (d : pd_desc) : pd_desc :=
  let low := 2 ^ (pp_mtag p - Z.log2_up (pp_n p)) in mkPd (pd_pcie d) (pd_axi d) (pd_len d) (q * low + pd_tag d mod low).
Definition pd_ok (p : pd_param) : Prop := 2 <= pp_n p /\ 0 <= pp_stag p /\ pp_stag p + Z.log2_up (pp_n p) <= pp_mtag p.
Definition dd_image (p : dd_param) (q : Z) (d : dd_desc) : dd_desc :=
  let low w := 2 ^ (w - Z.log2_up (dp_n p)) in
  mkDd (dd_dma d) (if dp_ext p then q * low (dp_msel p) + dd_sel d mod low (dp_msel p) else dd_sel d mod 2 ^ dp_msel p) (dd_ram d) (if dp_imm_en p then dd_imm d else 0) (dp_imm_en p && dd_imm_en d) (dd_len d)
    (q * low (dp_mtag p) + dd_tag d mod low (dp_mtag p)).
Definition dd_ok (p : dd_param) : Prop :=
  2 <= dp_n p /\ 0 <= dp_stag p /\ dp_stag p + Z.log2_up (dp_n p) <= dp_mtag p /\ 0 <= dp_msel p /\ (dp_ext p = true -> Z.log2_up (dp_n p) <= dp_msel p).

(** Fairness: from a trace on, the sink is ready again and again, there is no reset, no frame has more than [N] beats, and a port
    that has begun a frame eventually offers the rest. *)
Definition prefix {A} (a b : list A) : Prop := exists c, b = a ++ c.
Definition sink_fair {S} (f : nat -> mux_in S) : Prop := forall k, exists m, mi_ready (f (k + m)%nat) = true.
Definition no_rst {S} (f : nat -> mux_in S) : Prop := forall k, mi_rst (f k) = false.
Definition inputs {S} (l : list (mux_in S)) (f : nat -> mux_in S) (k : nat) : list (mux_in S) := l ++ map f (seq 0 k).
Record sources_fair {S M} (n : Z) (use_last : bool) (tr : nat -> list (mux_ev S M)) (f : nat -> mux_in S) (N : nat) : Prop := {
  s_len : forall q k a b, 0 <= q < n -> accepted q (tr k) = a ++ b -> (length (unfinished use_last a) <= N)%nat;
  s_more : forall q k, 0 <= q < n -> unfinished use_last (accepted q (tr k)) <> [] -> exists m, Z.testbit (mi_valid (f (k + m)%nat)) q = true }.
