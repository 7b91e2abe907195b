(** Independent specification of the device containers. *)
From Verif Require Import PyBase TlpModel BarModel BarSpec UsModel DevModel.

(** Kinds of TLP a device accepts, by type code. *)
Inductive kind := KCfg | KCpl | KIo | KMem.
Definition kind_of (t : tlp) : option kind :=
  match t_fmt t, t_type t with
  | 0, 4 | 2, 4 => Some KCfg
  | 0, 10 | 2, 10 | 0, 11 | 2, 11 => Some KCpl
  | 0, 2 | 2, 2 => Some KIo
  | 0, 0 | 1, 0 | 2, 0 | 3, 0 => Some KMem
  | _, _ => None
  end.
(** Requests that must be answered. *)
Definition nonposted (t : tlp) : bool :=
  match kind_of t with Some KCfg | Some KIo => true | Some KMem => t_fmt t <? 2 | _ => false end.

(** The BAR registers of every function hold a layout. *)
Definition laid_out (fs : list fn) (Ls : list (list barent)) : Prop :=
  Forall2 (fun f L => fn_bars f = regs_of L /\ Forall bar_ok L) fs Ls.

(** Function [f] with layout [L] of device (bus, num) is the target of [t]. *)
Definition targets (bus num : Z) (t : tlp) (fL : fn * list barent) : bool :=
  let '(f, L) := fL in
  match kind_of t with
  | Some KCfg => (id_device (t_dest_id t) =? num) && (fn_num f =? id_function (t_dest_id t))
  | Some KCpl => (id_bus (t_requester_id t) =? bus) && (id_device (t_requester_id t) =? num) && (fn_num f =? id_function (t_requester_id t))
  | Some KIo => existsb (fun e => bar_hit e (t_address t) true) L
  | Some KMem => existsb (fun e => bar_hit e (t_address t) false) L
  | None => false
  end.

(** The [k]-th element is the first that satisfies [p]. *)
Definition first_at {A} (p : A -> bool) (l : list A) (k : nat) : Prop :=
  existsb p (firstn k l) = false /\ exists x, nth_error l k = Some x /\ p x = true.

(** [c] answers [t] with the given status. *)
Definition answers (c t : tlp) (bus num status : Z) : Prop :=
  t_fmt c = 0 /\ t_type c = 10 /\ t_requester_id c = t_requester_id t /\ t_tag c = t_tag t /\ t_tc c = t_tc t /\
  t_attr c = t_attr t /\ t_completer_id c = mkId bus num 0 /\ t_status c = status /\ t_data c = [].

(** The bus number a configuration request leaves in the device. *)
Definition captured (d : dev) (t : tlp) : dev :=
  match kind_of t with
  | Some KCfg => if id_device (t_dest_id t) =? dv_num d
                 then mkDev (id_bus (t_dest_id t)) (dv_num d) (map (set_fn_bus (id_bus (t_dest_id t))) (dv_fns d)) else d
  | _ => d
  end.

(** A layout has exactly one BAR hit, at register index [i], of size 2^k. *)
Definition one_hit (L : list barent) (a : Z) (io : bool) (i k : Z) : Prop :=
  exists A e B, L = A ++ e :: B /\ bar_hit e a io = true /\ existsb (fun e => bar_hit e a io) A = false /\
    existsb (fun e => bar_hit e a io) B = false /\ i = slots A /\ k = get_k e.

(** Exactly one BAR of the function claims the address. *)
Definition claims (a : Z) (io : bool) (fL : fn * list barent) : bool :=
  zlen (filter (fun e => bar_hit e a io) (snd fL)) =? 1.
(** All functions have BARs of the same kinds and sizes as the first. *)
Definition same_shape (Ls : list (list barent)) : Prop :=
  Forall (fun L => map bar_shape L = map bar_shape (hd [] Ls)) Ls.

(** Credits: grants seen, requests in order. *)
Definition posted (u : tlp_us) : bool := negb (nonposted (u_tlp u)).
Definition arrived (l : list np_in) : list tlp_us := flat_map ni_arrive l.
Definition grants (l : list np_in) : Z := zlen (filter (fun i => negb (ni_reset i) && ni_req i) l).
Definition request (u : tlp_us) : Prop := kind_of (u_tlp u) = Some KIo \/ kind_of (u_tlp u) = Some KMem.
(** Posted requests that arrived before the non-posted request number [n]. *)
Fixpoint posted_before (n : nat) (l : list tlp_us) : list tlp_us :=
  match l with
  | [] => []
  | u :: r => if posted u then u :: posted_before n r else match n with O => [] | S m => posted_before m r end
  end.

(** Requester requests: those of functions with bus mastering enabled. *)
Definition contiguous (fs : list fn) : Prop := forall k f, nth_error fs k = Some f -> fn_num f = Z.of_nat k.
Definition master_on (fs : list fn) (n : Z) : bool := existsb (fun f => (fn_num f =? n) && fn_bme f) fs.
Definition rq_sent (d : dev) (u : tlp_us) : bool :=
  negb (u_discontinue u) && master_on (dv_fns d) (id_function (t_requester_id (u_tlp u))).
(** The TLP a requester request becomes: the core fills in its own bus and device
    number unless the user supplies the requester ID. *)
Definition rq_tlp (d : dev) (u : tlp_us) : tlp :=
  set_th 0 (if u_requester_id_enable u then u_tlp u
            else set_requester_id (mkId (dv_bus d) (dv_num d) (id_function (t_requester_id (u_tlp u)))) (u_tlp u)).
(** A request of an existing function with a valid TLP. *)
Definition rq_fit (d : dev) (u : tlp_us) : Prop :=
  u_discontinue u = false -> 0 <= id_function (t_requester_id (u_tlp u)) < zlen (dv_fns d) /\ tlp_check (rq_tlp d u) = true.

(** Function numbering. *)
Fixpoint increasing (l : list Z) : Prop :=
  match l with x :: ((y :: _) as r) => x < y /\ increasing r | _ => True end.
Definition smallest_free (n : Z) (used : list Z) : Prop := 0 <= n /\ ~ In n used /\ forall m, 0 <= m < n -> In m used.
Definition op_fn (o : fn_op) : fn := match o with AddFn f | AppendFn f => f end.
Definition op_valid (o : fn_op) : Prop := match o with AddFn f => 0 <= fn_num f < 8 | AppendFn _ => True end.

(** TLP validity: the parts of the check, independent of the code's tests. *)
Definition has_payload (t : tlp) : Prop := t_fmt t = 2 \/ t_fmt t = 3.
Definition memory_request (t : tlp) : Prop := (0 <= t_fmt t <= 3 /\ t_type t = 0) \/ (0 <= t_fmt t <= 1 /\ t_type t = 1).
Definition io_request (t : tlp) : Prop := (t_fmt t = 0 \/ t_fmt t = 2) /\ t_type t = 2.
Definition completion_with_data (t : tlp) : Prop := t_fmt t = 2 /\ t_type t = 10.
Definition sound_tlp (t : tlp) : Prop :=
  (has_payload t -> t_length t = zlen (t_data t)) /\
  (memory_request t -> t_address t mod 4096 + 4 * t_length t <= 4096) /\
  (io_request t -> t_length t = 1 /\ t_last_be t = 0) /\
  (completion_with_data t -> 4 * t_length t <= t_byte_count t + t_lower_address t mod 4 + 3).
Definition length_in_range (t : tlp) : Prop := has_payload t -> 0 < t_length t <= 1024.

(** Per-function status outputs: bit or field of each of the first two functions. *)
Definition per_fn (w : Z) (f : fn -> Z) (fns : list fn) : Z :=
  match fns with
  | [] => 0
  | [f0] => f f0
  | f0 :: f1 :: _ => f f0 + 2 ^ w * f f1
  end.
