(** Model of the serial links between ports (tb/pcie.py:724-817). *)
From Verif Require Import PyBase.

(** * Transmission *)

(** What the simulator has scheduled for a port: a transmit() to be started (tb/pcie.py:766,
    775), a transmit() waiting for the TLP to be clocked out (774), a TLP under way (776). *)
Inductive ev (A : Type) := Start | Fin (a : A) | Arr (a : A).
Arguments Start {A}. Arguments Fin {A} a. Arguments Arr {A} a.

(** tb/pcie.py:731-732: tx_queue and tx_scheduled, with the time, the scheduled events and
    what was passed to ext_recv of the other port, with its time. *)
Record tx (A : Type) := mkTx { tx_queue : list A; tx_sched : bool; tx_now : Z; tx_pend : list (Z * ev A); tx_out : list (Z * A) }.
Arguments mkTx {A}. Arguments tx_queue {A}. Arguments tx_sched {A}. Arguments tx_now {A}. Arguments tx_pend {A}. Arguments tx_out {A}.

(** A step of the simulation (tb/pcie.py:762-784): a send(), the [i]-th scheduled event, or
    time passing with nothing to do. *)
Inductive op (A : Type) := Send (a : A) | Run (i : nat) | Wait (t : Z).
Arguments Send {A} a. Arguments Run {A} i. Arguments Wait {A} t.

(** tb/pcie.py:762-767: [send].  The simulator resumes the sender of [yield g, None] before it
    starts [g], so tx_scheduled is set at once. *)
Definition do_send {A} (s : tx A) (a : A) : tx A :=
  let q := tx_queue s ++ [a] in
  if tx_sched s then mkTx q true (tx_now s) (tx_pend s) (tx_out s)
  else mkTx q true (tx_now s) (tx_pend s ++ [(tx_now s, Start)]) (tx_out s).

(** tb/pcie.py:769-784: the event [e] at time [t]; [d] is the time to clock out a TLP (773-774),
    [ld] the link delay (776). *)
Definition do_event {A} (d : A -> Z) (ld : Z) (s : tx A) (t : Z) (e : ev A) (pend : list (Z * ev A)) : tx A :=
  match e with
  | Start => match tx_queue s with
             | [] => mkTx [] false t pend (tx_out s)
             | a :: q => mkTx q (tx_sched s) t (pend ++ [(t + d a, Fin a)]) (tx_out s)
             end
  | Fin a => mkTx (tx_queue s) (tx_sched s) t (pend ++ [(t, Start); (t + ld, Arr a)]) (tx_out s)
  | Arr a => mkTx (tx_queue s) (tx_sched s) t pend (tx_out s ++ [(t, a)])
  end.

(** No event of the list is due before [t] (the simulator takes the events of
    tb/pcie.py:774-776 in order of time; of equal times any may be first). *)
Definition earliest {A} (t : Z) (l : list (Z * ev A)) : bool := forallb (fun e => t <=? fst e) l.

(** One step (tb/pcie.py:762-784); [None] when the simulator cannot do it now. *)
Definition tx_step {A} (d : A -> Z) (ld : Z) (s : tx A) (o : op A) : option (tx A) :=
  match o with
  | Send a => Some (do_send s a)
  | Run i => match nth_error (tx_pend s) i with
             | Some (t, e) => if earliest t (tx_pend s) then Some (do_event d ld s t e (firstn i (tx_pend s) ++ skipn (S i) (tx_pend s))) else None
             | None => None
             end
  | Wait t => if (tx_now s <=? t) && earliest t (tx_pend s) then Some (mkTx (tx_queue s) (tx_sched s) t (tx_pend s) (tx_out s)) else None
  end.
(** Any number of steps (tb/pcie.py:762-784). *)
Fixpoint tx_run {A} (d : A -> Z) (ld : Z) (s : tx A) (l : list (op A)) : option (tx A) :=
  match l with [] => Some s | o :: r => match tx_step d ld s o with Some s' => tx_run d ld s' r | None => None end end.
(** tb/pcie.py:731-732: a new port, at time 0. *)
Definition tx0 {A} : tx A := mkTx [] false 0 [] [].

(** tb/pcie.py:130-136: PCIE_GEN_RATE as a fraction. *)
Definition gen_rate (g : Z) : option (Z * Z) :=
  if g =? 1 then Some (2, 1) else if g =? 2 then Some (4, 1) else if g =? 3 then Some (8 * 128, 130)
  else if g =? 4 then Some (16 * 128, 130) else if g =? 5 then Some (32 * 128, 130) else None.
(** tb/pcie.py:773-774: [int(d)], in exact arithmetic instead of floats; [wire] is
    get_wire_size() (545-547).  [None]: KeyError. *)
Definition wire_time (speed width wire : Z) : option Z :=
  match gen_rate speed with Some (n, m) => Some (wire * 8 * m / (n * width)) | None => None end.

(** * Connections *)

(** tb/pcie.py:726-740, 794-797: a port or bus port.  [p_other] is the list of peers, at most one
    for a plain port. *)
Record port := mkPort { p_bus : bool; p_maxs : Z; p_maxw : Z; p_delay : Z; p_other : list nat; p_curs : Z; p_curw : Z; p_ldelay : Z }.
(** tb/pcie.py:726-740: a new port. *)
Definition new_port (bus : bool) (s w dl : Z) : port := mkPort bus s w dl [] 1 1 0.

(** tb/pcie.py:749, 755, 800, 806: the "Already connected" tests of port [p] for peer [q]. *)
Definition taken (p : port) (q : nat) : bool :=
  if p_bus p then existsb (Nat.eqb q) (p_other p) else match p_other p with [] => false | _ => true end.

(** tb/pcie.py:754-760, 805-811: [_connect_int]; PyException 30 is "Already connected". *)
Definition connect_int (p : port) (qi : nat) (q : port) : result port :=
  if taken p qi then Err (PyException 30)
  else Ok (mkPort (p_bus p) (p_maxs p) (p_maxw p) (p_delay p) (p_other p ++ [qi]) (Z.min (p_maxs p) (p_maxs q)) (Z.min (p_maxw p) (p_maxw q)) (p_delay p + p_delay q)).

(** Replace port [i] in the list of all ports (an attribute assignment of tb/pcie.py:757-760). *)
Fixpoint put {A} (i : nat) (x : A) (l : list A) : list A :=
  match l, i with [], _ => [] | _ :: r, O => x :: r | y :: r, S j => y :: put j x r end.

(** tb/pcie.py:742-752, 799-803: [ports[i].connect(ports[j])]: the ports afterwards and the
    exception, if any.  Names of ports that do not exist are reported as NameError. *)
Definition connect (ps : list port) (i j : nat) : list port * option pyexn :=
  match nth_error ps i, nth_error ps j with
  | Some p, Some q =>
    if taken p j then (ps, Some (PyException 30)) else
    match connect_int q i p with
    | Err e => (ps, Some e)
    | Ok q' =>
      let ps1 := put j q' ps in
      match nth_error ps1 i with
      | None => (ps1, Some NameError)
      | Some p1 => match connect_int p1 j q' with
                   | Err e => (ps1, Some e)
                   | Ok p' => (put i p' ps1, None)
                   end
      end
    end
  | _, _ => (ps, Some NameError)
  end.
(** A sequence of connect() calls, each inside a try block (tb/pcie.py:742-752). *)
Fixpoint connects (ps : list port) (l : list (nat * nat)) : list port :=
  match l with [] => ps | (i, j) :: r => connects (fst (connect ps i j)) r end.
