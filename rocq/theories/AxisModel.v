(** AXI-Stream endpoints (tb/axis_ep.py), single tdata signal (B = 0). *)
From Verif Require Import PyBase.

(** tb/axis_ep.py:45-47, 114-133: a per-frame or per-beat field: None, an int or a list
    (bool values are left out). *)
Inductive tfield := TNone | TInt (z : Z) | TList (l : list Z).

(** tb/axis_ep.py:30-48: [AXIStreamFrame]: data, keep, id, dest, user, last_cycle_user. *)
Record aframe := mkAf {
  af_data : list Z; af_keep : option (list Z); af_id : tfield; af_dest : tfield; af_user : tfield; af_lcu : option Z }.

(** tb/axis_ep.py:35-40: fields of [AXIStreamFrame()]. *)
Definition af_new : aframe := mkAf [] None (TInt 0) (TInt 0) TNone None.

(** tb/axis_ep.py:58-67: id and dest stay 0 when the copied frame has None. *)
Definition none_zero (t : tfield) : tfield := match t with TNone => TInt 0 | _ => t end.
(** tb/axis_ep.py:49-73, 254-255: the copy made by send. *)
Definition af_copy (f : aframe) : aframe :=
  mkAf (af_data f) (af_keep f) (none_zero (af_id f)) (none_zero (af_dest f)) (af_user f) (af_lcu f).

(** tb/axis_ep.py:139: one beat: the entries of tdata, tkeep, tid, tdest and tuser at one
    index (the five lists have equal length). *)
Record abeat := mkAb { ab_data : Z; ab_keep : Z; ab_id : Z; ab_dest : Z; ab_user : Z }.

(** tb/axis_ep.py:96-101: [for j in range(self.M)], [n] lanes remain; leaves the loop
    when no data is left. *)
Fixpoint take_lanes (n : nat) (wl j : Z) (f : list Z) (data keep : Z) : Z * Z * list Z :=
  match n with
  | O => (data, keep, f)
  | S n =>
    match f with
    | [] => (data, keep, [])
    | x :: r => take_lanes n wl (j + 1) r (Z.lor data (Z.shiftl x (j * wl))) (Z.lor keep (Z.shiftl 1 j))
    end
  end.

(** tb/axis_ep.py:114-133: entry of a field for beat [i]. *)
Definition field_at (t : tfield) (i : Z) : result Z :=
  match t with TNone => Ok 0 | TInt z => Ok z | TList l => py_index l i end.

(** tb/axis_ep.py:94-134: [while len(f) > 0]; one beat per iteration, [fuel] bounds them. *)
Fixpoint build_loop (fuel : nat) (m : nat) (wl : Z) (fr : aframe) (f : list Z) (i : Z) : result (list abeat) :=
  match f with
  | [] => Ok []
  | _ =>
    match fuel with
    | O => Err OutOfFuel
    | S fuel =>
      let '(data, keep, f) := take_lanes m wl 0 f 0 0 in
      let! keep := match af_keep fr with None => Ok keep | Some k => py_index k i end in
      let! id := field_at (af_id fr) i in
      let! dest := field_at (af_dest fr) i in
      let! user := field_at (af_user fr) i in
      let! rest := build_loop fuel m wl fr f (i + 1) in
      Ok (mkAb data keep id dest user :: rest)
    end
  end.

(** tb/axis_ep.py:136-137: [tuser[-1] = self.last_cycle_user]. *)
Fixpoint set_last_user (u : Z) (bs : list abeat) : result (list abeat) :=
  match bs with
  | [] => Err IndexError
  | [b] => Ok [mkAb (ab_data b) (ab_keep b) (ab_id b) (ab_dest b) u]
  | b :: r => let! r := set_last_user u r in Ok (b :: r)
  end.

(** tb/axis_ep.py:82-139: build, for [m] lanes of [wl] bits. *)
Definition af_build (m : nat) (wl : Z) (fr : aframe) : result (list abeat) :=
  let! bs := build_loop (length (af_data fr)) m wl fr (af_data fr) 0 in
  match af_lcu fr with
  | Some u => if u =? 0 then Ok bs else set_last_user u bs
  | None => Ok bs
  end.

(** tb/axis_ep.py:157-159: the lanes of a beat, [n] lanes remain. *)
Fixpoint beat_lanes (n : nat) (wl : Z) (b : abeat) (j : Z) : list Z :=
  match n with
  | O => []
  | S n =>
    let r := beat_lanes n wl b (j + 1) in
    if negb (Z.land (ab_keep b) (Z.shiftl 1 j) =? 0)
    then Z.land (Z.shiftr (ab_data b) (j * wl)) (2 ^ wl - 1) :: r else r
  end.

(** tb/axis_ep.py:141-175: parse; [self.user[-1]] fails on an empty list.  (The
    conversion to bytearray for 8-bit lanes keeps the values.) *)
Definition af_parse (m : nat) (wl : Z) (bs : list abeat) : result aframe :=
  match rev bs with
  | [] => Err IndexError
  | b :: _ =>
    Ok (mkAf (flat_map (fun b => beat_lanes m wl b 0) bs) (Some (map ab_keep bs))
          (TList (map ab_id bs)) (TList (map ab_dest bs)) (TList (map ab_user bs)) (Some (ab_user b)))
  end.

(** tb/axis_ep.py:180, 183, 194: list comparison. *)
Definition list_eqb (a b : list Z) : bool := if list_eq_dec Z.eq_dec a b then true else false.

(** tb/axis_ep.py:185-206, 222-232: comparison of a field. *)
Definition field_eqb (a b : tfield) : bool :=
  match a, b with
  | TNone, _ | _, TNone => true
  | TInt x, TInt y => x =? y
  | TInt x, TList l | TList l, TInt x => forallb (Z.eqb x) l
  | TList l, TList k => list_eqb l k
  end.

(** tb/axis_ep.py:210-220: comparison of user when both frames have last_cycle_user:
    an int is not compared with the last entry ([user[:-1]]). *)
Definition user_eqb_lcu (a b : tfield) : bool :=
  match a, b with
  | TNone, _ | _, TNone => true
  | TInt x, TInt y => x =? y
  | TInt x, TList l | TList l, TInt x => forallb (Z.eqb x) (removelast l)
  | TList l, TList k => list_eqb l k
  end.

(** tb/axis_ep.py:177-233: __eq__ of two frames. *)
Definition af_eqb (a b : aframe) : bool :=
  list_eqb (af_data a) (af_data b) &&
  (match af_keep a, af_keep b with Some x, Some y => list_eqb x y | _, _ => true end) &&
  field_eqb (af_id a) (af_id b) && field_eqb (af_dest a) (af_dest b) &&
  (match af_lcu a, af_lcu b with
   | Some x, Some y => (x =? y) && user_eqb_lcu (af_user a) (af_user b)
   | _, _ => field_eqb (af_user a) (af_user b)
   end).

(** tb/axis_ep.py:294-311: state of the source: the rest of the current frame, the
    driven beat, tlast and tvalid_int, and the queue. *)
Record asrc := mkSrc { sr_data : list abeat; sr_bus : abeat; sr_last : bool; sr_valid : bool; sr_queue : list aframe }.

(** tb/axis_ep.py:434-446: state of the sink: tready_int, the beats collected, [first],
    and the received frames. *)
Record asnk := mkSnk { sk_ready : bool; sk_acc : list abeat; sk_first : bool; sk_queue : list aframe }.

(** tb/axis_ep.py:332-342, 357-367: drive the first beat of a list (IndexError when the
    list is empty). *)
Definition drive (bs : list abeat) (q : list aframe) : result asrc :=
  match bs with
  | [] => Err IndexError
  | b :: r => Ok (mkSrc r b (match r with [] => true | _ => false end) true q)
  end.

(** tb/axis_ep.py:288-291, 328-367: clock edge of the source; [ready] is tready at the
    edge.  [fire] is [tready_int and tvalid]. *)
Definition src_edge (m : nat) (wl : Z) (pause ready : bool) (s : asrc) : result asrc :=
  let tvalid := sr_valid s && negb pause in
  let fire := ready && negb pause && tvalid in
  let! s1 :=
    if fire then
      match sr_data s with
      | _ :: _ => drive (sr_data s) (sr_queue s)
      | [] => Ok (mkSrc [] (sr_bus s) false false (sr_queue s))
      end
    else Ok s in
  if (sr_last s && fire) || negb (sr_valid s) then
    match sr_queue s with
    | [] => Ok s1
    | f :: q => let! bs := af_build m wl f in drive bs q
    end
  else Ok s1.

(** tb/axis_ep.py:478-479: [while b & 1 == 0: b = b >> 1] (for a non-zero value). *)
Fixpoint strip0 (n : nat) (b : Z) : Z := match n with O => b | S n => if Z.land b 1 =? 0 then strip0 n (Z.shiftr b 1) else b end.
(** tb/axis_ep.py:480-481: [while b & 1 == 1: b = b >> 1]. *)
Fixpoint strip1 (n : nat) (b : Z) : Z := match n with O => b | S n => if Z.land b 1 =? 1 then strip1 n (Z.shiftr b 1) else b end.

(** tb/axis_ep.py:472-489: the checks on tkeep for [m] lanes.  Both loops run at most
    [m] times on an [m]-bit signal. *)
Definition keep_checks (m : nat) (keep : Z) (first last : bool) : result unit :=
  if keep =? 0 then Err AssertionError
  else if negb (strip1 m (strip0 m keep) =? 0) then Err AssertionError
  else if negb first && (Z.land keep 1 =? 0) then Err AssertionError
  else if negb last && (Z.land keep (Z.shiftl 1 (Z.of_nat m - 1)) =? 0) then Err AssertionError
  else Ok tt.

(** tb/axis_ep.py:429-432, 467-519: clock edge of the sink; [valid] is tvalid and [b],
    [last] the signals at the edge.  tready_int is not tested. *)
Definition snk_edge (m : nat) (wl : Z) (pause valid : bool) (b : abeat) (last : bool) (s : asnk) : result asnk :=
  if valid && negb pause then
    let! _ := keep_checks m (ab_keep b) (sk_first s) last in
    let acc := sk_acc s ++ [b] in
    if last then let! f := af_parse m wl acc in Ok (mkSnk true [] true (sk_queue s ++ [f]))
    else Ok (mkSnk true acc false (sk_queue s))
  else Ok (mkSnk true (sk_acc s) (sk_first s) (sk_queue s)).

(** tb/axis_ep.py:249-252, 285-304, 372-377, 426-446: source and sink on one bus. *)
Record astate := mkAst { a_src : asrc; a_snk : asnk }.

(** tb/axis_ep.py:249-252, 285-304, 372-377, 426-446: initial state. *)
Definition ast0 : astate := mkAst (mkSrc [] (mkAb 0 0 0 0 0) false false []) (mkSnk false [] true []).

(** tb/axis_ep.py:254-255 (send), 314 and 456 (clock edge with the pause values of source
    and sink).  No reset. *)
Inductive aevent := ASend (f : aframe) | AEdge (spause kpause : bool).

(** tb/axis_ep.py:254-255, 288-367, 429-519: one event; both sides see the values from
    before the edge. *)
Definition a_step (m : nat) (wl : Z) (s : astate) (e : aevent) : result astate :=
  match e with
  | ASend f =>
    let r := a_src s in
    Ok (mkAst (mkSrc (sr_data r) (sr_bus r) (sr_last r) (sr_valid r) (sr_queue r ++ [af_copy f])) (a_snk s))
  | AEdge sp kp =>
    let ready := sk_ready (a_snk s) && negb kp in
    let valid := sr_valid (a_src s) && negb sp in
    let! src := src_edge m wl sp ready (a_src s) in
    let! snk := snk_edge m wl kp valid (sr_bus (a_src s)) (sr_last (a_src s)) (a_snk s) in
    Ok (mkAst src snk)
  end.

(** tb/axis_ep.py:254-255, 288-367, 429-519: a run. *)
Fixpoint a_run (m : nat) (wl : Z) (evs : list aevent) (s : astate) : result astate :=
  match evs with
  | [] => Ok s
  | e :: evs => let! s := a_step m wl s e in a_run m wl evs s
  end.
