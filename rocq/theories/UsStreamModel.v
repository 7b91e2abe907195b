(** Model of the UltraScale AXI stream endpoints of tb/pcie_us.py: the four
    sources and four sinks, clock by clock.  Each [create_logic] generator is a
    step function of its local variables and the signals sampled at the clock
    edge; [signal.next] assignments become the next state.  The print calls and
    the [sync] signal are left out. *)
From Verif Require Import PyBase TlpModel UsModel.

(** tb/pcie_us.py:647, 922, 1175, 1459: the four interfaces. *)
Inductive us_if := CQ | CC | RQ | RC.

(** tb/pcie_us.py:675-682, 950-957, 1203-1210, 1487-1494: a configuration: number
    of DWORD lanes (width of tkeep) and width of tuser.  512 bits is 16 lanes. *)
Record us_bus := mkBus { b_if : us_if; b_lanes : nat; b_user : Z }.

(** tb/pcie_us.py:675-682, 950-957, 1203-1210, 1487-1494 and 822-829, 1085-1092,
    1354-1361, 1636-1643: the assertions on signal widths. *)
Definition bus_ok (b : us_bus) : bool :=
  if (b_lanes b =? 16)%nat
  then b_user b =? (match b_if b with CQ => 183 | CC => 81 | RQ => 137 | RC => 161 end)
  else ((b_lanes b =? 2)%nat || (b_lanes b =? 4)%nat || (b_lanes b =? 8)%nat) &&
       (match b_if b with
        | CQ => (b_user b =? 85) || (b_user b =? 88) | CC => b_user b =? 33
        | RQ => (b_user b =? 60) || (b_user b =? 62) | RC => b_user b =? 75 end).

(** tb/pcie_us.py:729, 1001, 1254, 1541: 512 bit data. *)
Definition wide (b : us_bus) : bool := (b_lanes b =? 16)%nat.

(** One transfer: the values of tdata, tkeep, tuser and tlast.  Signals of
    tb/pcie_us.py:662-673. *)
Record beat := mkBeat { bt_data : Z; bt_keep : Z; bt_user : Z; bt_last : bool }.

(** The statements [u |= v << p] executed in turn (tb/pcie_us.py:731-770 and the
    corresponding lines of the other sources); the list holds (p, v). *)
Definition ors (u : Z) (l : list (Z * Z)) : Z := fold_left (fun a f => Z.lor a (Z.shiftl (snd f) (fst f))) l u.

(** tb/pcie_us.py:730-737, 755-761 (CQ), 1002-1007, 1024-1025 (CC), 1255-1264,
    1281-1291 (RQ), 1542-1547, 1565-1569 (RC): side-band fields set before the
    lane loop. *)
Definition head_user (b : us_bus) (first : bool) (f : us_frame) : list (Z * Z) :=
  let on (c : bool) l := if c then l else [] in
  let be p := [(0, Z.land (f_first_be f) 0xf); (p, Z.land (f_last_be f) 0xf)] in
  match b_if b, wide b with
  | CQ, true => on first (be 8 ++ [(80, 1); (82, 0)]) ++ on (f_discontinue f) [(96, 1)]
  | CQ, false => on first (be 4 ++ [(40, 1)]) ++ on (f_discontinue f) [(41, 1)]
  | CC, true => on first [(0, 1); (2, 0)] ++ on (f_discontinue f) [(16, 1)]
  | CC, false => on (f_discontinue f) [(0, 1)]
  | RQ, true => on first (be 8 ++ [(20, 1); (22, 0)]) ++ on (f_discontinue f) [(36, 1)] ++ [(61, Z.land (f_seq_num f) 0x3f)]
  | RQ, false => on first (be 4) ++ on (f_discontinue f) [(11, 1)] ++ [(24, Z.land (f_seq_num f) 0xf)] ++
      on (b_user b =? 62) [(60, Z.land (Z.shiftr (f_seq_num f) 4) 0x3)]
  | RC, true => on first [(64, 1); (68, 0)] ++ on (f_discontinue f) [(96, 1)]
  | RC, false => on first [(32, 1)] ++ on (f_discontinue f) [(42, 1)]
  end.

(** tb/pcie_us.py:745, 767, 1555, 1577: position of the lane byte enables. *)
Definition be_pos (b : us_bus) : option Z :=
  match b_if b with CQ => Some (if wide b then 16 else 8) | RC => Some 0 | _ => None end.

(** tb/pcie_us.py:746, 768, 1015, 1031, 1272, 1297, 1556, 1578: position of the
    lane parity. *)
Definition par_pos (b : us_bus) : Z :=
  match b_if b, wide b with
  | CQ, true => 119 | CQ, false => 53 | CC, true => 17 | CC, false => 1
  | RQ, true => 73 | RQ, false => 28 | RC, true => 97 | RC, false => 43
  end.

(** tb/pcie_us.py:751-753, 1020-1022, 1277-1279, 1561-1563, 1583-1584: fields set
    after the lane loop of the last transfer. *)
Definition tail_user (b : us_bus) (last_lane : Z) : list (Z * Z) :=
  match b_if b, wide b with
  | CQ, true => [(86, 1); (88, Z.land last_lane 0xf)]
  | CC, true => [(6, 1); (8, Z.land last_lane 0xf)]
  | RQ, true => [(26, 1); (28, Z.land last_lane 0xf)]
  | RC, true => [(76, 1); (80, last_lane)]
  | RC, false => [(34, Z.lor 1 (Z.shiftl last_lane 1))]
  | _, false => []
  end.

(** Python [l.pop(0)], as in tb/pcie_us.py:743. *)
Definition pop0 {A} (l : list A) : result (A * list A) :=
  match l with x :: r => Ok (x, r) | [] => Err IndexError end.

(** tb/pcie_us.py:741-749, 763-770, 1011-1018, 1027-1033, 1268-1275, 1293-1299,
    1551-1559, 1573-1581: the lane loop of a source, from lane [i] on. *)
Fixpoint src_lanes (b : us_bus) (cnt : nat) (i : Z) (data be par : list Z) (d k u last : Z)
  : result ((Z * Z * Z * Z) * (list Z * list Z * list Z)) :=
  match cnt with
  | O => Ok ((d, k, u, last), (data, be, par))
  | S c =>
    match data with
    | x :: data' =>
      let d := Z.lor d (Z.shiftl x (i * 32)) in
      let k := Z.lor k (Z.shiftl 1 i) in
      let! (u, be) := match be_pos b with
                      | Some p => let! (e, be') := pop0 be in Ok (Z.lor u (Z.shiftl e (i * 4 + p)), be')
                      | None => Ok (u, be)
                      end in
      let! (e, par) := pop0 par in
      src_lanes b c (i + 1) data' be par d k (Z.lor u (Z.shiftl e (i * 4 + par_pos b))) i
    | [] => src_lanes b c (i + 1) [] be par d k (Z.lor u (Z.shiftl 0xf (i * 4 + par_pos b))) last
    end
  end.

(** Assignment to a signal of [w] bits (MyHDL checks the range), as in
    tb/pcie_us.py:772-774. *)
Definition sig (w v : Z) : result Z := if (0 <=? v) && (v <? 2 ^ w) then Ok v else Err ValueError.

(** tb/pcie_us.py:689-695, 964-969, 1217-1222, 1501-1507 and the signals: state of a source. *)
Record us_src := mkSrc {
  s_queue : list us_frame; s_frame : us_frame; s_data : list Z; s_be : list Z; s_par : list Z;
  s_active : bool; s_first : bool; s_tvalid : bool; s_beat : beat }.

(** tb/pcie_us.py:689-695 (and 964, 1217, 1501): before the first edge. *)
Definition src0 : us_src := mkSrc [] frame0 [] [] [] false true false (mkBeat 0 0 0 false).

(** tb/pcie_us.py:725-774, 776 (997-1037, 1039; 1250-1306, 1308; 1537-1588, 1590):
    the transfer built from the remaining data. *)
Definition load_beat (b : us_bus) (f : us_frame) (first : bool) (data be par : list Z)
  : result (beat * (list Z * list Z * list Z)) :=
  let! ((d, k, u, last), (data', be', par')) :=
    src_lanes b (b_lanes b) 0 data be par 0 0 (ors 0 (head_user b first f)) 0 in
  let u := match data' with [] => ors u (tail_user b last) | _ => u end in
  let! d := sig (32 * Z.of_nat (b_lanes b)) d in
  let! k := sig (Z.of_nat (b_lanes b)) k in
  let! u := sig (b_user b) u in
  Ok (mkBeat d k u (match data' with [] => true | _ => false end), (data', be', par')).

(** tb/pcie_us.py:697-778 (971-1041, 1224-1310, 1509-1592): one clock edge of a source. *)
Definition src_step (b : us_bus) (s : us_src) (rst pause tready : bool) : result us_src :=
  if rst then
    Ok (mkSrc (s_queue s) (s_frame s) [] [] [] false true false (mkBeat 0 0 0 false))
  else
    let tvalid := s_active s && (s_tvalid s || negb pause) in
    let '(tvalid, active) := if tready && s_tvalid s then (false, false) else (tvalid, s_active s) in
    let s1 := match s_data s, s_queue s with
              | [], f :: q => mkSrc q f (f_data f) (f_byte_en f) (f_parity f) active true tvalid (s_beat s)
              | _, _ => mkSrc (s_queue s) (s_frame s) (s_data s) (s_be s) (s_par s) active (s_first s) tvalid (s_beat s)
              end in
    match s_data s1, s_active s1 with
    | _ :: _, false =>
      let! (bt, (data, be, par)) := load_beat b (s_frame s1) (s_first s1) (s_data s1) (s_be s1) (s_par s1) in
      Ok (mkSrc (s_queue s1) (s_frame s1) data be par true false (negb pause) bt)
    | _, _ => Ok s1
    end.

(** tb/pcie_us.py:653-654 [send]. *)
Definition src_send (s : us_src) (fs : list us_frame) : us_src :=
  mkSrc (s_queue s ++ fs) (s_frame s) (s_data s) (s_be s) (s_par s) (s_active s) (s_first s) (s_tvalid s) (s_beat s).

(** tb/pcie_us.py:864-865 [while b & 1 == 0: b = b >> 1] (1128, 1396, 1678); [fuel] iterations at most. *)
Fixpoint drop_zeros (fuel : nat) (b : Z) : result Z :=
  if Z.land b 1 =? 0 then match fuel with O => Err OutOfFuel | S n => drop_zeros n (Z.shiftr b 1) end else Ok b.

(** tb/pcie_us.py:866-867 [while b & 1 == 1: b = b >> 1] (1130, 1398, 1680). *)
Fixpoint drop_ones (fuel : nat) (b : Z) : result Z :=
  if Z.land b 1 =? 1 then match fuel with O => Err OutOfFuel | S n => drop_ones n (Z.shiftr b 1) end else Ok b.

(** tb/pcie_us.py:859-875 (1122-1138, 1391-1407, 1673-1689): checks on tkeep. *)
Definition check_keep (b : us_bus) (first last : bool) (keep : Z) : result unit :=
  if keep =? 0 then Err AssertionError else
  let! c := drop_zeros (b_lanes b) keep in
  let! c := drop_ones (b_lanes b) c in
  if negb (c =? 0) then Err AssertionError
  else if negb first && (Z.land keep 1 =? 0) then Err AssertionError
  else if negb last && (Z.land keep (Z.shiftl 1 (Z.of_nat (b_lanes b) - 1)) =? 0) then Err AssertionError
  else Ok tt.

(** tb/pcie_us.py:843-846 (1106-1109, 1375-1378, 1657-1660): state of a sink. *)
Record us_snk := mkSnk { k_queue : list us_frame; k_frame : us_frame; k_first : bool; k_tready_int : bool }.

(** tb/pcie_us.py:783-788, 835, 843-846: before the first edge. *)
Definition snk0 : us_snk := mkSnk [] frame0 true false.

(** tb/pcie_us.py:880-886, 897-902 (1143-1145, 1155-1156; 1412-1420, 1430-1440;
    1694-1696, 1707-1708): side-band fields read before the lane loop. *)
Definition snk_head (b : us_bus) (first : bool) (u : Z) (f : us_frame) : us_frame :=
  let bes p := (if first then Z.land u 0xf else f_first_be f, if first then Z.land (Z.shiftr u p) 0xf else f_last_be f) in
  let dis p := if negb (Z.land u (Z.shiftl 1 p) =? 0) then true else f_discontinue f in
  let mk (be : Z * Z) d sq := mkFrame (f_data f) (f_byte_en f) (f_parity f) (fst be) (snd be) d sq in
  match b_if b, wide b with
  | CQ, true => mk (bes 8) (dis 96) (f_seq_num f)
  | CQ, false => mk (bes 4) (dis 41) (f_seq_num f)
  | CC, true => mk (f_first_be f, f_last_be f) (dis 16) (f_seq_num f)
  | CC, false => mk (f_first_be f, f_last_be f) (if negb (Z.land u 1 =? 0) then true else f_discontinue f) (f_seq_num f)
  | RQ, true => mk (bes 8) (dis 36) (Z.land (Z.shiftr u 61) 0x3f)
  | RQ, false => mk (bes 4) (dis 11)
      (let sq := Z.land (Z.shiftr u 24) 0xf in
       if b_user b =? 62 then Z.lor sq (Z.shiftl (Z.land (Z.shiftr u 60) 0x3) 4) else sq)
  | RC, true => mk (f_first_be f, f_last_be f) (dis 96) (f_seq_num f)
  | RC, false => mk (f_first_be f, f_last_be f) (dis 42) (f_seq_num f)
  end.

(** tb/pcie_us.py:890-895, 904-908 (1149-1153, 1158-1161; 1424-1428, 1442-1445;
    1700-1705, 1712-1717): the lane loop of a sink, from lane [i] on. *)
Fixpoint snk_lanes (b : us_bus) (cnt : nat) (i : Z) (d keep u : Z) (f : us_frame) : us_frame :=
  match cnt with
  | O => f
  | S c =>
    let f := if negb (Z.land keep (Z.shiftl 1 i) =? 0) then
               mkFrame (f_data f ++ [Z.land (Z.shiftr d (i * 32)) 0xffffffff])
                 (match be_pos b with Some p => f_byte_en f ++ [Z.land (Z.shiftr u (i * 4 + p)) 0xf] | None => f_byte_en f end)
                 (f_parity f ++ [Z.land (Z.shiftr u (i * 4 + par_pos b)) 0xf])
                 (f_first_be f) (f_last_be f) (f_discontinue f) (f_seq_num f)
             else f in
    snk_lanes b c (i + 1) d keep u f
  end.

(** tb/pcie_us.py:858-917 (1121-1170, 1390-1454, 1672-1726): a transfer taken by the sink. *)
Definition snk_take (b : us_bus) (s : us_snk) (t : beat) : result us_snk :=
  let! _ := check_keep b (k_first s) (bt_last t) (bt_keep t) in
  let f := snk_lanes b (b_lanes b) 0 (bt_data t) (bt_keep t) (bt_user t) (snk_head b (k_first s) (bt_user t) (k_frame s)) in
  if bt_last t then Ok (mkSnk (k_queue s ++ [f]) frame0 true (k_tready_int s))
  else Ok (mkSnk (k_queue s) f false (k_tready_int s)).

(** tb/pcie_us.py:838-841, 848-917 (and 1101-1104, 1370-1373, 1652-1655): one clock
    edge of a sink.  [tvalid_int] is [tvalid and not pause]. *)
Definition snk_step (b : us_bus) (s : us_snk) (rst pause tvalid : bool) (t : beat) : result us_snk :=
  if rst then Ok (mkSnk (k_queue s) frame0 true false)
  else
    let! s := if tvalid && negb pause then snk_take b s t else Ok s in
    Ok (mkSnk (k_queue s) (k_frame s) (k_first s) true).

(** tb/pcie_us.py:838-841: [tready] as the source sees it. *)
Definition snk_tready (s : us_snk) (pause : bool) : bool := k_tready_int s && negb pause.

(** What happens before and at a clock edge: frames passed to [send]
    (tb/pcie_us.py:653), and the pause inputs of both sides (671, 818). *)
Record us_in := mkIn { i_send : list us_frame; i_pause_src : bool; i_pause_snk : bool }.

(** A source connected to a sink of the same interface, one clock edge with
    reset low (tb/pcie_us.py:697-778 and 848-917 run at the same edge on the old
    signal values). *)
Definition us_link_step (b : us_bus) (st : us_src * us_snk) (i : us_in) : result (us_src * us_snk) :=
  let s := src_send (fst st) (i_send i) in
  let k := snd st in
  let! s' := src_step b s false (i_pause_src i) (snk_tready k (i_pause_snk i)) in
  let! k' := snk_step b k false (i_pause_snk i) (s_tvalid s) (s_beat s) in
  Ok (s', k').

(** A run: any number of edges (tb/pcie_us.py:697, 848). *)
Fixpoint us_link_run (b : us_bus) (st : us_src * us_snk) (l : list us_in) : result (us_src * us_snk) :=
  match l with
  | [] => Ok st
  | i :: r => let! st' := us_link_step b st i in us_link_run b st' r
  end.
