(** Model of BAR configuration, programming and decode
    (Function / Endpoint in /repo/tb/pcie.py). *)
From Verif Require Import PyBase TlpModel.

(** tb/pcie.py:1584-1585, 2124-2125: the two parallel lists [bar], [bar_mask]. *)
Record bars := mkBars { b_bar : list Z; b_mask : list Z }.

(** tb/pcie.py:1717-1731, 2190-2195: list item assignment [l[i] = v] for an index known to be in range. *)
Definition upd (l : list Z) (i : Z) (v : Z) : list Z :=
  firstn (Z.to_nat i) l ++ v :: skipn (S (Z.to_nat i)) l.

(** tb/pcie.py:2175-2180: item read of a list with an index known to be in range. *)
Definition item (l : list Z) (i : Z) : Z := nth (Z.to_nat i) l 0.

(** tb/pcie.py:1713 [2**math.ceil(math.log(size, 2))-1].  Simplification: the
    logarithm is exact (Python rounds it in double precision). *)
Definition size_mask (size : Z) : Z := 2 ^ Z.log2_up size - 1.

(** tb/pcie.py:1712-1731 [configure_bar].  [math.log] of a non-positive size
    raises ValueError. *)
Definition configure_bar (b : bars) (idx size : Z) (ext prefetch io : bool) : result bars :=
  if size <=? 0 then Err ValueError else
  let mask := size_mask size in
  if (idx >=? zlen (b_bar b)) || (ext && (idx + 1 >=? zlen (b_bar b))) then Err (PyException 1716) else
  if io then
    Ok (mkBars (upd (b_bar b) idx 1) (upd (b_mask b) idx (Z.land 0xfffffffc (Z.lnot mask))))
  else
    let bar := upd (b_bar b) idx 0 in
    let bm := upd (b_mask b) idx (Z.land 0xfffffff0 (Z.lnot mask)) in
    let '(bar, bm) :=
      if ext then (upd (upd bar idx (Z.lor (item bar idx) 4)) (idx + 1) 0,
                   upd bm (idx + 1) (Z.land 0xffffffff (Z.shiftr (Z.lnot mask) 32)))
      else (bar, bm) in
    let bar := if prefetch then upd bar idx (Z.lor (item bar idx) 8) else bar in
    Ok (mkBars bar bm).

(** tb/pcie.py:2190-2195, one line per BAR: write of BAR register [idx]
    (configuration register idx+4) with byte mask. *)
Definition write_bar (b : bars) (idx data mask : Z) : result bars :=
  let! v := byte_mask_update (item (b_bar b) idx) mask data (item (b_mask b) idx) in
  Ok (mkBars (upd (b_bar b) idx v) (b_mask b)).

(** tb/pcie.py:2175-2180: read of BAR register [idx]. *)
Definition read_bar (b : bars) (idx : Z) : Z := item (b_bar b) idx.

(** tb/pcie.py:1736-1768, the [while bar < len(self.bar)] loop of [match_bar];
    [bar] is the loop index, the two lists are the part not yet visited. *)
Fixpoint match_bar_loop (bar : Z) (vals masks : list Z) (addr : Z) (io : bool) : result (list (Z * Z)) :=
  match vals, masks with
  | bar_val :: vals', bar_mask :: masks' =>
    if bar_mask =? 0 then match_bar_loop (bar + 1) vals' masks' addr io
    else if negb (Z.land bar_val 1 =? 0) then
      let! r := match_bar_loop (bar + 1) vals' masks' addr io in
      if io && (Z.land addr bar_mask =? Z.land bar_val bar_mask)
      then Ok ((bar, Z.land addr (Z.lnot bar_mask)) :: r) else Ok r
    else if negb (Z.land bar_val 4 =? 0) then
      match vals', masks' with
      | hi_val :: vals'', hi_mask :: masks'' =>
        let bar_val := Z.lor bar_val (Z.shiftl hi_val 32) in
        let bar_mask := Z.lor bar_mask (Z.shiftl hi_mask 32) in
        let! r := match_bar_loop (bar + 2) vals'' masks'' addr io in
        if negb io && (Z.land addr bar_mask =? Z.land bar_val bar_mask)
        then Ok ((bar, Z.land addr (Z.lnot bar_mask)) :: r) else Ok r
      | _, _ => Err (PyException 1759)
      end
    else
      let! r := match_bar_loop (bar + 1) vals' masks' addr io in
      if negb io && (Z.land addr bar_mask =? Z.land bar_val bar_mask)
      then Ok ((bar, Z.land addr (Z.lnot bar_mask)) :: r) else Ok r
  | _, _ => Ok []
  end.

(** tb/pcie.py:1733-1770 [match_bar(addr, io)].  The Python lists [bar] and
    [bar_mask] always have the same length. *)
Definition match_bar (b : bars) (addr : Z) (io : bool) : result (list (Z * Z)) :=
  match_bar_loop 0 (b_bar b) (b_mask b) addr io.

(** A sequence of BAR register writes ((index, data), byte mask), each through
    tb/pcie.py:2182-2195. *)
Fixpoint write_bars (b : bars) (ops : list (Z * Z * Z)) : result bars :=
  match ops with
  | [] => Ok b
  | ((idx, data), mask) :: ops => let! b := write_bar b idx data mask in write_bars b ops
  end.
