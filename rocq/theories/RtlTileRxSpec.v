(** What the receive adapters of the Intel tiles are to put into their FIFOs. *)
From Verif Require Import PyBase RtlTileRxModel.

Definition dwn (v : Z) (j : nat) : Z := (v / 2 ^ (32 * Z.of_nat j)) mod 2 ^ 32.
Definition dwords (v : Z) (n : nat) : list Z := map (dwn v) (seq 0 n).

(** ** Stratix 10. A beat that is put into the FIFO: first and last of its TLP, header (double words), BAR, function (first beat only), strobes, the double words they mark. *)
Record item := mkItem { it_first : bool; it_last : bool; it_hdr : list Z; it_bar : Z; it_func : Z; it_strb : Z; it_dws : list Z }.
Definition seen (e : sr_ev) : list item :=
  if se_ready e && se_valid e then
    let h := rev (dwords (se_hdr e) 4) in
    [mkItem (se_sop e) (se_eop e) (if se_sop e then firstn (if Z.testbit (se_hdr e) 125 then 4 else 3) h else []) (if se_sop e then se_bar e else 0) (if se_sop e then se_func e else 0)
            (se_strb e) (map (dwn (se_data e)) (filter (fun j => Z.testbit (se_strb e) (Z.of_nat j)) (seq 0 8)))]
  else [].

(** The double words of a beat of the stream; the header has four double words if bit 29 of the first is set. *)
Definition beat_dws (b : sr_in) : list Z := dwords (si_data b) (if si_eop b then 8 - Z.to_nat (si_empty b) else 8).
Definition hlen (ds : list Z) : nat := if Z.testbit (nth 0 ds 0) 29 then 4 else 3.

(** Groups of eight, the last one with the rest; only the full ones. *)
Fixpoint chunks (l : list Z) : list (list Z) :=
  match l with
  | a :: b :: c :: d :: e :: f :: g :: h :: ((_ :: _) as t) => [a; b; c; d; e; f; g; h] :: chunks t
  | _ => [l]
  end.
Fixpoint fulls (l : list Z) : list (list Z) :=
  match l with
  | a :: b :: c :: d :: e :: f :: g :: h :: t => [a; b; c; d; e; f; g; h] :: fulls t
  | _ => []
  end.
(** The beats for the groups: the first one has the header. *)
Fixpoint mark (h : list Z) (bar func : Z) (first fin : bool) (cs : list (list Z)) : list item :=
  match cs with
  | [] => []
  | c :: t => mkItem first (fin && match t with [] => true | _ => false end) (if first then h else []) (if first then bar else 0) (if first then func else 0) (2 ^ Z.of_nat (length c) - 1) c
              :: mark h bar func false fin t
  end.
(** BAR 6 of the tile is the IO BAR, 7 the expansion ROM. *)
Definition bar_of (io b : Z) : Z := nth (Z.to_nat b) [0; 1; 2; 3; 4; 5; io mod 8; 6] 0.
(** The beats for the beats of one TLP; of an unfinished one those that are certain. *)
Definition items (io : Z) (fin : bool) (bs : list sr_in) : list item :=
  let ds := concat (map beat_dws bs) in let k := hlen ds in
  match bs with
  | [] => []
  | b :: _ => mark (firstn k ds) (bar_of io (si_bar b)) (si_func b) true fin (if fin then chunks (skipn k ds) else fulls (skipn k ds))
  end.
(** The beats for a stream; cur has the beats of the TLP that is not finished. *)
Fixpoint expected (io : Z) (cur l : list sr_in) : list item :=
  match l with
  | [] => items io false cur
  | b :: t => if si_eop b then items io true (cur ++ [b]) ++ expected io [] t else expected io (cur ++ [b]) t
  end.
Definition beats (ins : list sr_in) : list sr_in := filter si_valid ins.

(** Nothing comes while the FIFO is not ready, TLPs are framed, and have their header. *)
Fixpoint stream (open : bool) (l : list sr_in) : Prop :=
  match l with
  | [] => True
  | i :: t =>
      si_rst i = false /\
      (si_valid i = true -> si_fready i = true /\ si_sop i = negb open /\ 0 <= si_data i < 2 ^ 256 /\ 0 <= si_empty i < 8 /\ 0 <= si_bar i < 8 /\ 0 <= si_func i < 4 /\
         (si_sop i = true -> si_eop i = true -> (hlen (beat_dws i) <= length (beat_dws i))%nat)) /\
      stream (if si_valid i then negb (si_eop i) else open) t
  end.

(** ** P-Tile. A segment that is put into the FIFO. *)
Record psegi := mkPg { pg_seg : nat; pg_first : bool; pg_last : bool; pg_hdr : Z; pg_bar : Z; pg_func : Z; pg_strb : Z; pg_dws : list Z }.
Definition pseen (p : pr_param) (e : bool * list pr_seg) : list psegi :=
  if fst e then
    flat_map (fun gs => let s := snd gs in
      if ps_valid s then [mkPg (fst gs) (ps_sop s) (ps_eop s) (if ps_sop s then ps_hdr s else 0) (if ps_sop s then ps_bar s else 0) (if ps_sop s then ps_func s else 0) (ps_strb s)
                               (map (dwn (ps_data s)) (filter (fun j => Z.testbit (ps_strb s) (Z.of_nat j)) (seq 0 (Z.to_nat (pp_w p)))))]
      else []) (combine (seq 0 (length (snd e))) (snd e))
  else [].
(** Field g of a vector of fields of w bits. *)
Definition part (v : Z) (g : nat) (w : Z) : Z := (v / 2 ^ (w * Z.of_nat g)) mod 2 ^ w.
(** A segment of the stream: all lanes, in the last one without the empty ones, and none if the TLP is only a header without data. *)
Definition pseg (p : pr_param) (i : pr_in) (g : nat) : list psegi :=
  if part (pi_valid i) g 1 =? 1 then
    let sop := part (pi_sop i) g 1 =? 1 in let eop := part (pi_eop i) g 1 =? 1 in
    let h := part (pi_hdr i) g 128 in
    let n := if eop && (sop && negb (Z.testbit h 126)) then 0 else if eop then pp_w p - part (pi_empty i) g (pp_ew p) else pp_w p in
    [mkPg g sop eop (if sop then h else 0) (if sop then bar_of (pp_io p) (part (pi_bar i) g 3) else 0) (if sop then part (pi_func i) g 3 else 0) (2 ^ n - 1)
          (firstn (Z.to_nat n) (dwords (part (pi_data i) g (32 * pp_w p)) (Z.to_nat (pp_w p))))]
  else [].
Definition psegs (p : pr_param) (i : pr_in) : list psegi := flat_map (pseg p i) (seq 0 (Z.to_nat (pp_n p))).
(** The same without the functions. *)
Definition nofunc (x : psegi) : psegi := mkPg (pg_seg x) (pg_first x) (pg_last x) (pg_hdr x) (pg_bar x) 0 (pg_strb x) (pg_dws x).
(** Nothing comes while the FIFO is not ready. *)
Definition pstream (i : pr_in) : Prop := pi_rst i = false /\ (pi_valid i <> 0 -> pi_fready i = true).
Definition pr_ok (p : pr_param) : Prop := 0 <= pp_n p /\ 0 <= pp_ew p.
