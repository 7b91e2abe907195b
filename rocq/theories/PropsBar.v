(** Property theorems C14, C15 (BAR decode and sizing). *)
From Verif Require Import PyBase TlpModel BarModel BarSpec BarProofs.

(** C14, full statement: for every BAR layout, [match_bar] reports exactly the
    BARs of the right address space whose window contains the address, with
    the offset into the window.  False: a 32-bit BAR ignores address bits 32
    and up. *)
Theorem C14_match_bar_refuted : exists L addr, Forall bar_ok L /\ 0 <= addr < 2^64 /\
  match_bar (regs_of L) addr false <> Ok (spec_match 0 L addr false).
Proof. exact match_alias_witness. Qed.
Print Assumptions C14_match_bar_refuted.

(** C14: holds after every history of BAR register writes (any data, any byte
    enables), for addresses below 4 GiB or layouts with 64-bit BARs only.
    Missing: addresses above 4 GiB on functions having 32-bit or I/O BARs
    (refuted above) and windows of 4 GiB and more (refuted below). *)
Theorem C14_match_bar_partial : forall L ops, Forall bar_ok L ->
  Forall (fun op => 0 <= fst (fst op) < slots L /\ 0 <= snd op) ops ->
  exists b L', write_bars (regs_of L) ops = Ok b /\ Forall bar_ok L' /\ map bar_shape L' = map bar_shape L /\
    (forall i, 0 <= i < slots L -> read_bar b i = nth (Z.to_nat i) (flat_map reg_bars L') 0) /\
    forall addr io, addr_ok L' addr -> match_bar b addr io = Ok (spec_match 0 L' addr io).
Proof. exact match_after_writes. Qed.
Print Assumptions C14_match_bar_partial.
Example C14_example :
  let L := [BMem64 20 0 true; BIo 8 0; BNone; BMem32 12 0 false; BNone] in
  let ops := [((0, 0xdeadbeef), 15); ((1, 0x12), 15); ((2, 0x5555), 3); ((4, 0x80001000), 15)] in
  Forall bar_ok L /\ Forall (fun op : Z*Z*Z => 0 <= fst (fst op) < slots L /\ 0 <= snd op) ops /\
  (let! b := write_bars (regs_of L) ops in match_bar b 0x80001abc false) = Ok [(4, 0xabc)].
Proof.
  cbv zeta. split; [repeat constructor; cbn; lia|]. split; [repeat constructor; cbn; lia|reflexivity].
Qed.

(** C14: the exact behaviour for every 64-bit address, after every history of
    register writes: a 32-bit or I/O BAR matches by the low 32 address bits and
    reports the distance of the full address from its base. *)
Theorem C14_match_bar_exact : forall L ops, Forall bar_ok L ->
  Forall (fun op => 0 <= fst (fst op) < slots L /\ 0 <= snd op) ops ->
  exists b L', write_bars (regs_of L) ops = Ok b /\ Forall bar_ok L' /\ map bar_shape L' = map bar_shape L /\
    (forall i, 0 <= i < slots L -> read_bar b i = nth (Z.to_nat i) (flat_map reg_bars L') 0) /\
    forall addr io, 0 <= addr < 2^64 -> match_bar b addr io = Ok (real_match 0 L' addr io).
Proof. exact match_after_writes_exact. Qed.
Print Assumptions C14_match_bar_exact.
Example C14_exact_example :
  match_bar (regs_of [BMem64 20 0x8000000000000000 true; BMem32 12 0x80001000 false]) 0x780001abc false = Ok [(2, 0x700000abc)].
Proof. reflexivity. Qed.

(** C14: programming a BAR moves its window to the written address, rounded
    down to the window size, and touches no other BAR. *)
Theorem C14_programming : forall A B k b pf v,
  (bar_ok (BMem64 k b pf) -> 0 <= v < 2^64 ->
    write_bars (regs_of (A ++ BMem64 k b pf :: B)) [((slots A, v mod 2^32), 15); ((slots A + 1, v / 2^32), 15)] =
    Ok (regs_of (A ++ BMem64 k (v - v mod 2^k) pf :: B))) /\
  (bar_ok (BMem32 k b pf) -> 0 <= v < 2^32 ->
    write_bars (regs_of (A ++ BMem32 k b pf :: B)) [((slots A, v), 15)] =
    Ok (regs_of (A ++ BMem32 k (v - v mod 2^k) pf :: B))) /\
  (bar_ok (BIo k b) -> 0 <= v < 2^32 ->
    write_bars (regs_of (A ++ BIo k b :: B)) [((slots A, v), 15)] =
    Ok (regs_of (A ++ BIo k (v - v mod 2^k) :: B))).
Proof.
  exact (fun A B k b pf v => conj (program_mem64 A k b pf B v) (conj (program_mem32 A k b pf B v) (program_io A k b B v))).
Qed.
Print Assumptions C14_programming.
Example C14_programming_example : bar_ok (BMem64 16 0 true) /\ 0 <= 0x123456789a < 2^64 /\
  0x123456789a - 0x123456789a mod 2^16 = 0x1234560000.
Proof. cbn; lia. Qed.

(** C14: a 64-bit BAR configured with more than 2 GiB never matches, whatever
    is written to its two registers and whatever the address. *)
Theorem C14_large_bar_never_matches : forall size pf, 2^31 < size <= 2^64 ->
  exists b, configure_bar (mkBars [0;0;0;0;0;0] [0;0;0;0;0;0]) 0 size true pf false = Ok b /\
  forall lo hi m1 m2 b1 b2 addr r, 0 <= m1 -> 0 <= m2 ->
    write_bar b 0 lo m1 = Ok b1 -> write_bar b1 1 hi m2 = Ok b2 ->
    match_bar b2 addr false = Ok r -> forall off, ~ In (0, off) r.
Proof. exact big_bar_dead. Qed.
Print Assumptions C14_large_bar_never_matches.
Example C14_large_example :
  (let! b := configure_bar (mkBars [0;0;0;0;0;0] [0;0;0;0;0;0]) 0 (2^32) true true false in
   let! b := write_bar b 0 0 15 in let! b := write_bar b 1 8 15 in
   match_bar b 0x800000000 false) = Ok [].
Proof. reflexivity. Qed.

(** C15: [configure_bar] on an unused slot creates a BAR of the requested kind,
    its size rounded up to a power of two (at least 4 bytes of I/O or 16 bytes
    of memory space), leaving the other BARs alone. *)
Theorem C15_configure_partial : forall A B size pf, 0 < size <= 2^31 ->
  configure_bar (regs_of (A ++ BNone :: B)) (slots A) size false false true =
    Ok (regs_of (A ++ BIo (Z.max 2 (Z.log2_up size)) 0 :: B)) /\
  configure_bar (regs_of (A ++ BNone :: B)) (slots A) size false pf false =
    Ok (regs_of (A ++ BMem32 (Z.max 4 (Z.log2_up size)) 0 pf :: B)) /\
  configure_bar (regs_of (A ++ BNone :: BNone :: B)) (slots A) size true pf false =
    Ok (regs_of (A ++ BMem64 (Z.max 4 (Z.log2_up size)) 0 pf :: B)).
Proof.
  exact (fun A B size pf H => conj (configure_io A B size H) (conj (configure_mem32 A B size pf H) (configure_mem64 A B size pf H))).
Qed.
Print Assumptions C15_configure_partial.
Example C15_configure_example : 0 < 5000 <= 2^31 /\
  configure_bar (mkBars [0;0] [0;0]) 0 5000 true true false = Ok (mkBars [12; 0] [2^32 - 2^13; 2^32 - 1]).
Proof. split; [lia|reflexivity]. Qed.

(** C15: a BAR that does not fit the slots of the function is refused, in particular a
    64-bit BAR in the last slot. *)
Theorem C15_configure_refuses : forall L idx size ext pf io, 0 < size -> slots L < idx + (if ext : bool then 2 else 1) ->
  configure_bar (regs_of L) idx size ext pf io = Err (PyException 1716).
Proof. exact configure_refuses. Qed.
Print Assumptions C15_configure_refuses.
Example C15_configure_refuses_example : slots [BNone; BNone] < 1 + 2 /\ configure_bar (regs_of [BNone; BNone]) 1 16 true true false = Err (PyException 1716).
Proof. split; reflexivity. Qed.

(** C15: the standard sizing sequence (write all ones, read back) reports the
    window size and the type bits, for 32-bit, I/O and 64-bit BARs.
    Missing: 64-bit BARs above 2 GiB ([C14_large_bar_never_matches]). *)
Theorem C15_sizing_partial : forall A B k b pf,
  (bar_ok (BMem32 k b pf) ->
    exists r, write_bar (regs_of (A ++ BMem32 k b pf :: B)) (slots A) 0xffffffff 15 = Ok r /\
    let v := read_bar r (slots A) in
    v mod 16 = (if pf then 8 else 0) /\ 2^32 - (v - v mod 16) = 2^k) /\
  (bar_ok (BIo k b) ->
    exists r, write_bar (regs_of (A ++ BIo k b :: B)) (slots A) 0xffffffff 15 = Ok r /\
    let v := read_bar r (slots A) in
    v mod 4 = 1 /\ 2^32 - (v - v mod 4) = 2^k) /\
  (bar_ok (BMem64 k b pf) ->
    exists r1 r2, write_bar (regs_of (A ++ BMem64 k b pf :: B)) (slots A) 0xffffffff 15 = Ok r1 /\
    write_bar r1 (slots A + 1) 0xffffffff 15 = Ok r2 /\
    let lo := read_bar r2 (slots A) in let hi := read_bar r2 (slots A + 1) in
    lo mod 16 = 4 + (if pf then 8 else 0) /\ 2^64 - (hi * 2^32 + (lo - lo mod 16)) = 2^k).
Proof.
  exact (fun A B k b pf => conj (sizing_mem32 A k b pf B) (conj (sizing_io A k b B) (sizing_mem64 A k b pf B))).
Qed.
Print Assumptions C15_sizing_partial.
Example C15_sizing_example : bar_ok (BMem64 24 (2^40) true) /\
  (let! r := write_bar (regs_of [BMem64 24 (2^40) true]) 0 0xffffffff 15 in
   let! r := write_bar r 1 0xffffffff 15 in Ok (read_bar r 0, read_bar r 1)) = Ok (0xff00000c, 0xffffffff).
Proof. split; [cbn; lia|reflexivity]. Qed.
