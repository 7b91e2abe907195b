(** What the AXI lite master is to do for a memory read request (C139). *)
From Verif Require Import PyBase RtlModel RtlAxlModel.

(** The operations issued from the clock in which a request is taken until it is done: AXI lite address and FIFO entry; and whether it is done. *)
Fixpoint ops (f64 : bool) (c : Z) (s : al_state) (l : list al_in) : list (Z * al_ent) * bool :=
  match l with
  | [] => ([], false)
  | i :: r => let t := al_step f64 c s i in
      let e := match al_entry f64 c s i with Some x => [(o_addr (s_o t), x)] | None => [] end in
      match q_st (s_q t) with AIdle | AWait => (e, true) | _ => let '(es, d) := ops f64 c t r in (e ++ es, d) end
  end.
Definition running (i : al_in) : Prop := ai_rst i = false.

(** First and last enabled byte of a word; 0 enables none and counts as one byte (2.2.5 of the PCI Express specification). *)
Definition low_byte (b : Z) : Z := if b =? 0 then 0 else Z.log2 (Z.land b (- b)).
Definition unused_high (b : Z) : Z := if b =? 0 then 0 else 3 - Z.log2 b.
(** A memory read request: word address, length in words, byte enables, requester. *)
Record rreq := mkRr { rr_a : Z; rr_n : Z; rr_fbe : Z; rr_lbe : Z; rr_who : al_who }.
Definition rr_bytes (r : rreq) : Z :=
  if rr_n r =? 1 then (if rr_fbe r =? 0 then 1 else Z.log2 (rr_fbe r) - low_byte (rr_fbe r) + 1) else 4 * rr_n r - low_byte (rr_fbe r) - unused_high (rr_lbe r).
(** The request in a header, with 64 or 32 bits of address. *)
Definition rr_of (f64 : bool) (h : Z) : rreq :=
  mkRr (if Z.testbit h 125 || f64 then psel h 2 62 else psel h 34 30) (if psel h 96 10 =? 0 then 1024 else psel h 96 10) (psel h 64 4) (psel h 68 4)
    (mkWho (psel h 80 16) (512 * psel h 119 1 + 256 * psel h 115 1 + psel h 72 8) (psel h 116 3) (4 * psel h 114 1 + psel h 108 2)).
(** One completion of n words from byte address a on, with b bytes still to come: the first entry has the counts, the last one its mark. *)
Definition one_cpl (w : al_who) (a n b : Z) (x : list (Z * al_ent)) : Prop :=
  zlen x = n /\ forall k p e, nth_error x k = Some (p, e) ->
    p = (if (k =? 0)%nat then a else 4 * (a / 4 + Z.of_nat k)) /\ e_rd e = true /\ e_wr e = false /\ e_first e = (k =? 0)%nat /\ e_last e = (Z.of_nat k + 1 =? n) /\ e_stat e = 0 /\ e_who e = w /\
    (k = O -> e_dw e = n /\ e_bc e = b mod 4096 /\ e_low e = a mod 128).
(** Completions for n words from word a (byte offset off) on, b bytes: each of at most 32 words, and each but the last one ends at a boundary of 128 bytes.  hi: unused bytes of the last word. *)
Inductive answered (w : al_who) (hi : Z) : Z -> Z -> Z -> Z -> list (Z * al_ent) -> Prop :=
| an_nil off a b : answered w hi off a 0 b []
| an_cpl off a n b k x r : 1 <= k <= 32 -> k <= n -> k = n \/ (a + k) mod 32 = 0 -> one_cpl w (4 * a + off) k b x ->
    answered w hi 0 (a + k) (n - k) (4 * (n - k) - hi) r -> answered w hi off a n b (x ++ r).
(** A read request is taken in clock i. *)
Definition takes_read (s : al_state) (i : al_in) : Prop :=
  q_st (s_q s) = AIdle /\ o_rdy (s_o s) = true /\ ai_valid i = true /\ ai_sop i = true /\ psel (ai_hdr i) 120 5 = 0 /\ Z.testbit (ai_hdr i) 126 = false.

(** A valid which is not taken stays, and so does what goes with it. *)
Definition held_ch (v r v' : bool) (same : Prop) : Prop := v = true -> r = false -> v' = true /\ same.

(** A write request is taken in clock i. *)
Definition takes_write (s : al_state) (i : al_in) : Prop :=
  q_st (s_q s) = AIdle /\ o_rdy (s_o s) = true /\ ai_valid i = true /\ ai_sop i = true /\ psel (ai_hdr i) 120 5 = 0 /\ Z.testbit (ai_hdr i) 126 = true.
(** Address, data and strobes of write k of a request whose beats, of 2^c words each, are B. *)
Definition wop (r : rreq) (c : Z) (B : list (list Z)) (k : Z) : Z * Z * Z :=
  (4 * (rr_a r + k) + (if k =? 0 then low_byte (rr_fbe r) else 0), nth (Z.to_nat (k mod 2 ^ c)) (nth (Z.to_nat (k / 2 ^ c)) B []) 0, if k =? 0 then rr_fbe r else if k =? rr_n r - 1 then rr_lbe r else 15).
(** The write issued in a clock, the beat handed over in a clock, and whether the request has been dealt with. *)
Definition wop_of (f64 : bool) (c : Z) (s : al_state) (i : al_in) : list (Z * Z * Z) :=
  let t := al_step f64 c s i in match al_entry f64 c s i with Some e => if e_wr e then [(o_addr (s_o t), o_wd (s_o t), o_ws (s_o t))] else [] | None => [] end.
Definition wbeat (s : al_state) (i : al_in) : list (list Z) := if o_rdy (s_o s) && ai_valid i then [ai_data i] else [].
Definition wdone (s : al_state) : bool := match q_st (s_q s) with AIdle | AWait => true | _ => false end.
(** All of them from the clock in which a request is taken until it is done. *)
Fixpoint wops (f64 : bool) (c : Z) (s : al_state) (l : list al_in) : list (Z * Z * Z) * list (list Z) * bool :=
  match l with
  | [] => ([], [], false)
  | i :: r => if wdone (al_step f64 c s i) then (wop_of f64 c s i, wbeat s i, true)
      else let '(es, bs, d) := wops f64 c (al_step f64 c s i) r in (wop_of f64 c s i ++ es, wbeat s i ++ bs, d)
  end.
