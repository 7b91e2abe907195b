(** Independent specification for the generic TLP interface (tb/pcie_if.py). *)
From Verif Require Import PyBase TlpModel TlpSpec SplitModel SplitSpec PcieIfModel.

(** ---- parity ---- *)

(** Number of set bits among bits lo .. lo+n-1 of d, modulo 2. *)
Fixpoint xor_bits (d lo : Z) (n : nat) : bool :=
  match n with O => false | S m => xorb (Z.testbit d lo) (xor_bits d (lo + 1) m) end.

(** [p] holds the even parity of every byte of [d]. *)
Definition byte_parity_of (d p : Z) : Prop :=
  forall i, 0 <= i -> Z.testbit p i = xor_bits d (8 * i) 8.

(** Frames equal except for the data, header or prefix. *)
Definition with_hdr (f : frame) (h : Z) : frame :=
  mkFrame (f_tlp_prfx f) h (f_data f) (f_tlp_prfx_par f) (f_hdr_par f) (f_parity f)
    (f_func_num f) (f_vf_num f) (f_bar_id f) (f_tlp_abort f) (f_error f) (f_seq f).
Definition with_prfx (f : frame) (p : Z) : frame :=
  mkFrame p (f_hdr f) (f_data f) (f_tlp_prfx_par f) (f_hdr_par f) (f_parity f)
    (f_func_num f) (f_vf_num f) (f_bar_id f) (f_tlp_abort f) (f_error f) (f_seq f).
Definition with_data (f : frame) (d : list Z) : frame :=
  mkFrame (f_tlp_prfx f) (f_hdr f) d (f_tlp_prfx_par f) (f_hdr_par f) (f_parity f)
    (f_func_num f) (f_vf_num f) (f_bar_id f) (f_tlp_abort f) (f_error f) (f_seq f).
Definition frame_ok (f : frame) : Prop :=
  0 <= f_hdr f < 2^128 /\ 0 <= f_tlp_prfx f < 2^32 /\ Forall (fun d => 0 <= d < 2^32) (f_data f).

(** Value with bit i inverted. *)
Definition flip (d i : Z) : Z := Z.lxor d (2^i).

(** ---- header codec ---- *)

(** The packet types of cocotbext.pcie (fmt, type): memory, I/O, configuration,
    messages (routing 0-7), completions, atomic operations. *)
Definition known_type (ft : Z * Z) : Prop :=
  In ft [(0,0);(1,0);(0,1);(1,1);(2,0);(3,0);(0,2);(2,2);(0,4);(2,4);(0,5);(2,5);
         (0,10);(2,10);(0,11);(2,11);(2,12);(3,12);(2,13);(3,13);(2,14);(3,14)] \/
  ((fst ft = 1 \/ fst ft = 3) /\ 16 <= snd ft < 24).

(** A packed header: the first byte is fmt (3 bits) and type (5 bits); 16 bytes
    when fmt has the 4-DWORD bit, 12 otherwise. *)
Definition header_of (ft : Z * Z) (hdr : list Z) : Prop :=
  known_type ft /\ Forall is_byte hdr /\ nth 0 hdr 0 = 32 * fst ft + snd ft /\
  length hdr = if Z.odd (fst ft) then 16%nat else 12%nat.

(** Number written by big-endian bytes. *)
Fixpoint big_endian (l : list Z) : Z :=
  match l with [] => 0 | b :: r => b * 256^(zlen r) + big_endian r end.

(** Address-routed header: the address occupies bytes 8.. (4 or 8 bytes). *)
Definition header_address (hdr : list Z) : Z := big_endian (skipn 8 hdr).

(** Types with a 32-bit address that have a 64-bit form. *)
Definition widened (ft : Z * Z) : Prop := In ft [(0,0);(0,1);(2,0);(2,12);(2,13);(2,14)].

(** ---- tags ---- *)

(** Legality of an allocation history: [out] is the set of tags handed out and not
    yet released.  A granted tag is below the tag count and not outstanding; the
    caller waits only when all tags of the range are outstanding; a release
    succeeds exactly for outstanding tags. *)
Fixpoint tags_legal (out : list Z) (h : list (tagop * tagres)) : Prop :=
  match h with
  | [] => True
  | (TAlloc n, RTag t) :: h => 0 <= t < n /\ t < 256 /\ ~ In t out /\ tags_legal (t :: out) h
  | (TAlloc n, RWait) :: h => (forall t, 0 <= t < n -> t < 256 -> In t out) /\ tags_legal out h
  | (TRelease t, RReleased) :: h => In t out /\ tags_legal (filter (fun x => negb (x =? t)) out) h
  | (TRelease t, RExn _) :: h => ~ In t out /\ tags_legal out h
  | _ => False
  end.

(** ---- DMA ---- *)

(** Requests of a DMA transfer carry the device's ID. *)
Definition from_dev (rid : pcie_id) (t : tlp) : Prop := t_requester_id t = rid.

(** A legal I/O request: one DWORD, aligned, last byte enables clear. *)
Definition io_req_legal (wr : bool) (t : tlp) : Prop :=
  t_address t mod 4 = 0 /\ t_length t = 1 /\ t_last_be t = 0 /\ 0 <= t_first_be t < 16 /\
  t_fmt_type t = ((if wr then 2 else 0), 2).

(** A device answering I/O reads of memory [M] on DWORD-aligned [lo, hi): one
    successful completion with one DWORD whose enabled bytes are right. *)
Definition io_completer_ok (M : mem) (lo hi : Z) (respond : tlp -> list tlp) : Prop :=
  forall t, io_req_legal false t -> lo <= t_address t -> t_address t + 4 <= hi ->
  exists c w, respond t = [c] /\ t_status c = 0 /\ t_length c = 1 /\ t_data c = [w] /\ 0 <= w < 2^32 /\
    forall k, 0 <= k < 4 -> Z.testbit (t_first_be t) k = true -> nth (Z.to_nat k) (le_bytes 4 w) 0 = M (t_address t + k).

(** ---- test device regions ---- *)

(** Region [i] holds exactly the bytes [l]. *)
Definition ifr_contents (rs : list ifregion) (i : Z) (l : list Z) : Prop :=
  0 <= i < zlen rs /\ nth (Z.to_nat i) rs IRNone = IRMem (zlen l) l /\ Forall is_byte l /\ l <> [].

(** The other regions are unchanged. *)
Definition others_same (i : Z) (rs rs' : list ifregion) : Prop :=
  length rs' = length rs /\ forall j, j <> Z.to_nat i -> nth j rs' IRNone = nth j rs IRNone.

(** ---- MSI ---- *)

(** [mmc] is the multiple-message-capable code of [count] vectors: the smallest
    power of two not below the count (PCI 3.0, 6.8.1.3). *)
Definition mmc_of (count mmc : Z) : Prop := 0 <= mmc /\ count <= 2^mmc /\ (forall k, 0 <= k -> count <= 2^k -> mmc <= k).
