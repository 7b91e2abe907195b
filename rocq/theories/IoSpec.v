(** Independent specification of I/O and configuration accesses. *)
From Verif Require Import PyBase TlpModel TlpSpec BarModel SplitModel SplitSpec IoModel.

(** Endpoint [e] exposes region [i], of 2^k bytes, at I/O address [b]: in that
    window no other I/O BAR matches. *)
Definition io_window_at (e : endpoint) (i b k : Z) : Prop :=
  2 <= k /\ b mod 2^k = 0 /\ 0 <= i < zlen (ep_regions e) /\
  forall a, b <= a < b + 2^k -> match_bar (ep_bars e) a true = Ok [(i, a - b)].

(** A legal I/O request (PCIe base spec 2.2.7): one DWORD, aligned, some byte
    enabled, last byte enables clear; a write carries its DWORD. *)
Definition io_legal (wr : bool) (rid : pcie_id) (t : tlp) : Prop :=
  t_address t mod 4 = 0 /\ t_length t = 1 /\ t_last_be t = 0 /\ 0 < t_first_be t < 16 /\ t_attr t = 0 /\ t_tc t = 0 /\
  t_fmt_type t = ((if wr then 2 else 0), 2) /\ t_requester_id t = rid /\ (wr = true -> exists w, t_data t = [w] /\ 0 <= w < 2^32).

(** Abstract byte memory executing the operations. *)
Definition spec_ioop (m : mem) (o : ioop) : mem * list Z :=
  match o with
  | IoWrite addr data => (mem_store m addr data, [])
  | IoRead addr len => (m, mem_load m addr len)
  end.
Fixpoint spec_ioops (m : mem) (ops : list ioop) : mem * list (list Z) :=
  match ops with
  | [] => (m, [])
  | o :: ops => let r := spec_ioop m o in
                let rr := spec_ioops (fst r) ops in (fst rr, snd r :: snd rr)
  end.

(** The operation stays inside [lo, hi). *)
Definition ioop_in (lo hi : Z) (o : ioop) : Prop :=
  match o with
  | IoWrite addr data => lo <= addr /\ addr + zlen data <= hi /\ Forall is_byte data
  | IoRead addr len => lo <= addr /\ addr + len <= hi /\ 0 <= len
  end.

(** Byte [a] of a register file given by its 32-bit registers. *)
Definition reg_byte (reg : Z -> Z) (a : Z) : Z := reg (a / 4) / 256 ^ (a mod 4) mod 256.

(** [ops], register writes (register, value, byte mask), are what writing [data]
    at byte address [addr] means: the registers touched, in ascending order, each
    once; the mask selects exactly the bytes written and the value carries them. *)
Definition cfg_ops_ok (addr : Z) (data : list Z) (ops : list (Z * Z * Z)) : Prop :=
  (forall j r v m, nth_error ops j = Some (r, v, m) -> r = addr / 4 + Z.of_nat j /\ 0 <= v < 2^32 /\ 0 < m < 16 /\
     forall k, 0 <= k < 4 -> (Z.testbit m k = true <-> addr <= 4 * r + k < addr + zlen data) /\
       (Z.testbit m k = true -> v / 256 ^ k mod 256 = nth (Z.to_nat (4 * r + k - addr)) data 0)) /\
  (data <> [] -> zlen ops = (addr + zlen data - 1) / 4 - addr / 4 + 1) /\ (data = [] -> ops = []).

(** Execution of register writes. *)
Fixpoint run_ops {R} (wr : R -> Z -> Z -> Z -> result R) (ops : list (Z * Z * Z)) (r : R) : result R :=
  match ops with
  | [] => Ok r
  | (reg, v, m) :: ops => let! r := wr r reg v m in run_ops wr ops r
  end.

(** The configuration requests of one access, as seen by the routing: type 1, for
    [dev], one DWORD, from the root complex. *)
Definition cfg_legal (wr : bool) (dev : pcie_id) (t : tlp) : Prop :=
  t_fmt_type t = ((if wr then 2 else 0), 5) /\ t_dest_id t = dev /\ t_requester_id t = mkId 0 0 0 /\
  t_length t = 1 /\ t_last_be t = 0 /\ 0 < t_first_be t < 16 /\ t_register_number t = t_address t / 4 /\ t_address t mod 4 = 0.

(** Little-endian word of [n] bytes at address [a]. *)
Fixpoint word_at (M : mem) (a : Z) (n : nat) : Z :=
  match n with O => 0 | S n => M a + 256 * word_at M (a + 1) n end.
Definition words_at (M : mem) (a ws count : Z) : list Z :=
  map (fun k => word_at M (a + ws * Z.of_nat k) (Z.to_nat ws)) (seq 0 (Z.to_nat count)).
