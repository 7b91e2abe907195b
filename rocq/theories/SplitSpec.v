(** Independent specification of memory request splitting and completion. *)
From Verif Require Import PyBase TlpModel TlpSpec BarModel SplitModel.

(** PCIe byte-enable legality: a one-DWORD request has no last byte enables and
    a non-zero first; a longer one has both non-zero. *)
Definition be_legal (t : tlp) : Prop :=
  0 <= t_first_be t < 16 /\ 0 <= t_last_be t < 16 /\ t_first_be t <> 0 /\
  (t_length t = 1 -> t_last_be t = 0) /\ (t_length t <> 1 -> t_last_be t <> 0).

(** A legal memory request of at most [max] bytes: DWORD aligned, positive
    length, inside one 4 KiB page, 4-DWORD header exactly above 4 GiB. *)
Definition mem_req_legal (max : Z) (wr : bool) (t : tlp) : Prop :=
  t_address t mod 4 = 0 /\ 1 <= t_length t /\ 4 * t_length t <= max /\
  t_address t mod 4096 + 4 * t_length t <= 4096 /\ be_legal t /\
  t_fmt_type t = ((if wr then 2 else 0) + (if t_address t <? 2^32 then 0 else 1), 0).

(** A legal write carries exactly its payload. *)
Definition mem_write_legal (max : Z) (t : tlp) : Prop :=
  mem_req_legal max true t /\ zlen (t_data t) = t_length t /\ Forall (fun w => 0 <= w < 2^32) (t_data t).

(** Bytes of a DWORD payload, little endian. *)
Definition payload (t : tlp) : list Z := flat_map (le_bytes 4) (t_data t).

(** Memory effect of a list of write TLPs executed in order. *)
Definition apply_write (m : mem) (t : tlp) : mem :=
  write_effect (t_address t) (t_length t) (t_first_be t) (t_last_be t) (payload t) m.
Definition apply_writes (ts : list tlp) (m : mem) : mem := fold_left apply_write ts m.

(** How many requests of a list select byte address [a]. *)
Definition select_count (ts : list tlp) (a : Z) : nat :=
  length (filter (fun t => tlp_selects t a) ts).

(** [ts] requests exactly [addr, addr+len) in ascending, gapless order: request
    i selects exactly the bytes from where request i-1 stopped. *)
Fixpoint covers (addr len : Z) (ts : list tlp) : Prop :=
  match ts with
  | [] => len = 0
  | t :: r => exists k, 1 <= k <= len /\
      (forall a, tlp_selects t a = true <-> addr <= a < addr + k) /\ covers (addr + k) (len - k) r
  end.

(** Header fields common to every request of one transfer. *)
Definition from_transfer (rid : pcie_id) (attr tc : Z) (t : tlp) : Prop :=
  t_requester_id t = rid /\ t_attr t = attr /\ t_tc t = tc.

(** A completion answering [req]. *)
Definition answers (req : tlp) (completer : pcie_id) (c : tlp) : Prop :=
  t_fmt_type c = (2, 0x0A) /\ t_status c = 0 /\ t_requester_id c = t_requester_id req /\
  t_tag c = t_tag req /\ t_attr c = t_attr req /\ t_tc c = t_tc req /\ t_completer_id c = completer /\
  zlen (t_data c) = t_length c /\ Forall (fun w => 0 <= w < 2^32) (t_data c).

(** A legal series of completions delivering the DWORD bytes [data] (whose first
    requested byte has address [addr]; DWORD base is addr - addr mod 4) with
    [count] requested bytes outstanding. *)
Fixpoint completes (req : tlp) (completer : pcie_id) (max addr count : Z) (data : list Z) (cs : list tlp) : Prop :=
  match cs with
  | [] => False
  | c :: rest =>
    answers req completer c /\ 1 <= t_length c /\ 4 * t_length c <= max /\
    t_byte_count c = count /\ t_lower_address c = addr mod 128 /\
    let delivered := 4 * t_length c - addr mod 4 in
    match rest with
    | [] => payload c = data
    | _ => payload c = firstn (length (payload c)) data /\
           (addr + delivered) mod 128 = 0 /\
           completes req completer max (addr + delivered) (count - delivered)
             (skipn (length (payload c)) data) rest
    end
  end.

(** The memory that a byte region denotes. *)
Definition mem_of (l : list Z) : mem := fun a => if (0 <=? a) then nth (Z.to_nat a) l 0 else 0.

(** A completer serving memory [M] on [lo, hi): every legal read request whose
    selected bytes lie in that range is answered by a legal completion series
    carrying the memory contents of the requested DWORDs. *)
Definition completer_ok (max : Z) (M : mem) (lo hi : Z) (respond : tlp -> list tlp) : Prop :=
  forall t, mem_req_legal max false t -> tlp_check t = true ->
    (forall a, tlp_selects t a = true -> lo <= a < hi) ->
    forall first count, 0 <= first - t_address t <= 3 ->
    (forall a, tlp_selects t a = true <-> first <= a < first + count) ->
    exists completer cmax,
      completes t completer cmax first count (mem_load M (t_address t) (4 * t_length t)) (respond t).

(** No completion is waiting in any tag queue. *)
Definition queues_empty (q : Z -> list tlp) : Prop := forall k, q k = [].

(** Abstract byte memory executing the same operations. *)
Definition spec_mop (m : mem) (o : mop) : mem * list Z :=
  match o with
  | MWrite addr data => (mem_store m addr data, [])
  | MRead addr len => (m, mem_load m addr len)
  end.
Fixpoint spec_mops (m : mem) (ops : list mop) : mem * list (list Z) :=
  match ops with
  | [] => (m, [])
  | o :: ops => let r := spec_mop m o in
                let rr := spec_mops (fst r) ops in (fst rr, snd r :: snd rr)
  end.

(** The operation stays inside the window [b, b + size). *)
Definition mop_in (b size : Z) (o : mop) : Prop :=
  match o with
  | MWrite addr data => b <= addr /\ addr + zlen data <= b + size /\ Forall is_byte data
  | MRead addr len => b <= addr /\ addr + len <= b + size /\ 0 <= len
  end.

(** Endpoint [e] exposes region [i], of 2^k bytes, at bus address [b]: in that
    window no other BAR matches. *)
Definition window_at (e : endpoint) (i b k : Z) : Prop :=
  4 <= k /\ b mod 2^k = 0 /\ 0 <= i < zlen (ep_regions e) /\
  forall a, b <= a < b + 2^k -> match_bar (ep_bars e) a false = Ok [(i, a - b)].

Definition region_contents (e : endpoint) (i : Z) (l : list Z) : Prop :=
  nth (Z.to_nat i) (ep_regions e) ENone = EMem l /\ Forall is_byte l.

(** The memory a root complex with regions [rs] presents on the bus. *)
Definition rc_mem (rs : list region) : mem := fun a =>
  match find_region rs a with Some (_, r) => mem_of (r_mem r) (a - r_base r) | None => 0 end.

(** Every region is backed by exactly its size of bytes. *)
Definition regions_wf (rs : list region) : Prop :=
  Forall (fun r => zlen (r_mem r) = r_size r /\ Forall is_byte (r_mem r)) rs.

(** The bus range [lo, hi) decodes to region [i] throughout. *)
Definition in_region (rs : list region) (i : nat) (lo hi : Z) : Prop :=
  forall a, lo <= a < hi -> exists r, find_region rs a = Some (i, r).

(** Same placement of regions. *)
Definition same_map (rs rs' : list region) : Prop :=
  map (fun r => (r_base r, r_size r)) rs = map (fun r => (r_base r, r_size r)) rs'.

(** The span of bytes a request asks for: from the first to the last enabled
    byte (byte enables in between may be clear, PCIe base spec 2.3.1.1). *)
Definition selected_span (t : tlp) (first count : Z) : Prop :=
  tlp_selects t first = true /\ tlp_selects t (first + count - 1) = true /\
  forall a, tlp_selects t a = true -> first <= a < first + count.
