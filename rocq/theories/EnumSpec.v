(** Independent specification of bus enumeration: what a correctly numbered and
    allocated device tree is. *)
From Verif Require Import PyBase TlpModel BarModel BarSpec EnumModel RouteModel.

(** The three address spaces windows are allocated from. *)
Inductive space := SIo | SMem | SPf.

(** Windows (base, size) that the BARs of a function occupy in a space.  Only
    64-bit prefetchable BARs live in prefetchable space. *)
Definition ent_win (sp : space) (e : barent) : list (Z * Z) :=
  match sp, e with
  | SIo, BIo k b => [(b, 2^k)]
  | SMem, BMem32 k b _ => [(b, 2^k)]
  | SMem, BMem64 k b false => [(b, 2^k)]
  | SPf, BMem64 k b true => [(b, 2^k)]
  | _, _ => []
  end.

(** Physical hardware that can be enumerated: well-formed BAR layouts filling
    the 6 (endpoint) or 2 (bridge) BAR registers, bridge window registers whose
    read-only low bits are zero. *)
Definition br_ok (r : bridge_regs) : Prop :=
  0 <= br_io_base r < 2^32 /\ br_io_base r mod 2^12 = 0 /\ 0 <= br_io_limit r < 2^32 /\
  0 <= br_mem_base r < 2^32 /\ br_mem_base r mod 2^20 = 0 /\ 0 <= br_mem_limit r < 2^32 /\
  0 <= br_pf_base r < 2^64 /\ br_pf_base r mod 2^20 = 0 /\ 0 <= br_pf_limit r < 2^64 /\
  is_byte (br_pri r) /\ is_byte (br_sec r) /\ is_byte (br_sub r).

Definition is_bridge_hdr (hdr : Z) : bool := hdr mod 128 =? 1.

Inductive phys_ok : pfunc -> Prop :=
| phys_intro d f hdr L r sub : Forall bar_ok L -> slots L = (if is_bridge_hdr hdr then 2 else 6) ->
    br_ok r -> Forall phys_ok sub -> phys_ok (PFunc d f hdr (regs_of L) r sub).

(** An enumerated function: its ID, its programmed BARs and, for a bridge, its
    programmed registers and what is below it. *)
Inductive dtree :=
| DEnd (bus dev fn : Z) (L : list barent)
| DBr (bus dev fn : Z) (L : list barent) (r : bridge_regs) (kids : list dtree).

Definition d_ents (d : dtree) : list barent := match d with DEnd _ _ _ L => L | DBr _ _ _ L _ _ => L end.
Definition d_bus (d : dtree) : Z := match d with DEnd b _ _ _ => b | DBr b _ _ _ _ _ => b end.
Definition d_id (d : dtree) : Z * Z * Z := match d with DEnd b x f _ => (b, x, f) | DBr b x f _ _ _ => (b, x, f) end.
Definition d_kids (d : dtree) : list dtree := match d with DEnd _ _ _ _ => [] | DBr _ _ _ _ _ k => k end.
Definition d_bridge (d : dtree) : option bridge_regs := match d with DEnd _ _ _ _ => None | DBr _ _ _ _ r _ => Some r end.

(** All functions of a tree. *)
Fixpoint flat (d : dtree) : list dtree :=
  d :: match d with DEnd _ _ _ _ => [] | DBr _ _ _ _ _ k => flat_map flat k end.
Definition flats (ds : list dtree) : list dtree := flat_map flat ds.

(** The registers left in the hardware and the [TreeItem] data describe the
    tree. *)
Definition bar_reg (e : barent) : Z :=
  match e with BNone => 0 | BIo _ b => b + 1 | BMem32 _ b p => b + (if p then 8 else 0)
  | BMem64 _ b p => b + 4 + (if p then 8 else 0) end.
Fixpoint ti_of (i : Z) (L : list barent) : list (Z * Z * Z) :=
  match L with
  | [] => []
  | BNone :: L => ti_of (i + 1) L
  | e :: L => (i, bar_reg e, 2 ^ get_k e) :: ti_of (i + bar_slots e) L
  end.
Definition node_of (n : node) (r : bridge_regs) : Prop :=
  n_sec n = br_sec r /\ n_sub n = br_sub r /\ n_io_base n = br_io_base r /\ n_io_limit n = br_io_limit r /\
  n_mem_base n = br_mem_base r /\ n_mem_limit n = br_mem_limit r /\ n_pf_base n = br_pf_base r /\ n_pf_limit n = br_pf_limit r.
Inductive rep : titem -> dtree -> Prop :=
| rep_end bus d f L r : rep (TItem bus d f (ti_of 0 L) (regs_of L) r None) (DEnd bus d f L)
| rep_br bus d f L r n items kids : node_of n r -> Forall2 rep items kids ->
    rep (TItem bus d f (ti_of 0 L) (regs_of L) r (Some (n, items))) (DBr bus d f L r kids).

(** The same for the registers in the hardware alone. *)
Inductive hw_rep : titem -> dtree -> Prop :=
| hw_end bus d f ti L r : hw_rep (TItem bus d f ti (regs_of L) r None) (DEnd bus d f L)
| hw_br bus d f ti L r n items kids : Forall2 hw_rep items kids ->
    hw_rep (TItem bus d f ti (regs_of L) r (Some (n, items))) (DBr bus d f L r kids).

(** The functions discoverable on a bus, in the order of the scan: device 0 of
    bus 0 is the host bridge itself; a device answers only through function 0;
    functions 1-7 are looked at only if function 0 says multi-function. *)
Definition visible (seg : list pfunc) (bus : Z) (d f : Z) : Prop :=
  0 <= d < 32 /\ ~ (bus = 0 /\ d = 0) /\ exists p0, find_func seg d 0 = Some p0 /\
  (f = 0 \/ 1 <= f < 8 /\ Z.testbit (p_hdr p0) 7 = true).

(** The tree has one entry per visible function, of the same kind, with the
    same BAR kinds and sizes, recursively through the bridges. *)
Inductive found : list pfunc -> Z -> list dtree -> Prop :=
| found_intro seg bus ds :
    (forall d f p, visible seg bus d f -> find_func seg d f = Some p ->
       exists x, In x ds /\ d_id x = (bus, d, f) /\ found_fun p x) ->
    NoDup (map d_id ds) ->
    (forall x, In x ds -> exists d f p, visible seg bus d f /\ find_func seg d f = Some p /\ d_id x = (bus, d, f) /\ found_fun p x) ->
    found seg bus ds
with found_fun : pfunc -> dtree -> Prop :=
| found_end d f hdr L r sub bus d' f' L' : is_bridge_hdr hdr = false -> map bar_shape L' = map bar_shape L ->
    found_fun (PFunc d f hdr (regs_of L) r sub) (DEnd bus d' f' L')
| found_br d f hdr L r sub bus d' f' L' r' kids : is_bridge_hdr hdr = true -> map bar_shape L' = map bar_shape L ->
    found sub (br_sec r') kids ->
    found_fun (PFunc d f hdr (regs_of L) r sub) (DBr bus d' f' L' r' kids).

(** Windows of a space occupied by a function and everything below it. *)
Definition own_win (sp : space) (d : dtree) : list (Z * Z) := flat_map (ent_win sp) (d_ents d).
Definition tree_win (sp : space) (ds : list dtree) : list (Z * Z) := flat_map (own_win sp) (flats ds).

Definition disjoint_win (w1 w2 : Z * Z) : Prop := fst w1 + snd w1 <= fst w2 \/ fst w2 + snd w2 <= fst w1.

(** Bridge window of a space: base and last address. *)
Definition win_base (sp : space) (r : bridge_regs) : Z := match sp with SIo => br_io_base r | SMem => br_mem_base r | SPf => br_pf_base r end.
Definition win_limit (sp : space) (r : bridge_regs) : Z := match sp with SIo => br_io_limit r | SMem => br_mem_limit r | SPf => br_pf_limit r end.

Definition inside (lo hi : Z) (w : Z * Z) : Prop := lo <= fst w /\ fst w + snd w - 1 <= hi.

(** Everything BAR allocation must guarantee in one address space. *)
Definition windows_ok (sp : space) (ds : list dtree) : Prop :=
  (forall w, In w (tree_win sp ds) -> fst w mod snd w = 0 /\ 0 < snd w) /\
  ForallOrdPairs disjoint_win (tree_win sp ds) /\
  (forall d r, In d (flats ds) -> d_bridge d = Some r ->
     Forall (inside (win_base sp r) (win_limit sp r)) (tree_win sp (d_kids d))) /\
  (forall ks, (ks = ds \/ exists d, In d (flats ds) /\ ks = d_kids d) ->
     ForallOrdPairs (fun d1 d2 => forall r1 r2, d_bridge d1 = Some r1 -> d_bridge d2 = Some r2 ->
        win_limit sp r1 < win_base sp r2) ks).

(** Bus numbering. *)
Definition secs (ds : list dtree) : list Z :=
  flat_map (fun d => match d_bridge d with Some r => [br_sec r] | None => [] end) (flats ds).
Definition buses_ok (bus sub : Z) (ds : list dtree) : Prop :=
  NoDup (secs ds) /\ Forall (fun b => bus < b <= sub) (secs ds) /\
  (forall d, In d ds -> d_bus d = bus) /\
  (forall d r, In d (flats ds) -> d_bridge d = Some r ->
     br_pri r = d_bus d /\ br_pri r < br_sec r <= br_sub r /\ br_sub r <= 255 /\
     (forall k, In k (d_kids d) -> d_bus k = br_sec r) /\
     Forall (fun b => br_sec r < b <= br_sub r) (secs (d_kids d))) /\
  (forall ks, (ks = ds \/ exists d, In d (flats ds) /\ ks = d_kids d) ->
     ForallOrdPairs (fun d1 d2 => forall r1 r2, d_bridge d1 = Some r1 -> d_bridge d2 = Some r2 ->
        br_sub r1 < br_sec r2) ks).

(** The tree of bus numbers and IDs of the enumerated items, BARs left out. *)
Fixpoint skel (t : titem) : dtree :=
  match t with
  | TItem bus d f _ _ r None => DEnd bus d f []
  | TItem bus d f _ _ r (Some (_, k)) => DBr bus d f [] r (map skel k)
  end.

(** The tree has exactly one entry per visible function, of the same kind
    (bridge or not), recursively. *)
Inductive covers : list pfunc -> Z -> list dtree -> Prop :=
| covers_intro seg bus ds :
    (forall d f p, visible seg bus d f -> find_func seg d f = Some p ->
       exists x, In x ds /\ d_id x = (bus, d, f) /\ covers_fun p x) ->
    NoDup (map d_id ds) ->
    (forall x, In x ds -> exists d f p, visible seg bus d f /\ find_func seg d f = Some p /\ d_id x = (bus, d, f) /\ covers_fun p x) ->
    covers seg bus ds
with covers_fun : pfunc -> dtree -> Prop :=
| covers_end d f hdr b r sub bus d' f' L' : is_bridge_hdr hdr = false ->
    covers_fun (PFunc d f hdr b r sub) (DEnd bus d' f' L')
| covers_br d f hdr b r sub bus d' f' L' r' kids : is_bridge_hdr hdr = true ->
    covers sub (br_sec r') kids ->
    covers_fun (PFunc d f hdr b r sub) (DBr bus d' f' L' r' kids).

(** Bus number registers are byte registers. *)
Inductive bus_regs_ok : pfunc -> Prop :=
| bro_intro d f hdr b r sub : is_byte (br_pri r) -> is_byte (br_sec r) -> is_byte (br_sub r) -> Forall bus_regs_ok sub ->
    bus_regs_ok (PFunc d f hdr b r sub).

(** Allocation cursor of a space. *)
Definition cur (sp : space) (s : limits) : Z := match sp with SIo => l_io s | SMem => l_mem s | SPf => l_pf s end.

(** The cursors after enumeration still fit the bridge window registers, and
    the bases are not 0 (an empty window needs its limit below its base). *)
Definition bounded (s : limits) : Prop := l_io s < 2^32 /\ l_mem s < 2^32 /\ l_pf s < 2^64.
Definition positive (s : limits) : Prop := 1 <= l_io s /\ 1 <= l_mem s /\ 1 <= l_pf s.

(** No 32-bit BAR of the tree matches the low 32 bits of the address. *)
Definition no_alias (a : Z) (ds : list dtree) : Prop :=
  forall d k b p, In d (flats ds) -> In (BMem32 k b p) (d_ents d) -> ~ (b <= a mod 2^32 < b + 2^k).
