(** Property theorems C16-C18 (capability lists). *)
From Coq Require Import Lia.
From Verif Require Import PyBase CapModel CapSpec CapProofs.

(** C16 is false: the scan of line 304 compares with [<] where [<=] is needed,
    so a capability may end on the first register of another; two capabilities
    of one register both land on the start of the list. *)
Theorem C16_no_overlap_refuted : exists ops l, Forall regop_ok ops /\
  register_all CAP_START [] ops = Ok l /\ ~ no_overlap l.
Proof.
  exists [mkRegop 1 0 (Some 2) (fun _ => 0) (Some 0x11); mkRegop 2 0 (Some 2) (fun _ => 0) None].
  eexists. split; [repeat constructor; cbn; lia|]. split; [reflexivity|].
  intros H. apply (H 0%nat 1%nat _ _ 0x11 (le_n 1) eq_refl eq_refl); vm_compute; split; congruence.
Qed.
Print Assumptions C16_no_overlap_refuted.

(** C16, for every sequence of registrations: two capabilities share at most
    one register, the last of one and the first of the other.  Missing: that
    they share none, which is false. *)
Theorem C16_overlap_partial : forall start ops l, Forall regop_ok ops -> register_all start [] ops = Ok l -> overlap_at_ends l.
Proof. exact registered_overlap. Qed.
Print Assumptions C16_overlap_partial.
Definition ex_caps : list regop :=
  [mkRegop 1 0 (Some 2) (fun _ => 0) None; mkRegop 0x10 0 (Some 15) (fun _ => 0) None;
   mkRegop 5 0 (Some 6) (fun _ => 0) (Some 0x14); mkRegop 1 0 (Some 4) (fun _ => 0) None].
Example C16_example : Forall regop_ok ex_caps /\
  (let! l := register_all CAP_START [] ex_caps in Ok (map (fun c => (c_id c, c_off c, c_length c)) l)) =
  Ok [(1, 0x10, 4); (5, 0x14, 6); (0x10, 0x1a, 15)].
Proof. split; [repeat constructor; cbn; lia|reflexivity]. Qed.

(** C16: with automatic placement of distinct capabilities of at least two
    registers nothing overlaps; they are packed in registration order. *)
Theorem C16_auto_placement_partial : forall ops, Forall auto_op ops -> NoDup (map ro_id ops) ->
  exists l, register_all CAP_START [] ops = Ok l /\ no_overlap l /\ map c_id l = map ro_id ops /\ map c_length l = map op_len ops /\
    packed CAP_START l.
Proof. exact auto_registration. Qed.
Print Assumptions C16_auto_placement_partial.
Definition ex_auto : list regop :=
  [mkRegop 1 0 (Some 2) (fun _ => 0) None; mkRegop 0x10 0 (Some 15) (fun _ => 0x20000) None; mkRegop 5 0 (Some 6) (fun _ => 0) None].
Example C16_auto_example : Forall auto_op ex_auto /\ NoDup (map ro_id ex_auto) /\
  (let! l := register_all CAP_START [] ex_auto in Ok (map c_off l)) = Ok [0x10; 0x12; 0x21].
Proof. split; [repeat constructor; cbn; lia|]. split; [cbn; repeat constructor; cbn; lia|reflexivity]. Qed.

(** C16: a capability with a requested offset gets this offset, and the capabilities in
    its way are moved; one that was moved may still end on its first register. *)
Theorem C16_explicit_partial : forall start ops o off l l', Forall regop_ok ops -> regop_ok o -> ro_offset o = Some off -> off <> 0 ->
  register_all start [] ops = Ok l ->
  register start l (ro_id o) (ro_ver o) (ro_length o) (ro_read o) (ro_offset o) = Ok l' -> placed_at (ro_id o) off l'.
Proof. exact register_explicit. Qed.
Print Assumptions C16_explicit_partial.
Example C16_explicit_example :
  (let! l := register_all CAP_START [] [mkRegop 1 0 (Some 3) (fun _ => 0) (Some 0x20)] in
   let! l := register CAP_START l 2 0 (Some 4) (fun _ => 0) (Some 0x1d) in Ok (map (fun c => (c_id c, c_off c)) l)) = Ok [(1, 0x10); (2, 0x1d)].
Proof. reflexivity. Qed.

(** C17: the host's walk visits every capability in order. *)
Theorem C17_walk_partial : forall ops l ext, Forall regop_ok ops -> register_all CAP_START [] ops = Ok l -> (2 <= length l)%nat ->
  no_overlap l -> Forall (fun c => 16 <= c_off c < 64) l ->
  host_walk (read_config_cap l ext) = Ok (map (fun c => (4 * c_off c, c_id c mod 256)) l) /\
  increasing 0 (map (fun c => (4 * c_off c, c_id c mod 256)) l).
Proof. exact host_walk_spec. Qed.
Print Assumptions C17_walk_partial.
Example C17_example :
  (let! l := register_all CAP_START [] ex_caps in host_walk (read_config_cap l [])) =
  Ok [(0x40, 1); (0x50, 5); (0x68, 0x10)].
Proof. vm_compute. reflexivity. Qed.

(** C17 on inputs only: automatic placement. *)
Theorem C17_auto_walk_partial : forall ops ext, Forall auto_op ops -> NoDup (map ro_id ops) -> (2 <= length ops)%nat ->
  16 + fold_right Z.add 0 (map op_len ops) <= 64 ->
  exists l, register_all CAP_START [] ops = Ok l /\
    host_walk (read_config_cap l ext) = Ok (combine (map (Z.mul 4) (offsets_from 16 (map op_len ops))) (map (fun o => ro_id o mod 256) ops)).
Proof. exact auto_walk. Qed.
Print Assumptions C17_auto_walk_partial.
Example C17_auto_example : 16 + fold_right Z.add 0 (map op_len ex_auto) <= 64 /\
  (let! l := register_all CAP_START [] ex_auto in host_walk (read_config_cap l [])) = Ok [(0x40, 1); (0x48, 0x10); (0x84, 5)].
Proof. split; vm_compute; [discriminate|reflexivity]. Qed.

(** C17 fails for every list with a single capability: its next pointer is
    never set (line 313 starts at 1) and reading the header raises. *)
Theorem C17_single_capability_raises : forall o, auto_op o -> forall ext,
  exists l, register_all CAP_START [] [o] = Ok l /\ length l = 1%nat /\ host_walk (read_config_cap l ext) = Err TypeError.
Proof. exact single_walk_raises. Qed.
Print Assumptions C17_single_capability_raises.
Example C17_single_example : auto_op (mkRegop 1 0 (Some 2) (fun _ => 0) None).
Proof. split; [reflexivity|cbn; lia]. Qed.

(** C17 is false past the end of the legacy configuration space: no placement
    is checked against [end], and the 8-bit next pointers wrap. *)
Theorem C17_walk_refuted : exists ops l ext, Forall auto_op ops /\ NoDup (map ro_id ops) /\
  register_all CAP_START [] ops = Ok l /\ no_overlap l /\
  host_walk (read_config_cap l ext) <> Ok (map (fun c => (4 * c_off c, c_id c mod 256)) l).
Proof.
  exists [mkRegop 1 0 (Some 48) (fun _ => 0) None; mkRegop 2 0 (Some 2) (fun _ => 0) None].
  destruct (auto_registration [mkRegop 1 0 (Some 48) (fun _ => 0) None; mkRegop 2 0 (Some 2) (fun _ => 0) None]) as (l & R1 & R2 & _).
  { repeat constructor; cbn; lia. } { cbn; repeat constructor; cbn; lia. }
  exists l, []. split; [repeat constructor; cbn; lia|]. split; [cbn; repeat constructor; cbn; lia|]. split; [assumption|]. split; [assumption|].
  vm_compute in R1. injection R1 as <-. vm_compute. discriminate.
Qed.
Print Assumptions C17_walk_refuted.

(** C18 is false: the default location (0x40) of extended capabilities is
    routed to the ordinary list. *)
Theorem C18_ext_default_refuted : exists o l, register_all EXT_CAP_START [] [o; mkRegop 2 1 (Some 2) (fun r => r) None] = Ok l /\
  exists c, In c l /\ c_off c = EXT_CAP_START /\
    read_config_cap [] l (c_off c + 1) = Ok 0 /\ extcap_read_register c 1 = Ok 0x55.
Proof.
  exists (mkRegop 1 1 (Some 4) (fun r => 0x55) None). eexists. split; [reflexivity|].
  eexists. split; [left; reflexivity|]. split; [reflexivity|]. split; reflexivity.
Qed.
Print Assumptions C18_ext_default_refuted.

(** C18: below register 256 the extended list is never consulted. *)
Theorem C18_ext_hidden : forall caps ext ext' reg, 0 <= reg < 256 -> read_config_cap caps ext reg = read_config_cap caps ext' reg.
Proof. exact ext_hidden. Qed.
Print Assumptions C18_ext_hidden.
Example C18_hidden_example : 0 <= EXT_CAP_START < 256.
Proof. unfold EXT_CAP_START; lia. Qed.

(** C18 holds for extended capabilities placed at register 256 and up. *)
Theorem C18_ext_visible_partial : forall caps ext c r, no_overlap ext -> In c ext -> occupies c r -> 256 <= r < 4096 ->
  read_config_cap caps ext r = extcap_read_register c (r - c_off c).
Proof. exact ext_visible. Qed.
Print Assumptions C18_ext_visible_partial.
Example C18_example :
  (let! l := register_all EXT_CAP_START [] [mkRegop 1 1 (Some 4) (fun r => 0x55) (Some 0x100); mkRegop 3 2 (Some 4) (fun r => 0x66) (Some 0x110)] in
   let! v := read_config_cap [] l 0x100 in let! w := read_config_cap [] l 0x112 in Ok (v, w)) = Ok (0x44010001, 0x66).
Proof. vm_compute. reflexivity. Qed.
