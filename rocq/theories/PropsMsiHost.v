(** C80: the MSI registry of the root complex over several devices. *)
From Verif Require Import PyBase TlpModel PcieIfModel CfgModel MsiModel MsiHostModel MsiHostSpec MsiHostProofs.

(** * C80 *)
(** For every tree of devices and every sequence of configurations, registrations of vectors 0 to 31 and
    interrupts, with at most 2048 devices configured: nothing fails, and each interrupt toggles the
    signal of its own (device, vector), toggles the signals and calls the callbacks registered for that
    (device, vector) since the device was configured, and nothing else; distinct (device, vector) pairs have
    distinct signals, and these are what [msi_get_signal] returns. *)
Theorem C80_delivery_partial : forall tree devs base, NoDup (map ti_id (items tree)) -> 0 <= base < 2^64 -> base mod 4 = 0 -> (forall d, dev_ok base (devs d)) ->
  forall l, Forall op_ok l -> zlen (r_conf (rrun tree (vectors devs) l)) <= 2048 ->
  exists h (own : pcie_id -> Z -> sigid), hrun base (host0 tree devs) l = Ok h /\
    h_log h = map (conc own) (r_log (rrun tree (vectors devs) l)) /\
    (forall d n, conf (rrun tree (vectors devs) l) d = true -> 0 <= n < 32 -> msi_get_signal h d n = Ok (Some (own d n)) /\ forall s, own d n <> User s) /\
    (forall d d' n n', conf (rrun tree (vectors devs) l) d = true -> conf (rrun tree (vectors devs) l) d' = true -> 0 <= n < 32 -> 0 <= n' < 32 -> own d n = own d' n' -> d = d' /\ n = n') /\
    (forall d n, conf (rrun tree (vectors devs) l) d = false -> msi_get_signal h d n = Ok None).
Proof. exact registry. Qed.
Print Assumptions C80_delivery_partial.
(** [configure_msi] reports whether the device exists and has MSI, whatever was done before. *)
Theorem C80_configure_partial : forall tree devs base, NoDup (map ti_id (items tree)) -> 0 <= base < 2^64 -> base mod 4 = 0 -> (forall d, dev_ok base (devs d)) ->
  forall l d, Forall op_ok l -> zlen (r_conf (rrun tree (vectors devs) (l ++ [Configure d]))) <= 2048 ->
  exists h h', hrun base (host0 tree devs) l = Ok h /\ host_configure_msi base h d = Ok (h', has_msi tree d).
Proof. exact configure_value. Qed.
Print Assumptions C80_configure_partial.

Definition mregs (a : attr) : Z :=
  if attr_id a =? attr_id A_bus_master_enable then 1 else if attr_id a =? attr_id A_msi_multiple_message_capable then 5
  else if attr_id a =? attr_id A_msi_64bit_address_capable then 1 else 0.
Definition mdevs (d : pcie_id) : mdev := mkMdev mregs 5 0.
Definition id1 := mkId 1 0 0.
Definition id2 := mkId 2 0 0.
Definition mtree : titem := TItem (mkId 0 0 0) [(0x10, 0x40)] [TItem id1 [(1, 0x48); (5, 0x60)] []; TItem (mkId 0 1 0) [] [TItem id2 [(5, 0x50)] []]].
Definition mops : list hop := [RegSignal id1 9 0; Configure id1; Configure (mkId 0 1 0); Configure id2; Configure id1; RegSignal id1 1 0; RegSignal id2 2 31; RegCallback id2 3 31; Issue id1 0; Issue id2 31; Issue id1 32].
Example C80_example : NoDup (map ti_id (items mtree)) /\ (forall d, dev_ok 0x100 (mdevs d)) /\ Forall op_ok mops /\ zlen (r_conf (rrun mtree (vectors mdevs) mops)) = 2 /\
  r_log (rrun mtree (vectors mdevs) mops) = [SOwn id1 0; SToggle 1; SOwn id2 31; SToggle 2; SCall 3] /\
  (let! h := hrun 0x100 (host0 mtree mdevs) mops in Ok (h_log h)) = Ok [Toggle (Auto 0); Toggle (User 1); Toggle (Auto 63); Toggle (User 2); Call 3].
Proof.
  split; [vm_compute; repeat constructor; cbn; intuition congruence|]. split; [intros d; unfold dev_ok; cbn; repeat split; lia|].
  split; [repeat constructor; lia|]. vm_compute. auto.
Qed.

(** Registrations beyond vector 31 are not rejected: they land on the next device. *)
Theorem C80_number_refuted : exists l h, hrun 0x100 (host0 mtree mdevs) l = Ok h /\ l = [Configure id1; Configure id2; RegCallback id1 7 32; Issue id2 0] /\
  In (Call 7) (h_log h).
Proof. exists [Configure id1; Configure id2; RegCallback id1 7 32; Issue id2 0]. eexists. split; [vm_compute; reflexivity|]. split; [reflexivity|]. vm_compute. auto. Qed.

Print Assumptions C80_number_refuted.

(** With 2049 devices the 16 bit message data wraps round: the interrupt of the last device is reported
    as one of the first device. *)
Definition mid (i : nat) : pcie_id := let z := Z.of_nat i in mkId (1 + z / 256) (z / 8 mod 32) (z mod 8).
Definition bigtree : titem := TItem (mkId 0 0 0) [] (map (fun b => TItem (mkId 0 (1 + Z.of_nat b) 0) [] (map (fun i => TItem (mid i) [(5, 0x50)] []) (seq (256 * b) 256))) (seq 0 9)).
Definition bigops : list hop := map (fun i => Configure (mid i)) (seq 0 2049).
Theorem C80_many_refuted : exists s s', s <> s' /\
  (let! h := hrun 0x100 (host0 bigtree mdevs) bigops in
   let! a := msi_get_signal h (mid 0) 0 in let! b := msi_get_signal h (mid 2048) 0 in
   let! h := hstep 0x100 h (Issue (mid 2048) 0) in Ok (a, b, h_log h)) = Ok (Some s, Some s', [Toggle s]).
Proof. exists (Auto 0), (Auto 65536). split; [congruence|]. vm_compute. reflexivity. Qed.
Print Assumptions C80_many_refuted.
