(** C36, C37, C66: AXI-Stream frames, source and sink. *)
From Verif Require Import PyBase AxisModel AxisSpec AxisProofs.

Theorem C36_roundtrip_partial : forall m wl f, (1 <= m)%nat -> 0 <= wl -> frame_ok m wl f ->
  exists bs g, af_build m wl f = Ok bs /\ af_parse m wl bs = Ok g /\ arrives m f g.
Proof. exact roundtrip. Qed.
Print Assumptions C36_roundtrip_partial.

Example C36_roundtrip_example :
  let f := mkAf [1; 2; 3; 4; 5] None (TInt 7) TNone (TList [0; 3]) (Some 9) in
  frame_ok 4 8 f /\
  af_build 4 8 f = Ok [mkAb 0x04030201 15 7 0 0; mkAb 5 1 7 0 9] /\
  af_parse 4 8 [mkAb 0x04030201 15 7 0 0; mkAb 5 1 7 0 9] =
    Ok (mkAf [1; 2; 3; 4; 5] (Some [15; 1]) (TList [7; 7]) (TList [0; 0]) (TList [0; 9]) (Some 9)).
Proof.
  split; [|split; vm_compute; reflexivity]. unfold frame_ok. cbn. repeat split; try discriminate; try (repeat constructor; lia).
Qed.

(** An explicit keep that masks data loses it. *)
Theorem C36_keep_refuted : exists m wl f bs g, (1 <= m)%nat /\ 0 < wl /\ af_data f <> [] /\ Forall (fun x => 0 <= x < 2 ^ wl) (af_data f) /\
  af_build m wl f = Ok bs /\ af_parse m wl bs = Ok g /\ af_data g <> af_data f.
Proof.
  exists 2%nat, 8, (mkAf [1; 2] (Some [1]) (TInt 0) (TInt 0) TNone None), [mkAb 0x0201 1 0 0 0], (mkAf [1] (Some [1]) (TList [0]) (TList [0]) (TList [0]) (Some 0)).
  repeat split; try lia; try discriminate; repeat constructor; lia.
Qed.
Print Assumptions C36_keep_refuted.

(** The empty frame splits into no beat, which is not accepted back. *)
Theorem C36_empty_refuted : exists m wl f, (1 <= m)%nat /\ 0 < wl /\ af_data f = [] /\ af_keep f = None /\
  af_build m wl f = Ok [] /\ af_parse m wl [] = Err IndexError.
Proof. exists 2%nat, 8, af_new. repeat split; lia. Qed.
Print Assumptions C36_empty_refuted.

Theorem C37_in_order_partial : forall m wl evs, (1 <= m)%nat -> 0 <= wl -> Forall (frame_ok m wl) (sends evs) ->
  exists s, a_run m wl evs ast0 = Ok s /\
    exists k, (k <= length (sends evs))%nat /\ Forall2 (arrives m) (firstn k (sends evs)) (sk_queue (a_snk s)).
Proof. exact in_order. Qed.
Print Assumptions C37_in_order_partial.

Theorem C37_completes_partial : forall m wl evs, (1 <= m)%nat -> 0 <= wl -> Forall (frame_ok m wl) (sends evs) ->
  exists n s, a_run m wl (evs ++ free_clocks n) ast0 = Ok s /\
    Forall2 (arrives m) (sends evs) (sk_queue (a_snk s)) /\ sr_queue (a_src s) = [].
Proof. exact completes. Qed.
Print Assumptions C37_completes_partial.

Example C37_example :
  let f := mkAf [1; 2; 3] None (TInt 7) (TInt 0) TNone None in
  let g := mkAf [9; 8] (Some [3]) (TList [1]) (TInt 2) (TInt 1) (Some 5) in
  let evs := [ASend f; AEdge false true; ASend g; AEdge true false; AEdge false true; AEdge false false; AEdge false false; AEdge false true; AEdge false false] in
  Forall (frame_ok 2 8) (sends evs) /\ exists s, a_run 2 8 evs ast0 = Ok s /\
    sk_queue (a_snk s) = [mkAf [1; 2; 3] (Some [3; 1]) (TList [7; 7]) (TList [0; 0]) (TList [0; 0]) (Some 0);
                          mkAf [9; 8] (Some [3]) (TList [1]) (TList [2]) (TList [5]) (Some 5)].
Proof.
  split.
  - cbn [sends]. repeat match goal with |- _ /\ _ => split | |- Forall _ _ => constructor | |- frame_ok _ _ _ => unfold frame_ok end; cbn; try discriminate; try lia; try exact I; try reflexivity; try (left; reflexivity); try (right; reflexivity).
  - eexists. split; vm_compute; reflexivity.
Qed.

(** An explicit keep that is not contiguous stops the simulation. *)
Theorem C37_keep_refuted : exists m wl evs, (1 <= m)%nat /\ 0 < wl /\
  Forall (fun f => af_data f <> [] /\ Forall (fun x => 0 <= x < 2 ^ wl) (af_data f)) (sends evs) /\ a_run m wl evs ast0 = Err AssertionError.
Proof.
  exists 4%nat, 8, [ASend (mkAf [1; 2; 3; 4] (Some [5]) (TInt 0) (TInt 0) TNone None); AEdge false false; AEdge false false].
  repeat split; try lia; try reflexivity. repeat constructor; try discriminate; lia.
Qed.
Print Assumptions C37_keep_refuted.

Theorem C66_received_equal_partial : forall m wl f g, frame_ok m wl f -> arrives m f g ->
  (af_lcu f = None \/ (exists u, af_lcu f = Some u /\ u <> 0 /\ forall l, af_user f <> TList l)) -> af_eqb f g = true.
Proof. exact arrives_equal. Qed.
Print Assumptions C66_received_equal_partial.

Example C66_example :
  let f := mkAf [1; 2; 3] None (TInt 7) (TInt 0) (TInt 2) (Some 5) in
  let g := mkAf [1; 2; 3] (Some [3; 1]) (TList [7; 7]) (TList [0; 0]) (TList [2; 5]) (Some 5) in
  frame_ok 2 8 f /\ arrives 2 f g /\ af_eqb f g = true /\ af_eqb f (mkAf [1; 2; 4] (Some [3; 1]) (TList [7; 7]) (TList [0; 0]) (TList [2; 5]) (Some 5)) = false.
Proof.
  cbn zeta. split; [|split; [|split]].
  - unfold frame_ok. repeat match goal with |- _ /\ _ => split | |- Forall _ _ => constructor end; cbn; try discriminate; try lia; try exact I; try reflexivity; try (left; reflexivity); try (right; reflexivity).
  - repeat split; reflexivity.
  - reflexivity.
  - reflexivity.
Qed.

(** last_cycle_user = 0 is not applied, so the frame that arrives is not equal. *)
Theorem C66_zero_last_user_refuted : exists m wl f bs g, frame_ok m wl f /\ af_build m wl f = Ok bs /\ af_parse m wl bs = Ok g /\ af_eqb f g = false.
Proof.
  exists 2%nat, 8, (mkAf [1; 2] None (TInt 0) (TInt 0) (TInt 1) (Some 0)), [mkAb 0x0201 3 0 0 1], (mkAf [1; 2] (Some [3]) (TList [0]) (TList [0]) (TList [1]) (Some 1)).
  split; [|repeat split]. unfold frame_ok. repeat match goal with |- _ /\ _ => split | |- Forall _ _ => constructor end; cbn; try discriminate; try lia; try exact I; try reflexivity; try (left; reflexivity); try (right; reflexivity).
Qed.
Print Assumptions C66_zero_last_user_refuted.

(** A user list and a last_cycle_user that differs from its last entry. *)
Theorem C66_user_list_refuted : exists m wl f bs g, frame_ok m wl f /\ af_build m wl f = Ok bs /\ af_parse m wl bs = Ok g /\ af_eqb f g = false.
Proof.
  exists 1%nat, 8, (mkAf [1; 2] None (TInt 0) (TInt 0) (TList [0; 0]) (Some 1)), [mkAb 1 1 0 0 0; mkAb 2 1 0 0 1], (mkAf [1; 2] (Some [1; 1]) (TList [0; 0]) (TList [0; 0]) (TList [0; 1]) (Some 1)).
  split; [|repeat split]. unfold frame_ok. repeat match goal with |- _ /\ _ => split | |- Forall _ _ => constructor end; cbn; try discriminate; try lia; try exact I; try reflexivity; try (left; reflexivity); try (right; reflexivity).
Qed.
Print Assumptions C66_user_list_refuted.
