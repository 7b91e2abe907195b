(** C88: the segmented RAMs. *)
From Verif Require Import PyBase RtlModel RtlRamModel RtlRamSpec RtlRamProofs RtlRamProofs2.
From Coq Require Import Lia.

(** Two byte lanes, two segments of eight words, an address bus wider than the memory, two pipeline stages; segment 1. *)
Definition c88_p := mkRp 16 2 4 3 2.
Definition c88_w be a d := mkRi true false (be * 4) (a * 16) (d * 65536) 2 false false 0 0 0.
Definition c88_r a rdy := mkRi false false 0 0 0 0 true false (a * 16) 2 rdy.
Definition c88_i rdy := mkRi true false 0 0 0 0 true false 0 0 rdy.
(** Both clocks at once, to the same word. *)
Definition c88_rw a d := mkRi true false 12 (a * 16) (d * 65536) 2 true false (a * 16) 2 0.
Definition c88_l := [c88_w 3 5 0x1234; c88_w 2 13 0xabcd; c88_r 5 0; c88_rw 5 0x7788; c88_r 5 0; c88_r 5 2; c88_i 2; c88_i 2; c88_i 2].

Theorem C88_answered : forall p n l, ram_ok p -> 0 <= n -> answered p n (ram_trace p n ram0 l).
Proof. intros p n l H1 H2. exact (ram_answered p n H1 H2 l). Qed.
Print Assumptions C88_answered.
Example C88_answered_ex : ram_ok c88_p /\ answers 1 (ram_trace c88_p 1 ram0 c88_l) = [0xab34; 0xab34; 0x7788] /\ map snd (asked c88_p 1 (ram_trace c88_p 1 ram0 c88_l)) = [5; 5; 5].
Proof. split; [unfold ram_ok; cbn; lia | vm_compute; auto]. Qed.

Theorem C88_kept : forall p n l s, ram_ok p -> 0 <= n -> kept n (ram_trace p n s l).
Proof. intros p n l s H1 H2. exact (ram_kept p n H1 H2 l s). Qed.
Print Assumptions C88_kept.
Example C88_kept_ex : map re_valid (ram_trace c88_p 1 ram0 c88_l) = [false; false; false; false; true; true; true; true; false].
Proof. vm_compute. reflexivity. Qed.

Theorem C88_done : forall p n l, ram_ok p -> 0 <= n -> done_ok n (ram_trace p n ram0 l).
Proof. intros p n l H1 H2. exact (ram_done_ok p n H1 H2 l). Qed.
Print Assumptions C88_done.
Example C88_done_ex : map re_done (ram_trace c88_p 1 ram0 c88_l) = [false; true; true; true; true; true; true; false; false].
Proof. vm_compute. reflexivity. Qed.

Theorem C88_ready : forall p n l a e b, ram_ok p -> 0 <= n -> ram_trace p n ram0 l = a ++ e :: b ->
  (re_ready e = true <-> on (ri_rready (re_in e)) n \/ Z.of_nat (length (asked p n a)) < Z.of_nat (length (answers n a)) + rp_pipe p).
Proof. intros p n l a e b H1 H2. exact (ram_ready_ok p n H1 H2 l a e b). Qed.
Print Assumptions C88_ready.
Example C88_ready_ex : map re_ready (ram_trace c88_p 1 ram0 c88_l) = [true; true; true; true; false; true; true; true; true].
Proof. vm_compute. reflexivity. Qed.

Theorem C88_served : forall p n l f, ram_ok p -> 0 <= n -> client_fair n f -> forall k, exists j,
  (length (asked p n (ram_trace p n ram0 (ram_inputs l f k))) <= length (answers n (ram_trace p n ram0 (ram_inputs l f (k + j)))))%nat.
Proof. intros p n l f H1 H2. exact (ram_served p n H1 H2 l f). Qed.
Print Assumptions C88_served.
Example C88_served_ex : client_fair 1 (fun k => c88_i (if Nat.even k then 0 else 2)).
Proof.
  split; [reflexivity|]. intros k. destruct (Nat.even k) eqn:E.
  - exists 1%nat. rewrite Nat.add_1_r, Nat.even_succ, <- Nat.negb_even, E. split; reflexivity.
  - exists 0%nat. rewrite Nat.add_0_r, E. split; reflexivity.
Qed.
