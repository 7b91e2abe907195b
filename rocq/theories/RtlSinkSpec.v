(** What the AXI stream sink should do (C99, C100), in terms of what is seen at its ports.  Addresses, lengths and blocks as in RtlSrcSpec. *)
From Verif Require Import PyBase RtlModel RtlSrcModel RtlSrcSpec RtlSinkModel.

(** * Beats *)
(** A beat of the stream that was taken for a descriptor: the descriptor, the words before it, its words and keep bits; with the last one of a descriptor, the status due. *)
Record kbeat := mkKb { kb_desc : cl_desc; kb_pos : Z; kb_data : Z; kb_keep : Z; kb_stat : option sk_status }.
(** The words to write: those kept, inside the block. Without tkeep all words are kept. *)
Definition kept (p : cl_param) (b : kbeat) (j : Z) : bool := (if cl_ken p then bit (kb_keep b) j else true) && (kb_pos b + j <? de_len (kb_desc b)).
Definition word_at (p : cl_param) (b : kbeat) (j : Z) : Z := block_word p (kb_desc b) (kb_pos b + j).
(** The segment of a word. *)
Definition seg_of (p : cl_param) (w : Z) : Z := (w / cl_be p) mod cl_segs p.
Definition words (p : cl_param) : list Z := map Z.of_nat (seq 0 (Z.to_nat (beat_words p))).
(** A word of the beat goes to the segment. *)
Definition uses_seg (p : cl_param) (b : kbeat) (s : Z) : bool := existsb (fun j => kept p b j && (seg_of p (word_at p b j) =? s)) (words p).
(** The write command for a segment writes exactly the words of the beat that belong to the segment. *)
Definition write_is (p : cl_param) (b : kbeat) (s : Z) (c : sk_cmd) : Prop :=
  0 <= kc_be c < 2 ^ cl_be p /\
  (forall j, 0 <= j < beat_words p -> kept p b j = true -> seg_of p (word_at p b j) = s -> exists l, 0 <= l < cl_be p /\ word_at p b j = seg_word p s (kc_addr c) l) /\
  (forall l, 0 <= l < cl_be p -> (bit (kc_be c) l = true <-> exists j, 0 <= j < beat_words p /\ kept p b j = true /\ word_at p b j = seg_word p s (kc_addr c) l)) /\
  (forall j l, 0 <= j < beat_words p -> kept p b j = true -> 0 <= l < cl_be p -> word_at p b j = seg_word p s (kc_addr c) l ->
     psel (kc_data c) (l * cl_ws p) (cl_ws p) = psel (kb_data b) (j * cl_ws p) (cl_ws p)).
(** The number of the first item, from [j], that is not so. *)
Fixpoint lead (f : Z -> bool) (j : Z) (n : nat) : Z := match n with O => j | S n => if f j then lead f (j + 1) n else j end.

(** * The monitor: what the next beat is for; the beats since the last status; for each segment, the beats whose write is not taken by the RAM, the number of writes taken
    and not done, and the number of writes done since the last status. *)
Inductive kcur := CIdle | CWrite (d : cl_desc) (pos : Z) | CDrop.
Record sk_mon := mkMo { mo_cur : kcur; mo_t : list kbeat; mo_w : Z -> list kbeat; mo_n : Z -> Z; mo_d : Z -> Z }.
Definition mo0 : sk_mon := mkMo CIdle [] (fun _ => []) (fun _ => 0) (fun _ => 0).
(** The beats up to the first status due, and those after it. *)
Fixpoint packet (l : list kbeat) : list kbeat := match l with [] => [] | b :: r => match kb_stat b with Some _ => [b] | None => b :: packet r end end.
Fixpoint after_packet (l : list kbeat) : list kbeat := match l with [] => [] | b :: r => match kb_stat b with Some _ => r | None => after_packet r end end.
(** Beats that write to a segment. *)
Definition seg_count (p : cl_param) (l : list kbeat) (s : Z) : Z := Z.of_nat (length (filter (fun b => uses_seg p b s) l)).
Definition kind (b : bool) : Z := if b then 1 else 0.
(** The beat ends the packet. *)
Definition ends (p : cl_param) (i : sk_in) : bool := cl_last p && ki_last i.
(** The beat taken for a descriptor. If it ends the packet the length is that of the packet, else that of the block. *)
Definition beat_of (p : cl_param) (d : cl_desc) (pos : Z) (i : sk_in) : kbeat :=
  let b := mkKb d pos (ki_data i) (ki_keep i) None in
  let st n := Some (mkKt n (me_tag (de_meta d)) (ki_id i) (ki_dest i) (ki_user i)) in
  mkKb d pos (ki_data i) (ki_keep i)
    (if ends p i then st (pos + lead (kept p b) 0 (Z.to_nat (beat_words p))) else if de_len d <=? pos + beat_words p then st (de_len d) else None).
Definition new_beat (p : cl_param) (m : sk_mon) (e : sk_ev) : list kbeat :=
  match mo_cur m with CWrite d pos => if kv_tready e && ki_tvalid (kv_in e) then [beat_of p d pos (kv_in e)] else [] | _ => [] end.
Definition next_cur (p : cl_param) (m : sk_mon) (e : sk_ev) : kcur :=
  let i := kv_in e in
  match mo_cur m with
  | CIdle => if kv_ready e && ki_valid i then CWrite (ki_desc i) 0 else CIdle
  | CWrite d pos =>
      if kv_tready e && ki_tvalid i then
        if ends p i then CIdle else if de_len d <=? pos + beat_words p then (if cl_last p then CDrop else CIdle) else CWrite d (pos + beat_words p)
      else CWrite d pos
  | CDrop => if kv_tready e && ki_tvalid i && ki_last i then CIdle else CDrop
  end.
Definition sk_next (p : cl_param) (m : sk_mon) (e : sk_ev) : sk_mon :=
  let i := kv_in e in
  if ki_rst i then mo0 else
  mkMo (next_cur p m e) ((if kv_status e then after_packet (mo_t m) else mo_t m) ++ new_beat p m e)
    (fun s => (if kv_cvalid e s && bit (ki_cready i) s then tl (mo_w m s) else mo_w m s) ++ filter (fun b => uses_seg p b s) (new_beat p m e))
    (fun s => mo_n m s + kind (kv_cvalid e s && bit (ki_cready i) s) - kind (bit (ki_done i) s))
    (fun s => mo_d m s - (if kv_status e then seg_count p (packet (mo_t m)) s else 0) + kind (bit (ki_done i) s)).
(** Descriptors only between packets, data only for a packet. A status is the one due, and all writes of its packet are done. A write is the oldest one due for the segment. *)
Definition sk_shows (p : cl_param) (m : sk_mon) (e : sk_ev) : Prop :=
  (kv_ready e = true -> mo_cur m = CIdle) /\ (kv_tready e = true -> mo_cur m <> CIdle) /\
  (kv_status e = true -> exists a b r, mo_t m = a ++ b :: r /\ Forall (fun b => kb_stat b = None) a /\ kb_stat b = Some (kv_stat e) /\
     forall s, 0 <= s < cl_segs p -> seg_count p (a ++ [b]) s <= mo_d m s) /\
  (forall s, 0 <= s < cl_segs p -> kv_cvalid e s = true -> exists b r, mo_w m s = b :: r /\ write_is p b s (kv_cmd e s)).
(** The surroundings: writes are done only after they were taken, descriptors are good, and without tkeep the keep bit is tied to one. *)
Definition sk_fair (p : cl_param) (m : sk_mon) (e : sk_ev) : Prop :=
  (forall s, 0 <= s < cl_segs p -> bit (ki_done (kv_in e)) s = true -> 0 < mo_n m s) /\
  (kv_ready e && ki_valid (kv_in e) = true -> desc_ok p (ki_desc (kv_in e))) /\ (cl_ken p = false -> bit (ki_keep (kv_in e)) 0 = true).
Fixpoint sk_follows (p : cl_param) (m : sk_mon) (tr : list sk_ev) : Prop :=
  match tr with
  | [] => True
  | e :: r => sk_fair p m e -> sk_shows p m e /\ sk_follows p (sk_next p m e) r
  end.
(** A write command that is not taken is kept. *)
Definition cmd_kept (e e' : sk_ev) : Prop :=
  ki_rst (kv_in e) = false -> forall s, 0 <= s -> kv_cvalid e s = true -> bit (ki_cready (kv_in e)) s = false -> kv_cvalid e' s = true /\ kv_cmd e' s = kv_cmd e s.

(** * Progress *)
Definition sk_after (p : cl_param) (tr : list sk_ev) : sk_mon := fold_left (sk_next p) tr mo0.
Fixpoint sk_assume (p : cl_param) (m : sk_mon) (tr : list sk_ev) : Prop :=
  match tr with [] => True | e :: r => sk_fair p m e /\ sk_assume p (sk_next p m e) r end.
(** The RAM takes all commands and, in each segment, completes a write if there is one. *)
Definition sk_good (p : cl_param) (m : sk_mon) (e : sk_ev) : bool :=
  forallb (fun s => bit (ki_cready (kv_in e)) s && ((mo_n m s <=? 0) || bit (ki_done (kv_in e)) s)) (map Z.of_nat (seq 0 (Z.to_nat (cl_segs p)))).
Fixpoint sk_goods (p : cl_param) (m : sk_mon) (tr : list sk_ev) : Z :=
  match tr with [] => 0 | e :: r => kind (sk_good p m e) + sk_goods p (sk_next p m e) r end.
(** No reset, no descriptor and no beat taken. *)
Definition sk_quiet (tr : list sk_ev) : Prop :=
  Forall (fun e => ki_rst (kv_in e) = false /\ kv_ready e && ki_valid (kv_in e) = false /\ kv_tready e && ki_tvalid (kv_in e) = false) tr.
(** All writes are done, all status messages given. *)
Definition sk_done (p : cl_param) (m : sk_mon) : Prop := (forall s, 0 <= s < cl_segs p -> mo_w m s = [] /\ mo_n m s = 0) /\ Forall (fun b => kb_stat b = None) (mo_t m).
