(** What the AXI stream source should do (C97, C98), in terms of what is seen at its ports.  Addresses and lengths count words. *)
From Verif Require Import PyBase RtlModel RtlSrcModel.

(** The sizes allowed by the checks of the module, all powers of two: segments, words of a segment, words of a beat. *)
Definition src_ok (p : cl_param) : Prop :=
  exists e1 e2 e3, 0 <= e1 /\ 0 <= e2 /\ 0 <= e3 <= e1 + e2 /\ e1 + e2 <= cl_aw p /\ e3 <= cl_lw p /\ 1 <= cl_ws p /\ 1 <= cl_kw p /\
    cl_segs p = 2 ^ e1 /\ cl_be p = 2 ^ e2 /\ (if cl_ken p then cl_kw p else 1) = 2 ^ e3.
(** Words of a beat. *)
Definition beat_words (p : cl_param) : Z := if cl_ken p then cl_kw p else 1.
(** Not the case in which PART_OFFSET_WIDTH is wrong: more than one word in a beat, or one beat as wide as the RAM. *)
Definition src_wide (p : cl_param) : Prop := 1 < beat_words p \/ cl_segs p * cl_be p = beat_words p.

(** * The RAM: words by address; segment [s] holds at address [A] the words from [(A * segments + s) * words per segment]. *)
Definition seg_word (p : cl_param) (s A l : Z) : Z := (A * cl_segs p + s) * cl_be p + l.
(** The reads not answered yet, by segment, oldest first. *)
Definition ram_q := Z -> list Z.
Definition bit (v n : Z) : bool := Z.testbit v n.
(** The RAM answers in order, with what it contains, and only what was asked. *)
Definition ram_answers (p : cl_param) (mem : Z -> Z) (q : ram_q) (e : src_ev) : Prop :=
  forall s, 0 <= s < cl_segs p -> bit (si_rvalid (se_in e)) s = true ->
    exists A r, q s = A :: r /\ forall l, 0 <= l < cl_be p -> psel (si_rdata (se_in e)) ((s * cl_be p + l) * cl_ws p) (cl_ws p) = mem (seg_word p s A l).
Definition ram_next (q : ram_q) (e : src_ev) : ram_q := fun s =>
  if si_rst (se_in e) then [] else
    (if bit (si_rvalid (se_in e)) s && bit (se_rready e) s then tl (q s) else q s)
    ++ (if bit (se_cvalid e) s && bit (si_cready (se_in e)) s then [se_caddr e s] else []).

(** * Descriptors *)
Definition desc_ok (p : cl_param) (d : cl_desc) : Prop := 0 <= de_addr d < 2 ^ cl_aw p /\ 1 <= de_len d < 2 ^ cl_lw p.
(** Address of word [t] of the block; it starts at a multiple of the beat size. *)
Definition block_word (p : cl_param) (d : cl_desc) (t : Z) : Z := (de_addr d - de_addr d mod beat_words p + t) mod 2 ^ cl_aw p.
(** The beat that starts with word [pos] of the block. *)
Definition beat_is (p : cl_param) (mem : Z -> Z) (d : cl_desc) (pos : Z) (b : cl_beat) : Prop :=
  (forall j, 0 <= j < beat_words p -> pos + j < de_len d -> psel (bt_data b) (j * cl_ws p) (cl_ws p) = mem (block_word p d (pos + j))) /\
  0 <= bt_keep b < 2 ^ cl_kw p /\
  (forall j, 0 <= j < cl_kw p -> bit (bt_keep b) j = if cl_ken p then pos + j <? de_len d else true) /\
  bt_last b = (if cl_last p then de_len d <=? pos + beat_words p else true) /\
  bt_id b = (if cl_id p then me_id (de_meta d) else 0) /\ bt_dest b = (if cl_dest p then me_dest (de_meta d) else 0) /\
  bt_user b = (if cl_user p then me_user (de_meta d) else 0).

(** * The monitor: descriptors whose block is not yet out, words of the first of them that are out, descriptors without status. *)
Record src_mon := mkSm { sm_q : list cl_desc; sm_pos : Z; sm_st : list cl_desc }.
Definition sm0 : src_mon := mkSm [] 0 [].
(** Descriptors without status after this clock. *)
Definition sm_left (m : src_mon) (e : src_ev) : list cl_desc := if se_status e then tl (sm_st m) else sm_st m.
(** A read is for a block, rounded up to beats. *)
Definition read_for (p : cl_param) (s A : Z) (d : cl_desc) : Prop :=
  exists t l, 0 <= t < (de_len d + beat_words p - 1) / beat_words p * beat_words p /\ 0 <= l < cl_be p /\ block_word p d t = seg_word p s A l.
Definition src_shows (p : cl_param) (mem : Z -> Z) (q : ram_q) (m : src_mon) (e : src_ev) : Prop :=
  (se_tvalid e = true -> exists d r, sm_q m = d :: r /\ beat_is p mem d (sm_pos m) (se_beat e)) /\
  (se_status e = true -> exists d r, sm_st m = d :: r /\ se_tag e = me_tag (de_meta d)) /\
  0 <= se_cvalid e < 2 ^ cl_segs p /\
  (forall s, 0 <= s < cl_segs p -> bit (se_cvalid e) s = true -> exists d, In d (sm_left m e) /\ read_for p s (se_caddr e s) d) /\
  (forall s A, 0 <= s < cl_segs p -> In A (q s) -> exists d, In d (sm_left m e) /\ read_for p s A d) /\
  (forall s, bit (se_rready e) s = true -> 0 <= s < cl_segs p /\ bit (si_rvalid (se_in e)) s = true).
Definition src_next (p : cl_param) (m : src_mon) (e : src_ev) : src_mon :=
  let i := se_in e in
  if si_rst i then sm0 else
  let new := if se_ready e && si_valid i then [si_desc i] else [] in
  let '(q, pos) :=
    if se_tvalid e && si_tready i then
      match sm_q m with
      | d :: r => if de_len d <=? sm_pos m + beat_words p then (r, 0) else (sm_q m, sm_pos m + beat_words p)
      | [] => ([], 0)
      end
    else (sm_q m, sm_pos m) in
  mkSm (q ++ new) pos (sm_left m e ++ new).
(** As long as the RAM answers as it should and the descriptors are good, the module behaves. *)
Fixpoint src_follows (p : cl_param) (mem : Z -> Z) (q : ram_q) (m : src_mon) (tr : list src_ev) : Prop :=
  match tr with
  | [] => True
  | e :: r => ram_answers p mem q e -> (se_ready e && si_valid (se_in e) = true -> desc_ok p (si_desc (se_in e))) ->
      src_shows p mem q m e /\ src_follows p mem (ram_next q e) (src_next p m e) r
  end.

(** Outputs not taken are kept. *)
Definition src_kept (e e' : src_ev) : Prop :=
  si_rst (se_in e) = false ->
  (se_tvalid e = true -> si_tready (se_in e) = false -> se_tvalid e' = true /\ se_beat e' = se_beat e) /\
  (forall s, 0 <= s -> bit (se_cvalid e) s = true -> bit (si_cready (se_in e)) s = false -> bit (se_cvalid e') s = true /\ se_caddr e' s = se_caddr e s).

(** * Progress *)
(** A clock in which nothing waits for the surroundings: the RAM takes all commands and answers all reads, the beat is taken. *)
Definition src_good (p : cl_param) (q : ram_q) (e : src_ev) : bool :=
  forallb (fun s => bit (si_cready (se_in e)) s && (match q s with [] => true | _ => bit (si_rvalid (se_in e)) s end)) (map Z.of_nat (seq 0 (Z.to_nat (cl_segs p))))
  && si_tready (se_in e).
(** The RAM and the monitor after a run. *)
Definition src_after (p : cl_param) (tr : list src_ev) : ram_q * src_mon := fold_left (fun '(q, m) e => (ram_next q e, src_next p m e)) tr (fun _ => [], sm0).
(** Number of good clocks in a run, starting with [q]. *)
Fixpoint good_clocks (p : cl_param) (q : ram_q) (tr : list src_ev) : Z :=
  match tr with
  | [] => 0
  | e :: r => (if src_good p q e then 1 else 0) + good_clocks p (ram_next q e) r
  end.
(** Beats not out yet. *)
Definition beats_due (p : cl_param) (m : src_mon) : Z :=
  fold_right (fun d n => (de_len d + beat_words p - 1) / beat_words p + n) 0 (sm_q m) - sm_pos m / beat_words p.
(** The assumptions of [src_follows] at every clock. *)
Fixpoint src_assume (p : cl_param) (mem : Z -> Z) (q : ram_q) (tr : list src_ev) : Prop :=
  match tr with
  | [] => True
  | e :: r => ram_answers p mem q e /\ (se_ready e && si_valid (se_in e) = true -> desc_ok p (si_desc (se_in e))) /\ src_assume p mem (ram_next q e) r
  end.
(** No reset and no new descriptor. *)
Definition src_quiet (tr : list src_ev) : Prop := Forall (fun e => si_rst (se_in e) = false /\ se_ready e && si_valid (se_in e) = false) tr.
(** All blocks are out, the RAM owes nothing, the last status is seen at the latest now. *)
Definition src_done (p : cl_param) (m : src_mon) (q : ram_q) (e : src_ev) : Prop :=
  sm_q m = [] /\ (forall n, 0 <= n < cl_segs p -> q n = []) /\ sm_left m e = [] /\ se_cvalid e = 0.
