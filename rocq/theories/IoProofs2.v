(** Lemmas: I/O and configuration requests and their handlers. *)
From Verif Require Import PyBase BitLemmas TlpModel TlpSpec TlpProofs BarModel SplitModel SplitSpec SplitProofs SplitProofs2 IoModel IoSpec IoProofs.
From Coq Require Import ZifyBool ZifyNat.
Ltac Zify.zify_post_hook ::= Z.div_mod_to_equations.

(** ---- one-DWORD requests ---- *)
Lemma lane_sel t j : t_length t = 1 -> 0 <= j < 4 -> Z.testbit (t_first_be t) j = tlp_selects t (t_address t + j).
Proof. intros HL Hj. pose proof (selects_lane t 0 j ltac:(lia) Hj) as HX. replace (t_address t + 4 * 0 + j) with (t_address t + j) in HX by lia. rewrite HX. reflexivity. Qed.

Lemma req_facts addr k h : 1 <= k <= 4 - addr mod 4 -> let t := fst (set_be addr k h) in
  t_address t = 4 * (addr / 4) /\ t_length t = 1 /\ t_last_be t = 0 /\ 0 < t_first_be t < 16 /\ same_except_be t h /\ t_data t = t_data h /\
  (forall a, tlp_selects t a = true <-> addr <= a < addr + k) /\
  (forall j, 0 <= j < 4 -> (Z.testbit (t_first_be t) j = true <-> addr <= 4 * (addr / 4) + j < addr + k)).
Proof.
  intros Hk t. pose proof (set_be_spec addr k h ltac:(lia)) as (S1 & S2 & S3 & S4). fold t in S1, S2, S3, S4.
  pose proof (set_be_address addr k h) as HA. pose proof (set_be_length addr k h) as HL. fold t in HA, HL.
  assert (EL : be_len addr k = 1) by (unfold be_len; lia). rewrite EL in HL.
  pose proof (set_be_legal addr k h ltac:(lia)) as (B1 & B2 & B3 & B4 & B5). fold t in B1, B2, B3, B4, B5.
  assert (HA' : t_address t = 4 * (addr / 4)) by (rewrite HA; lia).
  assert (HD : t_data t = t_data h) by (unfold t, set_be; cbn [fst]; destruct (_ =? 1); reflexivity).
  do 7 (split; [first [assumption|lia|auto]|]). intros j Hj. rewrite lane_sel by assumption. rewrite HA'. apply S1.
Qed.

Lemma data_facts addr d h : d <> [] -> Forall is_byte d -> zlen d <= 4 - addr mod 4 -> exists t w, set_be_data addr d h = Ok t /\ t_data t = [w] /\ 0 <= w < 2^32 /\
  t_address t = 4 * (addr / 4) /\ t_length t = 1 /\ t_last_be t = 0 /\ 0 < t_first_be t < 16 /\ same_except_be t h /\
  (forall a, tlp_selects t a = true <-> addr <= a < addr + zlen d) /\
  (forall j, 0 <= j < 4 -> (Z.testbit (t_first_be t) j = true <-> addr <= 4 * (addr / 4) + j < addr + zlen d)) /\
  (forall j, 0 <= j < 4 -> Z.testbit (t_first_be t) j = true -> nth (Z.to_nat j) (le_bytes 4 w) 0 = nth (Z.to_nat (4 * (addr / 4) + j - addr)) d 0) /\
  (forall m a, apply_write m t a = mem_store m addr d a).
Proof.
  intros Hne HB Hl. assert (Hlen: 0 < zlen d) by (destruct d; [congruence|unfold zlen; cbn [length]; lia]).
  destruct (set_be_data_ok addr d h Hne HB) as (t & H1 & H2 & H3 & H4 & H5).
  destruct (set_be_data_spec addr d h Hne HB) as (t' & pay & H1' & H2' & H3' & H4' & H6 & H7 & H8 & H9 & H10).
  rewrite H1 in H1'. injection H1' as <-.
  assert (EL : be_len addr (zlen d) = 1) by (unfold be_len; lia). rewrite EL in H4.
  destruct (t_data t) as [|w [|w2 ds]] eqn:ED; [unfold zlen in H4; cbn in H4; lia| |unfold zlen in H4; cbn [length] in H4; lia].
  destruct (req_facts addr (zlen d) h ltac:(lia)) as (Q1 & Q2 & Q3 & Q4 & Q5 & Q6 & Q7 & Q8).
  exists t, w. split; [exact H1|]. split; [exact ED|]. split; [now inversion H5|].
  assert (EF : t_first_be t = t_first_be (fst (set_be addr (zlen d) h))) by (rewrite H3; reflexivity).
  assert (EB : t_last_be t = t_last_be (fst (set_be addr (zlen d) h))) by (rewrite H3; reflexivity).
  assert (HL : t_length t = 1) by (rewrite H3; exact EL).
  assert (HP : payload t = pay) by now apply payload_get_data.
  split; [exact H6|]. split; [exact HL|]. split; [congruence|]. split; [rewrite EF; exact Q4|]. split; [exact H7|]. split; [exact H8|].
  split; [intros j Hj; rewrite EF; apply Q8; assumption|]. split.
  - intros j Hj HT. rewrite EF in HT. apply Q8 in HT; [|assumption]. specialize (H9 (4 * (addr / 4) + j) HT). rewrite H6 in H9.
    replace (4 * (addr / 4) + j - 4 * (addr / 4)) with j in H9 by lia. rewrite <- H9, <- HP. unfold payload. rewrite ED. cbn [flat_map]. now rewrite app_nil_r.
  - intros m a. unfold apply_write, write_effect, mem_store. fold (tlp_selects t a). rewrite HP.
    destruct ((addr <=? a) && (a <? addr + zlen d)) eqn:E.
    + rewrite (proj2 (H8 a)) by lia. apply H9. lia.
    + destruct (tlp_selects t a) eqn:E'; [|reflexivity]. apply H8 in E'. lia.
Qed.

Lemma np_check t f ty : t_fmt_type t = (f, ty) -> f = 0 \/ f = 2 -> ty = 2 \/ ty = 4 \/ ty = 5 -> t_length t = 1 -> t_last_be t = 0 -> (f = 2 -> zlen (t_data t) = 1) -> tlp_check t = true.
Proof.
  intros HT HF Hty HL HB HD. unfold tlp_check. unfold t_fmt_type in *. injection HT as E1 E2. rewrite E1, E2, HL, HB.
  destruct HF as [-> | ->]; [|rewrite HD by reflexivity]; destruct Hty as [-> | [-> | ->]]; reflexivity.
Qed.

(** ---- the I/O scan ---- *)
Lemma io_scan_spec rd b m : (forall so n, 0 <= so -> 1 <= n -> so + n <= 4 -> rd so n = Ok (mem_load b so n)) -> 0 <= m < 16 -> (forall k, is_byte (b k)) ->
  exists d, io_scan rd m = Ok d /\ length d = 4%nat /\ Forall is_byte d /\
    forall k, 0 <= k < 4 -> nth (Z.to_nat k) d 0 = if Z.testbit m k then b k else 0.
Proof.
  intros Hrd Hm Hb.
  assert (E : m = 0 \/ m = 1 \/ m = 2 \/ m = 3 \/ m = 4 \/ m = 5 \/ m = 6 \/ m = 7 \/ m = 8 \/ m = 9 \/ m = 10 \/ m = 11 \/ m = 12 \/ m = 13 \/ m = 14 \/ m = 15) by lia.
  assert (Hz : is_byte 0) by (unfold is_byte; lia). clear Hm.
  Ltac scan_step Hrd :=
    unfold io_scan, be_dword, be_flush, be_lane; cbn [Z.land Z.shiftl Pos.iter Pos.land Z.eqb negb bind Pos.eqb Z.add Pos.add Pos.succ Z.mul Pos.mul Pos.Ndouble Pos.Nsucc_double N.to_nat Z.of_N];
    repeat (repeat match goal with |- context [zlen (slice ?z ?a ?c)] => let v := eval vm_compute in (zlen (slice z a c)) in change (zlen (slice z a c)) with v end;
    rewrite ?Hrd by lia; cbn [bind Z.eqb negb Pos.eqb]).
  repeat (destruct E as [-> | E]; [scan_step Hrd; (eexists; split; [reflexivity|]; split; [reflexivity|]; split;
     [ repeat (apply Forall_cons; [first [apply Hb|exact Hz]|]); apply Forall_nil
     | intros k Hk; assert (Ek : k = 0 \/ k = 1 \/ k = 2 \/ k = 3) by lia; destruct Ek as [-> | [-> | [-> | ->]]]; reflexivity ])|]).
  subst m; scan_step Hrd; (eexists; split; [reflexivity|]; split; [reflexivity|]; split;
     [ repeat (apply Forall_cons; [first [apply Hb|exact Hz]|]); apply Forall_nil
     | intros k Hk; assert (Ek : k = 0 \/ k = 1 \/ k = 2 \/ k = 3) by lia; destruct Ek as [-> | [-> | [-> | ->]]]; reflexivity ]).
Qed.

Lemma read_answer_spec comp rd b t : (forall so n, 0 <= so -> 1 <= n -> so + n <= 4 -> rd so n = Ok (mem_load b so n)) -> (forall k, is_byte (b k)) ->
  t_length t = 1 -> 0 <= t_first_be t < 16 ->
  exists c w, io_read_answer comp rd t = Ok [c] /\ t_fmt_type c = (2, 10) /\ t_status c = 0 /\ t_requester_id c = t_requester_id t /\ t_tag c = t_tag t /\ t_completer_id c = comp /\
    t_length c = 1 /\ t_byte_count c = 4 /\ t_data c = [w] /\ 0 <= w < 2^32 /\ tlp_check c = true /\
    (forall k, 0 <= k < 4 -> nth (Z.to_nat k) (le_bytes 4 w) 0 = if Z.testbit (t_first_be t) k then b k else 0).
Proof.
  intros Hrd Hb HL HM. destruct (io_scan_spec rd b (t_first_be t) Hrd HM Hb) as (d & D1 & D2 & D3 & D4).
  destruct (set_data_bytes_ok d (set_completion_data t comp tlp0)) as (ds & S1 & S2 & S4 & S3); [rewrite D2; reflexivity|assumption|].
  unfold zlen in S2. rewrite D2 in S2. destruct ds as [|w [|w2 ds]]; [cbn in S2; lia| |cbn [length] in S2; lia].
  exists (set_length 1 (set_byte_count 4 (set_length 1 (set_data [w] (set_completion_data t comp tlp0))))), w.
  unfold io_read_answer. rewrite HL. change (negb (1 =? 1)) with false. cbv iota zeta. rewrite D1. cbn [bind]. rewrite S1. cbn [bind].
  assert (0 <= w < 2^32) by (inversion S3; assumption).
  assert (HC : tlp_check (set_length 1 (set_byte_count 4 (set_length 1 (set_data [w] (set_completion_data t comp tlp0))))) = true) by reflexivity.
  change (zlen [w]) with 1. unfold send. rewrite HC. cbn [bind].
  repeat (split; [first [reflexivity|assumption|lia]|]). intros k Hk. rewrite <- D4 by assumption. f_equal.
  cbn [flat_map] in S4. rewrite app_nil_r in S4. exact S4.
Qed.

Lemma write_answer_spec {S} comp (wr : S -> Z -> list Z -> result S) (good : S -> Prop) (view : S -> Z -> Z) t w s :
  (forall s o d, good s -> 0 <= o -> o + zlen d <= 4 -> d <> [] -> Forall is_byte d ->
    exists s', wr s o d = Ok s' /\ good s' /\ forall j, view s' j = if (o <=? j) && (j <? o + zlen d) then nth (Z.to_nat (j - o)) d 0 else view s j) ->
  good s -> t_length t = 1 -> t_last_be t = 0 -> t_data t = [w] -> 0 <= w < 2^32 ->
  exists s' c, io_write_answer comp wr t s = Ok (s', [c]) /\ good s' /\
    (forall j, view s' j = if selects 0 1 (t_first_be t) 0 j then nth (Z.to_nat j) (payload t) 0 else view s j) /\
    t_fmt_type c = (0, 10) /\ t_status c = 0 /\ t_requester_id c = t_requester_id t /\ t_tag c = t_tag t /\ t_completer_id c = comp /\ t_byte_count c = 4 /\ tlp_check c = true.
Proof.
  intros Hwr HG HL HB HD Hw. pose proof (payload_bytes t) as HP. rewrite Forall_forall in HP.
  assert (Hpl : zlen (payload t) = 4) by (unfold zlen; rewrite payload_len, HD; reflexivity).
  destruct (be_write_spec wr good view 4 t (payload t) s) as (s' & W1 & W2 & W3); auto; try lia.
  { intros s1 o d G Ho Hod Hne Hincl. apply Hwr; auto. rewrite Forall_forall. auto. }
  exists s', (set_byte_count 4 (set_completion t comp false CPL_STATUS_SC tlp0)).
  unfold io_write_answer. rewrite HL. change (negb (1 =? 1)) with false. cbv iota zeta. rewrite get_data_payload by (rewrite HD; repeat constructor; lia). cbn [bind].
  unfold be_write in W1. rewrite HL in W1. change (1 >? 2) with false in W1. change (1 >? 1) with false in W1. cbv iota in W1.
  destruct (be_dword wr (payload t) (t_first_be t) (0, None, s)) as [st|e]; [|discriminate]. cbn [bind] in *. rewrite W1. cbn [bind].
  rewrite HL, HB in W3. assert (HC : tlp_check (set_byte_count 4 (set_completion t comp false CPL_STATUS_SC tlp0)) = true) by reflexivity.
  unfold send. rewrite HC. cbn [bind].
  split; [reflexivity|]. split; [assumption|]. split; [exact W3|]. repeat (split; [first [reflexivity|assumption]|]). exact HC.
Qed.

(** ---- the endpoint ---- *)
Definition ep_like (e0 : endpoint) (i n : Z) (e : endpoint) : Prop :=
  ep_id e = ep_id e0 /\ ep_mps e = ep_mps e0 /\ ep_bars e = ep_bars e0 /\ zlen (ep_regions e) = zlen (ep_regions e0) /\
  (forall j, j <> Z.to_nat i -> nth j (ep_regions e) ENone = nth j (ep_regions e0) ENone) /\
  exists l, region_contents e i l /\ zlen l = n.
Definition ep_bytes (i b : Z) (e : endpoint) : mem := fun a => match nth (Z.to_nat i) (ep_regions e) ENone with EMem l => mem_of l (a - b) | _ => 0 end.

Lemma ep_read_ok e i l a n : region_contents e i l -> 0 <= a -> 1 <= n -> a + n <= zlen l -> ep_read_region (ep_regions e) i a n = Ok (mem_load (mem_of l) a n).
Proof.
  intros (H1 & H2) Ha Hn He. unfold ep_read_region. rewrite H1. destruct l as [|x l]; [unfold zlen in He; cbn in He; lia|]. now rewrite slice_mem_of by lia.
Qed.

Lemma ep_io_read e0 i b k e t : io_window_at e0 i b k -> ep_like e0 i (2^k) e -> b <= t_address t -> t_address t + 4 <= b + 2^k -> t_length t = 1 -> 0 <= t_first_be t < 16 ->
  exists c w, ep_handle_io_read e t = Ok [c] /\ t_fmt_type c = (2, 10) /\ t_status c = 0 /\ t_requester_id c = t_requester_id t /\ t_tag c = t_tag t /\ t_completer_id c = ep_id e /\
    t_length c = 1 /\ t_byte_count c = 4 /\ t_data c = [w] /\ 0 <= w < 2^32 /\ tlp_check c = true /\
    (forall j, 0 <= j < 4 -> nth (Z.to_nat j) (le_bytes 4 w) 0 = if Z.testbit (t_first_be t) j then ep_bytes i b e (t_address t + j) else 0).
Proof.
  intros (W1 & W2 & W3 & W4) (L1 & L2 & L3 & L4 & L5 & l & LC & LL) Hlo Hhi HL HM.
  unfold ep_handle_io_read. rewrite L3, W4 by lia. cbn [bind].
  destruct (read_answer_spec (ep_id e) (fun so n => ep_read_region (ep_regions e) i (t_address t - b + so) n) (fun j => mem_of l (t_address t - b + j)) t) as (c & w & R); auto.
  - intros so n H1 H2 H3. rewrite (ep_read_ok e i l) by (auto; lia). f_equal. apply mem_load_ext. intros j Hj. f_equal. lia.
  - intros j. apply Forall_byte_mem_of. apply LC.
  - exists c, w. destruct R as (R1 & R2 & R3 & R4 & R5 & R6 & R7 & R8 & R9 & R10 & R11 & R12).
    repeat (split; [assumption|]). intros j Hj. rewrite R12 by assumption. unfold ep_bytes. rewrite (proj1 LC).
    destruct (Z.testbit _ _); [f_equal; lia|reflexivity].
Qed.

Lemma ep_io_write e0 i b k e t w : io_window_at e0 i b k -> ep_like e0 i (2^k) e -> b <= t_address t -> t_address t + 4 <= b + 2^k -> t_length t = 1 -> t_last_be t = 0 -> t_data t = [w] -> 0 <= w < 2^32 ->
  exists e' c, ep_handle_io_write e t = Ok (e', [c]) /\ ep_like e0 i (2^k) e' /\ (forall a, ep_bytes i b e' a = apply_write (ep_bytes i b e) t a) /\
    t_fmt_type c = (0, 10) /\ t_status c = 0 /\ t_requester_id c = t_requester_id t /\ t_tag c = t_tag t /\ t_completer_id c = ep_id e /\ t_byte_count c = 4 /\ tlp_check c = true.
Proof.
  intros (W1 & W2 & W3 & W4) (L1 & L2 & L3 & L4 & L5 & l & (LC1 & LC2) & LL) Hlo Hhi HL HB HD Hw.
  unfold ep_handle_io_write. rewrite L3, W4 by lia. cbn [bind]. set (off := t_address t - b).
  destruct (write_answer_spec (ep_id e) (fun rs o d => ep_write_region rs i (off + o) d)
    (ep_frame (ep_regions e) i (2^k)) (ep_view i off) t w (ep_regions e)) as (rs' & c & A1 & (F1 & F2 & l' & F3 & F4) & A3 & A4); auto.
  { intros. apply (ep_write_ok (ep_regions e) i off (2^k) 4); auto; lia. }
  { split; [reflexivity|]. split; [reflexivity|]. exists l. split; assumption. }
  rewrite A1. cbn [bind fst snd]. exists (set_regions e rs'), c. split; [reflexivity|].
  assert (HV : forall a, mem_of l' (a - b) = apply_write (ep_bytes i b e) t a).
  { intros a. specialize (A3 (a - t_address t)). unfold ep_view in A3. rewrite F3, LC1 in A3.
    replace (off + (a - t_address t)) with (a - b) in A3 by lia. rewrite A3. unfold apply_write, write_effect, ep_bytes. rewrite LC1, HL, HB. now rewrite (selects_shift (t_address t)). }
  split; [|split; [intros a; unfold ep_bytes at 1; cbn [ep_regions set_regions]; rewrite F3; apply HV|exact A4]].
  repeat (split; [first [assumption|cbn; unfold zlen in *; lia]|]). cbn [ep_regions set_regions]. split.
  - intros j Hj. rewrite F2 by assumption. now apply L5.
  - exists l'. split; [|assumption]. split; [exact F3|]. apply Forall_byte_mem_of. intros a. replace a with (a + b - b) by lia. rewrite HV. unfold apply_write, write_effect, ep_bytes. rewrite LC1.
    destruct (selects _ _ _ _ _); [apply Forall_nth_byte, payload_bytes|now apply Forall_byte_mem_of].
Qed.

(** ---- the root complex ---- *)
Definition rc_like (rs0 : list region) (i : nat) (lo hi : Z) (rs : list region) : Prop := regions_wf rs /\ same_map rs rs0 /\ in_region rs i lo hi.

Lemma rc_io_read_ok rs i a n : regions_wf rs -> 1 <= n -> in_region rs i a (a + n) -> rc_read_io_region rs a n = Ok (mem_load (rc_mem rs) a n).
Proof.
  intros Hwf Hn Hin. pose proof (rc_read_region_spec rs i a n Hwf Hn Hin) as H. unfold rc_read_region in H. unfold rc_read_io_region.
  destruct (find_region rs a) as [[j r]|]; [exact H|discriminate].
Qed.
Lemma rc_io_write_ok rs i a d : regions_wf rs -> d <> [] -> in_region rs i a (a + zlen d) -> Forall is_byte d ->
  exists rs', rc_write_io_region rs a d = Ok rs' /\ regions_wf rs' /\ same_map rs' rs /\
    (forall lo hi, in_region rs i lo hi -> in_region rs' i lo hi) /\ forall x, rc_mem rs' x = mem_store (rc_mem rs) a d x.
Proof.
  intros Hwf Hne Hin HB. destruct (rc_write_region_spec rs i a d Hwf Hne Hin HB) as (rs' & H1 & H2). exists rs'. split; [|exact H2].
  unfold rc_write_region in H1. unfold rc_write_io_region. destruct (find_region rs a) as [[j r]|]; [exact H1|discriminate].
Qed.

Lemma rc_h_io_read rs i lo hi t : regions_wf rs -> in_region rs i lo hi -> lo <= t_address t -> t_address t + 4 <= hi -> t_length t = 1 -> 0 <= t_first_be t < 16 ->
  exists c w, rc_handle_io_read rs t = Ok [c] /\ t_fmt_type c = (2, 10) /\ t_status c = 0 /\ t_requester_id c = t_requester_id t /\ t_tag c = t_tag t /\ t_completer_id c = mkId 0 0 0 /\
    t_length c = 1 /\ t_byte_count c = 4 /\ t_data c = [w] /\ 0 <= w < 2^32 /\ tlp_check c = true /\
    (forall j, 0 <= j < 4 -> nth (Z.to_nat j) (le_bytes 4 w) 0 = if Z.testbit (t_first_be t) j then rc_mem rs (t_address t + j) else 0).
Proof.
  intros Hwf Hin Hlo Hhi HL HM. unfold rc_handle_io_read. destruct (Hin (t_address t) ltac:(lia)) as (r & ->).
  apply (read_answer_spec (mkId 0 0 0) (fun so n => rc_read_io_region rs (t_address t + so) n) (fun j => rc_mem rs (t_address t + j)) t); auto.
  - intros so n H1 H2 H3. rewrite (rc_io_read_ok rs i) by (auto; intros a Ha; apply Hin; lia). f_equal. apply mem_load_ext. intros j Hj. f_equal. lia.
  - intros j. now apply rc_mem_byte.
Qed.

Lemma rc_h_io_write rs0 rs i lo hi t w : rc_like rs0 i lo hi rs -> lo <= t_address t -> t_address t + 4 <= hi -> t_length t = 1 -> t_last_be t = 0 -> t_data t = [w] -> 0 <= w < 2^32 ->
  exists rs' c, rc_handle_io_write rs t = Ok (rs', [c]) /\ rc_like rs0 i lo hi rs' /\ (forall a, rc_mem rs' a = apply_write (rc_mem rs) t a) /\
    t_fmt_type c = (0, 10) /\ t_status c = 0 /\ t_requester_id c = t_requester_id t /\ t_tag c = t_tag t /\ t_completer_id c = mkId 0 0 0 /\ t_byte_count c = 4 /\ tlp_check c = true.
Proof.
  intros HL0 Hlo Hhi HL HB HD Hw. pose proof HL0 as (Hwf & Hsm & Hin). unfold rc_handle_io_write. destruct (Hin (t_address t) ltac:(lia)) as (r & ->).
  destruct (write_answer_spec (mkId 0 0 0) (fun rs o d => rc_write_io_region rs (t_address t + o) d) (rc_like rs0 i lo hi)
    (fun rs' j => rc_mem rs' (t_address t + j)) t w rs) as (rs' & c & A1 & A2 & A3 & A4); auto.
  { intros rs1 o d (G1 & G2 & G3) Ho Hod Hne HBd. assert (0 < zlen d) by (destruct d; [congruence|unfold zlen; cbn [length]; lia]).
    destruct (rc_io_write_ok rs1 i (t_address t + o) d G1 Hne) as (rs2 & R1 & R2 & R3 & R4 & R5); auto.
    { intros a Ha. apply G3. lia. }
    exists rs2. split; [assumption|]. split; [split; [assumption|split; [unfold same_map in *; congruence|now apply R4]]|].
    intros j. rewrite R5. unfold mem_store.
    replace ((t_address t + o <=? t_address t + j) && (t_address t + j <? t_address t + o + zlen d)) with ((o <=? j) && (j <? o + zlen d)) by lia.
    replace (t_address t + j - (t_address t + o)) with (j - o) by lia. reflexivity. }
  exists rs', c. split; [exact A1|]. split; [exact A2|]. split; [|exact A4].
  intros a. specialize (A3 (a - t_address t)). cbv beta in A3. replace (t_address t + (a - t_address t)) with a in A3 by lia.
  rewrite A3. unfold apply_write, write_effect. rewrite HL, HB. now rewrite (selects_shift (t_address t)).
Qed.
