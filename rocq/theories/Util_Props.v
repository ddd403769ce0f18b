(** C45 (timeouts), C46 (debouncing), C55 (shift registers), C56 (reversing copy), C58 (hash of the UID), C59 (array search) *)
From Verif Require Import Base Bits Util_Model Util_Spec Util_Proofs.

(** ** C45 *)
(** The 32-bit timeout object answers every query as an ideal timer with an unbounded clock, for every sequence of start,
    stop and query calls; the deadline is start + ms, or 1 ms later if the counter would then show 0. *)
Theorem C45_timeout_is_exact : forall ops, polled 0 ops -> timer_run to_stop ops = ideal_run None ops.
Proof. intros ops H. exact (timer_ideal ops to_stop None 0 eq_refl H). Qed.
Print Assumptions C45_timeout_is_exact.
(** across the wrap of the counter after 49 days: no early, no late, no second expiry *)
Definition wrap_ops : list (Z * timer_op) :=
  [(4294967290, Start 10); (4294967295, Expired); (4294967299, Expired); (4294967300, Started); (4294967300, Expired);
   (4294967301, Expired); (4294967302, Started)].
Example C45_wrap : polled 0 wrap_ops /\ timer_run to_stop wrap_ops = [false; false; true; true; false; false].
Proof. split; [cbn; lia|vm_compute; reflexivity]. Qed.
(** If the application does not look for more than 2^31 ms after the deadline, the expiry is missed (until the counter
    comes round again): the bound in [polled] is needed. *)
Theorem C45_late_query_refuted : exists ops, ideal_run None ops <> timer_run to_stop ops /\
  ops = [(1, Start 10); (1 + 10 + 2^31, Expired)].
Proof. eexists. split; [|reflexivity]. vm_compute. discriminate. Qed.
Print Assumptions C45_late_query_refuted.

(** ** C46 *)
Definition times_before (now : Z) (ops : list deb_op) : Prop :=
  Forall (fun o => match o with Sample t _ _ => t <= now | Init _ => True end) ops.
(** Whenever a call returns something else than the value held before, it returns the level just sampled, and the samples
    immediately before all showed this level, reaching back at least the debounce time. *)
Theorem C46_change_only_after_stable_time : forall valid last ops now v timeout,
  Forall sample_ok (ops ++ [Sample now v timeout]) -> times_before now ops ->
  let d := deb_run (deb_new valid last) ops in
  let result := snd (deb_debounce (u32 now) v timeout d) in
  result <> d_valid d ->
  result = v /\ exists h1 t1 to1 h2, ops = h1 ++ Sample t1 v to1 :: h2 /\ all_samples v h2 /\ t1 + timeout <= now.
Proof.
  intros valid last ops now v timeout Hok Ht d result Hr.
  destruct (deb_only_stable (deb_new valid last) ops now v timeout eq_refl Hok Hr) as (E & h1 & t1 & to1 & h2 & -> & H2 & H3).
  split; auto. exists h1, t1, to1, h2. split; auto. split; auto. apply H3.
  unfold times_before in Ht. apply Forall_app in Ht. destruct Ht as [_ Ht]. inversion Ht; auto.
Qed.
Print Assumptions C46_change_only_after_stable_time.
(** A level that appears at a time at which the counter does not show 0 and then stays is reported at the first call after
    the debounce time (if that comes within 2^31 ms). *)
Theorem C46_stable_level_reported : forall d h t1 v to1 mid now timeout,
  0 <= t1 -> u32 t1 <> 0 -> d_last (deb_run d h) <> v -> all_samples v mid ->
  0 <= timeout -> t1 + timeout <= now < t1 + timeout + 2^31 ->
  snd (deb_debounce (u32 now) v timeout (deb_run d (h ++ Sample t1 v to1 :: mid))) = v.
Proof. exact deb_reports. Qed.
Print Assumptions C46_stable_level_reported.
(** Not every stable level is reported: init(1) sets the value but not the last sample; with the input constantly 0 from
    the beginning the debouncer reports 1 forever. *)
Theorem C46_every_stable_level_reported_refuted : exists d, d = deb_init 1 (deb_new 0 0) /\
  forall times, d_valid (deb_run d (map (fun t => Sample t 0 100) times)) = 1.
Proof.
  eexists. split; [reflexivity|]. intros times. cut (deb_run (deb_init 1 (deb_new 0 0)) (map (fun t => Sample t 0 100) times) = mkDeb 0 1 0).
  { intros ->. reflexivity. }
  unfold deb_run. induction times; cbn [map fold_left]; auto.
Qed.
Print Assumptions C46_every_stable_level_reported_refuted.
(** ... nor is a level that appears exactly when the counter shows 0. *)
Theorem C46_level_at_counter_zero_reported_refuted : exists d, d_last d <> 1 /\
  forall times, d_valid (deb_run d (Sample (2^32) 1 100 :: map (fun t => Sample t 1 100) times)) = 0.
Proof.
  exists (deb_new 0 0). split; [discriminate|]. intros times. cbn [deb_run fold_left].
  change (deb_step (deb_new 0 0) (Sample (2 ^ 32) 1 100)) with (mkDeb 0 0 1).
  cut (fold_left deb_step (map (fun t => Sample t 1 100) times) (mkDeb 0 0 1) = mkDeb 0 0 1); [intros ->; reflexivity|].
  induction times; cbn [map fold_left]; auto.
Qed.
Print Assumptions C46_level_at_counter_zero_reported_refuted.
(** a bouncing contact: levels 1 0 1 1 1, reported after 100 ms of ones *)
Definition bounce : list deb_op := [Sample 5 1 100; Sample 8 0 100; Sample 11 1 100; Sample 60 1 100; Sample 110 1 100].
Example C46_bounce : Forall sample_ok (bounce ++ [Sample 111 1 100]) /\ times_before 111 bounce /\
  d_valid (deb_run (deb_new 0 0) bounce) = 0 /\ snd (deb_debounce (u32 111) 1 100 (deb_run (deb_new 0 0) bounce)) = 1.
Proof. repeat split; repeat constructor; cbn; lia. Qed.

(** ** C55 *)
(** Bit i of the byte is on the data line at the i-th (LSBFIRST) or (7-i)-th rising clock edge; sampling assembles the
    byte the same way; the composition is the identity. *)
Theorem C55_shift_out : forall order v, is_byte v ->
  sampled false false (shiftOut order v) =
  map (fun i => Z.testbit v (match order with LSBFIRST => i | MSBFIRST => 7 - i end)) [0; 1; 2; 3; 4; 5; 6; 7].
Proof. exact shift_out_bits. Qed.
Print Assumptions C55_shift_out.
Theorem C55_shift_in : forall order level, is_byte (shiftIn order level) /\
  forall i, (i < 8)%nat -> Z.testbit (shiftIn order level) (match order with LSBFIRST => Z.of_nat i | MSBFIRST => 7 - Z.of_nat i end) = level i.
Proof. exact shift_in_bits. Qed.
Print Assumptions C55_shift_in.
Theorem C55_shift_round_trip : forall order v, is_byte v ->
  shiftIn order (fun i => nth i (sampled false false (shiftOut order v)) false) = v.
Proof. exact shift_round. Qed.
Print Assumptions C55_shift_round_trip.
Example C55_example : sampled false false (shiftOut MSBFIRST 0xA3) = [true; false; true; false; false; false; true; true].
Proof. reflexivity. Qed.

(** ** C56 *)
Theorem C56_reverse_copy : forall dest src len m x, 0 <= len -> (src + len <= dest \/ dest + len <= src) ->
  reverseCopy dest src len m x = if (dest <=? x) && (x <? dest + len) then m (src + (len - 1 - (x - dest))) else m x.
Proof. exact reverseCopy_spec. Qed.
Print Assumptions C56_reverse_copy.
Theorem C56_reverse_twice : forall a b c len m i, 0 <= i < len ->
  (a + len <= b \/ b + len <= a) -> (b + len <= c \/ c + len <= b) ->
  reverseCopy c b len (reverseCopy b a len m) (c + i) = m (a + i).
Proof.
  intros a b c len m i Hi H1 H2. rewrite reverseCopy_spec by lia.
  destruct (Z.leb_spec c (c + i)), (Z.ltb_spec (c + i) (c + len)); cbn [andb]; try lia.
  rewrite reverseCopy_spec by lia. replace (c + i - c) with i by lia.
  destruct (Z.leb_spec b (b + (len - 1 - i))), (Z.ltb_spec (b + (len - 1 - i)) (b + len)); cbn [andb]; try lia. f_equal. lia.
Qed.
Print Assumptions C56_reverse_twice.
(** With overlapping buffers the copy is not the reversal. *)
Theorem C56_reverse_in_place_refuted : exists m, ~ forall i, 0 <= i < 2 -> reverseCopy 0 0 2 m i = m (1 - i).
Proof. exists (fun x => x). intros H. specialize (H 1 ltac:(lia)). vm_compute in H. discriminate. Qed.
Print Assumptions C56_reverse_in_place_refuted.
Example C56_example : map (reverseCopy 10 1 4 (fun x => 100 + x)) [9; 10; 11; 12; 13; 14] = [109; 104; 103; 102; 101; 114].
Proof. reflexivity. Qed.

(** ** C58 *)
(** For the chip's 16-byte UID the hash is a function of the UID alone (the uninitialised variables do not matter):
    xor of the two halves, each reduced modulo the prime 2^48 - 59. *)
Theorem C58_hash_of_16_bytes : forall ga gb uid n, 0 <= ga < 2^64 -> 0 <= gb < 2^64 -> length uid = 16%nat -> Forall is_byte uid ->
  (1 <= n <= 16)%nat ->
  let h := Z.lxor (number_le (firstn 8 uid) mod (2^48 - 59)) (number_le (skipn 8 uid) mod (2^48 - 59)) in
  exists hash, hashUID ga gb uid (Z.of_nat n) = Some hash /\ length hash = n /\
    forall i, (i < n)%nat -> nth i hash 0 = (h / 2 ^ (8 * Z.of_nat i)) mod 256.
Proof.
  intros ga gb uid n Ha Hb Hl Hu Hn h. unfold hashUID. rewrite Hl.
  destruct (Z.leb_spec (Z.of_nat 16) 0), (Z.ltb_spec 16 (Z.of_nat 16)), (Z.leb_spec (Z.of_nat n) 0), (Z.ltb_spec (Z.of_nat 16) (Z.of_nat n)); cbn [orb]; try lia.
  change (16 / 2)%nat with 8%nat.
  rewrite !load_le_8; auto; try (rewrite firstn_length || rewrite skipn_length; lia).
  2:{ rewrite <- (firstn_skipn 8 uid) in Hu. apply Forall_app in Hu. apply Hu. }
  2:{ rewrite <- (firstn_skipn 8 uid) in Hu. apply Forall_app in Hu. apply Hu. }
  change BigPrime48 with (2 ^ 48 - 59). fold h. eexists. split; [reflexivity|]. rewrite Nat2Z.id. split.
  - rewrite map_length. apply seq_length.
  - intros i Hi. rewrite (nth_indep _ _ ((fun i => Z.land (Z.shiftr h (8 * Z.of_nat i)) 255) 0%nat)) by (rewrite map_length, seq_length; auto).
    rewrite (map_nth (fun i => Z.land (Z.shiftr h (8 * Z.of_nat i)) 255)). rewrite seq_nth by auto. cbn [Nat.add].
    rewrite Z.shiftr_div_pow2 by lia. change 255 with (Z.ones 8). rewrite Z.land_ones by lia. reflexivity.
Qed.
Print Assumptions C58_hash_of_16_bytes.
Example C58_example : let uid := map Z.of_nat (seq 1 16) in
  hashUID 0 (2^64 - 1) uid 6 = hashUID 77 0 uid 6 /\ hashUID 0 0 uid 6 = Some [224; 102; 10; 8; 8; 8] /\ Forall is_byte uid.
Proof. split; [reflexivity|]. split; [vm_compute; reflexivity|]. repeat (apply Forall_cons; [red; vm_compute; split; congruence|]). apply Forall_nil. Qed.
(** For shorter UIDs the claim is false: bytes of uninitialised memory enter the hash (and it differs from start to start). *)
Theorem C58_hash_is_deterministic_refuted : exists uid n ga gb, length uid = 12%nat /\ Forall is_byte uid /\
  0 <= ga < 2^64 /\ 0 <= gb < 2^64 /\ hashUID ga gb uid n <> hashUID 0 0 uid n.
Proof.
  exists (repeat 1 12), 6, (2^48), 0. split; [reflexivity|]. split. { repeat (apply Forall_cons; [red; vm_compute; split; congruence|]). apply Forall_nil. }
  split; [vm_compute; split; congruence|]. split; [vm_compute; split; congruence|]. vm_compute. discriminate.
Qed.
Print Assumptions C58_hash_is_deterministic_refuted.

(** ** C59 *)
Theorem C59_index_of_first : forall val arr count, count <= Z.of_nat (length arr) ->
  let r := indexOf val arr count in
  (r = -1 /\ forall i, 0 <= i < count -> nth (Z.to_nat i) arr 0 <> val) \/
  (0 <= r < count /\ nth (Z.to_nat r) arr 0 = val /\ forall i, 0 <= i < r -> nth (Z.to_nat i) arr 0 <> val).
Proof.
  intros val arr count Hc r. destruct (indexLoop_spec arr val (Z.to_nat count) 0 ltac:(lia)) as [[E K]|(K1 & K2 & K3)].
  - left. split; auto. intros i Hi. apply K. lia.
  - right. split; [unfold r, indexOf; lia|]. split; auto.
Qed.
Print Assumptions C59_index_of_first.
Example C59_example : indexOf 7 [5; 7; 9; 7] 4 = 1 /\ indexOf 9 [5; 7; 9; 7] 2 = -1.
Proof. split; reflexivity. Qed.
