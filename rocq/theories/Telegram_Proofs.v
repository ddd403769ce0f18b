(** Proofs about the telegram header accessors. *)
From Verif Require Import Base Bits Telegram_Model Telegram_Spec.

Lemma telegram_ok_wr t i x : telegram_ok t -> is_byte x -> telegram_ok (wr t i x).
Proof. intros [L F] Hx. split. rewrite wr_length; auto. apply Forall_wr; auto. Qed.

Lemma HIGH_BYTE_byte v : is_byte (HIGH_BYTE v). Proof. apply u8_byte. Qed.
Lemma lowByte_byte v : is_byte (lowByte v).
Proof. unfold lowByte. rewrite land_255. apply u8_byte. Qed.

Lemma word_roundtrip a : is_u16 a -> u16 (Z.lor (Z.shiftl (HIGH_BYTE a) 8) (lowByte a)) = a.
Proof.
  intros H. rewrite word_bytes by apply lowByte_byte.
  unfold HIGH_BYTE, lowByte. rewrite land_255, Z.shiftr_div_pow2 by lia. unfold u8, u16, is_u16 in *.
  change (2^8) with 256. rewrite (Z.mod_small (a/256)).
  - rewrite Z.mod_small; pose proof (Z.div_mod a 256); lia.
  - split. apply Z.div_pos; lia. apply Z.div_lt_upper_bound; lia.
Qed.

Lemma word_split h l : is_byte h -> is_byte l -> u16 (Z.lor (Z.shiftl h 8) l) = h * 256 + l.
Proof. intros Hh Hl. rewrite word_bytes by auto. unfold u16, is_byte in *. apply Z.mod_small; lia. Qed.

Lemma senderAddress_u16 t : is_u16 (senderAddress t). Proof. apply u16_u16. Qed.
Lemma destinationAddress_u16 t : is_u16 (destinationAddress t). Proof. apply u16_u16. Qed.

Lemma only_bits_wr t i mask x :
  telegram_ok t -> (i < length t)%nat -> is_byte x ->
  (forall k, Z.testbit mask k = false -> Z.testbit x k = Z.testbit (rd t i) k) ->
  only_bits_of_byte i mask t (wr t i x).
Proof.
  intros Hok Hi Hx Hb. split. now apply telegram_ok_wr. split. apply wr_length. split.
  - intros j Hj. apply rd_wr_other; auto.
  - intros k Hk. rewrite rd_wr_same by auto. auto.
Qed.

(** bit sweeps on the control byte *)
Definition bits8 := range_Z 8.
Definition agree_outside (mask a b : Z) : bool :=
  forallb (fun k => Z.testbit mask k || Bool.eqb (Z.testbit a k) (Z.testbit b k)) bits8.
Lemma agree_outside_spec mask a b : is_byte a -> is_byte b -> agree_outside mask a b = true ->
  forall k, Z.testbit mask k = false -> Z.testbit a k = Z.testbit b k.
Proof.
  intros Ha Hb H k Hk.
  destruct (Z.lt_ge_cases k 0). { rewrite !Z.testbit_neg_r; auto. }
  destruct (Z.lt_ge_cases k 8).
  - unfold agree_outside in H. pose proof (range_forall 8 _ H k ltac:(lia)) as E. simpl in E.
    rewrite Hk in E. simpl in E. apply Bool.eqb_prop in E. auto.
  - rewrite !byte_bits_above; auto.
Qed.

Definition byteb (z : Z) : bool := (0 <=? z) && (z <? 256).
Lemma byteb_spec z : byteb z = true -> is_byte z.
Proof. unfold byteb, is_byte. lia. Qed.

Ltac sweep1 f b := let H := fresh in pose proof (byte_forall f ltac:(vm_compute; reflexivity) b) as H.

Lemma setPriority_law t p : telegram_ok t -> 0 <= p < 4 ->
  priority (setPriority t p) = p /\ only_bits_of_byte 0 0x0C t (setPriority t p).
Proof.
  intros Hok Hp. destruct (Hok) as [L F].
  assert (B : is_byte (controlByte t)) by (apply rd_byte; auto).
  set (c := controlByte t) in *.
  set (x := Z.lor (u8 (Z.shiftl p 2)) (Z.land c 0xF3)).
  assert (S : (byteb x && (Z.land (Z.shiftr x 2) 3 =? p) && agree_outside 0x0C x c)%bool = true).
  { unfold x. assert (forall c, is_byte c ->
      forallb (fun p => let x := Z.lor (u8 (Z.shiftl p 2)) (Z.land c 0xF3) in
         byteb x && (Z.land (Z.shiftr x 2) 3 =? p) && agree_outside 0x0C x c)%bool (range_Z 4) = true) as A.
    { intros. refine (byte_forall (fun c => forallb _ _) _ _ H). vm_compute. reflexivity. }
    apply (range_forall 4 _ (A c B) p). lia. }
  apply andb_prop in S as [S1 S3]. apply andb_prop in S1 as [S1 S2].
  apply byteb_spec in S1. split.
  - unfold priority, controlByte, setPriority. rewrite rd_wr_same by lia. fold c x. lia.
  - unfold setPriority. fold c x. apply only_bits_wr; auto; try lia.
    apply agree_outside_spec; auto.
Qed.

Lemma setRepeated_law t r : telegram_ok t ->
  isRepeated (setRepeated t r) = r /\ only_bits_of_byte 0 0x20 t (setRepeated t r).
Proof.
  intros Hok. destruct (Hok) as [L F].
  assert (B : is_byte (controlByte t)) by (apply rd_byte; auto).
  set (c := controlByte t) in *.
  set (x := if r then Z.land c 0xDF else Z.lor c 0x20).
  assert (S : (byteb x && Bool.eqb (Z.land x 0x20 =? 0) r && agree_outside 0x20 x c)%bool = true).
  { unfold x. destruct r.
    - refine (byte_forall (fun c => byteb (Z.land c 0xDF) && Bool.eqb (Z.land (Z.land c 0xDF) 0x20 =? 0) true && agree_outside 0x20 (Z.land c 0xDF) c)%bool _ _ B). vm_compute; reflexivity.
    - refine (byte_forall (fun c => byteb (Z.lor c 0x20) && Bool.eqb (Z.land (Z.lor c 0x20) 0x20 =? 0) false && agree_outside 0x20 (Z.lor c 0x20) c)%bool _ _ B). vm_compute; reflexivity. }
  apply andb_prop in S as [S1 S3]. apply andb_prop in S1 as [S1 S2].
  apply byteb_spec in S1. apply Bool.eqb_prop in S2. split.
  - unfold isRepeated, controlByte, setRepeated. rewrite rd_wr_same by lia. fold c x. exact S2.
  - unfold setRepeated. fold c x. apply only_bits_wr; auto; try lia.
    apply agree_outside_spec; auto.
Qed.

Lemma setFrameType_law t f : telegram_ok t ->
  frameType (setFrameType t f) = f /\ only_bits_of_byte 0 0x80 t (setFrameType t f).
Proof.
  intros Hok. destruct (Hok) as [L F].
  assert (B : is_byte (controlByte t)) by (apply rd_byte; auto).
  set (c := controlByte t) in *.
  set (x := match f with FRAME_EXTENDED => Z.land c 0x7F | FRAME_STANDARD => Z.lor c 0x80 end).
  assert (S : (byteb x && Bool.eqb (Z.land x 0x80 =? 0) (match f with FRAME_EXTENDED => true | _ => false end) && agree_outside 0x80 x c)%bool = true).
  { unfold x. destruct f.
    - refine (byte_forall (fun c => byteb (Z.lor c 0x80) && Bool.eqb (Z.land (Z.lor c 0x80) 0x80 =? 0) false && agree_outside 0x80 (Z.lor c 0x80) c)%bool _ _ B). vm_compute; reflexivity.
    - refine (byte_forall (fun c => byteb (Z.land c 0x7F) && Bool.eqb (Z.land (Z.land c 0x7F) 0x80 =? 0) true && agree_outside 0x80 (Z.land c 0x7F) c)%bool _ _ B). vm_compute; reflexivity. }
  apply andb_prop in S as [S1 S3]. apply andb_prop in S1 as [S1 S2].
  apply byteb_spec in S1. apply Bool.eqb_prop in S2. split.
  - unfold frameType, controlByte, setFrameType. rewrite rd_wr_same by lia. fold c x. rewrite S2.
    destruct f; auto.
  - unfold setFrameType. fold c x. apply only_bits_wr; auto; try lia.
    apply agree_outside_spec; auto.
Qed.

Lemma setSenderAddress_law t a : telegram_ok t -> is_u16 a ->
  senderAddress (setSenderAddress t a) = a /\ only_two_bytes 1 t (setSenderAddress t a).
Proof.
  intros Hok Ha. destruct (Hok) as [L F]. unfold setSenderAddress. split; [|split; [|split]].
  - unfold senderAddress. rewrite rd_wr_other by lia. rewrite rd_wr_same by lia.
    rewrite rd_wr_same by (rewrite wr_length; lia). now apply word_roundtrip.
  - apply telegram_ok_wr; [apply telegram_ok_wr|]; auto using HIGH_BYTE_byte, lowByte_byte.
  - rewrite !wr_length; auto.
  - intros. rewrite !rd_wr_other by lia. auto.
Qed.

Lemma setDestinationAddress_law t a : telegram_ok t -> is_u16 a ->
  destinationAddress (setDestinationAddress t a) = a /\ only_two_bytes 3 t (setDestinationAddress t a).
Proof.
  intros Hok Ha. destruct (Hok) as [L F]. unfold setDestinationAddress. split; [|split; [|split]].
  - unfold destinationAddress, makeWord. rewrite rd_wr_other by lia. rewrite rd_wr_same by lia.
    rewrite rd_wr_same by (rewrite wr_length; lia). now apply word_roundtrip.
  - apply telegram_ok_wr; [apply telegram_ok_wr|]; auto using HIGH_BYTE_byte, lowByte_byte.
  - rewrite !wr_length; auto.
  - intros. rewrite !rd_wr_other by lia. auto.
Qed.

(** byte 6 with sequence number n and other bits of b *)
Definition seq_byte (b n : Z) : Z := Z.lor (Z.lor (Z.land b 0xC3) (u8 (Z.shiftl n 2))) 0x40.

Lemma seq_byte_facts b n : is_byte b -> 0 <= n < 16 ->
  is_byte (seq_byte b n) /\ Z.shiftr (Z.land (seq_byte b n) 0x3c) 2 = n /\
  Z.testbit (seq_byte b n) 6 = true /\
  (forall k, Z.testbit 0x7C k = false -> Z.testbit (seq_byte b n) k = Z.testbit b k) /\
  ((seq_byte b n =? 255) = ((n =? 15) && (Z.land b 0x83 =? 0x83)))%bool.
Proof.
  intros Hb Hn.
  assert (forall c, is_byte c -> forallb (fun n => let x := seq_byte c n in
    byteb x && (Z.shiftr (Z.land x 0x3c) 2 =? n) && Z.testbit x 6 && agree_outside 0x7C x c
    && Bool.eqb (x =? 255) ((n =? 15) && (Z.land c 0x83 =? 0x83)))%bool (range_Z 16) = true) as A.
  { intros. refine (byte_forall (fun c => forallb _ _) _ _ H). vm_compute. reflexivity. }
  pose proof (range_forall 16 _ (A b Hb) n ltac:(lia)) as S. cbv zeta in S.
  rewrite !andb_true_iff in S. destruct S as [[[[S1 S2] S3] S4] S5].
  apply byteb_spec in S1. apply Bool.eqb_prop in S5. repeat split; try (unfold is_byte in S1; lia); auto.
  apply agree_outside_spec; auto.
Qed.

Lemma setSequenceNumber_law t n : telegram_ok t -> 0 <= n < 16 ->
  ~ (n = 15 /\ Z.land (rd t 6) 0x83 = 0x83) ->
  sequenceNumber (setSequenceNumber t n) = n /\ only_bits_of_byte 6 0x7C t (setSequenceNumber t n).
Proof.
  intros Hok Hn Hx. destruct (Hok) as [L F].
  assert (B : is_byte (rd t 6)) by (apply rd_byte; auto).
  destruct (seq_byte_facts _ _ B Hn) as (S1 & S2 & S3 & S4 & S5).
  split.
  - unfold sequenceNumber, setSequenceNumber. rewrite rd_wr_same by lia.
    change (Z.lor (Z.lor (Z.land (rd t 6) 0xC3) (u8 (Z.shiftl n 2))) T_SEQUENCED_COMMAND) with (seq_byte (rd t 6) n).
    rewrite S5. destruct (n =? 15) eqn:E1, (Z.land (rd t 6) 131 =? 131) eqn:E2; simpl; auto; lia.
  - unfold setSequenceNumber.
    change (Z.lor (Z.lor (Z.land (rd t 6) 0xC3) (u8 (Z.shiftl n 2))) T_SEQUENCED_COMMAND) with (seq_byte (rd t 6) n).
    apply only_bits_wr; auto; lia.
Qed.

Lemma sequenceNumber_range t : Forall is_byte t -> 0 <= sequenceNumber t < 16 \/ sequenceNumber t = 255.
Proof.
  intros F. unfold sequenceNumber. destruct (rd t 6 =? 255); auto. left.
  pose proof (byte_forall (fun b => (0 <=? Z.shiftr (Z.land b 60) 2) && (Z.shiftr (Z.land b 60) 2 <? 16))%bool
    ltac:(vm_compute; reflexivity) _ (rd_byte t 6 F)). lia.
Qed.

Lemma initLpdu_law t p r f : telegram_ok t -> 0 <= p < 4 ->
  let t' := initLpdu t p r f in
  priority t' = p /\ isRepeated t' = r /\ frameType t' = f /\
  only_bits_of_byte 0 0xFF t t'.
Proof.
  intros Hok Hp. cbv zeta. unfold initLpdu.
  set (t0 := wr t 0 0xB0).
  assert (ok0 : telegram_ok t0) by (apply telegram_ok_wr; auto; red; lia).
  destruct (setRepeated_law t0 r ok0) as [R1 (ok1 & L1 & O1 & B1)]. set (t1 := setRepeated t0 r) in *.
  destruct (setPriority_law t1 p ok1 Hp) as [P1 (ok2 & L2 & O2 & B2)]. set (t2 := setPriority t1 p) in *.
  destruct (setFrameType_law t2 f ok2) as [F1 (ok3 & L3 & O3 & B3)]. set (t3 := setFrameType t2 f) in *.
  assert (E3 : forall k, k <> 7 -> Z.testbit (rd t3 0) k = Z.testbit (rd t2 0) k).
  { intros k Hk. apply B3. destruct (Z.lt_ge_cases k 0). rewrite Z.testbit_neg_r; auto.
    destruct (Z.lt_ge_cases k 8). assert (k=0\/k=1\/k=2\/k=3\/k=4\/k=5\/k=6) by lia.
    repeat (destruct H1 as [->|H1]; [reflexivity|]); subst k; reflexivity. apply byte_bits_above; auto; red; lia. }
  split; [|split; [|split]]; auto.
  - rewrite <- P1. unfold priority, controlByte. apply Z.bits_inj'. intros k Hk.
    rewrite !Z.land_spec, !Z.shiftr_spec by lia.
    destruct (Z.lt_ge_cases k 2).
    + rewrite E3 by lia. auto.
    + rewrite (bits_above_lt 3 2 k) by lia. rewrite !andb_false_r. auto.
  - rewrite <- R1. unfold isRepeated, controlByte.
    replace (Z.land (rd t3 0) 32) with (Z.land (rd t1 0) 32); auto.
    apply Z.bits_inj'. intros k Hk. rewrite !Z.land_spec.
    destruct (Z.eq_dec k 5) as [->|].
    + rewrite E3 by lia. rewrite (B2 5) by reflexivity. auto.
    + replace (Z.testbit 32 k) with false. rewrite !andb_false_r; auto.
      destruct (Z.lt_ge_cases k 8). assert (k=0\/k=1\/k=2\/k=3\/k=4\/k=6\/k=7) by lia.
      repeat (destruct H0 as [->|H0]; [reflexivity|]); subst k; reflexivity. rewrite byte_bits_above; auto; red; lia.
  - split; auto. split. { rewrite L3, L2, L1. unfold t0. apply wr_length. }
    split. { intros. rewrite O3, O2, O1 by auto. apply rd_wr_other; auto. }
    intros k Hk. destruct (Z.lt_ge_cases k 0). rewrite !Z.testbit_neg_r; auto.
    destruct (Z.lt_ge_cases k 8). exfalso. assert (k=0\/k=1\/k=2\/k=3\/k=4\/k=5\/k=6\/k=7) by lia.
    repeat (destruct H1 as [->|H1]; [discriminate|]); subst k; discriminate.
    rewrite !byte_bits_above; auto; apply rd_byte; [apply Hok|apply ok3].
Qed.

Lemma apciCommand_setApciCommand t cmd add : telegram_ok t -> 0 <= cmd < 0x400 -> is_byte add ->
  u16 (Z.lor (Z.shiftl (Z.land (rd (setApciCommand t cmd add) 6) 3) 8) (rd (setApciCommand t cmd add) 7))
  = Z.lor cmd add.
Proof.
  intros Hok Hc Ha. destruct (Hok) as [L F]. unfold setApciCommand.
  set (t1 := wr (wr t 6 (HIGH_BYTE cmd)) 7 (lowByte cmd)).
  assert (rd t1 7 = lowByte cmd) as E7 by (unfold t1; rewrite rd_wr_same by (rewrite wr_length; lia); auto).
  rewrite E7. rewrite (rd_wr_same t1) by (unfold t1; rewrite !wr_length; lia).
  rewrite rd_wr_other by lia. unfold t1. rewrite rd_wr_other by lia. rewrite rd_wr_same by lia.
  assert (Z.land (HIGH_BYTE cmd) 3 = HIGH_BYTE cmd) as ->.
  { unfold HIGH_BYTE. rewrite Z.shiftr_div_pow2 by lia. change (2^8) with 256. unfold u8.
    assert (0 <= cmd / 256 < 4). { split. apply Z.div_pos; lia. apply Z.div_lt_upper_bound; lia. }
    rewrite (Z.mod_small (cmd/256) 256) by lia.
    change 3 with (Z.ones 2). rewrite Z.land_ones by lia. apply Z.mod_small; lia. }
  rewrite Z.lor_assoc.
  assert (E : Z.lor (Z.shiftl (HIGH_BYTE cmd) 8) (lowByte cmd) = cmd).
  { pose proof (word_roundtrip cmd) as W. unfold is_u16, u16 in W. rewrite Z.mod_small in W. apply W; lia.
    rewrite word_bytes by apply lowByte_byte.
    unfold HIGH_BYTE, u8. rewrite Z.shiftr_div_pow2 by lia. change (2^8) with 256.
    pose proof (lowByte_byte cmd) as X. red in X.
    pose proof (Z.mod_pos_bound (cmd/256) 256). lia. }
  rewrite E. unfold u16. apply Z.mod_small.
  pose proof (lor_lt_pow2 cmd add 16). unfold is_byte in Ha. change (2^16) with 65536 in H. lia.
Qed.
