(** The end of a reception keeps the invariant. *)
From Verif Require Import Base Bits Bus_Model Bus_Spec Bus_Frame Bus_Inv Bus_Recv.

Lemma err_bit a k : Z.land a TX_RETRY_ERROR = 0 -> Z.land k TX_RETRY_ERROR = 0 -> Z.land (Z.lor a k) TX_RETRY_ERROR = 0.
Proof. intros H K. now rewrite Z.land_lor_distr_l, H, K. Qed.
Lemma err_set a : Z.land (Z.lor a TX_RETRY_ERROR) TX_RETRY_ERROR <> 0.
Proof. rewrite Z.land_lor_distr_l. change (Z.land TX_RETRY_ERROR TX_RETRY_ERROR) with 128. intro E. apply Z.lor_eq_0_iff in E. destruct E. discriminate. Qed.
(** bus.cpp:506-510 *)
Definition stopWaiting (b : bus) : bus := if waitAck b then set_waitAck false (set_repeatTel true b) else b.
Lemma stop_core L v b b1 :
  core L v b 0 -> (job v <> None -> ~ acked (see v RxEnd)) ->
  rxTel b1 = rxTel b -> telegram b1 = telegram b -> Z.land (txError b1) TX_RETRY_ERROR = 0 -> waitAck b1 = false -> collisions b1 = collisions b -> sendCur b1 = sendCur b ->
  repeatTel b1 = (waitAck b || repeatTel b) -> sendRetries b1 = sendRetries b -> sendBusyRetries b1 = sendBusyRetries b -> telegramLen b1 = telegramLen b ->
  core L (see v RxEnd) b1 0.
Proof.
  unfold core, job_ok, held_ok. fields. intros (C1 & C2 & C3 & C4 & (C5 & C6) & C7) A E1 E2 E3 E4 E5 E6 E7 E8 E9 E10. rewrite E1, E2, E4, E5, E6, E7, E8, E9, E10.
  split; [exact C1|]. split; [exact C2|]. split; [exact E3|]. split; [reflexivity|]. split; [|exact C7]. split; [exact C5|].
  destruct (job v) as [[own t]|]; destruct (sendCur b); auto.
  - destruct C6 as (D1 & D2 & D3 & D4 & D5 & D6 & D7 & D8 & D9 & D10). do 5 (split; [assumption|]).
    split; [intros F; destruct (D6 F) as (F1 & F2 & F3 & F4); rewrite F1, F2; auto|].
    split; [intros F; destruct (D7 F) as (F1 & F2); split; [exact F1|]; left; destruct F2 as [-> | ->]; [apply orb_true_r|reflexivity]|].
    split; [assumption|]. split; [assumption|]. apply A. discriminate.
  - destruct C6 as (D1 & D2 & D3). rewrite D1, D2. auto.
Qed.
Lemma firstn_wr_range (l s : list Z) : (length s <= length l)%nat -> firstn (length s) (wr_range l 0 s) = s.
Proof.
  intros H. apply list_ext with (d := 0).
  - rewrite firstn_length, wr_range_length. lia.
  - intros i Hi. rewrite firstn_length, wr_range_length in Hi. 
    assert (X : nth i (firstn (length s) (wr_range l 0 s)) 0 = nth i (wr_range l 0 s) 0).
    { rewrite <- (firstn_skipn (length s) (wr_range l 0 s)) at 2. rewrite app_nth1; [reflexivity|]. rewrite firstn_length, wr_range_length. lia. }
    rewrite X, nth_wr_range by lia. rewrite Nat.sub_0_r. cbn [Nat.leb Nat.add andb]. destruct (Nat.ltb_spec i (length s)); [reflexivity|lia].
Qed.
Lemma deliver_core L v b x t b1 :
  core L v b x -> (8 <= length t <= largest)%nat ->
  rxTel b1 = rxTel b -> txError b1 = txError b -> waitAck b1 = waitAck b -> collisions b1 = collisions b -> sendCur b1 = sendCur b -> repeatTel b1 = repeatTel b ->
  sendRetries b1 = sendRetries b -> sendBusyRetries b1 = sendBusyRetries b -> telegram b1 = wr_range (telegram b) 0 t -> telegramLen b1 = length t ->
  core L (see v (Deliver t)) b1 x.
Proof.
  unfold core, job_ok, held_ok. fields. intros (C1 & C2 & C3 & C4 & (C5 & C6) & C7) Ht -> -> -> -> -> -> -> -> -> ->.
  rewrite wr_range_length. do 4 (split; [assumption|]). split; [split; [exact C5|]|].
  - destruct (job v) as [[own t1]|]; destruct (sendCur b); auto.
  - split; [reflexivity|]. split; [auto|]. split; [exact Ht|]. apply firstn_wr_range. unfold largest in *. lia.
Qed.

(** what was stored is what was heard *)
Section Rx.
Variables (v : view) (b : bus).
Hypothesis R : receiving v b.
Lemma rx_nth i : (i < nextByteIndex b)%nat -> rd (rxTel b) i = nth i (heard v) 0 /\ rd (rxTel b) i = nth i (firstn (nextByteIndex b) (rxTel b)) 0.
Proof.
  destruct R as (_ & _ & R3 & R4 & _). intros Hi.
  assert (X : forall (l : list Z) n, (i < n)%nat -> nth i l 0 = nth i (firstn n l) 0).
  { intros l. revert i Hi. clear. intros i _. revert l. induction i as [|i IH]; intros [|a l] [|n] H; cbn; try reflexivity; try lia. apply IH. lia. }
  unfold rd. split; [|now apply X]. rewrite (X _ (nextByteIndex b)) by auto. rewrite R4. symmetry. apply X. unfold largest in *. lia.
Qed.
Lemma rx_len : length (rxTel b) = largest -> length (firstn (nextByteIndex b) (rxTel b)) = nextByteIndex b.
Proof. destruct R as (_ & _ & R3 & _). intros H. rewrite firstn_length, H. lia. Qed.
Lemma valid_acceptable : validFrame (valid b && (checksum b =? 0)) b = true -> acceptable (heard v) (sound v) /\ (8 <= nextByteIndex b)%nat.
Proof.
  unfold validFrame, acceptable. rewrite !andb_true_iff, Nat.leb_le, !Z.eqb_eq. intros (((H1 & H2 & H3) & H4) & _). 
  destruct (rx_nth 0 ltac:(lia)) as [N _]. destruct R as (_ & _ & R3 & R4 & R5 & R6 & _). split; [|exact H1]. split; [lia|]. split; [congruence|]. split.
  - rewrite R5 in H3. apply Z.lxor_eq in H3. now symmetry.
  - rewrite <- N. exact H4.
Qed.
Lemma acceptable_valid : acceptable (heard v) (sound v) -> validFrame (valid b && (checksum b =? 0)) b = true.
Proof.
  unfold validFrame, acceptable. intros (H1 & H2 & H3 & H4). pose proof R as (_ & _ & R3 & R4 & R5 & R6 & _).
  assert (N8 : (8 <= nextByteIndex b)%nat) by (unfold largest in *; lia). destruct (rx_nth 0 ltac:(lia)) as [N _].
  change VALID_DATA_FRAME_TYPE_MASK with 0xD3. rewrite R5, H3, R6, H2, N, H4. rewrite !andb_true_iff, !Nat.leb_le. unfold largest, maxTelegramSize in *. repeat split; auto; lia.
Qed.
Lemma rx_byte i : (i < nextByteIndex b)%nat -> is_byte (rd (rxTel b) i).
Proof. intros H. destruct (rx_nth i H) as [-> _]. destruct R as (_ & _ & _ & _ & _ & _ & _ & B). exact (rd_byte _ i B). Qed.
Lemma land_bit c k : 0 <= k -> (Z.land c (2 ^ k) =? 0) = negb (Z.testbit c k).
Proof.
  intros Hk. destruct (Z.testbit c k) eqn:T; cbn [negb].
  - apply Z.eqb_neq. intro E. assert (X : Z.testbit (Z.land c (2 ^ k)) k = true) by (rewrite Z.land_spec, T, Z.pow2_bits_true; [reflexivity|lia]).
    rewrite E, Z.bits_0 in X. discriminate.
  - apply Z.eqb_eq. apply Z.bits_inj'. intros n Hn. rewrite Z.land_spec, Z.bits_0, Z.pow2_bits_eqb by lia. destruct (Z.eqb_spec k n); [subst; now rewrite T|apply andb_false_r].
Qed.
Lemma process_forUs e : (8 <= nextByteIndex b)%nat -> processTel e (rxTel b) = true <-> forUs e (firstn (nextByteIndex b) (rxTel b)).
Proof.
  intros N. unfold processTel, forUs. cbv zeta. change 0x80 with (2 ^ 7). change TRANSPORT_LAYER_BIT with (2 ^ 2). rewrite !land_bit by lia. rewrite Bool.negb_involutive.
  rewrite (word_bytes (rd (rxTel b) 3) (rd (rxTel b) 4)) by (apply rx_byte; lia).
  rewrite <- (proj2 (rx_nth 3 ltac:(lia))), <- (proj2 (rx_nth 4 ltac:(lia))), <- (proj2 (rx_nth 5 ltac:(lia))). rewrite (Z.mul_comm 256).
  destruct (Z.testbit (rd (rxTel b) 5) 7); destruct (Z.testbit (statusByte e) 2); cbn [negb orb]; rewrite ?orb_true_r, ?orb_false_r, ?orb_true_iff, ?Z.eqb_eq; intuition congruence.
Qed.
(** the repetition test *)
Lemma repeats_already t0 : length (rxTel b) = largest -> (8 <= nextByteIndex b)%nat -> firstn (length t0) (telegram b) = t0 ->
  repeats (firstn (nextByteIndex b) (rxTel b)) t0 -> alreadyReceived (nextByteIndex b) (rxTel b) (telegram b) = true.
Proof.
  intros Lr N T (H1 & H2 & H3 & H4). rewrite rx_len in * by auto. unfold alreadyReceived. rewrite flag_bit, !unflagged_ldiff.
  pose proof (proj2 (rx_nth 0 ltac:(lia))) as N0. rewrite <- N0 in H2, H3.
  assert (X : forall i, (i < length t0)%nat -> rd (telegram b) i = nth i t0 0).
  { intros i Hi. rewrite <- T. unfold rd. rewrite <- (firstn_skipn (length t0) (telegram b)) at 1. rewrite app_nth1; [now rewrite T|]. rewrite T. exact Hi. }
  rewrite H2. cbn [negb andb]. rewrite (X 0%nat) by lia. rewrite andb_true_iff. split.
  - apply Z.eqb_eq. rewrite H3. apply unflagged_clear. apply unflagged_bit.
  - unfold sameBytes. apply forallb_forall. intros i Hi. apply in_seq in Hi. apply Z.eqb_eq. rewrite X by lia. rewrite <- H4 by lia. apply rx_nth. lia.
Qed.
Lemma already_repeats t0 : length (rxTel b) = largest -> (8 <= nextByteIndex b)%nat -> firstn (length t0) (telegram b) = t0 -> length t0 = nextByteIndex b ->
  alreadyReceived (nextByteIndex b) (rxTel b) (telegram b) = true -> repeats (firstn (nextByteIndex b) (rxTel b)) t0.
Proof.
  intros Lr N T El. unfold alreadyReceived, repeats. rewrite rx_len by auto. rewrite flag_bit, !unflagged_ldiff, !andb_true_iff, Z.eqb_eq. rewrite <- (proj2 (rx_nth 0 ltac:(lia))).
  assert (X : forall i, (i < length t0)%nat -> rd (telegram b) i = nth i t0 0).
  { intros i Hi. rewrite <- T. unfold rd. rewrite <- (firstn_skipn (length t0) (telegram b)) at 1. rewrite app_nth1; [now rewrite T|]. rewrite T. exact Hi. }
  intros ((H1 & H2) & H3). rewrite negb_true_iff in H1. split; [auto|]. split; [exact H1|]. split.
  - rewrite <- (X 0%nat) by lia. rewrite <- H2. symmetry. now apply unflagged_clear.
  - intros i Hi. rewrite <- (X i) by lia. rewrite <- (proj2 (rx_nth i ltac:(lia))). unfold sameBytes in H3. rewrite forallb_forall in H3. apply Z.eqb_eq, H3. apply in_seq. lia.
Qed.
End Rx.
