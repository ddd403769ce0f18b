(** handleTelegram keeps the invariant. *)
From Verif Require Import Base Bits Bus_Model Bus_Spec Bus_Frame Bus_Inv Bus_Recv Bus_Handle.

Lemma stop_fields b : rxTel (stopWaiting b) = rxTel b /\ telegram (stopWaiting b) = telegram b /\ txError (stopWaiting b) = txError b /\ waitAck (stopWaiting b) = false /\
  collisions (stopWaiting b) = collisions b /\ sendCur (stopWaiting b) = sendCur b /\ repeatTel (stopWaiting b) = (waitAck b || repeatTel b)%bool /\
  sendRetries (stopWaiting b) = sendRetries b /\ sendBusyRetries (stopWaiting b) = sendBusyRetries b /\ telegramLen (stopWaiting b) = telegramLen b /\
  state (stopWaiting b) = state b /\ sendAck (stopWaiting b) = sendAck b.
Proof. unfold stopWaiting. destruct (waitAck b) eqn:W; fields; repeat split; auto. Qed.

(** a frame: the bus after frameForUs *)
Lemma frame_good L e v b tm :
  core L v b 0 -> receiving v b -> validFrame (valid b && (checksum b =? 0)) b = true -> processTel e (rxTel b) = true ->
  let '(b1, t1, o) := frameForUs e (set_state WAIT_50BT (set_sendAck 0 b)) tm in
  good L (Some e) v (Some (set_mTime (t1 - 1) (stopWaiting b1), RxEnd :: o)).
Proof.
  intros C R V P. destruct (valid_acceptable v b R V) as [A N]. pose proof C as (Lr & Lt & Er & As & J & (H1 & H2 & H3)).
  assert (K : job v <> None -> ~ acked (see v RxEnd)).
  { intros _ (_ & _ & X & _). fieldsin. destruct A as (A & _). rewrite X in A. cbn in A. lia. }
  pose proof (process_forUs v b R e N) as [P1 _]. specialize (P1 P). pose proof (rx_len v b R Lr) as Ln.
  assert (T : firstn (nextByteIndex b) (rxTel b) = firstn largest (heard v)) by apply R.
  unfold frameForUs. fields. cbv zeta.
  destruct (0 <? telegramLen b)%nat eqn:Q.
  - (* the buffer is full *)
    fields. replace (if _ || _ then set_sendAck 0 _ else _) with (set_sendAck 0 (set_state WAIT_50BT (set_sendAck 0 b))) by (now destruct (_ || _)).
    fields. cbn [Z.eqb]. unfold good. split; [cbn; auto|].
    exists O. pose proof (stop_fields (set_sendAck 0 (set_state WAIT_50BT (set_sendAck 0 b)))) as F. fieldsin. destruct F as (F1 & F2 & F3 & F4 & F5 & F6 & F7 & F8 & F9 & F10 & F11 & F12).
    split; [eapply stop_core; [exact C|exact K|..]; fields; auto; congruence|]. unfold phase. fields. rewrite F11. auto.
  - apply Nat.ltb_ge in Q. assert (Hn : held v = None). { destruct (held v) as [t0|] eqn:E; [|reflexivity]. rewrite (H2 t0 eq_refl) in H3. lia. }
    assert (Len8 : (8 <= length (firstn (nextByteIndex b) (rxTel b)) <= largest)%nat). { rewrite Ln. destruct R as (_ & _ & R3 & _). unfold largest in *. lia. }
    set (b0 := set_state WAIT_50BT (set_sendAck 0 b)).
    destruct (alreadyReceived (nextByteIndex b) (rxTel b) (telegram b)) eqn:AR; fields.
    + set (s := _ || _). set (b2 := if s then set_sendAck 0 (set_sendAck SB_BUS_ACK b0) else set_sendAck SB_BUS_ACK b0).
      assert (G : forall b3 tm1, (b3 = b2 /\ s = true \/ b3 = set_state RECV_WAIT_FOR_ACK_TX_START b2 /\ s = false) -> good L (Some e) v (Some (set_mTime tm1 (stopWaiting b3), [RxEnd]))).
      { intros b3 tm1 B3. unfold good. split; [cbn; auto|]. exists O. pose proof (stop_fields b3) as (F1 & F2 & F3 & F4 & F5 & F6 & F7 & F8 & F9 & F10 & F11 & F12).
        assert (FF : rxTel b3 = rxTel b /\ telegram b3 = telegram b /\ txError b3 = txError b /\ waitAck b3 = waitAck b /\ collisions b3 = collisions b /\ sendCur b3 = sendCur b /\ repeatTel b3 = repeatTel b /\
                     sendRetries b3 = sendRetries b /\ sendBusyRetries b3 = sendBusyRetries b /\ telegramLen b3 = telegramLen b) by (destruct B3 as [[-> _] | [-> _]]; unfold b2, b0; destruct s; fields; repeat split).
        destruct FF as (G1 & G2 & G3 & G4 & G5 & G6 & G7 & G8 & G9 & G10). split; [eapply stop_core; [exact C|exact K|..]; fields; congruence|].
        unfold phase. fields. rewrite F11. destruct B3 as [[-> Es] | [-> Es]]; unfold b2, b0 in *; rewrite Es in *; fieldsin.
        - auto.
        - rewrite Hn. repeat split; try apply A; auto. }
      destruct (sendAck b2 =? 0) eqn:SA; unfold b2 in SA; destruct s eqn:Es; fieldsin; try discriminate SA; apply G; auto.
    + set (t := firstn (nextByteIndex b) (rxTel b)) in *. set (s := _ || _). 
      set (bd := set_telegramLen _ _). set (b2 := if s then set_sendAck 0 bd else bd).
      assert (G : forall b3 tm1, (b3 = b2 /\ s = true \/ b3 = set_state RECV_WAIT_FOR_ACK_TX_START b2 /\ s = false) -> good L (Some e) v (Some (set_mTime tm1 (stopWaiting b3), [RxEnd; Deliver t]))).
      { intros b3 tm1 B3. unfold good. split.
        - cbn [permitted]. split; [exact I|]. split; [|exact I]. cbn [allowed]. fields. split; [reflexivity|]. split; [exact A|]. split; [exact T|]. split; [exact Hn|]. split; [eauto|].
          intros t0 E0 Rp. rewrite E0 in H3. pose proof (repeats_already v b R t0 Lr N (proj2 H3) Rp). congruence.
        - exists O. pose proof (stop_fields b3) as (F1 & F2 & F3 & F4 & F5 & F6 & F7 & F8 & F9 & F10 & F11 & F12).
          assert (FF : rxTel b3 = rxTel b /\ telegram b3 = wr_range (telegram b) 0 t /\ txError b3 = txError b /\ waitAck b3 = waitAck b /\ collisions b3 = collisions b /\ sendCur b3 = sendCur b /\ repeatTel b3 = repeatTel b /\
                     sendRetries b3 = sendRetries b /\ sendBusyRetries b3 = sendBusyRetries b /\ telegramLen b3 = length t) by (rewrite Ln; destruct B3 as [[-> _] | [-> _]]; unfold b2, bd, b0; destruct s; fields; repeat split).
          destruct FF as (G1 & G2 & G3 & G4 & G5 & G6 & G7 & G8 & G9 & G10). split.
          + cbn [sees fold_left]. apply deliver_core with (b := stopWaiting b); auto; fields; pose proof (stop_fields b) as (E1 & E2 & E3 & E4 & E5 & E6 & E7 & E8 & E9 & E10 & E11 & E12); try congruence.
            eapply stop_core; [exact C|exact K|..]; congruence.
          + unfold phase. fields. rewrite F11. destruct B3 as [[-> Es] | [-> Es]]; unfold b2, bd, b0 in *; rewrite Es in *; fieldsin.
            * auto.
            * rewrite Hn. repeat split; try apply A; auto. }
      destruct (sendAck b2 =? 0) eqn:SA; unfold b2, bd in SA; destruct s eqn:Es; fieldsin; try discriminate SA; apply G; auto.
Qed.

Lemma nack_good L e v b b1 tm :
  core L v b 0 -> (job v <> None -> ~ acked (see v RxEnd)) -> waitAck b = true ->
  rxTel b1 = rxTel b -> telegram b1 = telegram b -> Z.land (txError b1) TX_RETRY_ERROR = 0 -> waitAck b1 = false -> collisions b1 = collisions b -> sendCur b1 = sendCur b ->
  repeatTel b1 = true -> sendRetries b1 = sendRetries b -> sendBusyRetries b1 = sendBusyRetries b -> telegramLen b1 = telegramLen b -> state b1 = WAIT_50BT -> sendAck b1 = 0 ->
  good L (Some e) v (Some (set_mTime tm (stopWaiting b1), [RxEnd])).
Proof.
  intros C K W E1 E2 E3 E4 E5 E6 E7 E8 E9 E10 E11 E12. unfold stopWaiting. rewrite E4. unfold good. split; [cbn; auto|]. exists O. split.
  - apply stop_core with (b := b); fields; auto. rewrite W. exact E7.
  - unfold phase. fields. rewrite E11. auto.
Qed.
Lemma done_good L e v b s os tm :
  permitted L (Some e) (see v RxEnd) os -> core L (sees (see v RxEnd) os) (prepareForSending (set_sendCur s b)) 0 -> state b = WAIT_50BT -> sendAck b = 0 ->
  good L (Some e) v (Some (set_mTime tm (stopWaiting (prepareForSending (set_sendCur s b))), RxEnd :: os)).
Proof.
  intros P C S A. unfold stopWaiting, prepareForSending. fields. unfold good. split; [exact (conj I P)|]. exists O. split.
  - change (sees v (RxEnd :: os)) with (sees (see v RxEnd) os). eapply core_same; [exact C|unfold prepareForSending; fields; try reflexivity..]. auto.
  - unfold phase. fields. rewrite S, A. auto.
Qed.
(** one byte heard after our telegram *)
Lemma ack_good L e v b tm :
  core L v b 0 -> receiving v b -> env_ok e -> (exists l, heard v = l ++ [currentByte b] /\ (l = [] -> sound v = parity b)) -> nextByteIndex b = 1%nat -> waitAck b = true ->
  let '(b1, t1, o) := acknowledgeReceived L e (set_state WAIT_50BT (set_sendAck 0 b)) tm in
  good L (Some e) v (Some (set_mTime (t1 - 1) (stopWaiting b1), RxEnd :: o)).
Proof.
  intros C R E (l & Hl & Hs) N W. pose proof C as (Lr & Lt & Er & As & J & H).
  assert (L0 : l = []). { destruct R as (_ & _ & R3 & _). rewrite Hl, app_length in R3. unfold largest in R3. destruct l; [reflexivity|]. cbn [length] in R3. lia. }
  subst l. specialize (Hs eq_refl). cbn [app] in Hl.
  assert (AK : acked (see v RxEnd) <-> parity b && (currentByte b =? SB_BUS_ACK) = true).
  { unfold acked. fields. rewrite As, W, Hl, Hs, andb_true_iff, Z.eqb_eq. unfold SB_BUS_ACK. split; [intros (_ & _ & X & Y); split; congruence | intros (X & Y); repeat split; congruence]. }
  assert (Jn : exists own t f, job v = Some (own, t) /\ sendCur b = Some f).
  { unfold job_ok in J. destruct J as (_ & J). destruct (job v) as [[own t]|]; destruct (sendCur b) as [f|]; try contradiction; [eauto|]. destruct J as (_ & X & _). congruence. }
  destruct Jn as (own & t & f & Jv & Jb). unfold acknowledgeReceived. fields. cbv zeta.
  set (b0 := set_waitAck false (set_state WAIT_50BT (set_sendAck 0 b))). set (ack := parity b && (currentByte b =? SB_BUS_ACK)) in *.
  destruct (ack || _ || _) eqn:Q.
  - set (b1 := if ack then b0 else set_txError (Z.lor (txError b) TX_RETRY_ERROR) b0).
    assert (F : length (rxTel b1) = largest /\ length (telegram b1) = largest /\ held_ok (see v RxEnd) b1 /\ sendCur b1 = Some f /\ (Z.land (txError b1) TX_RETRY_ERROR = 0 <-> ack = true) /\ state b1 = WAIT_50BT /\ sendAck b1 = 0).
    { unfold b1, b0. unfold held_ok in *. destruct ack; fields; (do 4 (split; [assumption|])); (split; [|auto]); split; auto; [|discriminate]. intro X. now apply err_set in X. }
    destruct F as (F1 & F2 & F3 & F4 & F5 & F6 & F7).
    destruct (finish_good L e (see v RxEnd) b1 F1 F2 eq_refl F3) as (s & os & -> & P & C1 & _ & _ & Aq); auto.
    { rewrite F4. fields. rewrite Jv. split; discriminate. }
    { intros _. rewrite F5. symmetry. exact AK. }
    apply done_good; auto.
  - apply orb_false_iff in Q. destruct Q as [Q _]. apply orb_false_iff in Q. destruct Q as [Q _]. 
    assert (K : job v <> None -> ~ acked (see v RxEnd)) by (intros _; rewrite AK; congruence).
    destruct (parity b && ((currentByte b =? SB_BUS_BUSY) || (currentByte b =? SB_BUS_NACK_BUSY)));
      (apply nack_good with (b := b); [exact C|exact K|exact W|unfold b0; fields; try reflexivity..]); (apply err_bit; [exact Er|reflexivity]).
Qed.

Lemma handle_good L e v b :
  core L v b 0 -> receiving v b -> env_ok e -> (exists l, heard v = l ++ [currentByte b] /\ (l = [] -> sound v = parity b)) ->
  good L (Some e) v (Some (handleTelegram L e (valid b && (checksum b =? 0)) b)).
Proof.
  intros C R E HL. pose proof C as (Lr & Lt & Er & As & J & H).
  assert (Z : (job v <> None -> ~ acked (see v RxEnd)) -> forall tm, good L (Some e) v (Some (set_mTime tm (stopWaiting (set_state WAIT_50BT (set_sendAck 0 b))), [RxEnd]))).
  { intros K tm. unfold good. split; [cbn; auto|]. exists O. pose proof (stop_fields (set_state WAIT_50BT (set_sendAck 0 b))) as F. fieldsin.
    destruct F as (F1 & F2 & F3 & F4 & F5 & F6 & F7 & F8 & F9 & F10 & F11 & F12).
    split; [eapply stop_core; [exact C|exact K|..]; fields; auto; congruence|]. unfold phase. fields. rewrite F11. auto. }
  unfold handleTelegram. cbv zeta.
  change (validFrame ?k (set_state WAIT_50BT (set_sendAck 0 b))) with (validFrame k b). fields.
  destruct (validFrame _ b) eqn:V.
  - destruct (processTel e (rxTel b)) eqn:P.
    + pose proof (frame_good L e v b (SEND_WAIT_TIME - PRE_SEND_TIME) C R V P) as G.
      destruct (frameForUs e (set_state WAIT_50BT (set_sendAck 0 b)) (SEND_WAIT_TIME - PRE_SEND_TIME)) as [[b1 t1] o]. exact G.
    + apply Z. destruct (valid_acceptable v b R V) as [(A & _) _]. intros _ (_ & _ & X & _). fieldsin. rewrite X in A. cbn in A. lia.
  - destruct ((nextByteIndex b =? 1)%nat && waitAck b) eqn:Q.
    + apply andb_true_iff in Q. destruct Q as [Q W]. apply Nat.eqb_eq in Q. pose proof (ack_good L e v b (SEND_WAIT_TIME - PRE_SEND_TIME) C R E HL Q W) as G.
      destruct (acknowledgeReceived L e (set_state WAIT_50BT (set_sendAck 0 b)) (SEND_WAIT_TIME - PRE_SEND_TIME)) as [[b1 t1] o]. exact G.
    + apply Z. intros _ (X & _ & Y & _). fieldsin. destruct R as (_ & _ & R3 & _). rewrite Y in R3. cbn in R3. rewrite R3 in Q. cbn in Q. congruence.
Qed.
