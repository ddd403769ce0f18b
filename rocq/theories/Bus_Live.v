(** On a silent bus every telegram is finished. *)
From Verif Require Import Base Bits Bus_Model Bus_Spec Bus_Frame Bus_Inv Bus_Recv Bus_Handle Bus_Handle2 Bus_Send Bus_Steps Bus_Hist Bus_Pos.

Definition bitsLeft (b : bus) : nat := Z.to_nat (11 - Z.log2 (bitMask b)).
Definition bytesLeft (b : bus) : nat := sendTelegramLen b - nextByteIndex b.
Definition rank (b : bus) : nat :=
  let ack := negb (sendAck b =? 0) in
  match state b with
  | RECV_BITS_OF_BYTE => 1024 | RECV_WAIT_FOR_STARTBIT_OR_TELEND => 1023 | RECV_WAIT_FOR_ACK_TX_START => 1022
  | INIT => 1001 | WAIT_50BT => 1000 | IDLE => 0
  | SEND_START_BIT => if ack then 1021 else 20 * bytesLeft b + 15
  | SEND_BIT_0 => if ack then 1020 else 20 * bytesLeft b + 14
  | SEND_BITS_OF_BYTE => if ack then 1003 + bitsLeft b else 20 * bytesLeft b + 16 + bitsLeft b
  | SEND_END_OF_TX => if ack then 1002 else 1
  | SEND_WAIT_FOR_RX_ACK_WINDOW => 1031 | SEND_WAIT_FOR_RX_ACK => 1030
  end.
Definition bitsOk (b : bus) : Prop := state b = SEND_BITS_OF_BYTE -> 1 <= bitMask b.
Definition rounds (L : limits) (v : view) : nat := Z.to_nat (sendRetriesMax L + sendBusyRetriesMax L + 2) - full v.
Definition measure (L : limits) (v : view) (b : bus) : nat := 2000 * rounds L v + rank b.

(** bitMask is positive while bits are sent: one step *)
Lemma nextLow_mask n c m t : 1 <= m -> m <= fst (nextLow n c m t).
Proof. revert m t. induction n as [|n IH]; intros m t H; cbn [nextLow]; [cbn; lia|]. destruct (_ && _); [|cbn; lia]. specialize (IH (2 * m) (t + BIT_TIME) ltac:(lia)). lia. Qed.
Lemma sendNextBit_ok b : 1 <= bitMask b -> bitsOk (sendNextBit b).
Proof.
  intros H. unfold sendNextBit, bitsOk. destruct (bitMask b <=? 0x200).
  - pose proof (nextLow_mask 9 (currentByte b) (bitMask b) BIT_TIME H) as M. destruct (nextLow _ _ _ _) as [m t]. cbn [fst] in M. cbv zeta. fields. lia.
  - unfold sendEndOfByte. destruct (_ && _); fields; discriminate.
Qed.
(** states in which no bits are sent *)
Definition notBits (r : result) : Prop := match r with None => True | Some (b, _) => state b <> SEND_BITS_OF_BYTE end.
Lemma notBits_also l r : notBits r -> notBits (also l r).
Proof. unfold notBits, also. destruct r as [[b os]|]; cbn; auto. Qed.
Lemma stop_state b : state (stopWaiting b) = state b.
Proof. unfold stopWaiting. destruct (waitAck b); reflexivity. Qed.
Lemma finish_state e b : state (fst (finishSendingTelegram e b)) = state b.
Proof. unfold finishSendingTelegram. destruct (sendCur b); [destruct (sendsAgain e _)|]; reflexivity. Qed.
Lemma handle_state L e ok b : state (fst (handleTelegram L e ok b)) = WAIT_50BT \/ state (fst (handleTelegram L e ok b)) = RECV_WAIT_FOR_ACK_TX_START.
Proof.
  unfold handleTelegram. cbv zeta. destruct (validFrame _ _); [destruct (processTel _ _)|].
  - unfold frameForUs. cbv zeta. fields. destruct (0 <? telegramLen b)%nat; [|destruct (alreadyReceived _ _ _)]; fields; destruct (_ || _); fields; cbn [Z.eqb SB_BUS_ACK]; fields; destruct (waitAck b); cbn [fst]; fields; auto.
  - fields. destruct (waitAck b); cbn [fst]; fields; auto.
  - fields. destruct ((nextByteIndex b =? 1)%nat && waitAck b).
    + unfold acknowledgeReceived. cbv zeta. fields. destruct (_ || _ || _).
      * match goal with |- context [finishSendingTelegram e ?x] => pose proof (finish_state e x) as F; destruct (finishSendingTelegram e x) as [b1 o1] end. cbn [fst] in F.
        assert (Sb : state b1 = WAIT_50BT) by (rewrite F; repeat match goal with |- context [if ?c then _ else _] => destruct c end; reflexivity). destruct (waitAck b1); cbn [fst]; fields; auto.
      * destruct (parity b && ((currentByte b =? SB_BUS_BUSY) || (currentByte b =? SB_BUS_NACK_BUSY))); fields; cbn [fst]; fields; auto.
    + fields. destruct (waitAck b); cbn [fst]; fields; auto.
Qed.
Lemma recvWait_notBits L e i b : notBits (recvWait L e i b).
Proof.
  unfold recvWait, notBits. destruct (negb (iCap i)); [|fields; discriminate]. pose proof (handle_state L e (valid b && (checksum b =? 0)) b) as H. destruct (handleTelegram _ _ _ _) as [b1 o]. cbn [fst] in H. destruct H as [-> | ->]; discriminate.
Qed.
Lemma initRx_notBits L e i b : notBits (initRx L e i b).
Proof. unfold initRx. apply notBits_also, recvWait_notBits. Qed.
Lemma findBit_state t b : state (findBit t b) = state b.
Proof.
  unfold findBit. destruct (_ <=? t); [|reflexivity]. cbv zeta. fields. generalize (Z.to_nat (t - (bitTime b + BIT_TIME) - BIT_WAIT_TIME + 1)). intros n. change (state b) with (state (set_bitTime (bitTime b + BIT_TIME) b)).
  generalize (set_bitTime (bitTime b + BIT_TIME) b). induction n as [|n IH]; intros q; cbn [highBits]; [reflexivity|]. destruct (_ && _); [|reflexivity]. rewrite IH. reflexivity.
Qed.
Lemma recvBits_notBits i b : state b = RECV_BITS_OF_BYTE -> state (fst (recvBits i b)) <> SEND_BITS_OF_BYTE.
Proof.
  intros S. unfold recvBits. cbv zeta. destruct (iMatch i); [|cbn [fst]; rewrite findBit_state, S; discriminate]. unfold endOfByte. cbn [fst]. fields. discriminate.
Qed.
Definition okResult (r : result) : Prop := match r with None => True | Some (b, _) => bitsOk b end.
Lemma notBits_ok r : notBits r -> okResult r.
Proof. unfold notBits, okResult, bitsOk. destruct r as [[b os]|]; auto. congruence. Qed.
Lemma okResult_also l r : okResult r -> okResult (also l r).
Proof. unfold okResult, also. destruct r as [[b os]|]; cbn; auto. Qed.
Lemma sendBits_ok i b : 1 <= bitMask b -> okResult (sendBits i b).
Proof.
  intros H. unfold sendBits. destruct (negb (iMatch i)); [|now apply sendNextBit_ok]. destruct (_ <? _); [intros _; exact H|]. destruct (_ <? _); [apply notBits_ok; unfold notBits, initState, encounteredCollision; destruct (_ =? _); fields; discriminate|].
  destruct (_ <? _); [|intros _; exact H]. apply notBits_ok. unfold collided. destruct (takeOver _) as [[b1 p]|]; [|exact I]. cbv zeta. destruct (32 <=? _); [exact I|]. destruct (sentBits _ _ _ _ _) as [ms pr].
  apply notBits_also. unfold notBits.
  match goal with |- context [recvBits i ?x] => pose proof (recvBits_notBits i x eq_refl) as N; destruct (recvBits i x) end. exact N.
Qed.
Lemma sendBit0_ok i b : okResult (sendBit0 i b).
Proof. unfold sendBit0. destruct (negb _); [|destruct (sendCur b)]; try exact I; apply okResult_also, sendBits_ok; fields; lia. Qed.
Lemma step_bitsOk L b o : bitsOk b -> okResult (bstep L b o).
Proof.
  intros K. destruct o as [e i|own t n| | |w| ]; cbn [bstep].
  - unfold timerInterruptHandler. destruct (_ && _ && _); [exact K|]. 
    assert (W : forall b, okResult (wait50 L e i b)).
    { clear. intros b. unfold wait50. destruct (iCap i); [apply notBits_ok, initRx_notBits|]. destruct (if giveUp L b then _ else _) as [b1 o]. destruct (sendCur b1); apply notBits_ok; unfold notBits, idleState; cbv zeta; fields; discriminate. }
    destruct (state b) eqn:S.
    + unfold initCase. destruct (negb _); [exact K|]. cbv zeta. destruct (iCap i); [apply W|]. apply notBits_ok. unfold notBits. fields. discriminate.
    + destruct (iCap i); [apply notBits_ok, initRx_notBits|exact K].
    + apply notBits_ok, recvWait_notBits.
    + apply notBits_ok. unfold notBits. pose proof (recvBits_notBits i b S) as N. destruct (recvBits i b). exact N.
    + unfold recvAckStart. destruct (iCap i); [apply notBits_ok, initRx_notBits|]. apply notBits_ok. unfold notBits. fields. discriminate.
    + apply W.
    + unfold sendStartBit. destruct (negb (iMatch i)); [|apply sendBit0_ok]. destruct (_ <? _); [apply notBits_ok, initRx_notBits|]. apply notBits_ok. unfold notBits. fields. discriminate.
    + apply sendBit0_ok.
    + apply sendBits_ok. apply K. exact S.
    + apply notBits_ok. unfold notBits, sendEndOfTx. destruct (negb _); [fields; discriminate|]. cbv zeta. destruct (repeatTel _); [destruct (busyWait _)|]; fields; discriminate.
    + apply notBits_ok. unfold notBits. fields. discriminate.
    + unfold waitForAck. destruct (iCap i); [apply notBits_ok, initRx_notBits|]. apply notBits_ok. unfold notBits. fields. discriminate.
  - destruct (sendCur b); exact K.
  - unfold okResult, bitsOk in *. destruct (state b) eqn:S; unfold startSendingImmediately; fields; auto; try discriminate; rewrite S; auto.
  - exact K.
  - unfold okResult, bitsOk in *. destruct (canPause w b); fields; auto. discriminate.
  - unfold okResult, bitsOk, initState. fields. discriminate.
Qed.
Lemma begin_bitsOk junk : bitsOk (begin junk).
Proof. unfold bitsOk, begin, initState, prepareForSending. fields. discriminate. Qed.
Lemma bruns_bitsOk L l b : bitsOk b -> okResult (bruns L l b).
Proof.
  revert b. induction l as [|o r IH]; intros b K; cbn [bruns]; [exact K|]. pose proof (step_bitsOk L b o K) as H. destruct (bstep L b o) as [[b1 os]|]; [|exact I]. apply okResult_also, IH. exact H.
Qed.

(** ** Progress *)
(** a tick: a report, or nearer to one *)
Definition advances (L : limits) (v : view) (b : bus) (r : result) : Prop :=
  match r with None => False | Some (b1, os) => reported os \/ (job (sees v os) = job v /\ state b1 <> IDLE /\ measure L (sees v os) b1 < measure L v b)%nat end.
Lemma log2_double m k : 1 <= m -> m <= k -> Z.log2 m < Z.log2 (2 * k).
Proof. intros H K. rewrite Z.log2_double by lia. pose proof (Z.log2_le_mono m k K). lia. Qed.
Lemma nextBit_rank b : state b = SEND_BITS_OF_BYTE -> 1 <= bitMask b -> (rank (sendNextBit b) < rank b)%nat /\ state (sendNextBit b) <> IDLE.
Proof.
  intros S H. unfold sendNextBit. destruct (Z.leb_spec (bitMask b) 0x200) as [Q|Q].
  - pose proof (nextLow_mask 9 (currentByte b) (bitMask b) BIT_TIME H) as M. destruct (nextLow _ _ _ _) as [m t]. cbn [fst] in M. cbv zeta. pose proof (log2_double _ _ H M) as Lg.
    assert (L9 : Z.log2 (bitMask b) <= 9) by (change 9 with (Z.log2 0x200); apply Z.log2_le_mono; exact Q).
    unfold rank, bitsLeft, bytesLeft. fields. rewrite S. split; [|discriminate]. destruct (negb _); lia.
  - unfold sendEndOfByte, rank, bitsLeft, bytesLeft. rewrite S. destruct (sendAck b =? 0) eqn:A; cbn [negb]; rewrite ?andb_true_r, ?andb_false_r.
    + destruct (Nat.ltb_spec (nextByteIndex b) (sendTelegramLen b)); fields; rewrite A; cbn [negb]; split; try discriminate; lia.
    + fields. rewrite A. cbn [negb]. split; [lia|discriminate].
Qed.
Lemma stay_adv L v b b1 os : job (sees v os) = job v -> full (sees v os) = full v -> state b1 <> IDLE -> (rank b1 < rank b)%nat -> advances L v b (Some (b1, os)).
Proof. intros J F S R. right. split; [exact J|]. split; [exact S|]. unfold measure, rounds. rewrite F. lia. Qed.
Lemma bit0_adv L v b i : iMatch i = true -> (state b = SEND_START_BIT \/ state b = SEND_BIT_0) ->
  (sendAck b <> 0 \/ (sendAck b = 0 /\ sendCur b <> None /\ (nextByteIndex b < sendTelegramLen b)%nat)) -> advances L v b (sendBit0 i b).
Proof.
  intros M S A. unfold sendBit0, sendBits. rewrite M. cbn [negb].
  assert (G : forall c b0, state b0 = state b -> sendAck b0 = sendAck b -> sendTelegramLen b0 = sendTelegramLen b -> (sendAck b = 0 -> nextByteIndex b0 = Datatypes.S (nextByteIndex b)) ->
    advances L v b (also [TxByte c] (Some (sendNextBit (set_state SEND_BITS_OF_BYTE (set_bitMask 1 (set_currentByte (withParity c) b0))), [])))).
  { intros c b0 E1 E2 E3 E4. cbn [also option_map fst snd app]. set (b2 := set_state _ _). destruct (nextBit_rank b2 eq_refl ltac:(unfold b2; fields; lia)) as [R N].
    apply stay_adv; [cbn [sees fold_left see]; destruct (on v) as [[? ?]|]; reflexivity|cbn [sees fold_left see]; destruct (on v) as [[? ?]|]; reflexivity|exact N|].
    eapply Nat.lt_le_trans; [exact R|]. unfold rank at 1. unfold b2, bitsLeft, bytesLeft. fields. rewrite E2, E3. change (Z.log2 1) with 0. change (Z.to_nat (11 - 0)) with 11%nat.
    unfold rank, bytesLeft. destruct A as [A|(A & _ & Ln)].
    - destruct (Z.eqb_spec (sendAck b) 0); [contradiction|]. cbn [negb]. destruct S as [-> | ->]; lia.
    - rewrite A. cbn [Z.eqb negb]. rewrite (E4 A). destruct S as [-> | ->]; lia. }
  destruct (Z.eqb_spec (sendAck b) 0) as [E|E]; cbn [negb].
  - destruct A as [A|(A & B & Ln)]; [contradiction|]. destruct (sendCur b) as [t|]; [|contradiction]. apply G; fields; auto.
  - apply G; auto. contradiction.
Qed.
Lemma handle_adv L e v b : sendCur b <> None -> sendAck b = 0 -> state b = RECV_WAIT_FOR_STARTBIT_OR_TELEND -> advances L v b (Some (handleTelegram L e (valid b && (checksum b =? 0)) b)).
Proof.
  intros Sc A S. pose proof (handle_state L e (valid b && (checksum b =? 0)) b) as H.
  assert (E : reported (snd (handleTelegram L e (valid b && (checksum b =? 0)) b)) \/ forall o, In o (snd (handleTelegram L e (valid b && (checksum b =? 0)) b)) -> o = RxEnd \/ exists t, o = Deliver t).
  { unfold handleTelegram. cbv zeta. destruct (validFrame _ _); [destruct (processTel _ _)|].
    - right. unfold frameForUs. cbv zeta. fields. destruct (0 <? telegramLen b)%nat; [|destruct (alreadyReceived _ _ _)]; fields; destruct (_ || _); fields; cbn [Z.eqb SB_BUS_ACK]; fields; destruct (waitAck b); cbn [snd]; intros o; cbn [In]; intuition (subst; eauto).
    - right. fields. destruct (waitAck b); cbn [snd]; intros o; cbn [In]; intuition.
    - fields. destruct ((nextByteIndex b =? 1)%nat && waitAck b).
      + unfold acknowledgeReceived. cbv zeta. fields. destruct (_ || _ || _).
        * left. match goal with |- context [finishSendingTelegram e ?x] => assert (F : exists ok o2, snd (finishSendingTelegram e x) = Report ok :: o2) end.
          { unfold finishSendingTelegram. match goal with |- context [sendCur ?x] => assert (X : sendCur x = sendCur b) by (repeat match goal with |- context [if ?c then _ else _] => destruct c end; reflexivity); rewrite X end.
            destruct (sendCur b); [|contradiction]. destruct (sendsAgain e _); cbn [snd]; eauto. }
          destruct F as (ok & o2 & F). destruct (finishSendingTelegram e _) as [b1 o1]. cbn [snd] in F. subst o1. destruct (waitAck b1); cbn [snd]; exists ok; cbn [In]; auto.
        * right. destruct (parity b && ((currentByte b =? SB_BUS_BUSY) || (currentByte b =? SB_BUS_NACK_BUSY))); fields; cbn [snd]; intros o; cbn [In]; intuition.
      + right. fields. destruct (waitAck b); cbn [snd]; intros o; cbn [In]; intuition. }
  destruct (handleTelegram _ _ _ _) as [b1 os]. cbn [fst snd] in *. destruct E as [E|E]; [left; exact E|].
  assert (J : forall v, job (sees v os) = job v /\ full (sees v os) = full v).
  { clear - E. induction os as [|o r IH]; intros v; [split; reflexivity|]. change (sees v (o :: r)) with (sees (see v o) r). destruct (IH (fun x Hx => E x (or_intror Hx)) (see v o)) as [-> ->]. destruct (E o (or_introl eq_refl)) as [-> | (t & ->)]; split; reflexivity. }
  destruct (J v). apply stay_adv; auto; [destruct H as [-> | ->]; discriminate|]. unfold rank. rewrite S. destruct H as [-> | ->]; lia.
Qed.
Lemma tick_adv L e i v b : limits_ok L -> env_ok e -> 0 <= iCapture i -> iCap i = false -> iMatch i = true -> inv L v b -> bitsOk b -> job v <> None -> state b <> IDLE -> advances L v b (timerInterruptHandler L e i b).
Proof.
  intros LO Eo Hc C M I K J N.
  assert (G : good L (Some e) v (timerInterruptHandler L e i b)).
  { apply handler_good; [exact LO| |exact I]. cbn [legal]. rewrite M, orb_true_r. split; [reflexivity|]. split; [exact Hc|]. split; [exact Eo|]. intros _ X. discriminate X. }
  destruct I as (x & Co & P). pose proof Co as (_ & _ & _ & _ & (_ & Jo) & _).
  assert (Sc : sendCur b <> None) by (destruct (job v) as [[own t]|]; [|congruence]; destruct (sendCur b); [discriminate|contradiction]). clear Jo.
  unfold timerInterruptHandler in *. rewrite C in *. cbn [andb] in *. pose proof P as P0. unfold phase in P. destruct (state b) eqn:S.
  - unfold initCase. rewrite M, C. cbn [negb]. cbv zeta. apply stay_adv; try reflexivity; fields; [discriminate|]. unfold rank. fields. rewrite S. lia.
  - contradiction.
  - unfold recvWait. rewrite C. cbn [negb]. apply handle_adv; auto. destruct P as (_ & R & _). apply R.
  - unfold recvBits. rewrite M. cbv zeta. unfold endOfByte. apply stay_adv; try reflexivity; fields; [discriminate|]. unfold rank. fields. rewrite S. lia.
  - unfold recvAckStart. rewrite C. cbv zeta. apply stay_adv; try reflexivity; fields; [discriminate|]. destruct P as (_ & _ & A & _). unfold rank. fields. rewrite S, A. cbn [Z.eqb SB_BUS_ACK negb]. lia.
  - unfold wait50 in *. rewrite C in *. destruct (giveUp L b).
    + unfold finishSendingTelegram. fields. destruct (sendCur b) as [f|]; [|contradiction]. destruct (sendsAgain e _); unfold prepareForSending; fields; left; eexists; cbn [In app]; left; reflexivity.
    + destruct (sendCur b) as [t|]; [|contradiction]. cbv zeta. apply stay_adv; try reflexivity; fields; [discriminate|]. destruct P as (_ & _ & A). unfold rank, bytesLeft. fields. rewrite S, A. cbn [Z.eqb negb]. rewrite size_eq. pose proof (size_range t). lia.
  - unfold sendStartBit. rewrite M. cbn [negb]. 
    assert (X : sendAck b <> 0 \/ (sendAck b = 0 /\ sendCur b <> None /\ (nextByteIndex b < sendTelegramLen b)%nat)).
    { destruct P as (_ & _ & [(_ & A & _)|(n & _ & (A & Nb & _) & Ln)]); [left; rewrite A; discriminate|right; rewrite Nb; auto]. }
    pose proof (bit0_adv L v (set_txError (Z.lor (txError b) TX_PWM_STARTBIT_ERROR) (set_state SEND_BIT_0 b)) i M (or_intror eq_refl) X) as B. unfold advances in *. destruct (sendBit0 _ _) as [[b1 os]|]; [|exact B].
    destruct B as [B|(B1 & B2 & B3)]; [left; exact B|right]. split; [exact B1|]. split; [exact B2|]. eapply Nat.lt_le_trans; [exact B3|]. unfold measure. apply Nat.add_le_mono_l. unfold rank, bytesLeft. fields. rewrite S. destruct (negb _); lia.
  - apply bit0_adv; auto. destruct P as (_ & _ & [(_ & A & _)|(n & _ & (A & Nb & _) & Ln)]); [left; rewrite A; discriminate|right; rewrite Nb; auto].
  - unfold sendBits. rewrite M. cbn [negb]. destruct (nextBit_rank b S (K S)) as [R Ni]. apply stay_adv; try reflexivity; auto.
  - unfold sendEndOfTx in *. destruct (Z.eqb_spec (sendAck b) 0) as [A|A]; cbn [negb] in *.
    + cbv zeta in *. right. set (b1 := set_mTime _ _) in *. assert (S1 : state b1 = SEND_WAIT_FOR_RX_ACK_WINDOW) by (unfold b1; destruct (repeatTel _); [destruct (busyWait _)|]; reflexivity).
      split; [reflexivity|]. split; [rewrite S1; discriminate|]. destruct G as (_ & x1 & (_ & _ & _ & _ & (_ & J1) & _) & _). cbn [sees fold_left see job full] in *.
      destruct (job v) as [[own t]|]; [|congruence]. destruct (sendCur b1); [|contradiction]. destruct J1 as (_ & _ & _ & _ & _ & _ & _ & F & _). destruct LO as [L1 L2]. unfold measure, rounds. cbn [full].
      unfold rank at 1. rewrite S1. unfold rank. rewrite S, A. cbn [Z.eqb negb]. lia.
    + apply stay_adv; try reflexivity; fields; [discriminate|]. unfold rank. fields. rewrite S. destruct (Z.eqb_spec (sendAck b) 0); [contradiction|]. cbn [negb]. lia.
  - apply stay_adv; try reflexivity; fields; [discriminate|]. unfold rank. fields. rewrite S. lia.
  - unfold waitForAck. rewrite C. apply stay_adv; try reflexivity; fields; [discriminate|]. unfold rank. fields. rewrite S. lia.
Qed.
(** enough ticks bring the report *)
Lemma ticks_report L : limits_ok L -> forall n v b, (measure L v b <= n)%nat -> inv L v b -> bitsOk b -> job v <> None -> state b <> IDLE ->
  forall ts, Forall quiet ts -> (n < length ts)%nat -> exists b1 os, bruns L ts b = Some (b1, os) /\ reported os.
Proof.
  intros LO. induction n as [|n IH]; intros v b Hm I K J N ts Q Ln; (destruct ts as [|o ts]; [cbn in Ln; lia|]); inversion Q as [|? ? (e & i & -> & Eo & Hc & C & M) Qr]; subst; cbn [bruns bstep];
    pose proof (tick_adv L e i v b LO Eo Hc C M I K J N) as A; unfold advances in A;
    (assert (Lo : legal b (Irq e i)) by (cbn [legal]; rewrite M, orb_true_r; split; [reflexivity|]; split; [exact Hc|]; split; [exact Eo|]; intros _ X; discriminate X));
    pose proof (step_good L v b (Irq e i) LO Lo I) as G; pose proof (step_bitsOk L b (Irq e i) K) as K1; cbn [bstep] in G, K1;
    destruct (timerInterruptHandler L e i b) as [[b1 os]|]; try contradiction; cbn [good okResult] in *; destruct G as [_ I1].
  - destruct A as [A|(_ & _ & A)]; [|lia]. 
    assert (R : exists b2 os2, bruns L ts b1 = Some (b2, os2)).
    { clear - LO I1 Qr. revert I1 Qr. generalize (sees v os) b1. induction ts as [|o ts IH]; intros w b2 I Q; cbn [bruns]; [eauto|]. inversion Q as [|? ? (e & i & -> & Eo & Hc & C & M) Qr]; subst.
      assert (Lo : legal b2 (Irq e i)) by (cbn [legal]; rewrite M, orb_true_r; split; [reflexivity|]; split; [exact Hc|]; split; [exact Eo|]; intros _ X; discriminate X).
      pose proof (step_good L w b2 (Irq e i) LO Lo I) as G. unfold good in G. destruct (bstep L b2 (Irq e i)) as [[b3 o3]|]; [|contradiction]. destruct G as [_ I3]. destruct (IH _ _ I3 Qr) as (b4 & o4 & ->). cbn. eauto. }
    destruct R as (b2 & os2 & ->). exists b2, (os ++ os2). split; [reflexivity|]. destruct A as (ok & A). exists ok. apply in_or_app. auto.
  - destruct A as [A|(Jv & Ni & A)].
    + assert (R : exists b2 os2, bruns L ts b1 = Some (b2, os2)).
      { clear - LO I1 Qr. revert I1 Qr. generalize (sees v os) b1. induction ts as [|o ts IH]; intros w b2 I Q; cbn [bruns]; [eauto|]. inversion Q as [|? ? (e & i & -> & Eo & Hc & C & M) Qr]; subst.
        assert (Lo : legal b2 (Irq e i)) by (cbn [legal]; rewrite M, orb_true_r; split; [reflexivity|]; split; [exact Hc|]; split; [exact Eo|]; intros _ X; discriminate X).
        pose proof (step_good L w b2 (Irq e i) LO Lo I) as G. unfold good in G. destruct (bstep L b2 (Irq e i)) as [[b3 o3]|]; [|contradiction]. destruct G as [_ I3]. destruct (IH _ _ I3 Qr) as (b4 & o4 & ->). cbn. eauto. }
      destruct R as (b2 & os2 & ->). exists b2, (os ++ os2). split; [reflexivity|]. destruct A as (ok & A). exists ok. apply in_or_app. auto.
    + destruct (IH (sees v os) b1 ltac:(lia) I1 K1 ltac:(congruence) Ni ts Qr ltac:(cbn in Ln; lia)) as (b2 & os2 & -> & ok & R). exists b2, (os ++ os2). split; [reflexivity|]. exists ok. apply in_or_app. auto.
Qed.
