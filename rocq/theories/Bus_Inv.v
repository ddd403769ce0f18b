(** The invariant of the link layer. *)
From Verif Require Import Base Bits Bus_Model Bus_Spec Bus_Frame.

(** the telegram being sent; [x]: 1 while a transmission of which a byte is out is in progress *)
Definition job_ok (L : limits) (v : view) (b : bus) (x : nat) : Prop :=
  0 <= collisions b <= 4 /\
  match job v, sendCur b with
  | None, None => repeatTel b = false /\ waitAck b = false /\ collisions b = 0 /\ sendRetries b = 0 /\ sendBusyRetries b = 0
  | Some (own, t), Some f =>
      tel_buffer t /\ is_u16 own /\ (prepared f (wire own t) (size t) \/ prepared f (wire own (repeated t)) (size t) /\ full v <> O) /\
      0 <= sendRetries b /\ 0 <= sendBusyRetries b /\
      (full v = O -> repeatTel b = false /\ waitAck b = false /\ sendRetries b = 0 /\ sendBusyRetries b = 0) /\
      (full v <> O -> sendRetries b + sendBusyRetries b + 1 = Z.of_nat (full v) /\ (repeatTel b = true \/ waitAck b = true)) /\
      ((full v <= 1)%nat \/ Z.of_nat (full v) <= sendRetriesMax L + sendBusyRetriesMax L) /\
      (tried v = full v + Z.to_nat (collisions b) + x)%nat /\ ~ acked v
  | _, _ => False
  end.
(** the telegram received *)
Definition held_ok (v : view) (b : bus) : Prop :=
  telegramLen b = match held v with None => O | Some t => length t end /\ (forall t, held v = Some t -> latest v = Some t) /\
  match latest v with
  | None => telegram b = repeat 0 maxTelegramSize
  | Some t => (8 <= length t <= largest)%nat /\ firstn (length t) (telegram b) = t
  end.
Definition core (L : limits) (v : view) (b : bus) (x : nat) : Prop :=
  length (rxTel b) = largest /\ length (telegram b) = largest /\ Z.land (txError b) TX_RETRY_ERROR = 0 /\ asked v = waitAck b /\ job_ok L v b x /\ held_ok v b.
(** the reception in progress *)
Definition receiving (v : view) (b : bus) : Prop :=
  over v = false /\ sendAck b = 0 /\ nextByteIndex b = Nat.min (length (heard v)) largest /\ firstn (nextByteIndex b) (rxTel b) = firstn largest (heard v) /\
  checksum b = Z.lxor 255 (xor_all (firstn largest (heard v))) /\ valid b = sound v /\ (heard v = [] -> sound v = true) /\ Forall is_byte (heard v).
(** the transmission of a telegram in progress: [n] bytes are out *)
Definition frameTx (L : limits) (v : view) (b : bus) (n : nat) : Prop :=
  sendAck b = 0 /\ nextByteIndex b = n /\ collisions b <= 3 /\
  exists f, sendCur b = Some f /\ sendTelegramLen b = S (size f) /\ (n <= S (size f))%nat /\ on v = Some (false, firstn n f) /\ due v = Some (firstn (S (size f)) f) /\
            (full v = O \/ Z.of_nat (full v) < sendRetriesMax L + sendBusyRetriesMax L).
Definition ackTx (v : view) (b : bus) (l : list Z) : Prop := sendAck b = SB_BUS_ACK /\ nextByteIndex b = O /\ on v = Some (true, l).
Definition timing (b : bus) : Prop := 0 <= mTime b <= 1300 /\ 7 <= mPwm b <= 65535 /\ (state b = SEND_START_BIT -> 104 <= mPwm b <= 1200).
Definition out (n : nat) : nat := match n with O => O | _ => 1 end.
Definition phase (L : limits) (v : view) (b : bus) (x : nat) : Prop :=
  match state b with
  | INIT | IDLE | WAIT_50BT => x = O /\ waitAck b = false /\ sendAck b = 0
  | RECV_WAIT_FOR_STARTBIT_OR_TELEND => x = O /\ receiving v b /\ exists l, heard v = l ++ [currentByte b] /\ (l = [] -> sound v = parity b)
  | RECV_BITS_OF_BYTE => x = O /\ receiving v b
  | RECV_WAIT_FOR_ACK_TX_START => x = O /\ waitAck b = false /\ sendAck b = SB_BUS_ACK /\ over v = true /\ acceptable (heard v) (sound v) /\ heldThen v = false
  | SEND_START_BIT | SEND_BIT_0 => waitAck b = false /\ timing b /\ ((x = O /\ ackTx v b []) \/ exists n, x = out n /\ frameTx L v b n /\ (n < sendTelegramLen b)%nat)
  | SEND_BITS_OF_BYTE => waitAck b = false /\ timing b /\ ((x = O /\ ackTx v b [SB_BUS_ACK]) \/ exists n, x = 1%nat /\ frameTx L v b (S n))
  | SEND_END_OF_TX => waitAck b = false /\ ((x = O /\ ackTx v b [SB_BUS_ACK]) \/ (x = 1%nat /\ frameTx L v b (sendTelegramLen b)))
  | SEND_WAIT_FOR_RX_ACK_WINDOW | SEND_WAIT_FOR_RX_ACK => x = O /\ waitAck b = true /\ sendAck b = 0
  end.
Definition inv (L : limits) (v : view) (b : bus) : Prop := exists x, core L v b x /\ phase L v b x.
(** a step does only what is permitted and keeps the invariant *)
Definition good (L : limits) (e : option env) (v : view) (r : result) : Prop :=
  match r with None => False | Some (b, os) => permitted L e v os /\ inv L (sees v os) b end.
Lemma permitted_app L e v a c : permitted L e v a -> permitted L e (sees v a) c -> permitted L e v (a ++ c).
Proof. revert v. induction a as [|o r IH]; intros v; cbn; auto. intros [H1 H2] H3. split; auto. Qed.
Lemma sees_app v a c : sees v (a ++ c) = sees (sees v a) c.
Proof. apply fold_left_app. Qed.
Lemma good_also L e v l r : permitted L e v l -> good L e (sees v l) r -> good L e v (also l r).
Proof. unfold good, also. destruct r as [[b os]|]; cbn; [|auto]. intros P [H I]. rewrite sees_app. split; auto. now apply permitted_app. Qed.
Ltac fields := cbn [state sendRetries sendBusyRetries sendAck nextByteIndex currentByte sendTelegramLen sendCur rxTel bitMask bitTime parity valid checksum txError waitAck busyWait repeatTel collisions telegram telegramLen mTime mPwm
  set_state set_sendRetries set_sendBusyRetries set_sendAck set_nextByteIndex set_currentByte set_sendTelegramLen set_sendCur set_rxTel set_bitMask set_bitTime set_parity set_valid set_checksum set_txError set_waitAck set_busyWait set_repeatTel set_collisions set_telegram set_telegramLen set_mTime set_mPwm
  heard sound over reply held heldThen latest job full tried on asked see sees fold_left].
Ltac fieldsin := cbn [state sendRetries sendBusyRetries sendAck nextByteIndex currentByte sendTelegramLen sendCur rxTel bitMask bitTime parity valid checksum txError waitAck busyWait repeatTel collisions telegram telegramLen mTime mPwm
  set_state set_sendRetries set_sendBusyRetries set_sendAck set_nextByteIndex set_currentByte set_sendTelegramLen set_sendCur set_rxTel set_bitMask set_bitTime set_parity set_valid set_checksum set_txError set_waitAck set_busyWait set_repeatTel set_collisions set_telegram set_telegramLen set_mTime set_mPwm
  heard sound over reply held heldThen latest job full tried on asked see sees fold_left] in *.

(** the core does not look at most members *)
Lemma core_same L v b v' b' x :
  core L v b x ->
  rxTel b' = rxTel b -> telegram b' = telegram b -> txError b' = txError b -> waitAck b' = waitAck b -> collisions b' = collisions b -> sendCur b' = sendCur b -> repeatTel b' = repeatTel b ->
  sendRetries b' = sendRetries b -> sendBusyRetries b' = sendBusyRetries b -> telegramLen b' = telegramLen b ->
  asked v' = asked v -> job v' = job v -> full v' = full v -> tried v' = tried v -> held v' = held v -> latest v' = latest v -> (acked v' -> acked v) ->
  core L v' b' x.
Proof.
  unfold core, job_ok, held_ok. intros C. intros -> -> -> -> -> -> -> -> -> -> -> -> -> -> -> -> A.
  destruct C as (C1 & C2 & C3 & C4 & (C5 & C6) & C7). repeat (split; [assumption|]). split; [|assumption]. split; [assumption|].
  destruct (job v) as [[own t]|]; destruct (sendCur b); auto. destruct C6 as (D1 & D2 & D3 & D4 & D5 & D6 & D7 & D8 & D9 & D10).
  repeat (split; [assumption|]). auto.
Qed.
