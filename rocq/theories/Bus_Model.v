(** The link layer: the interrupt-driven state machine of sblib/src/eib/bus.cpp (class Bus, sblib/inc/sblib/eib/bus.h), constants of sblib/inc/sblib/eib/bus_const.h.

    Simplifications (they apply to the whole file):
    - one call of timerInterruptHandler is one step; its inputs are the two interrupt flags, the capture register, the timer value, the outcome of the spike filter and
      millis(), each sampled once (the flag of the time channel after the spike filter). The counter and the modes of the timer are hardware: which interrupts follow is an input. The match registers are part of the state,
      because the code reads them back;
    - rx_error is only ever written (no code outside debug output reads it) and is left out; debug output, BUSMONITOR and PIO_FOR_TEL_END_IND are not modelled;
    - the upper layer is an environment: own address, known group addresses and status byte are inputs, as is the telegram that bcu->finishedSendingTelegram() may send again
      (knx_tlayer4.cpp:605-625). sendCurTelegram is a pointer to a buffer nobody else writes while it is set (knx_tlayer4.cpp:593-603); its contents are part of the state;
    - begin() and end() are not modelled except for the initial values. *)
From Verif Require Export Base Telegram_Model.

(** bus_const.h:22-25 *)
Definition SB_BUS_ACK : Z := 0xcc.
Definition SB_BUS_NACK : Z := 0x0c.
Definition SB_BUS_BUSY : Z := 0xc0.
Definition SB_BUS_NACK_BUSY : Z := 0x00.
(** bus_const.h:48-58 *)
Definition TX_OK : Z := 0.
Definition TX_NACK_ERROR : Z := 4.
Definition TX_ACK_TIMEOUT_ERROR : Z := 8.
Definition TX_REMOTE_BUSY_ERROR : Z := 16.
Definition TX_PWM_STARTBIT_ERROR : Z := 32.
Definition TX_COLLISION_ERROR : Z := 64.
Definition TX_RETRY_ERROR : Z := 128.
(** bus_const.h:61-87: SB_TEL_REPEAT_FLAG, SB_TEL_DATA_FRAME_FLAG, VALID_DATA_FRAME_TYPE_MASK, VALID_DATA_FRAME_TYPE_VALUE, PRIO_FLAG_HIGH *)
Definition SB_TEL_REPEAT_FLAG : Z := 0x20.
Definition SB_TEL_DATA_FRAME_FLAG : Z := 0x40.
Definition VALID_DATA_FRAME_TYPE_MASK : Z := 0xD3.
Definition VALID_DATA_FRAME_TYPE_VALUE : Z := 0x90.
Definition PRIO_FLAG_HIGH : Z := 0x04.
(** bus_const.h:92 *)
Definition COLLISION_RETRY_MAX : Z := 3.
(** bus_const.h:98-102 BIT_TIME, BIT_TIMES, BIT_TIMES_DELAY *)
Definition BIT_TIME : Z := 1000000 / 9600.
Definition BIT_TIMES (x : Z) : Z := x * BIT_TIME.
Definition BIT_TIMES_DELAY (x : Z) : Z := (x * 1000000 + 4800) / 9600.
(** bus_const.h:104-112 *)
Definition REFLECTION_IGNORE_DELAY : Z := 3.
Definition STARTBIT_OFFSET_MIN : Z := 30.
Definition STARTBIT_OFFSET_MAX : Z := 30.
Definition BIT_OFFSET_MIN : Z := 7.
Definition BIT_OFFSET_MAX : Z := 33.
Definition BIT_WAIT_TIME : Z := (BIT_TIME * 4 + 3) / 6.
Definition BIT_PULSE_TIME : Z := BIT_TIME - BIT_WAIT_TIME.
(** bus_const.h:114, 121-141 *)
Definition BYTE_TIME_INCL_STOP : Z := BIT_TIMES 11.
Definition MAX_INTER_CHAR_TIME : Z := BIT_TIMES 2 + STARTBIT_OFFSET_MAX.
Definition SEND_ACK_WAIT_TIME : Z := BIT_TIMES_DELAY 15.
Definition ACK_WAIT_TIME_MIN : Z := BIT_TIMES_DELAY 15 - 5 - 100.
Definition ACK_WAIT_TIME_MAX : Z := BIT_TIMES_DELAY 15 + 30 + 100.
Definition WAIT_40BIT : Z := BIT_TIMES_DELAY 40.
Definition WAIT_50BIT_FOR_IDLE : Z := BIT_TIMES_DELAY 50.
Definition SEND_WAIT_TIME : Z := BIT_TIMES_DELAY 50.
Definition RANDOMIZE_FACTOR : Z := 131.
Definition RANDOMIZE_MODULUS : Z := BIT_TIMES_DELAY 3.
Definition BUSY_WAIT_150BIT : Z := BIT_TIMES_DELAY 150.
Definition PRE_SEND_TIME : Z := BIT_TIMES_DELAY 1.
(** bcu_base.cpp:166-169 *)
Definition maxTelegramSize : nat := 23.
(** userRam.h:21-22 BCU_STATUS_LINK_LAYER, BCU_STATUS_TRANSPORT_LAYER *)
Definition LINK_LAYER_BIT : Z := 0x02.
Definition TRANSPORT_LAYER_BIT : Z := 0x04.

(** bus.h:223-239 State; INIT_RX_FOR_RECEIVING_NEW_TEL and SEND_END_OF_BYTE are only passed through inside one call and are no states of the model *)
Inductive bstate := INIT | IDLE | RECV_WAIT_FOR_STARTBIT_OR_TELEND | RECV_BITS_OF_BYTE | RECV_WAIT_FOR_ACK_TX_START | WAIT_50BT
                  | SEND_START_BIT | SEND_BIT_0 | SEND_BITS_OF_BYTE | SEND_END_OF_TX | SEND_WAIT_FOR_RX_ACK_WINDOW | SEND_WAIT_FOR_RX_ACK.
(** bus.h:141, 146, 241-264: the members; the two match registers *)
Record bus := mkBus {
  state : bstate;
  sendRetries : Z;
  sendBusyRetries : Z;
  sendAck : Z;
  nextByteIndex : nat;
  currentByte : Z;
  sendTelegramLen : nat;
  sendCur : option (list Z);  (* sendCurTelegram *)
  rxTel : list Z;  (* rx_telegram *)
  bitMask : Z;
  bitTime : Z;
  parity : bool;
  valid : bool;
  checksum : Z;
  txError : Z;  (* tx_error *)
  waitAck : bool;  (* wait_for_ack_from_remote *)
  busyWait : bool;  (* busy_wait_from_remote *)
  repeatTel : bool;  (* repeatTelegram *)
  collisions : Z;
  telegram : list Z;
  telegramLen : nat;
  mTime : Z;  (* timer.match(timeChannel) *)
  mPwm : Z;  (* timer.match(pwmChannel) *) }.
(** assignments to single members *)
Definition set_state (v : bstate) (b : bus) : bus := mkBus v (sendRetries b) (sendBusyRetries b) (sendAck b) (nextByteIndex b) (currentByte b) (sendTelegramLen b) (sendCur b) (rxTel b) (bitMask b) (bitTime b) (parity b) (valid b) (checksum b) (txError b) (waitAck b) (busyWait b) (repeatTel b) (collisions b) (telegram b) (telegramLen b) (mTime b) (mPwm b).
Definition set_sendRetries (v : Z) (b : bus) : bus := mkBus (state b) v (sendBusyRetries b) (sendAck b) (nextByteIndex b) (currentByte b) (sendTelegramLen b) (sendCur b) (rxTel b) (bitMask b) (bitTime b) (parity b) (valid b) (checksum b) (txError b) (waitAck b) (busyWait b) (repeatTel b) (collisions b) (telegram b) (telegramLen b) (mTime b) (mPwm b).
Definition set_sendBusyRetries (v : Z) (b : bus) : bus := mkBus (state b) (sendRetries b) v (sendAck b) (nextByteIndex b) (currentByte b) (sendTelegramLen b) (sendCur b) (rxTel b) (bitMask b) (bitTime b) (parity b) (valid b) (checksum b) (txError b) (waitAck b) (busyWait b) (repeatTel b) (collisions b) (telegram b) (telegramLen b) (mTime b) (mPwm b).
Definition set_sendAck (v : Z) (b : bus) : bus := mkBus (state b) (sendRetries b) (sendBusyRetries b) v (nextByteIndex b) (currentByte b) (sendTelegramLen b) (sendCur b) (rxTel b) (bitMask b) (bitTime b) (parity b) (valid b) (checksum b) (txError b) (waitAck b) (busyWait b) (repeatTel b) (collisions b) (telegram b) (telegramLen b) (mTime b) (mPwm b).
Definition set_nextByteIndex (v : nat) (b : bus) : bus := mkBus (state b) (sendRetries b) (sendBusyRetries b) (sendAck b) v (currentByte b) (sendTelegramLen b) (sendCur b) (rxTel b) (bitMask b) (bitTime b) (parity b) (valid b) (checksum b) (txError b) (waitAck b) (busyWait b) (repeatTel b) (collisions b) (telegram b) (telegramLen b) (mTime b) (mPwm b).
Definition set_currentByte (v : Z) (b : bus) : bus := mkBus (state b) (sendRetries b) (sendBusyRetries b) (sendAck b) (nextByteIndex b) v (sendTelegramLen b) (sendCur b) (rxTel b) (bitMask b) (bitTime b) (parity b) (valid b) (checksum b) (txError b) (waitAck b) (busyWait b) (repeatTel b) (collisions b) (telegram b) (telegramLen b) (mTime b) (mPwm b).
Definition set_sendTelegramLen (v : nat) (b : bus) : bus := mkBus (state b) (sendRetries b) (sendBusyRetries b) (sendAck b) (nextByteIndex b) (currentByte b) v (sendCur b) (rxTel b) (bitMask b) (bitTime b) (parity b) (valid b) (checksum b) (txError b) (waitAck b) (busyWait b) (repeatTel b) (collisions b) (telegram b) (telegramLen b) (mTime b) (mPwm b).
Definition set_sendCur (v : option (list Z)) (b : bus) : bus := mkBus (state b) (sendRetries b) (sendBusyRetries b) (sendAck b) (nextByteIndex b) (currentByte b) (sendTelegramLen b) v (rxTel b) (bitMask b) (bitTime b) (parity b) (valid b) (checksum b) (txError b) (waitAck b) (busyWait b) (repeatTel b) (collisions b) (telegram b) (telegramLen b) (mTime b) (mPwm b).
Definition set_rxTel (v : list Z) (b : bus) : bus := mkBus (state b) (sendRetries b) (sendBusyRetries b) (sendAck b) (nextByteIndex b) (currentByte b) (sendTelegramLen b) (sendCur b) v (bitMask b) (bitTime b) (parity b) (valid b) (checksum b) (txError b) (waitAck b) (busyWait b) (repeatTel b) (collisions b) (telegram b) (telegramLen b) (mTime b) (mPwm b).
Definition set_bitMask (v : Z) (b : bus) : bus := mkBus (state b) (sendRetries b) (sendBusyRetries b) (sendAck b) (nextByteIndex b) (currentByte b) (sendTelegramLen b) (sendCur b) (rxTel b) v (bitTime b) (parity b) (valid b) (checksum b) (txError b) (waitAck b) (busyWait b) (repeatTel b) (collisions b) (telegram b) (telegramLen b) (mTime b) (mPwm b).
Definition set_bitTime (v : Z) (b : bus) : bus := mkBus (state b) (sendRetries b) (sendBusyRetries b) (sendAck b) (nextByteIndex b) (currentByte b) (sendTelegramLen b) (sendCur b) (rxTel b) (bitMask b) v (parity b) (valid b) (checksum b) (txError b) (waitAck b) (busyWait b) (repeatTel b) (collisions b) (telegram b) (telegramLen b) (mTime b) (mPwm b).
Definition set_parity (v : bool) (b : bus) : bus := mkBus (state b) (sendRetries b) (sendBusyRetries b) (sendAck b) (nextByteIndex b) (currentByte b) (sendTelegramLen b) (sendCur b) (rxTel b) (bitMask b) (bitTime b) v (valid b) (checksum b) (txError b) (waitAck b) (busyWait b) (repeatTel b) (collisions b) (telegram b) (telegramLen b) (mTime b) (mPwm b).
Definition set_valid (v : bool) (b : bus) : bus := mkBus (state b) (sendRetries b) (sendBusyRetries b) (sendAck b) (nextByteIndex b) (currentByte b) (sendTelegramLen b) (sendCur b) (rxTel b) (bitMask b) (bitTime b) (parity b) v (checksum b) (txError b) (waitAck b) (busyWait b) (repeatTel b) (collisions b) (telegram b) (telegramLen b) (mTime b) (mPwm b).
Definition set_checksum (v : Z) (b : bus) : bus := mkBus (state b) (sendRetries b) (sendBusyRetries b) (sendAck b) (nextByteIndex b) (currentByte b) (sendTelegramLen b) (sendCur b) (rxTel b) (bitMask b) (bitTime b) (parity b) (valid b) v (txError b) (waitAck b) (busyWait b) (repeatTel b) (collisions b) (telegram b) (telegramLen b) (mTime b) (mPwm b).
Definition set_txError (v : Z) (b : bus) : bus := mkBus (state b) (sendRetries b) (sendBusyRetries b) (sendAck b) (nextByteIndex b) (currentByte b) (sendTelegramLen b) (sendCur b) (rxTel b) (bitMask b) (bitTime b) (parity b) (valid b) (checksum b) v (waitAck b) (busyWait b) (repeatTel b) (collisions b) (telegram b) (telegramLen b) (mTime b) (mPwm b).
Definition set_waitAck (v : bool) (b : bus) : bus := mkBus (state b) (sendRetries b) (sendBusyRetries b) (sendAck b) (nextByteIndex b) (currentByte b) (sendTelegramLen b) (sendCur b) (rxTel b) (bitMask b) (bitTime b) (parity b) (valid b) (checksum b) (txError b) v (busyWait b) (repeatTel b) (collisions b) (telegram b) (telegramLen b) (mTime b) (mPwm b).
Definition set_busyWait (v : bool) (b : bus) : bus := mkBus (state b) (sendRetries b) (sendBusyRetries b) (sendAck b) (nextByteIndex b) (currentByte b) (sendTelegramLen b) (sendCur b) (rxTel b) (bitMask b) (bitTime b) (parity b) (valid b) (checksum b) (txError b) (waitAck b) v (repeatTel b) (collisions b) (telegram b) (telegramLen b) (mTime b) (mPwm b).
Definition set_repeatTel (v : bool) (b : bus) : bus := mkBus (state b) (sendRetries b) (sendBusyRetries b) (sendAck b) (nextByteIndex b) (currentByte b) (sendTelegramLen b) (sendCur b) (rxTel b) (bitMask b) (bitTime b) (parity b) (valid b) (checksum b) (txError b) (waitAck b) (busyWait b) v (collisions b) (telegram b) (telegramLen b) (mTime b) (mPwm b).
Definition set_collisions (v : Z) (b : bus) : bus := mkBus (state b) (sendRetries b) (sendBusyRetries b) (sendAck b) (nextByteIndex b) (currentByte b) (sendTelegramLen b) (sendCur b) (rxTel b) (bitMask b) (bitTime b) (parity b) (valid b) (checksum b) (txError b) (waitAck b) (busyWait b) (repeatTel b) v (telegram b) (telegramLen b) (mTime b) (mPwm b).
Definition set_telegram (v : list Z) (b : bus) : bus := mkBus (state b) (sendRetries b) (sendBusyRetries b) (sendAck b) (nextByteIndex b) (currentByte b) (sendTelegramLen b) (sendCur b) (rxTel b) (bitMask b) (bitTime b) (parity b) (valid b) (checksum b) (txError b) (waitAck b) (busyWait b) (repeatTel b) (collisions b) v (telegramLen b) (mTime b) (mPwm b).
Definition set_telegramLen (v : nat) (b : bus) : bus := mkBus (state b) (sendRetries b) (sendBusyRetries b) (sendAck b) (nextByteIndex b) (currentByte b) (sendTelegramLen b) (sendCur b) (rxTel b) (bitMask b) (bitTime b) (parity b) (valid b) (checksum b) (txError b) (waitAck b) (busyWait b) (repeatTel b) (collisions b) (telegram b) v (mTime b) (mPwm b).
Definition set_mTime (v : Z) (b : bus) : bus := mkBus (state b) (sendRetries b) (sendBusyRetries b) (sendAck b) (nextByteIndex b) (currentByte b) (sendTelegramLen b) (sendCur b) (rxTel b) (bitMask b) (bitTime b) (parity b) (valid b) (checksum b) (txError b) (waitAck b) (busyWait b) (repeatTel b) (collisions b) (telegram b) (telegramLen b) v (mPwm b).
Definition set_mPwm (v : Z) (b : bus) : bus := mkBus (state b) (sendRetries b) (sendBusyRetries b) (sendAck b) (nextByteIndex b) (currentByte b) (sendTelegramLen b) (sendCur b) (rxTel b) (bitMask b) (bitTime b) (parity b) (valid b) (checksum b) (txError b) (waitAck b) (busyWait b) (repeatTel b) (collisions b) (telegram b) (telegramLen b) (mTime b) v.
(** sendRetriesMax, sendBusyRetriesMax (bus.h:243, 245; set once at start) *)
Record limits := mkLimits { sendRetriesMax : Z; sendBusyRetriesMax : Z }.
(** what the upper layer answers: bcu->ownAddress(), addrTables->indexOfAddr(a) >= 0 (false without address tables), userRam->status(), and the telegram
    finishedSendingTelegram(ok) hands to sendTelegram(), if any *)
Record env := mkEnv { ownAddress : Z; knownGroup : Z -> bool; statusByte : Z; sendsAgain : bool -> option (list Z) }.
(** inputs of the interrupt handler: flags of capture and time channel, capture register, timer value, the spike filter saw the line go high again, millis() *)
Record irq := mkIrq { iCap : bool; iMatch : bool; iCapture : Z; iTimer : Z; iSpike : bool; iMillis : Z }.
(** what happens, for an observer: a reception begins (with the bytes of an own transmission that collided), a byte was received (and its parity is right),
    the frame is over, a telegram is stored for the upper layer; a transmission begins (is it an acknowledge?), a byte is sent, the transmission is complete;
    the time for an acknowledge has passed; a telegram was taken for sending (own address, telegram as handed over), the completion report for it;
    the application has discarded the received telegram *)
Inductive bout := RxBegin (prefix : list Z) | RxByte (b : Z) (ok : bool) | RxEnd | Deliver (t : list Z)
                | TxBegin (ack : bool) | TxByte (b : Z) | TxEnd (ack : bool) | NoAnswer | Taken (own : Z) (t : list Z) | Report (ok : bool) | Discarded.
(** what a step gives; None: an undefined operation (null pointer, shift by 32 or more) *)
Definition result := option (bus * list bout).
Definition also (l : list bout) (r : result) : result := option_map (fun p => (fst p, l ++ snd p)) r.

(** bus.cpp:185-189: exclusive or with all bytes *)
Definition xorBytes (c : Z) (l : list Z) : Z := fold_left Z.lxor l c.
(** bus.cpp:180-191 prepareTelegram *)
Definition prepareTelegram (own : Z) (t : list Z) (length : nat) : list Z :=
  let t := setSenderAddress t (u16 own) in
  wr t length (u8 (xorBytes 0xff (firstn length t))).
(** bus.cpp:237-270 initState *)
Definition initState (b : bus) : bus :=
  set_sendAck 0 (set_state INIT (set_mPwm 0xffff (set_mTime (BIT_TIMES_DELAY 2 + WAIT_40BIT) b))).
(** bus.cpp:272-283 idleState *)
Definition idleState (b : bus) : bus := set_state IDLE (set_mPwm 0xffff (set_mTime 0xfffe b)).
(** bus.cpp:285-291 startSendingImmediately *)
Definition startSendingImmediately (b : bus) : bus := set_mTime 1 (set_state WAIT_50BT b).
(** bus.cpp:293-304 prepareForSending *)
Definition prepareForSending (b : bus) : bus :=
  set_busyWait false (set_repeatTel false (set_waitAck false (set_sendTelegramLen 0 (set_sendBusyRetries 0 (set_sendRetries 0 (set_collisions 0 (set_txError TX_OK b))))))).
(** bus.cpp:533-542 finishSendingTelegram; the upper layer may call sendTelegram (206-212), state is not IDLE here *)
Definition finishSendingTelegram (e : env) (b : bus) : bus * list bout :=
  match sendCur b with
  | None => (prepareForSending b, [])
  | Some _ =>
      let ok := Z.land (txError b) TX_RETRY_ERROR =? 0 in
      match sendsAgain e ok with
      | None => (prepareForSending (set_sendCur None b), [Report ok])
      | Some t => (prepareForSending (set_sendCur (Some (prepareTelegram (ownAddress e) t (telegramSize t))) b), [Report ok; Taken (ownAddress e) t])
      end
  end.
(** bus.cpp:547-556 encounteredCollision; uint8_t collisions *)
Definition encounteredCollision (b : bus) : bus :=
  if sendAck b =? 0 then set_txError (Z.lor (txError b) TX_COLLISION_ERROR) (set_collisions (u8 (collisions b + 1)) b) else b.

(** ** handleTelegram *)
(** bus.cpp:378-393: is the frame for us? *)
Definition processTel (e : env) (rx : list Z) : bool :=
  let destAddr := Z.lor (Z.shiftl (rd rx 3) 8) (rd rx 4) in
  (if negb (Z.land (rd rx 5) 0x80 =? 0) then (destAddr =? 0) || knownGroup e destAddr else destAddr =? ownAddress e) ||
  (Z.land (statusByte e) TRANSPORT_LAYER_BIT =? 0).
(** bus.cpp:406: the loop comparing bytes 1 .. n-2 *)
Definition sameBytes (n : nat) (rx old : list Z) : bool := forallb (fun i => rd rx i =? rd old i) (seq 1 (n - 2)).
(** bus.cpp:400-411 already_received *)
Definition alreadyReceived (n : nat) (rx old : list Z) : bool :=
  (Z.land (rd rx 0) SB_TEL_REPEAT_FLAG =? 0) && (Z.ldiff (rd rx 0) SB_TEL_REPEAT_FLAG =? Z.ldiff (rd old 0) SB_TEL_REPEAT_FLAG) && sameBytes n rx old.
(** bus.cpp:375-376: a complete valid data frame *)
Definition validFrame (ok : bool) (b : bus) : bool :=
  (8 <=? nextByteIndex b)%nat && ok && (Z.land (rd (rxTel b) 0) VALID_DATA_FRAME_TYPE_MASK =? VALID_DATA_FRAME_TYPE_VALUE) && (nextByteIndex b <=? maxTelegramSize)%nat.
(** bus.cpp:397-449: a frame for us; the bus, the wait time, the delivery *)
Definition frameForUs (e : env) (b : bus) (time : Z) : bus * Z * list bout :=
  let n := nextByteIndex b in
  let '(b, o) :=
    if (0 <? telegramLen b)%nat then (set_sendAck 0 b, [])
    else
      let b := set_sendAck SB_BUS_ACK b in
      if alreadyReceived n (rxTel b) (telegram b) then (b, [])
      else (set_telegramLen n (set_telegram (wr_range (telegram b) 0 (firstn n (rxTel b))) b), [Deliver (firstn n (rxTel b))]) in
  let suppressAck := (Z.land (statusByte e) LINK_LAYER_BIT =? 0) || negb (Z.land (rd (rxTel b) 0) SB_TEL_DATA_FRAME_FLAG =? 0) in
  let b := if suppressAck then set_sendAck 0 b else b in
  if sendAck b =? 0 then (b, time, o) else (set_state RECV_WAIT_FOR_ACK_TX_START b, SEND_ACK_WAIT_TIME - PRE_SEND_TIME, o).
(** bus.cpp:451-483: one byte received while waiting for the acknowledge *)
Definition acknowledgeReceived (L : limits) (e : env) (b : bus) (time : Z) : bus * Z * list bout :=
  let b := set_waitAck false b in
  let ack := parity b && (currentByte b =? SB_BUS_ACK) in
  if ack || (sendRetriesMax L <=? sendRetries b) || (sendBusyRetriesMax L <=? sendBusyRetries b) then
    let b := if ack then b else set_txError (Z.lor (txError b) TX_RETRY_ERROR) b in
    let '(b, o) := finishSendingTelegram e b in (b, time, o)
  else if parity b && ((currentByte b =? SB_BUS_BUSY) || (currentByte b =? SB_BUS_NACK_BUSY)) then
    (set_repeatTel true (set_busyWait true (set_txError (Z.lor (txError b) TX_REMOTE_BUSY_ERROR) b)), BUSY_WAIT_150BIT - PRE_SEND_TIME, [])
  else (set_repeatTel true (set_busyWait false (set_txError (Z.lor (txError b) TX_NACK_ERROR) b)), time, []).
(** bus.cpp:343-526 handleTelegram; the third branch (484-500) only concerns rx_error *)
Definition handleTelegram (L : limits) (e : env) (ok : bool) (b : bus) : bus * list bout :=
  let time := SEND_WAIT_TIME - PRE_SEND_TIME in
  let b := set_state WAIT_50BT (set_sendAck 0 b) in
  let '(b, time, o) :=
    if validFrame ok b then (if processTel e (rxTel b) then frameForUs e b time else (b, time, []))
    else if (nextByteIndex b =? 1)%nat && waitAck b then acknowledgeReceived L e b time
    else (b, time, []) in
  let b := if waitAck b then set_waitAck false (set_repeatTel true b) else b in
  (set_mTime (time - 1) b, RxEnd :: o).

(** ** Receiving *)
(** bus.cpp:677-728 RECV_WAIT_FOR_STARTBIT_OR_TELEND *)
Definition recvWait (L : limits) (e : env) (i : irq) (b : bus) : result :=
  if negb (iCap i) then Some (handleTelegram L e (valid b && (checksum b =? 0)) b)
  else Some (set_parity true (set_bitMask 1 (set_bitTime 0 (set_currentByte 0 (set_state RECV_BITS_OF_BYTE (set_mTime (BYTE_TIME_INCL_STOP - 1) b))))), []).
(** bus.cpp:651-667 INIT_RX_FOR_RECEIVING_NEW_TEL; falls through *)
Definition initRx (L : limits) (e : env) (i : irq) (b : bus) : result :=
  also [RxBegin []] (recvWait L e i (set_valid true (set_sendAck 0 (set_checksum 0xff (set_nextByteIndex 0 b))))).
(** bus.cpp:753-759: the loop over high bits; [n] = time - bitTime - BIT_WAIT_TIME + 1 is positive exactly if time >= bitTime + BIT_WAIT_TIME *)
Fixpoint highBits (n : nat) (time : Z) (b : bus) : bus :=
  match n with
  | O => b
  | S k =>
      if (bitTime b + BIT_WAIT_TIME <=? time) && (bitMask b <=? 0x100)
      then highBits k time (set_bitMask (2 * bitMask b) (set_bitTime (bitTime b + BIT_TIME) (set_parity (negb (parity b)) (set_currentByte (Z.lor (currentByte b) (bitMask b)) b))))
      else b
  end.
(** bus.cpp:749-775: find the bit position *)
Definition findBit (time : Z) (b : bus) : bus :=
  if bitTime b + BIT_TIME - 35 <=? time then
    let b := set_bitTime (bitTime b + BIT_TIME) b in
    let b := highBits (Z.to_nat (time - bitTime b - BIT_WAIT_TIME + 1)) time b in
    set_bitMask (2 * bitMask b) b
  else b.
(** bus.cpp:777-811: end of byte *)
Definition endOfByte (b : bus) : bus * list bout :=
  let c := Z.land (currentByte b) 0xff in
  let b := set_currentByte c b in
  let b := if (nextByteIndex b <? maxTelegramSize)%nat
           then set_nextByteIndex (S (nextByteIndex b)) (set_checksum (Z.lxor (checksum b) c) (set_rxTel (wr (rxTel b) (nextByteIndex b) c) b)) else b in
  let b := set_valid (valid b && parity b) b in
  (set_mTime (MAX_INTER_CHAR_TIME - 1) (set_state RECV_WAIT_FOR_STARTBIT_OR_TELEND b), [RxByte c (parity b)]).
(** bus.cpp:734-816 RECV_BITS_OF_BYTE *)
Definition recvBits (i : irq) (b : bus) : bus * list bout :=
  let time := if iMatch i then mTime b + 1 else iCapture i in
  let b := findBit time b in
  if iMatch i then endOfByte b else (b, []).

(** ** Sending *)
(** bus.cpp:1229-1246 SEND_END_OF_BYTE *)
Definition sendEndOfByte (b : bus) : bus :=
  if (nextByteIndex b <? sendTelegramLen b)%nat && (sendAck b =? 0)
  then set_mTime (BIT_TIMES_DELAY 3 - 1) (set_mPwm (BIT_TIMES_DELAY 3 - BIT_PULSE_TIME) (set_state SEND_START_BIT b))
  else set_mTime (BIT_TIME - BIT_PULSE_TIME - 1) (set_state SEND_END_OF_TX b).
(** bus.cpp:1195-1199: high bits up to the next low one; at most nine. The mask and the time *)
Fixpoint nextLow (n : nat) (cur mask time : Z) : Z * Z :=
  match n with
  | O => (mask, time)
  | S k => if negb (Z.land cur mask =? 0) && (mask <=? 0x100) then nextLow k cur (2 * mask) (time + BIT_TIME) else (mask, time)
  end.
(** bus.cpp:1190-1224: timeout *)
Definition sendNextBit (b : bus) : bus :=
  if bitMask b <=? 0x200 then
    let '(m, time) := nextLow 9 (currentByte b) (bitMask b) BIT_TIME in
    let b := set_bitMask (2 * m) b in
    let b := set_mPwm (if 0x200 <? bitMask b then 0xffff else time - BIT_PULSE_TIME) b in
    set_mTime (time - 1) b
  else sendEndOfByte b.
(** bus.cpp:1164-1172: bits already sent; [n] bounds the length of an int *)
Fixpoint sentBits (n : nat) (i cur missing : Z) (par : bool) : Z * bool :=
  match n with
  | O => (missing, par)
  | S k => if i =? 0 then (missing, par) else sentBits k (i / 2) cur (missing - 1) (if Z.land cur i =? 0 then par else negb par)
  end.
(** bus.cpp:1109-1144: the bytes sent before the collision count as received. None: no telegram *)
Definition takeOver (b : bus) : option (bus * list Z) :=
  let b := set_parity true (set_valid true (set_checksum 0xff b)) in
  if negb (sendAck b =? 0) then Some (set_sendAck 0 b, [])
  else match sendCur b, nextByteIndex b with
       | Some t, S n =>
           let p := firstn n t in
           Some (set_checksum (xorBytes 0xff p) (set_rxTel (wr_range (rxTel b) 0 p) (set_nextByteIndex n b)), p)
       | _, _ => None
       end.
(** bus.cpp:1101-1181: somebody else sends a low bit: receive; goes on in RECV_BITS_OF_BYTE *)
Definition collided (i : irq) (b : bus) : result :=
  match takeOver (encounteredCollision b) with
  | None => None
  | Some (b, p) =>
      let count := u32 (mTime b - iCapture i + (BIT_OFFSET_MAX - BIT_PULSE_TIME)) / BIT_TIME in
      if 32 <=? count + 1 then None
      else
        let mask := Z.shiftr (bitMask b) (count + 1) in
        let cur := Z.land (currentByte b) (mask - 1) in
        let '(missing, par) := sentBits 32 (mask / 2) cur 10 (parity b) in
        let b := set_parity par (set_currentByte cur (set_bitTime (iCapture i - BIT_TIME) (set_bitMask mask b))) in
        let b := set_state RECV_BITS_OF_BYTE (set_mPwm 0xffff (set_mTime (iCapture i + missing * BIT_TIME - 1) b)) in
        also [RxBegin p] (Some (recvBits i b))
  end.
(** bus.cpp:1059-1225 SEND_BITS_OF_BYTE *)
Definition sendBits (i : irq) (b : bus) : result :=
  if negb (iMatch i) then
    if iCapture i <? REFLECTION_IGNORE_DELAY then Some (b, [])
    else if iCapture i mod BIT_TIME <? BIT_WAIT_TIME - BIT_OFFSET_MIN then Some (initState (encounteredCollision b), [])
    else if iCapture i <? u32 (mPwm b - BIT_OFFSET_MIN) then collided i b
    else Some (b, [])
  else Some (sendNextBit b, []).
(** bus.cpp:1046-1050: the parity bit *)
Definition withParity (c : Z) : Z := fold_left (fun v k => if Z.testbit v k then Z.lxor v 0x100 else v) [0; 1; 2; 3; 4; 5; 6; 7] c.
(** bus.cpp:1033-1052 SEND_BIT_0; falls through *)
Definition sendBit0 (i : irq) (b : bus) : result :=
  match (if negb (sendAck b =? 0) then Some (sendAck b, b)
         else match sendCur b with Some t => Some (rd t (nextByteIndex b), set_nextByteIndex (S (nextByteIndex b)) b) | None => None end) with
  | None => None
  | Some (c, b) => also [TxByte c] (sendBits i (set_state SEND_BITS_OF_BYTE (set_bitMask 1 (set_currentByte (withParity c) b))))
  end.
(** bus.cpp:960-1024 SEND_START_BIT *)
Definition sendStartBit (L : limits) (e : env) (i : irq) (b : bus) : result :=
  if negb (iMatch i) then
    if iCapture i <? u32 (mPwm b - STARTBIT_OFFSET_MIN) then
      let b := if (nextByteIndex b =? 0)%nat then b else encounteredCollision b in
      initRx L e i (set_mPwm 0xffff b)
    else
      let b := if iCapture i <? mPwm b then set_mTime (iCapture i + (BIT_PULSE_TIME - 1)) (set_mPwm (iTimer i + 1) b) else b in
      Some (set_state SEND_BIT_0 b, [])
  else sendBit0 i (set_txError (Z.lor (txError b) TX_PWM_STARTBIT_ERROR) (set_state SEND_BIT_0 b)).
(** bus.cpp:899-905: mark the telegram as repeated and correct the checksum *)
Definition markRepeated (rep : bool) (n : nat) (t : list Z) : list Z :=
  if rep && negb (Z.land (rd t 0) SB_TEL_REPEAT_FLAG =? 0)
  then let t := wr t 0 (Z.ldiff (rd t 0) SB_TEL_REPEAT_FLAG) in wr t (n - 1) (Z.lxor (rd t (n - 1)) SB_TEL_REPEAT_FLAG)
  else t.
(** bus.cpp:906-920: the time before the start bit *)
Definition startTime (L : limits) (b : bus) (t : list Z) (millis : Z) : Z :=
  let time := if negb (Z.land (rd t 0) SB_TEL_REPEAT_FLAG =? 0) && negb (Z.land (rd t 0) PRIO_FLAG_HIGH =? 0) then PRE_SEND_TIME + BIT_TIMES_DELAY 3 else PRE_SEND_TIME in
  let canRepeat := (0 <? sendRetriesMax L) && (0 <? sendBusyRetriesMax L) in
  let lastRepeat := repeatTel b && ((sendRetriesMax L <=? sendRetries b + 1) || (sendBusyRetriesMax L <=? sendBusyRetries b + 1)) in
  if canRepeat && negb lastRepeat && negb (collisions b =? COLLISION_RETRY_MAX) then time + u32 (millis * RANDOMIZE_FACTOR) mod RANDOMIZE_MODULUS else time.
(** bus.cpp:883-884: give up? *)
Definition giveUp (L : limits) (b : bus) : bool :=
  (repeatTel b && ((sendRetriesMax L <=? sendRetries b) || (sendBusyRetriesMax L <=? sendBusyRetries b))) || (COLLISION_RETRY_MAX <? collisions b).
(** bus.cpp:872-949 WAIT_50BT_FOR_NEXT_RX_OR_PENDING_TX_OR_IDLE *)
Definition wait50 (L : limits) (e : env) (i : irq) (b : bus) : result :=
  if iCap i then initRx L e i b
  else
    let '(b, o) := if giveUp L b then finishSendingTelegram e (set_txError (Z.lor (txError b) TX_RETRY_ERROR) b) else (b, []) in
    match sendCur b with
    | None => Some (idleState b, o)
    | Some t =>
        let n := S (telegramSize t) in
        let t := markRepeated (repeatTel b) n t in
        let time := startTime L b t (iMillis i) in
        let b := set_sendCur (Some t) (set_sendTelegramLen n b) in
        let b := set_mTime (time + (BIT_PULSE_TIME - 1)) (set_mPwm time b) in
        Some (set_state SEND_START_BIT (set_txError TX_OK (set_nextByteIndex 0 b)), o ++ [TxBegin false])
    end.
(** bus.cpp:822-850 RECV_WAIT_FOR_ACK_TX_START *)
Definition recvAckStart (L : limits) (e : env) (i : irq) (b : bus) : result :=
  if iCap i then initRx L e i (set_sendAck 0 b)
  else
    let b := set_mTime (PRE_SEND_TIME + BIT_PULSE_TIME - 1) (set_mPwm PRE_SEND_TIME (set_sendTelegramLen 0 b)) in
    Some (set_state SEND_START_BIT (set_txError TX_OK (set_nextByteIndex 0 b)), [TxBegin true]).
(** bus.cpp:1251-1305 SEND_END_OF_TX *)
Definition sendEndOfTx (b : bus) : bus * list bout :=
  if negb (sendAck b =? 0) then (set_mTime (SEND_WAIT_TIME - PRE_SEND_TIME - 1) (set_state WAIT_50BT (set_sendAck 0 b)), [TxEnd true])
  else
    let b := set_state SEND_WAIT_FOR_RX_ACK_WINDOW (set_waitAck true b) in
    let b := if repeatTel b then (if busyWait b then set_sendBusyRetries (sendBusyRetries b + 1) b else set_sendRetries (sendRetries b + 1) b) else b in
    (set_mTime (ACK_WAIT_TIME_MIN - 1) b, [TxEnd false]).
(** bus.cpp:1322-1338 SEND_WAIT_FOR_RX_ACK *)
Definition waitForAck (L : limits) (e : env) (i : irq) (b : bus) : result :=
  if iCap i then initRx L e i b
  else Some (set_mTime (SEND_WAIT_TIME - PRE_SEND_TIME - 1) (set_state WAIT_50BT
              (set_txError (Z.lor (txError b) TX_ACK_TIMEOUT_ERROR) (set_waitAck false (set_repeatTel true b)))), [NoAnswer]).
(** bus.cpp:613-633 INIT *)
Definition initCase (L : limits) (e : env) (i : irq) (b : bus) : result :=
  if negb (iMatch i) then Some (b, [])
  else
    let b := set_state WAIT_50BT (set_mTime (BIT_TIMES_DELAY 2 + WAIT_50BIT_FOR_IDLE - PRE_SEND_TIME) b) in
    if iCap i then wait50 L e i b else Some (b, []).
(** bus.cpp:564-1348 timerInterruptHandler; 576-607: the spike filter leaves everything as it is *)
Definition timerInterruptHandler (L : limits) (e : env) (i : irq) (b : bus) : result :=
  if iCap i && (iCapture i <? mPwm b) && iSpike i then Some (b, [])
  else
    match state b with
    | INIT => initCase L e i b
    | IDLE => if iCap i then initRx L e i b else Some (b, [])
    | RECV_WAIT_FOR_STARTBIT_OR_TELEND => recvWait L e i b
    | RECV_BITS_OF_BYTE => Some (recvBits i b)
    | RECV_WAIT_FOR_ACK_TX_START => recvAckStart L e i b
    | WAIT_50BT => wait50 L e i b
    | SEND_START_BIT => sendStartBit L e i b
    | SEND_BIT_0 => sendBit0 i b
    | SEND_BITS_OF_BYTE => sendBits i b
    | SEND_END_OF_TX => Some (sendEndOfTx b)
    | SEND_WAIT_FOR_RX_ACK_WINDOW => Some (set_mTime (ACK_WAIT_TIME_MAX - 1) (set_state SEND_WAIT_FOR_RX_ACK b), [])
    | SEND_WAIT_FOR_RX_ACK => waitForAck L e i b
    end.

(** ** The interface *)
(** bus.cpp:26-40, 51-70 constructor and begin, bus.h:252: initial values; the members begin() does not set are uninitialised ([junk]) *)
Definition begin (junk : bus) : bus :=
  initState (prepareForSending (set_sendCur None (set_telegramLen 0 (set_telegram (repeat 0 maxTelegramSize) (set_rxTel (repeat 0 maxTelegramSize) junk))))).
(** bus.cpp:154-178 canPause *)
Definition canPause (waitForTelegramSent : bool) (b : bus) : bool :=
  match state b with
  | IDLE => true
  | WAIT_50BT => match sendCur b with Some _ => if repeatTel b then false else negb waitForTelegramSent | None => true end
  | _ => false
  end.
(** bus.h:292-295 sendingFrame, 297-300 telegramReceived *)
Definition sendingFrame (b : bus) : bool := match sendCur b with Some _ => true | None => negb (sendAck b =? 0) end.
Definition telegramReceived (b : bus) : bool := negb (telegramLen b =? 0)%nat.
(** what can happen: an interrupt; sendTelegram up to the assignment (bus.cpp:206-213), its second part (228-234); discardReceivedTelegram (bus.h:302-305);
    one pass of the loop in pause (bus.cpp:117-141); resume (143-152) *)
Inductive bop := Irq (e : env) (i : irq) | Send (own : Z) (t : list Z) (length : nat) | Kick | Discard | Pause (waitForTelegramSent : bool) | Resume.
(** one operation. sendTelegram waits while a telegram is being sent: nothing happens *)
Definition bstep (L : limits) (b : bus) (o : bop) : result :=
  match o with
  | Irq e i => timerInterruptHandler L e i b
  | Send own t length => match sendCur b with Some _ => Some (b, []) | None => Some (set_sendCur (Some (prepareTelegram own t length)) b, [Taken own t]) end
  | Kick => Some (match state b with IDLE => startSendingImmediately b | _ => b end, [])
  | Discard => Some (set_telegramLen 0 b, [Discarded])
  | Pause w => Some (if canPause w b then set_state INIT (set_mTime 0xfffe b) else b, [])
  | Resume => Some (initState b, [])
  end.
(** a history *)
Fixpoint bruns (L : limits) (l : list bop) (b : bus) : result :=
  match l with
  | [] => Some (b, [])
  | o :: r => match bstep L b o with None => None | Some (b1, out) => also out (bruns L r b1) end
  end.
