(** Transport layer 4 state machine.
    Models sblib/src/eib/knx_tlayer4.cpp and sblib/inc/sblib/eib/knx_tlayer4.h.

    Simplifications (they apply to the whole file):
    - millis() is read once per operation (the code may read it several times inside one call);
    - statistics counters (disconnectCount, repeatedT_ACKcount) and debug output are omitted;
    - [enabled] is true (loop() does nothing before begin());
    - processApci, the broadcast and the group handlers are an environment: what processApci returns and
      writes into the given buffer is an arbitrary input of the operation; telegrams that such handlers
      send on their own are separate [OpAppSend] operations;
    - the send-completion interrupt finishedSendingTelegram is an operation of its own ([OpTxDone]); inside
      the busy wait of acquireSendBuffer the completions that happen meanwhile are taken from a list of
      results that is an input of the operation.  At every other point of the code an interrupt commutes with
      the rest of the operation, because only the busy wait and the test at the beginning of loop() read the
      state the interrupt writes. *)
From Verif Require Export Base Telegram_Model.

(** knx_tlayer4.h:30-32 *)
Definition TL4_CONNECTION_TIMEOUT_MS := 6000.
Definition TL4_T_ACK_TIMEOUT_MS := 3000.
Definition TL4_MAX_REPETITION_COUNT := 3.
(** bcu_base.cpp:166-169 maxTelegramSize: length of the three buffers *)
Definition TL4_BUFFER_SIZE := 23%nat.

(** knx_tlayer4.h TL4State *)
Inductive tlstate := CLOSED | OPEN_IDLE | OPEN_WAIT.
(** knx_tlayer4.h:312-317 SendTelegramBufferState *)
Inductive bufstate := FREE | ACQUIRED | SENDING.

(** knx_tlayer4.h:289-321 members of TLayer4 *)
Record tl4 := mkTL4 {
  st : tlstate;        (* state *)
  caddr : Z;           (* connectedAddr *)
  seqS : Z;            (* seqNoSend *)
  seqR : Z;            (* seqNoRcv *)
  repC : Z;            (* repCount *)
  ccRep : Z;           (* conCtrlRepCount *)
  ctime : Z;           (* connectedTime *)
  stime : Z;           (* sentTelegramTime *)
  own : Z;             (* ownAddr *)
  txb : list Z;        (* sendTelegram *)
  txs : bufstate;      (* sendTelegramBufferState *)
  b1 : list Z;         (* sendConnectedTelegram *)
  s1 : bufstate;       (* sendConnectedTelegramBufferState *)
  b2 : list Z;         (* sendConnectedTelegram2 *)
  s2 : bufstate        (* sendConnectedTelegramBuffer2State *)
}.

(** knx_tlayer4.h:289-321 (assignments to single members) *)
Definition set_st v s := mkTL4 v (caddr s) (seqS s) (seqR s) (repC s) (ccRep s) (ctime s) (stime s) (own s) (txb s) (txs s) (b1 s) (s1 s) (b2 s) (s2 s).
Definition set_caddr v s := mkTL4 (st s) v (seqS s) (seqR s) (repC s) (ccRep s) (ctime s) (stime s) (own s) (txb s) (txs s) (b1 s) (s1 s) (b2 s) (s2 s).
Definition set_seqS v s := mkTL4 (st s) (caddr s) v (seqR s) (repC s) (ccRep s) (ctime s) (stime s) (own s) (txb s) (txs s) (b1 s) (s1 s) (b2 s) (s2 s).
Definition set_seqR v s := mkTL4 (st s) (caddr s) (seqS s) v (repC s) (ccRep s) (ctime s) (stime s) (own s) (txb s) (txs s) (b1 s) (s1 s) (b2 s) (s2 s).
Definition set_repC v s := mkTL4 (st s) (caddr s) (seqS s) (seqR s) v (ccRep s) (ctime s) (stime s) (own s) (txb s) (txs s) (b1 s) (s1 s) (b2 s) (s2 s).
Definition set_ccRep v s := mkTL4 (st s) (caddr s) (seqS s) (seqR s) (repC s) v (ctime s) (stime s) (own s) (txb s) (txs s) (b1 s) (s1 s) (b2 s) (s2 s).
Definition set_ctime v s := mkTL4 (st s) (caddr s) (seqS s) (seqR s) (repC s) (ccRep s) v (stime s) (own s) (txb s) (txs s) (b1 s) (s1 s) (b2 s) (s2 s).
Definition set_stime v s := mkTL4 (st s) (caddr s) (seqS s) (seqR s) (repC s) (ccRep s) (ctime s) v (own s) (txb s) (txs s) (b1 s) (s1 s) (b2 s) (s2 s).
Definition set_own v s := mkTL4 (st s) (caddr s) (seqS s) (seqR s) (repC s) (ccRep s) (ctime s) (stime s) v (txb s) (txs s) (b1 s) (s1 s) (b2 s) (s2 s).
Definition set_txb v s := mkTL4 (st s) (caddr s) (seqS s) (seqR s) (repC s) (ccRep s) (ctime s) (stime s) (own s) v (txs s) (b1 s) (s1 s) (b2 s) (s2 s).
Definition set_txs v s := mkTL4 (st s) (caddr s) (seqS s) (seqR s) (repC s) (ccRep s) (ctime s) (stime s) (own s) (txb s) v (b1 s) (s1 s) (b2 s) (s2 s).
Definition set_b1 v s := mkTL4 (st s) (caddr s) (seqS s) (seqR s) (repC s) (ccRep s) (ctime s) (stime s) (own s) (txb s) (txs s) v (s1 s) (b2 s) (s2 s).
Definition set_s1 v s := mkTL4 (st s) (caddr s) (seqS s) (seqR s) (repC s) (ccRep s) (ctime s) (stime s) (own s) (txb s) (txs s) (b1 s) v (b2 s) (s2 s).
Definition set_b2 v s := mkTL4 (st s) (caddr s) (seqS s) (seqR s) (repC s) (ccRep s) (ctime s) (stime s) (own s) (txb s) (txs s) (b1 s) (s1 s) v (s2 s).
Definition set_s2 v s := mkTL4 (st s) (caddr s) (seqS s) (seqR s) (repC s) (ccRep s) (ctime s) (stime s) (own s) (txb s) (txs s) (b1 s) (s1 s) (b2 s) v.

(** What the layer does to its environment.  [Tx k bytes]: send(sendTelegram, size) was called with these
    bytes; the tag [k] only records which code path called it (control telegram, its repetition after a failed
    transmission, response of the connection, answer to a connectionless request, application telegram).
    [Exec t]: processApci(t) from actionA02 (connection-oriented request);
    [ExecDirect t]: processApci(t) for a connectionless request; [Bcast t], [Group t]: hand-over to the
    broadcast and group handlers. *)
Inductive txkind := KCtrl | KRetry | KResp | KDirect | KApp.
Inductive out := Tx (k : txkind) (bytes : list Z) | Exec (t : list Z) | ExecDirect (t : list Z)
               | Bcast (t : list Z) | Group (t : list Z).

(** Configuration while an operation runs: members, send completions still to come during busy waits,
    effects so far (oldest first). *)
Record cfg := mkCfg { cS : tl4; cW : list bool; cO : list out }.
Definition upd (f : tl4 -> tl4) (c : cfg) : cfg := mkCfg (f (cS c)) (cW c) (cO c).
Definition emit (o : out) (c : cfg) : cfg := mkCfg (cS c) (cW c) (cO c ++ [o]).
Definition act := cfg -> option cfg.
Definition andThen (o : option cfg) (f : act) : option cfg := match o with Some c => f c | None => None end.
Notation "x >>= f" := (andThen x f) (at level 50, left associativity).

(** knx_tlayer4.cpp:580-584 sendPreparedTelegram *)
Definition sendPreparedTelegram (k : txkind) (c : cfg) : cfg :=
  let c := upd (set_txs SENDING) c in
  emit (Tx k (firstn (telegramSize (txb (cS c))) (txb (cS c)))) c.

(** knx_tlayer4.cpp:605-625 finishedSendingTelegram *)
Definition finishedSendingTelegram (successful : bool) (c : cfg) : cfg :=
  let c := upd (set_txs FREE) c in
  if negb (Z.land (rd (txb (cS c)) 6) 0x80 =? 0) then
    if negb successful && (ccRep (cS c) <? TL4_MAX_REPETITION_COUNT)
    then sendPreparedTelegram KRetry (upd (set_ccRep (ccRep (cS c) + 1)) c)
    else upd (set_ccRep 0) c
  else c.

(** knx_tlayer4.cpp:593-603 acquireSendBuffer; the list is the results of the transmissions that complete while
    the code spins in line 597.  None: still spinning (no more completions, or nothing is being sent). *)
Fixpoint acquireLoop (s : tl4) (o : list out) (w : list bool) : option cfg :=
  match txs s with
  | FREE => Some (mkCfg (set_txs ACQUIRED s) w o)
  | ACQUIRED => None
  | SENDING =>
      match w with
      | [] => None
      | r :: w' => let c := finishedSendingTelegram r (mkCfg s w' o) in acquireLoop (cS c) (cO c) w'
      end
  end.
(** knx_tlayer4.cpp:593-603 acquireSendBuffer *)
Definition acquireSendBuffer (c : cfg) : option cfg := acquireLoop (cS c) (cO c) (cW c).

(** knx_tlayer4.cpp:551-578: contents written to the send buffer *)
Definition controlTelegram (buf : list Z) (cmd address senderSeqNo : Z) : list Z :=
  let t := initLpdu buf PRIORITY_SYSTEM false FRAME_STANDARD in
  let t := setDestinationAddress t address in
  let t := wr (wr t 5 0x60) 6 cmd in
  if Z.land cmd T_SEQUENCED_COMMAND =? 0 then t else setSequenceNumber t senderSeqNo.
(** knx_tlayer4.cpp:551-578 sendConControlTelegram *)
Definition sendConControlTelegram (cmd address senderSeqNo : Z) (c : cfg) : option cfg :=
  acquireSendBuffer c >>= fun c =>
  let c := upd (set_txb (controlTelegram (txb (cS c)) cmd address senderSeqNo)) c in
  Some (sendPreparedTelegram KCtrl c).

(** knx_tlayer4.cpp:586-591 sendPreparedConnectedTelegram *)
Definition sendPreparedConnectedTelegram (c : cfg) : option cfg :=
  acquireSendBuffer c >>= fun c =>
  let s := cS c in
  Some (sendPreparedTelegram KResp (upd (set_txb (blit (txb s) (b1 s) (telegramSize (b1 s)))) c)).

(** knx_tlayer4.cpp:959-968 resetConnection *)
Definition resetConnection (s : tl4) : tl4 := set_s2 FREE (set_s1 FREE s).

(** knx_tlayer4.cpp:738-751 actionA01Connect *)
Definition actionA01Connect (now address : Z) (s : tl4) : tl4 :=
  set_st OPEN_IDLE (set_ctime now (set_seqR 0 (set_seqS 0 (set_caddr address (resetConnection s))))).

(** Result of processApci: the returned bool and the contents of the buffer afterwards. *)
Definition apci_result := (bool * list Z)%type.

(** knx_tlayer4.cpp:781-788: completing the response the application wrote *)
Definition finishResponse (telegram resp : list Z) (address seqno : Z) : list Z :=
  let t := initLpdu resp (priority telegram) false FRAME_STANDARD in
  let t := setDestinationAddress t address in
  setSequenceNumber t seqno.

(** knx_tlayer4.cpp:753-793 actionA02sendAckPduAndProcessApci *)
Definition actionA02 (now seqNo : Z) (telegram : list Z) (app : apci_result) (c : cfg) : option cfg :=
  sendConControlTelegram T_ACK_PDU (caddr (cS c)) seqNo c >>= fun c =>
  let c := upd (fun s => set_seqR (Z.land (seqR s + 1) 0x0F) s) c in
  let c := upd (set_ctime now) c in
  let first := match s1 (cS c) with FREE => true | _ => false end in
  let c := upd (if first then set_s1 ACQUIRED else set_s2 ACQUIRED) c in
  let c := emit (Exec telegram) c in
  let '(sendResponse, resp) := app in
  if sendResponse then
    let s := cS c in
    let n := if first then seqS s else Z.land (seqS s + 1) 0x0F in
    let t := finishResponse telegram resp (caddr s) n in
    Some (upd (if first then set_b1 t else set_b2 t) c)
  else
    let c := upd (if first then set_b1 resp else set_b2 resp) c in
    Some (upd (if first then set_s1 FREE else set_s2 FREE) c).

(** knx_tlayer4.cpp:795-801 actionA03sendAckPduAgain *)
Definition actionA03 (now seqNo : Z) (c : cfg) : option cfg :=
  sendConControlTelegram T_ACK_PDU (caddr (cS c)) seqNo c >>= fun c => Some (upd (set_ctime now) c).
(** knx_tlayer4.cpp:803-808 actionA04SendNAck *)
Definition actionA04 (now seqNo : Z) (c : cfg) : option cfg :=
  sendConControlTelegram T_NACK_PDU (caddr (cS c)) seqNo c >>= fun c => Some (upd (set_ctime now) c).
(** knx_tlayer4.cpp:810-817 actionA05DisconnectUser *)
Definition actionA05 (c : cfg) : cfg := upd resetConnection c.
(** knx_tlayer4.cpp:819-828 actionA06DisconnectAndClose *)
Definition actionA06 (c : cfg) : option cfg :=
  let c := upd (set_st CLOSED) c in
  sendConControlTelegram T_DISCONNECT_PDU (caddr (cS c)) 0 c >>= fun c => Some (upd resetConnection c).
(** knx_tlayer4.cpp:830-869 actionA07SendDirectTelegram *)
Definition actionA07 (now : Z) (c : cfg) : option cfg :=
  match st (cS c), s1 (cS c) with
  | CLOSED, _ => Some c
  | _, ACQUIRED =>
      let c := upd (fun s => set_s1 SENDING (set_st OPEN_WAIT s)) c in
      sendPreparedConnectedTelegram c >>= fun c =>
      Some (upd (fun s => set_ctime now (set_stime now (set_repC 0 s))) c)
  | _, _ => Some c
  end.
(** knx_tlayer4.cpp:871-885 actionA08IncrementSequenceNumber *)
Definition actionA08 (now : Z) (s : tl4) : tl4 :=
  let s := set_s1 FREE (set_ctime now (set_seqS (Z.land (seqS s + 1) 0x0F) s)) in
  match s2 s with
  | FREE => s
  | x => set_s2 FREE (set_s1 x (set_b1 (blit (b1 s) (b2 s) (telegramSize (b2 s))) s))
  end.
(** knx_tlayer4.cpp:887-898 actionA09RepeatMessage *)
Definition actionA09 (now : Z) (c : cfg) : option cfg :=
  sendPreparedConnectedTelegram c >>= fun c =>
  Some (upd (fun s => set_ctime now (set_stime now (set_repC (repC s + 1) s))) c).
(** knx_tlayer4.cpp:900-907 actionA10Disconnect *)
Definition actionA10 (address : Z) (c : cfg) : option cfg :=
  sendConControlTelegram T_DISCONNECT_PDU address 0 c.

(** knx_tlayer4.cpp:353-386 processConControlConnectPDU *)
Definition processConnect (now sender : Z) (c : cfg) : option cfg :=
  match st (cS c) with
  | CLOSED => Some (upd (actionA01Connect now sender) c)
  | _ => if caddr (cS c) =? sender then Some c else actionA10 sender c
  end.
(** knx_tlayer4.cpp:388-421 processConControlDisconnectPDU *)
Definition processDisconnect (sender : Z) (c : cfg) : option cfg :=
  match st (cS c) with
  | CLOSED => Some c
  | _ => if sender =? caddr (cS c) then Some (actionA05 (upd (set_st CLOSED) c)) else Some c
  end.
(** knx_tlayer4.cpp:423-549 processConControlAcknowledgmentPDU (the test in line 425 never rejects, as bit 7 of
    tpci is set and contained in T_ACKNOWLEDGE_Msk = 0xC2) *)
Definition processAcknowledge (now sender tpci : Z) (telegram : list Z) (c : cfg) : option cfg :=
  if Z.land tpci 0xC2 =? 0 then Some c else
  let s := cS c in
  let cur := sequenceNumber telegram in
  if Z.land tpci 1 =? 0 then
    match st s with
    | OPEN_WAIT =>
        if negb (caddr s =? sender) then Some c
        else if negb (cur =? seqS s) then actionA06 c
        else Some (upd (set_st OPEN_IDLE) (upd (actionA08 now) c))
    | _ => Some c
    end
  else
    if (match st s with CLOSED => true | _ => false end) || negb (cur =? seqS s) || negb (caddr s =? sender)
    then Some c
    else if (repC s <? TL4_MAX_REPETITION_COUNT) && (match st s with OPEN_WAIT => true | _ => false end)
         then actionA09 now c
         else actionA06 c.
(** knx_tlayer4.cpp:313-351 processConControlTelegram *)
Definition processConControl (now sender tpci : Z) (telegram : list Z) (c : cfg) : option cfg :=
  if tpci =? T_CONNECT_PDU then processConnect now sender c
  else if tpci =? T_DISCONNECT_PDU then processDisconnect sender c
  else processAcknowledge now sender tpci telegram c.

(** knx_tlayer4.cpp:627-717 processDirectTelegram *)
Definition processDirect (now : Z) (telegram : list Z) (app : apci_result) (c : cfg) : option cfg :=
  let sender := senderAddress telegram in
  if Z.land (rd telegram 6) 0xfc =? 0 then
    acquireSendBuffer c >>= fun c =>
    let c := emit (ExecDirect telegram) c in
    (* initLpdu and setDestinationAddress (642-643) precede processApci, which may overwrite the buffer: its final
       contents are the second component of [app] *)
    let c := upd (set_txb (snd app)) c in
    if fst app then Some (sendPreparedTelegram KDirect c) else Some (upd (set_txs FREE) c)
  else
    let seqNo := sequenceNumber telegram in
    let s := cS c in
    if negb (caddr s =? sender) || (match st s with CLOSED => true | _ => false end) then Some c
    else if seqNo =? seqR s then actionA02 now seqNo telegram app c
    else if seqNo =? Z.land (seqR s - 1) 0x0F then actionA03 now seqNo c
    else actionA04 now seqNo c.

(** knx_tlayer4.cpp:267-311 processTelegram / processTelegramInternal *)
Definition processTelegram (now : Z) (telegram : list Z) (app : apci_result) (c : cfg) : option cfg :=
  let dest := destinationAddress telegram in
  if dest =? 0 then Some (emit (Bcast telegram) c)
  else if negb (Z.land (rd telegram 5) 0x80 =? 0) then Some (emit (Group telegram) c)
  else if negb (dest =? own (cS c)) then Some c
  else
    let tpci := Z.land (rd telegram 6) 0xc3 in
    if negb (Z.land tpci 0x80 =? 0) then processConControl now (senderAddress telegram) tpci telegram c
    else processDirect now telegram app c.

(** timer.cpp:111-114 elapsed: unsigned 32-bit difference *)
Definition elapsed (now ref : Z) : Z := u32 (now - ref).

(** knx_tlayer4.cpp:919-925: first part of loop() *)
Definition loopTimeout (now : Z) (c : cfg) : option cfg :=
  match st (cS c) with
  | CLOSED => Some c
  | _ => if TL4_CONNECTION_TIMEOUT_MS <=? elapsed now (ctime (cS c)) then actionA06 c else Some c
  end.
(** knx_tlayer4.cpp:927-932: second part *)
Definition loopSend (now : Z) (c : cfg) : option cfg :=
  match st (cS c), s1 (cS c) with
  | OPEN_IDLE, ACQUIRED => actionA07 now c
  | _, _ => Some c
  end.
(** knx_tlayer4.cpp:934-956: third part *)
Definition loopRepeat (now : Z) (c : cfg) : option cfg :=
  match st (cS c) with
  | OPEN_WAIT =>
      if TL4_T_ACK_TIMEOUT_MS <=? elapsed now (stime (cS c)) then
        if repC (cS c) <? TL4_MAX_REPETITION_COUNT then actionA09 now c else actionA06 c
      else Some c
  | _ => Some c
  end.
(** knx_tlayer4.cpp:909-957 loop *)
Definition loop (now : Z) (c : cfg) : option cfg :=
  match txs (cS c) with
  | FREE => loopTimeout now c >>= loopSend now >>= loopRepeat now
  | _ => Some c
  end.

(** Operations.  [now] is the real time in ms since start, millis() is its low 32 bits.
    [OpRx now t app waits]: processTelegram(t); [OpLoop now]: loop(); [OpTxDone ok]: interrupt
    finishedSendingTelegram(ok), which the bus layer only calls for a telegram it is sending;
    [OpAppSend buf waits]: acquireSendBuffer, fill it with [buf], sendPreparedTelegram (com_objects.cpp:355-395,
    bcu_default.cpp:218-240); [OpDisconnect waits]: disconnect() (knx_tlayer4.cpp:728-731);
    [OpSetOwn a]: setOwnAddress (knx_tlayer4.h:335-338). *)
Inductive op :=
| OpRx (now : Z) (telegram : list Z) (app : apci_result) (waits : list bool)
| OpLoop (now : Z)
| OpTxDone (ok : bool)
| OpAppSend (buf : list Z) (waits : list bool)
| OpDisconnect (waits : list bool)
| OpSetOwn (a : Z).

(** knx_tlayer4.cpp:267-311, 909-957, 605-625, 728-731: one operation.
    None: the operation is still spinning in acquireSendBuffer. *)
Definition stepCfg (s : tl4) (o : op) : option cfg :=
  match o with
  | OpRx now t app w => processTelegram (u32 now) t app (mkCfg s w [])
  | OpLoop now => loop (u32 now) (mkCfg s [] [])
  | OpTxDone ok => match txs s with
                   | SENDING => Some (finishedSendingTelegram ok (mkCfg s [] []))
                   | _ => Some (mkCfg s [] [])
                   end
  | OpAppSend buf w => acquireSendBuffer (mkCfg s w []) >>= fun c =>
                       Some (sendPreparedTelegram KApp (upd (set_txb buf) c))
  | OpDisconnect w => actionA06 (mkCfg s w [])
  | OpSetOwn a => Some (mkCfg (set_own (u16 a) s) [] [])
  end.
Definition step (s : tl4) (o : op) : option (tl4 * list out) :=
  match stepCfg s o with Some c => Some (cS c, cO c) | None => None end.

(** knx_tlayer4.cpp:232-265 constructor and _begin; own address is set by the BCU afterwards *)
Definition init (ownAddr : Z) : tl4 :=
  mkTL4 CLOSED 0 (-1) (-1) 0 0 0 0 (u16 ownAddr) (repeat 0 TL4_BUFFER_SIZE) FREE (repeat 0 TL4_BUFFER_SIZE) FREE (repeat 0 TL4_BUFFER_SIZE) FREE.

(** knx_tlayer4.h:324-327 directConnection, 340-350 connectedTo *)
Definition directConnection (s : tl4) : bool := match st s with CLOSED => false | _ => true end.
Definition connectedTo (s : tl4) : Z := if directConnection s then caddr s else 0.
