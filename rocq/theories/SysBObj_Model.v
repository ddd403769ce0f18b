(** Group communication objects of System B devices (sblib/src/eib/com_objectsSYSTEMB.cpp, addr_tablesSYSTEMB.cpp) and the functions of
    com_objects.cpp that a System B device inherits, with the overridden functions in place.
    Tables, memory and state are those of ComObj_Model; [isBCU2] is true (System B inherits from BCU2), so that the flags table
    (com_objectsSYSTEMB.cpp:105-112 objectFlagsTable equals com_objectsBCU2.cpp:33-47), addrCount and indexes of the BCU2 are as there. *)
From Verif Require Export Base Telegram_Model ComObj_Model.

(** com_objectsSYSTEMB.cpp:114-117 objectConfig (2 bytes per object from offset 2, the first object has number 1), types.h:75-82 ComConfig;
    com_objectsSYSTEMB.cpp:59, 80 the table indexed from &objectConfig(0) gives the same byte *)
Definition objConfigB (c : cfg) (objno : nat) : Z := rd (comTab c) (2 * objno).
(** com_objects.h:385-388 objectType *)
Definition objTypeB (c : cfg) (objno : nat) : Z := rd (comTab c) (2 * objno + 1).
(** com_objectsSYSTEMB.cpp:14-28 objectSize *)
Definition objectSizeB (c : cfg) (objno : nat) : Z := sizeOfTypeSYSTEMB (objTypeB c objno).
(** com_objects.cpp:219-224 telegramObjectSize *)
Definition telegramObjectSizeB (c : cfg) (objno : nat) : Z := if objTypeB c objno <? 6 then 0 else objectSizeB c objno.
(** com_objectsSYSTEMB.cpp:30-36 objectValuePtr: the values one after another, from the third byte of the RAM *)
Definition valueAddrB (c : cfg) (objno : nat) : Z := fold_left (fun a i => a + objectSizeB c i) (seq 1 (objno - 1)) (ramStart c + 2).
Definition objectValuePtrB (c : cfg) (objno : nat) : option ptr := userMemoryPtr c (valueAddrB c objno).

(** com_objects.cpp:278-290 objectRead *)
Definition objectReadB (c : cfg) (objno : nat) (m : mem) : Z :=
  match objectValuePtrB c objno, Z.to_nat (objectSizeB c objno) with
  | Some p, S k => readLoop m p k (getp m p k)
  | _, _ => 0
  end.
(** com_objects.cpp:292-312 _objectWrite *)
Definition objectWriteB_ (c : cfg) (objno : nat) (value flags : Z) (m : mem) : mem :=
  match objectValuePtrB c objno with
  | None => m
  | Some p => if objectSizeB c objno =? -1 then m
              else setObjectFlags c objno flags (putBytes m p 0 (writeBytes (Z.to_nat (objectSizeB c objno)) value))
  end.
(** com_objects.h:400-408, 420-423: objectSetValue, objectWrite, objectUpdate *)
Definition objectSetValueB (c : cfg) (objno : nat) (value : Z) (m : mem) : mem := objectWriteB_ c objno value 0 m.
Definition objectWriteB (c : cfg) (objno : nat) (value : Z) (m : mem) : mem := objectWriteB_ c objno value COMFLAG_TRANSREQ m.
Definition objectUpdateB (c : cfg) (objno : nat) (value : Z) (m : mem) : mem := objectWriteB_ c objno value COMFLAG_UPDATE m.

(** com_objectsSYSTEMB.cpp:60-61, 70-76: the entries (address index, object number) of the association table *)
Definition assocsB (c : cfg) : list (Z * Z) :=
  map (fun i => (makeWord (rd (assocTab c) (2 + 4 * i)) (rd (assocTab c) (3 + 4 * i)), makeWord (rd (assocTab c) (4 + 4 * i)) (rd (assocTab c) (5 + 4 * i))))
    (seq 0 (Z.to_nat (makeWord (rd (assocTab c) 0) (rd (assocTab c) 1)))).
(** com_objects.cpp:547-563 processGroupWriteTelegram *)
Definition processGroupWriteTelegramB (c : cfg) (objno : nat) (tel : list Z) (m : mem) : mem :=
  match objectValuePtrB c objno with
  | None => m
  | Some p =>
      let count := telegramObjectSizeB c objno in
      let m := if 0 <? count then putBytes m p 0 (rev (map (fun i => rd tel (8 + i)) (seq 0 (Z.to_nat count)))) else putp m p 0 (Z.land (rd tel 7) 63) in
      addObjectFlags c objno COMFLAG_UPDATE m
  end.
(** com_objectsSYSTEMB.cpp:70-87: the loop over the association table for a value write or response *)
Fixpoint writeLoopB (c : cfg) (gapos : Z) (tel : list Z) (trg : Z) (l : list (Z * Z)) (m : mem) : mem :=
  match l with
  | [] => m
  | (ga, objno) :: r =>
      if negb (gapos =? ga) then writeLoopB c gapos tel trg r m
      else if objno =? trg then writeLoopB c gapos tel trg r m
      else
        let m := if Z.land (objConfigB c (Z.to_nat objno)) COMCONF_WRITE_COMM =? COMCONF_WRITE_COMM then processGroupWriteTelegramB c (Z.to_nat objno) tel m else m in
        writeLoopB c gapos tel trg r m
  end.
(** com_objectsSYSTEMB.cpp:65-87: processGroupTelegram for a write or response *)
Definition processGroupWriteB (c : cfg) (addr : Z) (tel : list Z) (trg : Z) (m : mem) : mem :=
  let gapos := indexOfAddrSYSTEMB (addrTab c) addr in
  if gapos <? 0 then m else writeLoopB c gapos tel trg (assocsB c) m.

(** com_objects.cpp:371-388: the telegram of sendGroupWriteTelegram *)
Definition groupTelegramB (c : cfg) (objno : nat) (p : ptr) (addr : Z) (isResponse : bool) (m : mem) (buf : list Z) : list Z :=
  let objSize := telegramObjectSizeB c objno in
  let b := wr (setDestinationAddress (initLpdu buf PRIORITY_LOW false FRAME_STANDARD) addr) 5 (Z.lor 224 (Z.land (objSize + 1) 15)) in
  let cmd := if isResponse then APCI_GROUP_VALUE_RESPONSE_PDU else APCI_GROUP_VALUE_WRITE_PDU in
  let b := if objSize =? 0 then b else wr_range b 8 (rev (getBytes m p (Z.to_nat objSize))) in
  setApciCommand b cmd (if objSize =? 0 then getp m p 0 else 0).
(** com_objects.cpp:368-395 sendGroupWriteTelegram *)
Definition sendGroupWriteTelegramB (c : cfg) (objno : nat) (addr : Z) (isResponse : bool) (s : state) : state :=
  match objectValuePtrB c objno with
  | None => s
  | Some p =>
      let b := groupTelegramB c objno p addr isResponse (smem s) (sendBuf s) in
      let m := processGroupWriteB c addr b (Z.of_nat objno) (smem s) in
      let s := sendPrepared (mkSt m b (sent s) (sendNext s) (transmitting s)) in
      mkSt (smem s) (sendBuf s) (sent s) (sendNext s) (Z.of_nat objno)
  end.
(** com_objectsSYSTEMB.cpp:70-80, 88-94: the loop over the association table for a value read *)
Fixpoint readReqLoopB (c : cfg) (addr gapos trg : Z) (l : list (Z * Z)) (s : state) : state :=
  match l with
  | [] => s
  | (ga, objno) :: r =>
      if negb (gapos =? ga) then readReqLoopB c addr gapos trg r s
      else if objno =? trg then readReqLoopB c addr gapos trg r s
      else
        let s := if Z.land (objConfigB c (Z.to_nat objno)) COMCONF_READ_COMM =? COMCONF_READ_COMM then sendGroupWriteTelegramB c (Z.to_nat objno) addr true s else s in
        readReqLoopB c addr gapos trg r s
  end.
(** com_objectsSYSTEMB.cpp:54-97 processGroupTelegram *)
Definition processGroupTelegramB (c : cfg) (addr apci : Z) (tel : list Z) (trg : Z) (s : state) : state :=
  if (apci =? APCI_GROUP_VALUE_WRITE_PDU) || (apci =? APCI_GROUP_VALUE_RESPONSE_PDU)
  then mkSt (processGroupWriteB c addr tel trg (smem s)) (sendBuf s) (sent s) (sendNext s) (transmitting s)
  else if apci =? APCI_GROUP_VALUE_READ_PDU
  then let gapos := indexOfAddrSYSTEMB (addrTab c) addr in if gapos <? 0 then s else readReqLoopB c addr gapos trg (assocsB c) s
  else s.
(** bcu_default.cpp:207-216 processGroupAddressTelegram *)
Definition processGroupAddressTelegramB (c : cfg) (apciCmd groupAddress : Z) (tel : list Z) (s : state) : state :=
  processGroupTelegramB c groupAddress (Z.land apciCmd APCI_GROUP_MASK) tel INVALID_OBJECT_NUMBER s.

(** com_objects.cpp:460-468, 477: whether the scan takes object [objno]; firstObjectAddr (com_objects.cpp:331-353) is not overridden *)
Definition wantsSendB (c : cfg) (p : ptr) (objno : nat) (m : mem) : bool :=
  negb ((firstObjectAddr c objno =? 0) || (Z.land (objConfigB c objno) COMCONF_COMM =? 0) || (Z.land (objConfigB c objno) COMCONF_TRANS =? 0)) &&
  (Z.land (rawFlags c p objno m) COMFLAG_TRANSREQ =? COMFLAG_TRANSREQ).
(** com_objects.cpp:446-498 *)
Fixpoint scanSendB (c : cfg) (p : ptr) (n objno : nat) (m : mem) : option nat :=
  match n with O => None | S k => if wantsSendB c p objno m then Some objno else scanSendB c p k (S objno) m end.
(** com_objects.cpp:480-495 *)
Definition sendObjectB (c : cfg) (p : ptr) (objno : nat) (s : state) : state :=
  let s := if negb (Z.land (rawFlags c p objno (smem s)) COMFLAG_DATAREQ =? 0) then sendGroupReadTelegram objno (firstObjectAddr c objno) s
           else sendGroupWriteTelegramB c objno (firstObjectAddr c objno) false s in
  let sh := if Nat.odd objno then 4 else 0 in
  let b := getp (smem s) p (objno / 2) in
  let b := Z.land b (u8 (Z.lnot (Z.shiftl (Z.lor COMFLAG_TRANS_MASK COMFLAG_DATAREQ) sh))) in
  let b := u8 (Z.lor b (Z.shiftl COMFLAG_ERROR sh)) in
  mkSt (putp (smem s) p (objno / 2) b) (sendBuf s) (sent s) (Z.of_nat objno + 1) (transmitting s).
(** com_objects.cpp:397-502 sendNextGroupTelegram; com_objects.cpp:325-329 objectCount (the first byte of the table) is not overridden *)
Definition sendNextGroupTelegramB (c : cfg) (s : state) : bool * state :=
  match objectFlagsTable c with
  | None => (false, s)
  | Some p =>
      let num := objectCount c in
      if Nat.eqb num 0 then (false, s)
      else
        let idx := Z.to_nat (sendNext s mod Z.of_nat num) in
        match scanSendB c p (num - idx) idx (smem s) with
        | Some objno => (true, sendObjectB c p objno s)
        | None => (false, mkSt (smem s) (sendBuf s) (sent s) (Z.of_nat idx + 1) (transmitting s))
        end
  end.
(** com_objects.cpp:504-545 nextUpdatedObject *)
Definition nextUpdatedObjectB (c : cfg) (m : mem) : Z * mem := nextUpdatedObject c m.
