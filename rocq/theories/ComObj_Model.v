(** Group communication objects of BCU1 and BCU2 devices (sblib/src/eib/com_objects.cpp, com_objectsBCU1.cpp, com_objectsBCU2.cpp)
    and the address tables (addr_tables.cpp, addr_tablesBCU1.cpp, addr_tablesBCU2.cpp, addr_tablesSYSTEMB.cpp). *)
From Verif Require Export Base Telegram_Model.

(** ** Configuration: the tables the commissioning tool wrote to the EEPROM.
    [addrTab], [assocTab], [comTab]: the bytes starting at addrTable(), assocTable() and objectConfigTable().
    Simplified: the tables are kept apart from the memory that holds values and flags, i.e. no object value overlaps a table;
    a device without a com-object table (null pointer) is not modelled.
    The address ranges are those of the user RAM and EEPROM (memory.cpp:24-48). *)
Record cfg := mkCfg { isBCU2 : bool; le_ptr : bool; addrTab : list Z; assocTab : list Z; comTab : list Z;
  ramStart : Z; ramSize : Z; eepStart : Z; eepSize : Z }.
(** User RAM and EEPROM contents.  A pointer into them is the area (true: EEPROM) and an offset.
    An access beyond the end of an area is undefined in the code; here reads give 0 and writes have no effect. *)
Record mem := mkMem { ram : list Z; eep : list Z }.
Definition ptr := (bool * nat)%type.
Definition getp (m : mem) (p : ptr) (i : nat) : Z := rd (if fst p then eep m else ram m) (snd p + i).
Definition putp (m : mem) (p : ptr) (i : nat) (v : Z) : mem :=
  if fst p then mkMem (ram m) (wr (eep m) (snd p + i) v) else mkMem (wr (ram m) (snd p + i) v) (eep m).
(** bcu_default.cpp:163-174 userMemoryPtr *)
Definition userMemoryPtr (c : cfg) (a : Z) : option ptr :=
  if (eepStart c <=? a) && (a <=? eepStart c + eepSize c - 1) then Some (true, Z.to_nat (a - eepStart c))
  else if (ramStart c <=? a) && (a <=? ramStart c + ramSize c - 1) then Some (false, Z.to_nat (a - ramStart c))
  else None.

(** types.h:90-130 ComConfigFlag, types.h:143-175 ComFlag; com_objects.h:42 INVALID_OBJECT_NUMBER *)
Definition COMCONF_TRANS := 0x40. Definition COMCONF_VALUE_TYPE := 0x20. Definition COMCONF_COMM := 0x04.
Definition COMCONF_READ_COMM := 0x0c. Definition COMCONF_WRITE_COMM := 0x14.
Definition COMFLAG_ERROR := 1. Definition COMFLAG_TRANSREQ := 3. Definition COMFLAG_TRANS_MASK := 3. Definition COMFLAG_DATAREQ := 4.
Definition COMFLAG_UPDATE := 8.
Definition INVALID_OBJECT_NUMBER : Z := -1.

(** ** Object configuration *)
(** com_objectsBCU1.cpp:161-169, com_objectsBCU2.cpp:49-58: offset of the object's entry (dataPtr of 1 or 2 bytes, config, type) *)
Definition cfgOffset (c : cfg) (objno : nat) : nat := if isBCU2 c then (3 + 4 * objno)%nat else (2 + 3 * objno)%nat.
(** com_objectsBCU1.cpp:159, com_objectsBCU2.cpp:60-63 objectConfig and com_objects.h:385-388 objectType: the config and type bytes *)
Definition objConfig (c : cfg) (objno : nat) : Z := rd (comTab c) (cfgOffset c objno + (if isBCU2 c then 2 else 1)).
Definition objType (c : cfg) (objno : nat) : Z := rd (comTab c) (cfgOffset c objno + (if isBCU2 c then 3 else 2)).
(** com_objects.cpp:325-329 objectCount *)
Definition objectCount (c : cfg) : nat := Z.to_nat (rd (comTab c) 0).
(** com_objectsBCU1.cpp:17-28 objectSize *)
Definition objectTypeSizes : list Z := [1; 1; 2; 3; 4; 6; 8; 10; 14; 14].
Definition sizeOfType (t : Z) : Z := if t <? 6 then 1 else if t <=? 15 then rd objectTypeSizes (Z.to_nat (t - 6)) else -1.
Definition objectSize (c : cfg) (objno : nat) : Z := sizeOfType (objType c objno).
(** com_objectsSYSTEMB.cpp:14-28 objectSize *)
Definition sizeOfTypeSYSTEMB (t : Z) : Z :=
  if t <? 6 then 1 else if t <? 21 then rd [1; 1; 2; 3; 4; 6; 8; 10; 14; 5; 7; 9; 11; 12; 13] (Z.to_nat (t - 6)) else if t <? 255 then t - 6 else 252.
(** com_objects.cpp:219-224 telegramObjectSize *)
Definition telSizeOfType (t : Z) : Z := if t <? 6 then 0 else sizeOfType t.
Definition telegramObjectSize (c : cfg) (objno : nat) : Z := telSizeOfType (objType c objno).
(** com_objectsBCU1.cpp:30-50, com_objectsBCU2.cpp:12-24 objectValuePtr *)
Definition valueAddr (c : cfg) (objno : nat) : Z :=
  let o := cfgOffset c objno in
  if isBCU2 c then (if le_ptr c then makeWord (rd (comTab c) (o + 1)) (rd (comTab c) o) else makeWord (rd (comTab c) o) (rd (comTab c) (o + 1)))
  else let a := rd (comTab c) o in if Z.land (objConfig c objno) COMCONF_VALUE_TYPE =? 0 then a else u16 (a + eepStart c).
Definition objectValuePtr (c : cfg) (objno : nat) : option ptr := userMemoryPtr c (valueAddr c objno).
(** com_objectsBCU1.cpp:148-157, com_objectsBCU2.cpp:33-47 objectFlagsTable *)
Definition objectFlagsTable (c : cfg) : option ptr :=
  userMemoryPtr c (if isBCU2 c then (if le_ptr c then makeWord (rd (comTab c) 2) (rd (comTab c) 1) else makeWord (rd (comTab c) 1) (rd (comTab c) 2))
                   else rd (comTab c) 1).

(** ** Flags: two objects share a byte, the odd one has the high nibble *)
(** com_objects.cpp:226-248 addObjectFlags *)
Definition addObjectFlags (c : cfg) (objno : nat) (flags : Z) (m : mem) : mem :=
  match objectFlagsTable c with
  | None => m
  | Some p => putp m p (objno / 2) (u8 (Z.lor (getp m p (objno / 2)) (if Nat.odd objno then Z.shiftl flags 4 else flags)))
  end.
(** com_objects.cpp:250-276 setObjectFlags *)
Definition setObjectFlags (c : cfg) (objno : nat) (flags : Z) (m : mem) : mem :=
  match objectFlagsTable c with
  | None => m
  | Some p =>
      let b := getp m p (objno / 2) in
      putp m p (objno / 2) (u8 (if Nat.odd objno then Z.lor (Z.land b 15) (Z.shiftl flags 4) else Z.lor (Z.land b 240) flags))
  end.

(** ** Values: stored little-endian *)
Fixpoint putBytes (m : mem) (p : ptr) (i : nat) (bs : list Z) : mem :=
  match bs with [] => m | b :: r => putBytes (putp m p i b) p (S i) r end.
Definition getBytes (m : mem) (p : ptr) (n : nat) : list Z := map (getp m p) (seq 0 n).
(** com_objects.cpp:284-288: the loop of objectRead; [ptr] counts down from offset [k] *)
Fixpoint readLoop (m : mem) (p : ptr) (k : nat) (value : Z) : Z :=
  match k with O => value | S j => readLoop m p j (Z.lor (u32 (Z.shiftl value 8)) (getp m p j)) end.
(** com_objects.cpp:278-290 objectRead.  Simplified: for a null pointer or a size of -1 (undefined in the code) the result is 0. *)
Definition objectRead (c : cfg) (objno : nat) (m : mem) : Z :=
  match objectValuePtr c objno, Z.to_nat (objectSize c objno) with
  | Some p, S k => readLoop m p k (getp m p k)
  | _, _ => 0
  end.
(** com_objects.cpp:304-308: the bytes stored by the loop of _objectWrite *)
Fixpoint writeBytes (n : nat) (value : Z) : list Z := match n with O => [] | S k => u8 value :: writeBytes k (Z.shiftr value 8) end.
(** com_objects.cpp:292-312 _objectWrite *)
Definition objectWrite_ (c : cfg) (objno : nat) (value flags : Z) (m : mem) : mem :=
  match objectValuePtr c objno with
  | None => m
  | Some p => if objectSize c objno =? -1 then m
              else setObjectFlags c objno flags (putBytes m p 0 (writeBytes (Z.to_nat (objectSize c objno)) value))
  end.
(** com_objects.cpp:314-323 _objectWriteBytes (the pointer is not checked in the code; null: not modelled) *)
Definition objectWriteBytes_ (c : cfg) (objno : nat) (value : list Z) (flags : Z) (m : mem) : mem :=
  match objectValuePtr c objno with
  | None => m
  | Some p => addObjectFlags c objno flags (putBytes m p 0 (firstn (Z.to_nat (objectSize c objno)) value))
  end.
(** com_objects.h:390-423 *)
Definition requestObjectRead (c : cfg) (objno : nat) (m : mem) : mem := setObjectFlags c objno (Z.lor COMFLAG_TRANSREQ COMFLAG_DATAREQ) m.
Definition objectWritten (c : cfg) (objno : nat) (m : mem) : mem := addObjectFlags c objno COMFLAG_TRANSREQ m.
Definition objectSetValue (c : cfg) (objno : nat) (value : Z) (m : mem) : mem := objectWrite_ c objno value 0 m.
Definition objectWrite (c : cfg) (objno : nat) (value : Z) (m : mem) : mem := objectWrite_ c objno value COMFLAG_TRANSREQ m.
Definition objectUpdate (c : cfg) (objno : nat) (value : Z) (m : mem) : mem := objectWrite_ c objno value COMFLAG_UPDATE m.

(** ** Address and association tables *)
(** addr_tablesBCU1.cpp:23-29, addr_tablesBCU2.cpp:24-30, addr_tablesSYSTEMB.cpp:24-30: the loop, entries from offset [o] *)
Fixpoint indexLoop (tab : list Z) (o n : nat) (i : Z) (addr : Z) : Z :=
  match n with
  | O => -1
  | S k => if (rd tab o =? Z.shiftr addr 8) && (rd tab (o + 1) =? Z.land addr 255) then i else indexLoop tab (o + 2) k (i + 1) addr
  end.
(** addr_tablesBCU1.cpp:11-30, addr_tablesBCU2.cpp:12-31 indexOfAddr *)
Definition indexOfAddr (c : cfg) (addr : Z) : Z := indexLoop (addrTab c) 3 (Z.to_nat (rd (addrTab c) 0)) 1 addr.
(** addr_tablesSYSTEMB.cpp:12-31 indexOfAddr of a SystemB address table *)
Definition indexOfAddrSYSTEMB (tab : list Z) (addr : Z) : Z := indexLoop tab 2 (Z.to_nat (Z.shiftl (rd tab 0) 8 + rd tab 1)) 1 addr.
(** addr_tables.cpp:17-21, addr_tablesBCU2.cpp:47-52 addrCount *)
Definition addrCount (c : cfg) : Z := if isBCU2 c then makeWord (rd (addrTab c) 1) (rd (addrTab c) 0) else rd (addrTab c) 0.
(** com_objects.cpp:333-338, com_objectsBCU1.cpp:73-74, 97-105: the entries (address index, object number) of the association table *)
Definition assocs (c : cfg) : list (Z * Z) :=
  map (fun i => (rd (assocTab c) (1 + 2 * i), rd (assocTab c) (2 + 2 * i))) (seq 0 (Z.to_nat (rd (assocTab c) 0))).
(** com_objects.cpp:331-353 firstObjectAddr *)
Fixpoint firstLoop (c : cfg) (objno : Z) (l : list (Z * Z)) : Z :=
  match l with
  | [] => 0
  | (ga, o) :: r =>
      if negb (o =? objno) then firstLoop c objno r
      else if addrCount c <? u16 (ga + 1) then firstLoop c objno r
      else let t := (1 + Z.to_nat (Z.shiftl ga 1))%nat in Z.lor (Z.shiftl (rd (addrTab c) t) 8) (rd (addrTab c) (t + 1))
  end.
Definition firstObjectAddr (c : cfg) (objno : nat) : Z := firstLoop c (Z.of_nat objno) (assocs c).

(** ** Receiving *)
(** com_objects.cpp:547-563 processGroupWriteTelegram; reverseCopy (utils.cpp:21-29) between distinct buffers *)
Definition processGroupWriteTelegram (c : cfg) (objno : nat) (tel : list Z) (m : mem) : mem :=
  match objectValuePtr c objno with
  | None => m
  | Some p =>
      let count := telegramObjectSize c objno in
      let m := if 0 <? count then putBytes m p 0 (rev (map (fun i => rd tel (8 + i)) (seq 0 (Z.to_nat count)))) else putp m p 0 (Z.land (rd tel 7) 63) in
      addObjectFlags c objno COMFLAG_UPDATE m
  end.
(** com_objectsBCU1.cpp:97-125: the loop over the association table for a value write or response *)
Fixpoint writeLoop (c : cfg) (gapos : Z) (tel : list Z) (trg : Z) (l : list (Z * Z)) (m : mem) : mem :=
  match l with
  | [] => m
  | (ga, objno) :: r =>
      if negb (gapos =? ga) then writeLoop c gapos tel trg r m
      else if objno =? trg then writeLoop c gapos tel trg r m
      else
        let m := if Z.land (objConfig c (Z.to_nat objno)) COMCONF_WRITE_COMM =? COMCONF_WRITE_COMM then processGroupWriteTelegram c (Z.to_nat objno) tel m else m in
        writeLoop c gapos tel trg r m
  end.
(** com_objectsBCU1.cpp:84-89, 97-125: processGroupTelegram for a write or response *)
Definition processGroupWrite (c : cfg) (addr : Z) (tel : list Z) (trg : Z) (m : mem) : mem :=
  let gapos := indexOfAddr c addr in
  if gapos <? 0 then m else writeLoop c gapos tel trg (assocs c) m.

(** ** Sending *)
(** State: memory, the shared send buffer (23 bytes, knx_tlayer4.h), the telegrams handed to the bus so far (newest last),
    com_objects.h:363-364 sendNextObjIndex and transmitting_object_no.
    acquireSendBuffer waits until the buffer is free (knx_tlayer4.cpp:593-603); here it is free at once. *)
Record state := mkSt { smem : mem; sendBuf : list Z; sent : list (list Z); sendNext : Z; transmitting : Z }.
(** knx_tlayer4.cpp:580-584 sendPreparedTelegram; bytes 1, 2 and the checksum are filled in by the bus *)
Definition sendPrepared (s : state) : state := mkSt (smem s) (sendBuf s) (sent s ++ [firstn (telegramSize (sendBuf s)) (sendBuf s)]) (sendNext s) (transmitting s).
(** com_objects.cpp:355-366 sendGroupReadTelegram *)
Definition sendGroupReadTelegram (objno : nat) (addr : Z) (s : state) : state :=
  let b := setApciCommand (wr (setDestinationAddress (initLpdu (sendBuf s) PRIORITY_LOW false FRAME_STANDARD) addr) 5 225) APCI_GROUP_VALUE_READ_PDU 0 in
  let s := sendPrepared (mkSt (smem s) b (sent s) (sendNext s) (transmitting s)) in
  mkSt (smem s) (sendBuf s) (sent s) (sendNext s) (Z.of_nat objno).
(** com_objects.cpp:371-388: the telegram of sendGroupWriteTelegram *)
Definition groupTelegram (c : cfg) (objno : nat) (p : ptr) (addr : Z) (isResponse : bool) (m : mem) (buf : list Z) : list Z :=
  let objSize := telegramObjectSize c objno in
  let b := wr (setDestinationAddress (initLpdu buf PRIORITY_LOW false FRAME_STANDARD) addr) 5 (Z.lor 224 (Z.land (objSize + 1) 15)) in
  let cmd := if isResponse then APCI_GROUP_VALUE_RESPONSE_PDU else APCI_GROUP_VALUE_WRITE_PDU in
  let b := if objSize =? 0 then b else wr_range b 8 (rev (getBytes m p (Z.to_nat objSize))) in
  setApciCommand b cmd (if objSize =? 0 then getp m p 0 else 0).
(** com_objects.cpp:368-395 sendGroupWriteTelegram (null value pointer: undefined in the code, nothing here) *)
Definition sendGroupWriteTelegram (c : cfg) (objno : nat) (addr : Z) (isResponse : bool) (s : state) : state :=
  match objectValuePtr c objno with
  | None => s
  | Some p =>
      let b := groupTelegram c objno p addr isResponse (smem s) (sendBuf s) in
      let m := processGroupWrite c addr b (Z.of_nat objno) (smem s) in
      let s := sendPrepared (mkSt m b (sent s) (sendNext s) (transmitting s)) in
      mkSt (smem s) (sendBuf s) (sent s) (sendNext s) (Z.of_nat objno)
  end.
(** com_objectsBCU1.cpp:97-133: the loop over the association table for a value read *)
Fixpoint readReqLoop (c : cfg) (addr gapos trg : Z) (l : list (Z * Z)) (s : state) : state :=
  match l with
  | [] => s
  | (ga, objno) :: r =>
      if negb (gapos =? ga) then readReqLoop c addr gapos trg r s
      else if objno =? trg then readReqLoop c addr gapos trg r s
      else
        let s := if Z.land (objConfig c (Z.to_nat objno)) COMCONF_READ_COMM =? COMCONF_READ_COMM then sendGroupWriteTelegram c (Z.to_nat objno) addr true s else s in
        readReqLoop c addr gapos trg r s
  end.
(** com_objectsBCU1.cpp:68-134 processGroupTelegram *)
Definition processGroupTelegram (c : cfg) (addr apci : Z) (tel : list Z) (trg : Z) (s : state) : state :=
  if (apci =? APCI_GROUP_VALUE_WRITE_PDU) || (apci =? APCI_GROUP_VALUE_RESPONSE_PDU)
  then mkSt (processGroupWrite c addr tel trg (smem s)) (sendBuf s) (sent s) (sendNext s) (transmitting s)
  else if apci =? APCI_GROUP_VALUE_READ_PDU
  then let gapos := indexOfAddr c addr in if gapos <? 0 then s else readReqLoop c addr gapos trg (assocs c) s
  else s.
(** bcu_default.cpp:207-216 processGroupAddressTelegram *)
Definition processGroupAddressTelegram (c : cfg) (apciCmd groupAddress : Z) (tel : list Z) (s : state) : state :=
  processGroupTelegram c groupAddress (Z.land apciCmd APCI_GROUP_MASK) tel INVALID_OBJECT_NUMBER s.

(** the object's flags nibble as read at com_objects.cpp:471-475 (upper bits are not cleared for even objects) *)
Definition rawFlags (c : cfg) (p : ptr) (objno : nat) (m : mem) : Z :=
  let b := getp m p (objno / 2) in if Nat.odd objno then Z.shiftr b 4 else b.
(** com_objects.cpp:460-468, 477: whether the scan takes object [objno] *)
Definition wantsSend (c : cfg) (p : ptr) (objno : nat) (m : mem) : bool :=
  negb ((firstObjectAddr c objno =? 0) || (Z.land (objConfig c objno) COMCONF_COMM =? 0) || (Z.land (objConfig c objno) COMCONF_TRANS =? 0)) &&
  (Z.land (rawFlags c p objno m) COMFLAG_TRANSREQ =? COMFLAG_TRANSREQ).
(** com_objects.cpp:446-498: the scan over the objects [objno .. objno+n-1]; the object taken *)
Fixpoint scanSend (c : cfg) (p : ptr) (n objno : nat) (m : mem) : option nat :=
  match n with O => None | S k => if wantsSend c p objno m then Some objno else scanSend c p k (S objno) m end.
(** com_objects.cpp:480-495: sending object [objno] and updating its flags *)
Definition sendObject (c : cfg) (p : ptr) (objno : nat) (s : state) : state :=
  let s := if negb (Z.land (rawFlags c p objno (smem s)) COMFLAG_DATAREQ =? 0) then sendGroupReadTelegram objno (firstObjectAddr c objno) s
           else sendGroupWriteTelegram c objno (firstObjectAddr c objno) false s in
  let sh := if Nat.odd objno then 4 else 0 in
  let b := getp (smem s) p (objno / 2) in
  let b := Z.land b (u8 (Z.lnot (Z.shiftl (Z.lor COMFLAG_TRANS_MASK COMFLAG_DATAREQ) sh))) in
  let b := u8 (Z.lor b (Z.shiftl COMFLAG_ERROR sh)) in
  mkSt (putp (smem s) p (objno / 2) b) (sendBuf s) (sent s) (Z.of_nat objno + 1) (transmitting s).
(** com_objects.cpp:397-502 sendNextGroupTelegram *)
Definition sendNextGroupTelegram (c : cfg) (s : state) : bool * state :=
  match objectFlagsTable c with
  | None => (false, s)
  | Some p =>
      let num := objectCount c in
      if Nat.eqb num 0 then (false, s)
      else
        let idx := Z.to_nat (sendNext s mod Z.of_nat num) in
        match scanSend c p (num - idx) idx (smem s) with
        | Some objno => (true, sendObject c p objno s)
        | None => (false, mkSt (smem s) (sendBuf s) (sent s) (Z.of_nat idx + 1) (transmitting s))
        end
  end.
(** com_objects.cpp:522-542: the loop of nextUpdatedObject *)
Fixpoint updLoop (p : ptr) (n objno : nat) (m : mem) : Z * mem :=
  match n with
  | O => (INVALID_OBJECT_NUMBER, m)
  | S k =>
      let b := getp m p (objno / 2) in
      let flags := Z.land b (if Nat.odd objno then Z.shiftl COMFLAG_UPDATE 4 else COMFLAG_UPDATE) in
      if flags =? 0 then updLoop p k (S objno) m
      else (Z.of_nat objno, putp m p (objno / 2) (Z.land b (u8 (Z.lnot flags))))
  end.
(** com_objects.cpp:504-545 nextUpdatedObject (the index member is reset at every call and not observable) *)
Definition nextUpdatedObject (c : cfg) (m : mem) : Z * mem :=
  match objectFlagsTable c with
  | None => (INVALID_OBJECT_NUMBER, m)
  | Some p => updLoop p (objectCount c) 0 m
  end.
