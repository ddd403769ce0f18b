(** A whole bus device: BcuBase, BcuDefault and BCU1 or BCU2 (sblib/src/eib/bcu_base.cpp, bcu_default.cpp, bcu1.cpp, bcu2.cpp) on top of the models of the
    transport layer, the memory requests, the properties, the user EEPROM and the memory mapper.

    Simplifications (they apply to the whole file):
    - the bus below (bus.cpp) is an environment: which telegram it delivers, what sendingFrame() says each time it is asked and when a transmission ends are inputs;
    - the communication objects and the application program are an environment that may give user RAM and EEPROM any contents ([effect]) but leaves the status byte,
      the memory mapper, the own address and the restart members alone; the telegrams they send are separate operations;
    - millis() is read once per call of loop(); usrCallback is not set;
    - [Bcu2] is the class BCU2 itself; the classes derived from it (MASK0701 and later) override the memory requests and are not covered. *)
From Verif Require Export Base Telegram_Model MemReq_Model Prop_Model.
From Verif Require Eeprom_Model Util_Model.
From Verif Require Export TL4_Model.

Inductive bcuKind := Bcu1 | Bcu2.
(** what the class and the arguments of begin() fix (bcu2.cpp:29-77, bcu1.cpp:24-28): the memories, the properties, whether there is a programming pin
    (bcu_base.cpp:26), commObjectTableAddressStatic, manufacturer, device type and version, and the serial number begin() computes from the chip's unique id
    (bcu2.cpp:49-71; hashUID itself is in Util_Model) *)
Record conf := mkConf { kind : bcuKind; lay : layout; ecf : Eeprom_Model.ecfg; static : Z; tabs : list (list pdef); progPin : bool;
                        serialNo : list Z; manufacturer : Z; deviceType : Z; version : Z }.
(** bcu_base.h:122-128 RestartType *)
Inductive restartType := RNone | RBasic | RMaster | RMasterIntoBootloader.
(** the members: transport layer, memories, the flash sector of the EEPROM, userRam._runState (userRam.cpp:41-44), progButtonDebouncer, restartType, restartSendDisconnect,
    restartTimeout (bcu_base.h:117, 133-135). [running] is false from softSystemReset on, until the next power-up *)
Record device := mkDevice { tl : tl4; mem : dev; sector : list Z; runState : Z; button : Util_Model.debouncer;
                            rType : restartType; rDisc : bool; rTime : Z; running : bool }.
(** assignments to single members *)
Definition setTl (x : device) (s : tl4) : device := mkDevice s (mem x) (sector x) (runState x) (button x) (rType x) (rDisc x) (rTime x) (running x).
Definition setMem (x : device) (d : dev) : device := mkDevice (tl x) d (sector x) (runState x) (button x) (rType x) (rDisc x) (rTime x) (running x).
Definition setSector (x : device) (s : list Z) : device := mkDevice (tl x) (mem x) s (runState x) (button x) (rType x) (rDisc x) (rTime x) (running x).
Definition setButton (x : device) (b : Util_Model.debouncer) : device := mkDevice (tl x) (mem x) (sector x) (runState x) b (rType x) (rDisc x) (rTime x) (running x).
Definition setRestart (x : device) (r : restartType) (dc : bool) (t : Z) : device := mkDevice (tl x) (mem x) (sector x) (runState x) (button x) r dc t (running x).
Definition stop (x : device) : device := mkDevice (tl x) (mem x) (sector x) (runState x) (button x) (rType x) (rDisc x) (rTime x) false.
Definition setStatus (d : dev) (v : Z) : dev := mkDev (memMapper d) (eeData d) (eeModified d) (ramData d) v.
Definition setModified (d : dev) (b : bool) : dev := mkDev (memMapper d) (eeData d) b (ramData d) (status d).

(** userRam.h:20-27 BcuStatus *)
Definition BCU_STATUS_PROGRAMMING_MODE : Z := 0x01.
Definition BCU_STATUS_LINK_LAYER : Z := 0x02.
Definition BCU_STATUS_TRANSPORT_LAYER : Z := 0x04.
Definition BCU_STATUS_APPLICATION_LAYER : Z := 0x08.
Definition BCU_STATUS_USER_MODE : Z := 0x20.
Definition BCU_STATUS_PARITY : Z := 0x80.
(** apci.h:35, 73, 75, 77, 81, 86-87, 102-104 *)
Definition APCI_ADC_RESPONSE_PDU : Z := 0x1C0.
Definition APCI_DEVICEDESCRIPTOR_RESPONSE_PDU : Z := 0x340.
Definition APCI_BASIC_RESTART_PDU : Z := 0x380.
Definition APCI_MASTER_RESET_PDU : Z := 0x381.
Definition APCI_MASTER_RESET_RESPONSE_PDU : Z := 0x3A1.
Definition APCI_AUTHORIZE_REQUEST_PDU : Z := 0x3d1.
Definition APCI_AUTHORIZE_RESPONSE_PDU : Z := 0x3d2.
Definition APCI_INDIVIDUALADDRESS_SERIALNUMBER_READ_PDU : Z := 0x3DC.
Definition APCI_INDIVIDUALADDRESS_SERIALNUMBER_RESPONSE_PDU : Z := 0x3DD.
Definition APCI_INDIVIDUALADDRESS_SERIALNUMBER_WRITE_PDU : Z := 0x3DE.
(** apci.h:113, 119, 128, 130, 139 *)
Definition T_MASTERRESET_CONFIRMED_RESTART : Z := 0x01.
Definition T_MASTERRESET_FACTORY_WO_IA : Z := 0x07.
Definition T_RESTART_NO_ERROR : Z := 0x00.
Definition T_RESTART_UNSUPPORTED_ERASE_CODE : Z := 0x02.
Definition BOOTLOADER_MAGIC_CHANNEL : Z := 255.
(** userEepromBCU1.h:34, 44; userEepromBCU2.h:21, 49; userRamBCU1.h:32 *)
Definition runErrorOffset : Z := 0x0d.
Definition addrTabOffset : Z := 0x17.
Definition appTypeOffset : Z := 0x15.
Definition serialSize : nat := 6.
Definition peiTypeOffset : nat := 99.
(** knx_lpdu.h:30 PHY_ADDR_DEFAULT; version.h:17 SBLIB_VERSION *)
Definition PHY_ADDR_DEFAULT : Z := 0xffff.
Definition SBLIB_VERSION : Z := 0x0210.

(** ** Own address *)
(** addrTab()[0..1] as a word, as in bcu_default.cpp:87, 109 *)
Definition storedAddress (d : dev) : Z := makeWord (rd (eeData d) (Z.to_nat addrTabOffset)) (rd (eeData d) (Z.to_nat (addrTabOffset + 1))).
(** serial() (userEepromBCU2.h:62) *)
Definition serial (d : dev) : list Z := firstn serialSize (skipn (Z.to_nat serialOffset) (eeData d)).
(** bcu_default.cpp:107-116 setOwnAddress, the memory part *)
Definition storeOwnAddress (a : Z) (d : dev) : dev :=
  if negb (a =? storedAddress d) then touch (eeByte (addrTabOffset + 1) (lowByte a) (eeByte addrTabOffset (HIGH_BYTE a) d)) else d.
(** bcu_default.cpp:163-174 userMemoryPtr: (is it in the EEPROM?, offset); None: nullptr *)
Definition userMemoryPtr (L : layout) (a : Z) : option (bool * nat) :=
  if inRange1 (eeStart L) (eeSize L) a then Some (true, Z.to_nat (a - eeStart L))
  else if inRange1 (ramStart L) (ramSize L) a then Some (false, Z.to_nat (a - ramStart L))
  else None.
(** addr_tablesBCU2.cpp:33-39 addrTable *)
Definition addrTable (L : layout) (d : dev) : option (bool * nat) :=
  userMemoryPtr L (makeWord (rd (eeData d) (Z.to_nat (addrTabAddrOffset + 1))) (rd (eeData d) (Z.to_nat addrTabAddrOffset))).
(** storing two bytes through a pointer, one byte behind it (bcu2.cpp:22-24); None: outside the array *)
Definition pokeWord (p : bool * nat) (hi lo : Z) (d : dev) : option dev :=
  let '(ee, o) := p in
  if ee then option_map (setEe d) (bput (eeData d) (o + 1) [hi; lo]) else option_map (setRam d) (bput (ramData d) (o + 1) [hi; lo]).
(** bcu2.cpp:38-39: reading them *)
Definition peekWord (p : bool * nat) (d : dev) : option Z :=
  let '(ee, o) := p in
  option_map (fun l => makeWord (rd l 0) (rd l 1)) (bget (if ee then eeData d else ramData d) (o + 1) 2).
(** bcu2.cpp:17-27 BCU2::setOwnAddress and bcu_default.cpp:107-116: the memories afterwards ([ownAddr] becomes [a], knx_tlayer4.h:335-338).
    None: the address table is being loaded and its address is not in the user memory *)
Definition memOwnAddress (c : conf) (a : Z) (d : dev) : option dev :=
  let d1 := storeOwnAddress a d in
  match kind c with
  | Bcu1 => Some d1
  | Bcu2 =>
      if loadState d1 OT_ADDR_TABLE =? LS_LOADING then
        match addrTable (lay c) d1 with
        | None => None
        | Some p => option_map touch (pokeWord p (HIGH_BYTE a) (lowByte a) d1)
        end
      else Some d1
  end.
Definition setOwnAddress (c : conf) (a : Z) (x : device) : option device :=
  match memOwnAddress c a (mem x) with Some d => Some (setTl (setMem x d) (set_own (u16 a) (tl x))) | None => None end.

(** ** Power-up *)
(** bcu_default.cpp:88-104: after the own address was set *)
Definition beginDefault (c : conf) (d : dev) : dev :=
  let d := setStatus d (Z.lor (Z.lor (Z.lor BCU_STATUS_LINK_LAYER BCU_STATUS_TRANSPORT_LAYER) BCU_STATUS_APPLICATION_LAYER) BCU_STATUS_USER_MODE) in
  let d := setRam d (wr (ramData d) deviceControlOffset 0) in
  let d := eeByte portADDROffset 0 (eeByte runErrorOffset 0xff d) in
  let d := eeByte (manufacturerHOffset + 1) (lowByte (manufacturer c)) (eeByte manufacturerHOffset (HIGH_BYTE (manufacturer c)) d) in
  let d := eeByte (deviceTypeHOffset + 1) (lowByte (deviceType c)) (eeByte deviceTypeHOffset (HIGH_BYTE (deviceType c)) d) in
  setModified (eeByte versionOffset (version c) d) false.
(** bcu2.cpp:33-74: the address table that is being loaded wins over addrTab(); the own address and the memories *)
Definition beginBcu2 (c : conf) (own : Z) (d : dev) : option (Z * dev) :=
  let d := eeByte appTypeOffset 0 (setRam d (wr (ramData d) peiTypeOffset 0)) in
  match (if loadState d OT_ADDR_TABLE =? LS_LOADING then
           match addrTable (lay c) d with
           | None => None
           | Some p => match peekWord p d with
                       | None => None
                       | Some a => match memOwnAddress c a d with Some d' => Some (a, d') | None => None end
                       end
           end
         else Some (own, d)) with
  | None => None
  | Some (own, d) =>
      let d := if negb (static c =? 0) && negb (makeWord (rd (eeData d) (Z.to_nat (commsTabAddrOffset + 1))) (rd (eeData d) (Z.to_nat commsTabAddrOffset)) =? static c)
               then touch (eeWord commsTabAddrOffset (static c) d) else d in
      let d := setEe d (wr_range (eeData d) (Z.to_nat serialOffset) (serialNo c)) in
      Some (own, eeByte (orderInfoOffset + 9) (lowByte SBLIB_VERSION) (eeByte (orderInfoOffset + 8) (HIGH_BYTE SBLIB_VERSION) d))
  end.
(** bcu_default.cpp:85-87, bcu2.cpp:29-76, bcu1.cpp:24-28 begin up to _begin, and bcu_default.cpp:32-39 *)
Definition begin (c : conf) (d : dev) : option (Z * dev) :=
  let own := storedAddress d in
  match memOwnAddress c own d with
  | None => None
  | Some d1 =>
      match (match kind c with Bcu1 => Some (own, beginDefault c d1) | Bcu2 => beginBcu2 c own (beginDefault c d1) end) with
      | None => None
      | Some (own, d2) =>
          if own =? 0 then match memOwnAddress c PHY_ADDR_DEFAULT d2 with Some d3 => Some (PHY_ADDR_DEFAULT, d3) | None => None end
          else Some (own, d2)
      end
  end.
(** power-up with the given flash contents: the constructors (userEeprom.cpp:115-121 with readUserEeprom, userRam.cpp:25-34: RAM zeroed, with [shadow] extra bytes,
    mem_mapper.cpp:21-61, bcu_base.cpp:23-37), then begin() (bcu_base.cpp:39-44, runState bcu_default.cpp:90). [last]: the uninitialised member of the debouncer; [junk]: of the mapper *)
Definition shadowSize : nat := 3.
Definition powerUp (c : conf) (sec : list Z) (m : option mapper) (last : Z) (junk : list Z) : option device :=
  let e := Eeprom_Model.readUserEeprom (ecf c) (Eeprom_Model.mkEep sec [] false) in
  let d := mkDev (option_map (fun m => newMapper (mapCfg (lay c)) (flash m) junk) m) (Eeprom_Model.data e) false
                 (repeat 0 (Z.to_nat (ramSize (lay c)) + shadowSize)) 0 in
  match begin c d with
  | None => None
  | Some (own, d) => Some (mkDevice (init own) d sec 1 (Util_Model.deb_init 1 (Util_Model.deb_new 0 last)) RNone false Util_Model.STOPPED true)
  end.

(** ** Requests addressed to the device *)
(** bcu_base.cpp:181-186 scheduleRestart; [conn]: directConnection() *)
Definition scheduleRestart (now : Z) (conn : bool) (r : restartType) (x : device) : device := setRestart x r conn (Util_Model.to_start now 250).
(** bcu_default.cpp:542-583 processApciMasterResetPDU *)
Definition masterReset (now : Z) (conn : bool) (eraseCode channel : Z) (sb : list Z) (x : device) : list Z * device :=
  let '(err, r) :=
    if (eraseCode =? T_MASTERRESET_FACTORY_WO_IA) && (channel =? BOOTLOADER_MAGIC_CHANNEL) then (T_RESTART_NO_ERROR, RMasterIntoBootloader)
    else if (eraseCode =? 0) || (T_MASTERRESET_FACTORY_WO_IA <? eraseCode) then (T_RESTART_UNSUPPORTED_ERASE_CODE, RNone)
    else (if eraseCode =? T_MASTERRESET_CONFIRMED_RESTART then T_RESTART_NO_ERROR else T_RESTART_UNSUPPORTED_ERASE_CODE, RMaster) in
  let seconds := if err =? T_RESTART_NO_ERROR then 1 else 0 in
  let sb := setApciCommand (wr sb 5 0x64) APCI_MASTER_RESET_RESPONSE_PDU 0 in
  (wr (wr (wr sb 8 err) 9 0) 10 seconds, match r with RNone => x | _ => scheduleRestart now conn r x end).
(** bcu_default.cpp:528-540 processDeviceDescriptorReadTelegram *)
Definition descriptorRead (L : layout) (id : Z) (sb : list Z) : bool * list Z :=
  if negb (id =? 0) then (false, sb)
  else let sb := setApciCommand (wr sb 5 0x63) APCI_DEVICEDESCRIPTOR_RESPONSE_PDU 0 in
       (true, wr (wr sb 8 (HIGH_BYTE (maskVersion L))) 9 (lowByte (maskVersion L))).
(** bcu_default.cpp:454-526 BcuDefault::processApci with bcu_base.cpp:131-142 and knx_tlayer4.cpp:719-726: is there an answer, the buffer, the device *)
Definition processApciDefault (c : conf) (now : Z) (conn : bool) (t sb : list Z) (x : device) : option (bool * list Z * device) :=
  let cmd := apciCommand t in
  if cmd =? APCI_ADC_READ_PDU then
    let sb := setApciCommand (wr sb 5 0x64) APCI_ADC_RESPONSE_PDU (Z.land (rd t 7) 0x3f) in
    Some (true, wr (wr (wr sb 8 (rd t 8)) 9 0) 10 0, x)
  else if (cmd =? APCI_MEMORY_READ_PDU) || (cmd =? APCI_MEMORY_WRITE_PDU) then
    match processMemoryApci (lay c) t sb (mem x) with Some (ans, sb', d) => Some (ans, sb', setMem x d) | None => None end
  else if cmd =? APCI_DEVICEDESCRIPTOR_READ_PDU then
    let '(ans, sb') := descriptorRead (lay c) (Z.land (rd t 7) 0x3f) sb in Some (ans, sb', x)
  else if cmd =? APCI_MASTER_RESET_PDU then
    let '(sb', x') := masterReset now conn (rd t 8) (rd t 9) sb x in Some (true, sb', x')
  else if cmd =? APCI_AUTHORIZE_REQUEST_PDU then
    Some (true, wr (setApciCommand (wr sb 5 0x62) APCI_AUTHORIZE_RESPONSE_PDU 0) 8 0, x)
  else if cmd =? APCI_BASIC_RESTART_PDU then Some (false, sb, scheduleRestart now conn RBasic x)
  else Some (false, sb, x).
(** bcu2.cpp:105-152 BCU2::processApci; BCU1 inherits BcuDefault::processApci *)
Definition isPropertyCommand (cmd : Z) : bool :=
  (cmd =? APCI_PROPERTY_VALUE_READ_PDU) || (cmd =? APCI_PROPERTY_VALUE_WRITE_PDU) || (cmd =? APCI_PROPERTY_DESCRIPTION_READ_PDU).
Definition processApci (c : conf) (now : Z) (conn : bool) (t : list Z) (telLen : Z) (sb : list Z) (x : device) : option (bool * list Z * device) :=
  match kind c with
  | Bcu1 => processApciDefault c now conn t sb x
  | Bcu2 =>
      if isPropertyCommand (apciCommand t) then
        match processPropertyApci (lay c) (static c) (tabs c) t telLen sb (mem x) with Some (sb', d) => Some (true, sb', setMem x d) | None => None end
      else processApciDefault c now conn t sb x
  end.

(** ** Broadcasts *)
(** bcu_base.cpp:161-164 programmingMode *)
Definition programmingMode (d : dev) : bool := Z.land (status d) BCU_STATUS_PROGRAMMING_MODE =? BCU_STATUS_PROGRAMMING_MODE.
(** bcu_base.cpp:144-153 sendApciIndividualAddressReadResponse: the telegram *)
Definition addressResponse (buf : list Z) : list Z :=
  let b := setDestinationAddress (initLpdu buf PRIORITY_SYSTEM false FRAME_STANDARD) 0 in
  setApciCommand (wr b 5 0xe1) APCI_INDIVIDUAL_ADDRESS_RESPONSE_PDU 0.
(** bcu2.cpp:197-220 sendApciIndividualAddressSerialNumberReadResponse: the telegram *)
Definition serialResponse (d : dev) (buf : list Z) : list Z :=
  let b := setDestinationAddress (initLpdu buf PRIORITY_SYSTEM false FRAME_STANDARD) 0 in
  let b := setApciCommand (wr b 5 0xeb) APCI_INDIVIDUALADDRESS_SERIALNUMBER_RESPONSE_PDU 0 in
  wr (wr (wr (wr (wr_range b 8 (serial d)) 14 0) 15 0) 16 0) 17 0.
(** bcu_base.cpp:146, 152, bcu2.cpp:199, 219: waiting for the send buffer, filling and sending it *)
Definition sendOwn (f : list Z -> list Z) (w : list bool) (x : device) : option (device * list out) :=
  match acquireSendBuffer (mkCfg (tl x) w []) with
  | None => None
  | Some k => let k := sendPreparedTelegram KApp (TL4_Model.upd (set_txb (f (txb (cS k)))) k) in Some (setTl x (cS k), cO k)
  end.
Definition quiet (o : option device) : option (device * list out) := option_map (fun x => (x, [])) o.
(** bcu_default.cpp:218-240 *)
Definition broadcastDefault (c : conf) (t : list Z) (w : list bool) (x : device) : option (device * list out) :=
  let cmd := apciCommand t in
  if negb (programmingMode (mem x)) then Some (x, [])
  else if cmd =? APCI_INDIVIDUAL_ADDRESS_WRITE_PDU then quiet (setOwnAddress c (makeWord (rd t 8) (rd t 9)) x)
  else if cmd =? APCI_INDIVIDUAL_ADDRESS_READ_PDU then sendOwn addressResponse w x
  else Some (x, []).
(** bcu2.cpp:168-195; memcmp of telegram[8..13] with serial() *)
Definition sameSerial (t : list Z) (d : dev) : bool := if list_eq_dec Z.eq_dec (map (rd t) (seq 8 serialSize)) (serial d) then true else false.
Definition processBroadCastTelegram (c : conf) (t : list Z) (w : list bool) (x : device) : option (device * list out) :=
  let cmd := apciCommand t in
  match kind c with
  | Bcu1 => broadcastDefault c t w x
  | Bcu2 =>
      if cmd =? APCI_INDIVIDUALADDRESS_SERIALNUMBER_WRITE_PDU then
        if sameSerial t (mem x) then quiet (setOwnAddress c (makeWord (rd t 14) (rd t 15)) x) else Some (x, [])
      else if cmd =? APCI_INDIVIDUALADDRESS_SERIALNUMBER_READ_PDU then
        if sameSerial t (mem x) then sendOwn (serialResponse (mem x)) w x else Some (x, [])
      else broadcastDefault c t w x
  end.

(** ** Receiving a telegram *)
(** what com objects and application may have done to EEPROM (contents, modified flag) and RAM *)
Record effect := mkEffect { efEe : list Z; efModified : bool; efRam : list Z }.
Definition applied (g : effect) (d : dev) : dev := mkDev (memMapper d) (efEe g) (efModified g) (efRam g) (status d).
(** does the transport layer hand the telegram to processApci (knx_tlayer4.cpp:273-311, 627-717 down to line 644 or actionA02)? *)
Definition executes (s : tl4) (t : list Z) : bool :=
  negb (destinationAddress t =? 0) && (Z.land (rd t 5) 0x80 =? 0) && (destinationAddress t =? own s) && (Z.land (Z.land (rd t 6) 0xc3) 0x80 =? 0) &&
  ((Z.land (rd t 6) 0xfc =? 0) || ((caddr s =? senderAddress t) && directConnection s && (sequenceNumber t =? seqR s))).
(** the response buffer it is given: the send buffer with header (knx_tlayer4.cpp:641-643) or one of the two buffers of the connection (knx_tlayer4.cpp:762-773).
    Repetitions during the wait in acquireSendBuffer do not change the buffer *)
Definition apciBuffer (s : tl4) (t : list Z) : list Z :=
  if Z.land (rd t 6) 0xfc =? 0 then setDestinationAddress (initLpdu (txb s) (priority t) false FRAME_STANDARD) (senderAddress t)
  else match s1 s with FREE => b1 s | _ => b2 s end.
(** knx_tlayer4.cpp:267-311 processTelegram with the handlers of this file; the received telegram [t] of [telLen] bytes *)
Record received := mkRx { rxTel : list Z; rxLen : Z; rxWaits : list bool; rxEffect : effect }.
Definition receive (c : conf) (now : Z) (r : received) (x : device) : option (device * list out) :=
  let t := rxTel r in
  let w := rxWaits r in
  if destinationAddress t =? 0 then
    match processBroadCastTelegram c t w x with Some (x', o) => Some (x', Bcast t :: o) | None => None end
  else if negb (Z.land (rd t 5) 0x80 =? 0) then Some (setMem x (applied (rxEffect r) (mem x)), [Group t])
  else
    match (if executes (tl x) t then processApci c (u32 now) (directConnection (tl x)) t (rxLen r) (apciBuffer (tl x) t) x else Some (false, [], x)) with
    | None => None
    | Some (ans, sb, x') =>
        match step (tl x) (OpRx now t (ans, sb) w) with Some (s, o) => Some (setTl x' s, o) | None => None end
    end.

(** ** The main loop *)
(** what the device does to its environment: telegrams and hand-overs of the transport layer, the level of the programming LED pin, a reset *)
Inductive dout := Bus (o : out) | Pin (level : bool) | Reset (bootloader : bool).
(** bcu_default.cpp:591-612 flushUserMemory; None: fatalError *)
Definition flushUserMemory (c : conf) (x : device) : option device :=
  let d := mem x in
  match Eeprom_Model.writeUserEeprom (ecf c) (Eeprom_Model.mkEep (sector x) (eeData d) (eeModified d)) with
  | None => None
  | Some e =>
      match (match memMapper d with None => Some None | Some m => option_map Some (doFlash (mapCfg (lay c)) m) end) with
      | None => None
      | Some m => Some (setSector (setMem x (mkDev m (Eeprom_Model.data e) (Eeprom_Model.isModified e) (ramData d) (status d))) (Eeprom_Model.sector e))
      end
  end.
(** bcu_default.cpp:585-589 and bcu_base.cpp:188-204 softSystemReset *)
Definition softSystemReset (c : conf) (x : device) : option (device * list dout) :=
  match flushUserMemory c x with
  | None => None
  | Some x => Some (stop x, [Reset (match rType x with RMasterIntoBootloader => true | _ => false end)])
  end.
(** bcu_base.cpp:67-78: the programming button; [level]: digitalRead(progPin) *)
Definition toggleProgramming (d : dev) : dev := setStatus d (Z.lxor (status d) (Z.lor BCU_STATUS_PARITY BCU_STATUS_PROGRAMMING_MODE)).
Definition progButton (c : conf) (now level : Z) (x : device) : device * list dout :=
  if progPin c then
    let oldValue := Util_Model.d_valid (button x) in
    let '(b, v) := Util_Model.deb_debounce now level 50 (button x) in
    let x := setButton x b in
    let x := if (v =? 0) && negb (oldValue =? 0) then setMem x (toggleProgramming (mem x)) else x in
    (x, [Pin (negb (programmingMode (mem x)))])
  else (x, []).
(** bcu_base.cpp:115-129 setProgrammingMode *)
Definition setProgrammingMode (c : conf) (newMode : bool) (x : device) : bool * device * list dout :=
  if progPin c then
    let x := if negb (Bool.eqb newMode (programmingMode (mem x))) then setMem x (toggleProgramming (mem x)) else x in
    (true, x, [Pin (negb (programmingMode (mem x)))])
  else (false, x, []).
(** bcu_base.cpp:86-112 *)
Definition checkRestart (c : conf) (now : Z) (w : list bool) (x : device) : option (device * list dout) :=
  match rType x with
  | RNone => Some (x, [])
  | _ =>
      if rDisc x then
        match step (tl x) (OpDisconnect w) with
        | None => None
        | Some (s, o) => Some (setRestart (setTl x s) (rType x) false (rTime x), map Bus o)
        end
      else
        let '(e, t) := Util_Model.to_expired now (rTime x) in
        let x := setRestart x (rType x) (rDisc x) t in
        if e then softSystemReset c x else Some (x, [])
  end.
(** the inputs of one pass: time, the telegram bus->telegramReceived() reports, what the calls of bus->sendingFrame() in bcu_base.cpp:62, 81 and bcu_default.cpp:126 return,
    the level of the programming pin, the send completions during disconnect() *)
Record inputs := mkIn { now : Z; rx : option received; sending1 : bool; sending2 : bool; sending3 : bool; level : Z; waits : list bool }.
(** bcu_base.cpp:62-65 *)
Definition checkReceived (c : conf) (i : inputs) (x : device) : option (device * list dout) :=
  match rx i with
  | Some r =>
      if negb (sending1 i) && negb (Z.land (status (mem x)) BCU_STATUS_TRANSPORT_LAYER =? 0)
      then option_map (fun p => (fst p, map Bus (snd p))) (receive c (now i) r x)
      else Some (x, [])
  | None => Some (x, [])
  end.
(** bcu_base.cpp:46-113 BcuBase::loop *)
Definition baseLoop (c : conf) (i : inputs) (x : device) : option (device * list dout) :=
  match step (tl x) (OpLoop (now i)) with
  | None => None
  | Some (s, o1) =>
      match checkReceived c i (setTl x s) with
      | None => None
      | Some (x2, o2) =>
          let '(x3, o3) := progButton c (u32 (now i)) (level i) x2 in
          if sending2 i then Some (x3, map Bus o1 ++ o2 ++ o3)
          else match checkRestart c (u32 (now i)) (waits i) x3 with
               | None => None
               | Some (x4, o4) => Some (x4, map Bus o1 ++ o2 ++ o3 ++ o4)
               end
      end
  end.
(** bcu_default.cpp:118-155 BcuDefault::loop without the group telegrams (131-149); writeDelayElapsed() is true whenever isModified() is (userEeprom.cpp:163-168).
    softSystemReset() does not return *)
Definition bcuLoop (c : conf) (i : inputs) (x : device) : option (device * list dout) :=
  match baseLoop c i x with
  | None => None
  | Some (x1, o) =>
      if negb (running x1) || sending3 i then Some (x1, o)
      else if eeModified (mem x1) && negb (directConnection (tl x1)) then
        match flushUserMemory c x1 with Some x2 => Some (x2, o) | None => None end
      else Some (x1, o)
  end.

(** ** Histories *)
(** a pass of the main loop, a send completion (interrupt), setProgrammingMode called by the application, memory changes by application or com objects,
    a telegram sent by them, power loss and power-up *)
Inductive dop := Loop (i : inputs) | TxDone (ok : bool) | SetMode (b : bool) | AppMem (g : effect) | AppSend (buf : list Z) (w : list bool)
               | PowerUp (last : Z) (junk : list Z).
(** one operation; nothing happens between softSystemReset() and the next power-up. None: endless wait, fatalError() or a memory access outside all arrays *)
Definition dstep (c : conf) (x : device) (o : dop) : option (device * list dout) :=
  match o with
  | PowerUp last junk => option_map (fun y => (y, [])) (powerUp c (sector x) (memMapper (mem x)) last junk)
  | _ =>
      if running x then
        match o with
        | Loop i => bcuLoop c i x
        | TxDone ok => match step (tl x) (OpTxDone ok) with Some (s, l) => Some (setTl x s, map Bus l) | None => None end
        | SetMode b => let '(_, y, l) := setProgrammingMode c b x in Some (y, l)
        | AppMem g => Some (setMem x (applied g (mem x)), [])
        | AppSend buf w => match step (tl x) (OpAppSend buf w) with Some (s, l) => Some (setTl x s, map Bus l) | None => None end
        | PowerUp _ _ => None
        end
      else Some (x, [])
  end.
(** a history, with the outputs of every operation *)
Fixpoint druns (c : conf) (l : list dop) (x : device) : option (device * list (list dout)) :=
  match l with
  | [] => Some (x, [])
  | o :: r => match dstep c x o with
              | None => None
              | Some (x1, out) => match druns c r x1 with Some (x2, outs) => Some (x2, out :: outs) | None => None end
              end
  end.
