(** Interface object properties of a BCU2 (sblib/src/eib/propertiesBCU2.cpp, property_types.cpp) and the property branch of BCU2::processApci.
    The memories are those of MemReq_Model; None stands for fatalError() or an access outside an array.
    Debug output is not modelled. *)
From Verif Require Export Base Telegram_Model Mapper_Model MemReq_Model.

(** ** Property definitions *)
(** property_types.h:101 PropertyDef *)
Record pdef := mkP { pid : Z; control : Z; valAddr : Z }.
(** property_types.cpp:21-30 propertySizes; the type mask only reaches the first 32 entries *)
Definition propertySizes : list Z :=
  [1; 1; 1; 2; 2; 2; 3; 3; 4; 4; 4; 8; 10; 3; 5; 8; 0; 1; 2; 3; 4; 5; 6; 7; 8; 9; 10; 11; 12; 13; 14; 15].
(** property_types.h:470-477 PropertyControl, 483-489 PropertyPointerType *)
Definition PC_WRITABLE : Z := 0x80.
Definition PC_POINTER : Z := 0x20.
Definition PC_ARRAY_POINTER : Z := 0x60.
Definition PC_TYPE_MASK : Z := 0x1f.
Definition PPT_USER_RAM : Z := 0.
Definition PPT_USER_EEPROM : Z := 0x4000.
Definition PPT_MASK : Z := 0x7000.
Definition PPT_OFFSET_MASK : Z := 0x0fff.
(** property_types.h:31 and 43 *)
Definition PDT_CONTROL : Z := 0.
Definition PDT_CHAR_BLOCK : Z := 0x0c.
(** property_types.h:503-506 type *)
Definition ptype (p : pdef) : Z := Z.land (control p) PC_TYPE_MASK.
(** property_types.cpp:33-37 size *)
Definition psize (p : pdef) : Z := rd propertySizes (Z.to_nat (Z.land (control p) PC_TYPE_MASK)).
(** property_types.h:508-511 isEepromPointer *)
Definition isEepromPointer (p : pdef) : bool := negb (Z.land (valAddr p) PPT_USER_EEPROM =? 0).
(** property_types.cpp:39-60 valuePointer: an offset in userRamData or userEepromData, or the member valAddr itself *)
Inductive vptr := VRam (o : Z) | VEe (o : Z) | VDef (v : Z).
Definition valuePointer (p : pdef) : option vptr :=
  if negb (Z.land (control p) PC_POINTER =? 0) then
    let offs := Z.land (valAddr p) PPT_OFFSET_MASK in
    if Z.land (valAddr p) PPT_MASK =? PPT_USER_RAM then Some (VRam offs)
    else if Z.land (valAddr p) PPT_MASK =? PPT_USER_EEPROM then Some (VEe offs)
    else None
  else Some (VDef (valAddr p)).
(** memcpy and reverseCopy (utils.cpp:21-29) between a property and other buffers: [n] bytes at [k] bytes from the pointer; no bytes: no access *)
Definition zget (l : list Z) (i : Z) (n : nat) : option (list Z) := if Nat.eqb n 0 then Some [] else if i <? 0 then None else bget l (Z.to_nat i) n.
Definition zput (l : list Z) (i : Z) (bs : list Z) : option (list Z) := if Nat.eqb (length bs) 0 then Some l else if i <? 0 then None else bput l (Z.to_nat i) bs.
(** the definition's word is stored low byte first (the target is little endian) *)
Definition vget (v : vptr) (k : Z) (n : nat) (d : dev) : option (list Z) :=
  match v with
  | VRam o => zget (ramData d) (o + k) n
  | VEe o => zget (eeData d) (o + k) n
  | VDef w => zget [lowByte w; HIGH_BYTE w] k n
  end.
(** assignments to userRamData and userEepromData *)
Definition setRam (d : dev) (l : list Z) : dev := mkDev (memMapper d) (eeData d) (eeModified d) l (status d).
Definition setEe (d : dev) (l : list Z) : dev := mkDev (memMapper d) l (eeModified d) (ramData d) (status d).
(** userEeprom.cpp:150-161 modified(true) *)
Definition touch (d : dev) : dev := mkDev (memMapper d) (eeData d) true (ramData d) (status d).
(** the definitions are constants: a write to one is an error *)
Definition vput (v : vptr) (k : Z) (bs : list Z) (d : dev) : option dev :=
  match v with
  | VRam o => match zput (ramData d) (o + k) bs with Some l => Some (setRam d l) | None => None end
  | VEe o => match zput (eeData d) (o + k) bs with Some l => Some (setEe d l) | None => None end
  | VDef _ => if Nat.eqb (length bs) 0 then Some d else None
  end.
(** propertiesBCU2.cpp:27-46 findProperty; the end of a table is marked by id 0. None: no end mark *)
Fixpoint findProperty (propertyId : Z) (table : list pdef) : option (option pdef) :=
  match table with
  | [] => None
  | p :: r => if pid p =? 0 then Some None else if pid p =? propertyId then Some (Some p) else findProperty propertyId r
  end.
(** propertiesBCU2.h:33 NUM_PROP_OBJECTS *)
Definition NUM_PROP_OBJECTS : Z := 6.
(** propertiesBCU2.cpp:56-64 propertyDef *)
Definition propertyDef (tabs : list (list pdef)) (objectIdx propertyId : Z) : option (option pdef) :=
  if NUM_PROP_OBJECTS <=? objectIdx then Some None else findProperty propertyId (nth (Z.to_nat objectIdx) tabs []).

(** ** The load state machine *)
(** propertiesBCU2.h:104-123 LoadState *)
Definition LS_UNLOADED : Z := 0.
Definition LS_LOADED : Z := 1.
Definition LS_LOADING : Z := 2.
Definition LS_ERROR : Z := 3.
Definition LS_LOADCOMPLETING : Z := 5.
(** propertiesBCU2.h:47-59 ObjectType *)
Definition OT_ADDR_TABLE : Z := 1.
Definition OT_ASSOC_TABLE : Z := 2.
Definition OT_APPLICATION : Z := 3.
(** userEepromBCU2.h:23-46 and userEepromBCU1.h:21-48: offsets in userEepromData *)
Definition loadStateOffset : Z := 0x370.
Definition addrTabAddrOffset : Z := 0x378.
Definition assocTabAddrOffset : Z := 0x37A.
Definition commsTabAddrOffset : Z := 0x37C.
Definition commsSeg0AddrOffset : Z := 0x37E.
Definition commsSeg1AddrOffset : Z := 0x380.
Definition eibObjAddrOffset : Z := 0x382.
Definition eibObjCountOffset : Z := 0x384.
Definition serviceControlOffset : Z := 0x386.
Definition serialOffset : Z := 0x38A.
Definition orderOffset : Z := 0x390.
Definition orderInfoOffset : Z := 0x39A.
Definition addrTabMcbOffset : Z := 0x3A4.
Definition assocTabMcbOffset : Z := 0x3AC.
Definition commsTabMcbOffset : Z := 0x3B4.
Definition eibObjMcbOffset : Z := 0x3BC.
Definition eibObjVerOffset : Z := 0x3CC.
Definition commsSeg0VerOffset : Z := 0x3D1.
Definition manufacturerHOffset : Z := 0x03.
Definition deviceTypeHOffset : Z := 0x05.
Definition versionOffset : Z := 0x07.
Definition appPeiTypeOffset : Z := 0x09.
Definition portADDROffset : Z := 0x0c.
(** stores of one byte and of a word (userEepromBCU2.h:55-61: words are stored in the byte order of the target, low byte first) *)
Definition eeByte (o v : Z) (d : dev) : dev := setEe d (wr (eeData d) (Z.to_nat o) (u8 v)).
Definition eeWord (o v : Z) (d : dev) : dev := eeByte (o + 1) (HIGH_BYTE v) (eeByte o (lowByte v) d).
(** userEepromBCU2.h:54 loadState *)
Definition loadState (d : dev) (objectIdx : Z) : Z := rd (eeData d) (Z.to_nat (loadStateOffset + objectIdx)).
(** propertiesBCU2.cpp:78-121 handleLoadStateMachine *)
Definition handleLoadStateMachine (data0 : Z) : Z :=
  let loadcontrol := Z.land data0 7 in
  if loadcontrol =? 1 then LS_LOADING
  else if loadcontrol =? 2 then LS_LOADED
  else if loadcontrol =? 3 then LS_LOADCOMPLETING
  else if loadcontrol =? 4 then LS_UNLOADED
  else LS_ERROR.
(** propertiesBCU2.cpp:135-201 handleAllocAbsTaskSegment; the call of modified() in line 198 is never reached *)
Definition handleAllocAbsTaskSegment (objectIdx : Z) (p : nat -> Z) (len : Z) (d : dev) : Z * dev :=
  if len <? 7 then (LS_ERROR, d)
  else
    let addr := makeWord (p 0%nat) (p 1%nat) in
    if objectIdx =? OT_ADDR_TABLE then (LS_LOADING, eeWord addrTabAddrOffset addr d)
    else if objectIdx =? OT_ASSOC_TABLE then (LS_LOADING, eeWord assocTabAddrOffset addr d)
    else if objectIdx =? OT_APPLICATION then
      (LS_LOADING,
       eeByte versionOffset (p 7%nat) (eeByte (deviceTypeHOffset + 1) (p 6%nat) (eeByte deviceTypeHOffset (p 5%nat)
         (eeByte (manufacturerHOffset + 1) (p 4%nat) (eeByte manufacturerHOffset (p 3%nat) (eeByte appPeiTypeOffset (p 2%nat) d))))))
    else (LS_ERROR, d).
(** propertiesBCU2.cpp:271-285: can the address be reached? *)
Definition reachable (L : layout) (a : Z) (d : dev) : bool :=
  inRange1 (ramStart L) (ramSize L) a || inRange1 (eeStart L) (eeSize L) a ||
  (match memMapper d with Some m => isMapped (mapCfg L) (s32 a) m | None => false end) ||
  ((0x0900 <=? a) && (a <? 0x0900 + 0xBC)).
(** propertiesBCU2.cpp:216-309 handleAllocAbsDataSegment *)
Definition handleAllocAbsDataSegment (L : layout) (p : nat -> Z) (d : dev) : Z :=
  let a := makeWord (p 0%nat) (p 1%nat) in
  let aEnd := u32 (a + makeWord (p 2%nat) (p 3%nat) - 1) in
  let memType := Z.land (p 5%nat) 0x07 in
  if ((memType =? 1) || (memType =? 2) || (memType =? 3)) && reachable L a d && reachable L aEnd d then LS_LOADING else LS_ERROR.
(** propertiesBCU2.cpp:396-414 handleTaskCtrl1 *)
Definition handleTaskCtrl1 (p : nat -> Z) (d : dev) : dev := eeByte eibObjCountOffset (p 2%nat) (eeWord eibObjAddrOffset (makeWord (p 0%nat) (p 1%nat)) d).
(** propertiesBCU2.cpp:429-468 handleTaskCtrl2; [static]: getCommObjectTableAddressStatic() *)
Definition handleTaskCtrl2 (static : Z) (p : nat -> Z) (d : dev) : dev :=
  let addr := makeWord (p 2%nat) (p 3%nat) in
  eeWord commsSeg1AddrOffset (makeWord (p 6%nat) (p 7%nat)) (eeWord commsSeg0AddrOffset (makeWord (p 4%nat) (p 5%nat))
    (eeWord commsTabAddrOffset (if static =? 0 then addr else static) d)).
(** propertiesBCU2.cpp:533-604 loadProperty: the new load state. [data]: the bytes from the pointer on; the code reads at most 11 of them.
    handleAllocAbsStackSeg (324-346), handleTaskPtr (361-379), handleRelativeAllocation (483-497) and handleDataRelativeAllocation (512-531) only print *)
Definition loadProperty (L : layout) (static objectIdx : Z) (data : list Z) (len : Z) (d : dev) : Z * dev :=
  if (11 <? len) || (len <? 10) then (LS_ERROR, d)
  else
    let s := handleLoadStateMachine (rd data 0) in
    if negb (s =? LS_LOADCOMPLETING) then (s, d)
    else
      let segmentType := rd data 1 in
      let off := if len =? 10 then 2%nat else 3%nat in
      let p := fun i => rd data (off + i) in
      let len := len - Z.of_nat off in
      if segmentType =? 0 then (handleAllocAbsDataSegment L p d, d)
      else if segmentType =? 1 then (LS_LOADING, d)
      else if segmentType =? 2 then handleAllocAbsTaskSegment objectIdx p len d
      else if segmentType =? 3 then (LS_LOADING, d)
      else if segmentType =? 4 then (LS_LOADING, handleTaskCtrl1 p d)
      else if segmentType =? 5 then (LS_LOADING, handleTaskCtrl2 static p d)
      else if segmentType =? 0x0A then (LS_LOADING, d)
      else if segmentType =? 0x0B then (LS_LOADING, d)
      else (LS_ERROR, d).

(** ** Requests *)
(** propertiesBCU2.cpp:606-632 propertyValueReadTelegram: found, and the response buffer *)
Definition propertyValueRead (tabs : list (list pdef)) (objectIdx propertyId count start : Z) (sb : list Z) (d : dev) : option (bool * list Z) :=
  match propertyDef tabs objectIdx propertyId with
  | None => None
  | Some None => Some (false, sb)
  | Some (Some p) =>
      match valuePointer p with
      | None => None
      | Some v =>
          let size := psize p in
          let len := count * size in
          if 10 <? len then Some (false, sb)
          else match vget v ((start - 1) * size) (Z.to_nat len) d with
               | None => None
               | Some bs => match bput sb 12 (if ptype p <? PDT_CHAR_BLOCK then rev bs else bs) with
                            | None => None
                            | Some sb1 => Some (true, wr sb1 5 (u8 (rd sb1 5 + len)))
                            end
               end
      end
  end.
(** propertiesBCU2.cpp:634-674 propertyValueWriteTelegram; [t], [telLen]: bus->telegram and bus->telegramLen *)
Definition propertyValueWrite (L : layout) (static : Z) (tabs : list (list pdef)) (t : list Z) (telLen objectIdx propertyId count start : Z) (sb : list Z) (d : dev) :
  option (bool * list Z * dev) :=
  match propertyDef tabs objectIdx propertyId with
  | None => None
  | Some None => Some (false, sb, d)
  | Some (Some p) =>
      if Z.land (control p) PC_WRITABLE =? 0 then Some (false, sb, d)
      else match valuePointer p with
           | None => None
           | Some v =>
               if ptype p =? PDT_CONTROL then
                 let (state, d1) := loadProperty L static objectIdx (skipn 12 t) (telLen - 13) d in
                 let sb1 := wr sb 12 (u8 state) in
                 Some (true, wr sb1 5 (u8 (rd sb1 5 + 1)), eeByte (loadStateOffset + objectIdx) state d1)
               else
                 let size := psize p in
                 let len := count * size in
                 match bget t 12 (Z.to_nat len) with
                 | None => None
                 | Some bs =>
                     match vput v ((start - 1) * size) (rev bs) d with
                     | None => None
                     | Some d1 =>
                         match vget v ((start - 1) * size) (Z.to_nat len) d1 with
                         | None => None
                         | Some bs1 =>
                             match bput sb 12 (rev bs1) with
                             | None => None
                             | Some sb1 => Some (true, wr sb1 5 (u8 (rd sb1 5 + len)), if isEepromPointer p then touch d1 else d1)
                             end
                         end
                     end
                 end
           end
  end.
(** propertiesBCU2.cpp:676-708 propertyDescReadTelegram: the response buffer; an index behind the table or an unknown object without a property id is an error *)
Definition propertyDescRead (tabs : list (list pdef)) (objectIdx propertyId index : Z) (sb : list Z) (d : dev) : option (bool * list Z) :=
  let def := if propertyId =? 0 then
               match nth_error tabs (Z.to_nat objectIdx) with
               | Some tab => match nth_error tab (Z.to_nat index) with Some p => Some (Some p) | None => None end
               | None => None
               end
             else propertyDef tabs objectIdx propertyId in
  let sb := wr sb 10 (u8 index) in
  match def with
  | None => None
  | Some o =>
      match (match o with Some p => if pid p =? 0 then None else Some p | None => None end) with
      | None => Some (false, wr (wr (wr (wr (wr sb 9 propertyId) 11 0) 12 0) 13 0) 14 0)
      | Some p =>
          match (if Z.land (control p) PC_ARRAY_POINTER =? PC_ARRAY_POINTER then
                   match valuePointer p with Some v => option_map (fun l => rd l 0) (vget v 0 1 d) | None => None end
                 else Some 1) with
          | None => None
          | Some numElems =>
              Some (true, wr (wr (wr (wr (wr sb 9 (pid p)) 11 (Z.land (control p) (Z.lor PC_TYPE_MASK PC_WRITABLE))) 12 (Z.land (Z.shiftr numElems 8) 15)) 13 (u8 numElems)) 14
                            (if negb (Z.land (control p) PC_WRITABLE =? 0) then 0xf1 else 0x50))
          end
      end
  end.

(** apci.h:92-97 *)
Definition APCI_PROPERTY_VALUE_READ_PDU : Z := 0x3d5.
Definition APCI_PROPERTY_VALUE_RESPONSE_PDU : Z := 0x3d6.
Definition APCI_PROPERTY_VALUE_WRITE_PDU : Z := 0x3d7.
Definition APCI_PROPERTY_DESCRIPTION_READ_PDU : Z := 0x3d8.
Definition APCI_PROPERTY_DESCRIPTION_RESPONSE_PDU : Z := 0x3d9.
(** bcu2.cpp:120-121: the start index as it is computed *)
Definition startIndex (t : list Z) : Z := Z.lor (Z.shiftl (Z.land (rd t 10) 0x0f) 4) (rd t 11).
(** bcu2.cpp:105-152 BCU2::processApci, the property requests: the response (which is always sent) and the memories. None also for any other APCI command *)
Definition processPropertyApci (L : layout) (static : Z) (tabs : list (list pdef)) (t : list Z) (telLen : Z) (sb : list Z) (d : dev) : option (list Z * dev) :=
  let cmd := apciCommand t in
  let index := rd t 8 in
  let id := rd t 9 in
  if (cmd =? APCI_PROPERTY_VALUE_READ_PDU) || (cmd =? APCI_PROPERTY_VALUE_WRITE_PDU) then
    let count := Z.shiftr (rd t 10) 4 in
    let address := startIndex t in
    let sb := wr sb 5 0x65 in
    let sb := setApciCommand sb APCI_PROPERTY_VALUE_RESPONSE_PDU 0 in
    let sb := wr (wr (wr (wr sb 8 index) 9 id) 10 (rd t 10)) 11 (rd t 11) in
    match (if cmd =? APCI_PROPERTY_VALUE_READ_PDU then option_map (fun x => (x, d)) (propertyValueRead tabs index id count address sb d)
           else propertyValueWrite L static tabs t telLen index id count address sb d) with
    | None => None
    | Some (found, sb1, d1) => Some (if found then sb1 else wr sb1 10 0, d1)
    end
  else if cmd =? APCI_PROPERTY_DESCRIPTION_READ_PDU then
    let address := rd t 10 in
    let sb := wr sb 5 0x68 in
    let sb := setApciCommand sb APCI_PROPERTY_DESCRIPTION_RESPONSE_PDU 0 in
    let sb := wr (wr (wr sb 8 index) 9 id) 10 address in
    option_map (fun x => (snd x, d)) (propertyDescRead tabs index id address sb d)
  else None.
(** bcu2.cpp:84-93 BCU2::applicationRunning; [enabled], [runState]: the members of that name (runState is not part of the user RAM, userRam.h:101) *)
Definition applicationRunning (enabled : bool) (runState : Z) (d : dev) : bool :=
  if negb enabled then false
  else (runState =? 1) && (loadState d OT_ADDR_TABLE =? LS_LOADED) && (loadState d OT_ASSOC_TABLE =? LS_LOADED) && (loadState d OT_APPLICATION =? LS_LOADED).

(** ** The tables of a BCU2 *)
(** propertiesBCU2.h:36 PD_USER_RAM_OFFSET, 39 PD_USER_EEPROM_OFFSET; userRamBCU1.h:28-35 *)
Definition ramPtr (o : Z) : Z := o + PPT_USER_RAM.
Definition eePtr (o : Z) : Z := o + PPT_USER_EEPROM.
(** property_types.h:496 PROPERTY_DEF_TABLE_END *)
Definition tableEnd : pdef := mkP 0 0 0.
(** propertiesBCU2.h:313-352 deviceObjectProps; SBLIB_VERSION is 0x0210 (version.h:17) *)
Definition deviceObjectProps : list pdef :=
  [ mkP 1 0x04 0; mkP 14 0xb1 (ramPtr 0x62); mkP 5 0xa0 (eePtr loadStateOffset); mkP 8 0xa4 (eePtr serviceControlOffset); mkP 9 0x02 0x0210;
    mkP 11 0x36 (eePtr serialOffset); mkP 12 0x32 (eePtr manufacturerHOffset); mkP 15 0x3a (eePtr orderInfoOffset); mkP 16 0x22 (ramPtr 0x63);
    mkP 17 0x22 (eePtr portADDROffset); mkP 78 0xb6 (eePtr orderOffset); tableEnd ].
(** propertiesBCU2.h:358-374 addrTabObjectProps *)
Definition addrTabObjectProps : list pdef :=
  [ mkP 1 0x04 1; mkP 5 0xa0 (eePtr (loadStateOffset + 1)); mkP 7 0x64 (eePtr addrTabAddrOffset); mkP 27 0xb8 (eePtr addrTabMcbOffset); tableEnd ].
(** propertiesBCU2.h:380-399 assocTabObjectProps *)
Definition assocTabObjectProps : list pdef :=
  [ mkP 1 0x04 2; mkP 5 0xa0 (eePtr (loadStateOffset + 2)); mkP 7 0x64 (eePtr assocTabAddrOffset); mkP 23 0x94 0x00ff; mkP 27 0xb8 (eePtr assocTabMcbOffset); tableEnd ].
(** propertiesBCU2.h:405-430 appObjectProps *)
Definition appObjectProps : list pdef :=
  [ mkP 1 0x04 3; mkP 5 0xa0 (eePtr (loadStateOffset + 3)); mkP 6 0x22 (ramPtr 0x61); mkP 13 0x35 (eePtr manufacturerHOffset); mkP 7 0x64 (eePtr commsTabAddrOffset);
    mkP 27 0xb8 (eePtr commsTabMcbOffset); mkP 0xcc 0xba (ramPtr 0xc8); tableEnd ].
(** propertiesBCU2.h:432-451 interfaceObjectProps *)
Definition interfaceObjectProps : list pdef :=
  [ mkP 1 0x04 4; mkP 5 0xa0 (eePtr (loadStateOffset + 4)); mkP 7 0x64 (eePtr eibObjAddrOffset); mkP 13 0xf5 (eePtr eibObjVerOffset); mkP 27 0xb8 (eePtr eibObjMcbOffset); tableEnd ].
(** propertiesBCU2.h:456-478 knxAssocTabObjectProps *)
Definition knxAssocTabObjectProps : list pdef :=
  [ mkP 1 0x04 5; mkP 5 0xa0 (eePtr (loadStateOffset + 5)); mkP 7 0x64 (eePtr commsSeg0AddrOffset); mkP 13 0xf5 (eePtr commsSeg0VerOffset); mkP 28 0x11 0; tableEnd ].
(** propertiesBCU2.h:486-494 propertiesTabInstance *)
Definition propertiesTab : list (list pdef) :=
  [deviceObjectProps; addrTabObjectProps; assocTabObjectProps; appObjectProps; interfaceObjectProps; knxAssocTabObjectProps].

(** a sequence of property requests: (telegram, telegramLen, response buffer) *)
Fixpoint propRequests (L : layout) (static : Z) (tabs : list (list pdef)) (l : list (list Z * Z * list Z)) (d : dev) : option (list (list Z) * dev) :=
  match l with
  | [] => Some ([], d)
  | (t, n, sb) :: r =>
      match processPropertyApci L static tabs t n sb d with
      | None => None
      | Some (sb', d1) => match propRequests L static tabs r d1 with Some (out, d2) => Some (sb' :: out, d2) | None => None end
      end
  end.
