(** Loading a BIM112 device (mask versions 0x701 and 0x705): the memory services of MASK0701 (sblib/src/eib/mask0701.cpp) with the load control and load state
    addresses, and the load procedures of PropertiesMASK0701 (sblib/src/eib/propertiesMASK0701.cpp), on the memories of MemReq_Model.
    MASK0705 and PropertiesMASK0705 override nothing of this. None stands for an access outside an array. Debug output is not modelled. *)
From Verif Require Export Base Telegram_Model Mapper_Model MemReq_Model Prop_Model SysB_Model.

(** mask0701.h:53-54 *)
Definition LOAD_CONTROL_ADDR : Z := 0x104.
Definition LOAD_STATE_ADDR : Z := 0xb6e9.
(** userEeprom.h:17 *)
Definition INTERFACE_OBJECT_COUNT : Z := 8.
(** propertiesMASK0701.cpp:135-215 handleAllocAbsTaskSegment with the table addresses of userEepromBCU2.h:24-26; the call of modified() in line 212 is never reached *)
Definition handleAllocAbsTaskSegment0701 (static objectIdx : Z) (p : nat -> Z) (len : Z) (d : dev) : Z * dev :=
  if len <? 7 then (LS_ERROR, d)
  else
    let addr := makeWord (p 0%nat) (p 1%nat) in
    if objectIdx =? OT_ADDR_TABLE then (LS_LOADING, eeWord addrTabAddrOffset addr d)
    else if objectIdx =? OT_ASSOC_TABLE then (LS_LOADING, eeWord assocTabAddrOffset addr d)
    else if objectIdx =? OT_APPLICATION then
      let d := eeWord commsTabAddrOffset (if static =? 0 then addr else static) d in
      (LS_LOADING,
       eeByte versionOffset (p 7%nat) (eeByte (deviceTypeHOffset + 1) (p 6%nat) (eeByte deviceTypeHOffset (p 5%nat)
         (eeByte (manufacturerHOffset + 1) (p 4%nat) (eeByte manufacturerHOffset (p 3%nat) (eeByte appPeiTypeOffset (p 2%nat) d))))))
    else (LS_ERROR, d).
(** propertiesBCU2.cpp:533-604 loadProperty with the two procedures PropertiesMASK0701 overrides (handleAllocAbsDataSegment, propertiesMASK0701.cpp:33-121, is that of SysB_Model).
    handleAllocAbsStackSeg (324-346), handleTaskPtr (361-379), handleRelativeAllocation (483-497) and handleDataRelativeAllocation (512-531) only print *)
Definition loadProperty0701 (L : layout) (static objectIdx : Z) (data : list Z) (len : Z) (d : dev) : Z * dev :=
  if (11 <? len) || (len <? 10) then (LS_ERROR, d)
  else
    let s := handleLoadStateMachine (rd data 0) in
    if negb (s =? LS_LOADCOMPLETING) then (s, d)
    else
      let segmentType := rd data 1 in
      let off := if len =? 10 then 2%nat else 3%nat in
      let p := fun i => rd data (off + i) in
      let len := len - Z.of_nat off in
      if segmentType =? 0 then (handleAllocAbsDataSegmentB L p d, d)
      else if segmentType =? 1 then (LS_LOADING, d)
      else if segmentType =? 2 then handleAllocAbsTaskSegment0701 static objectIdx p len d
      else if segmentType =? 3 then (LS_LOADING, d)
      else if segmentType =? 4 then (LS_LOADING, handleTaskCtrl1 p d)
      else if segmentType =? 5 then (LS_LOADING, handleTaskCtrl2 static p d)
      else if segmentType =? 0x0A then (LS_LOADING, d)
      else if segmentType =? 0x0B then (LS_LOADING, d)
      else (LS_ERROR, d).
(** mask0701.cpp:24-39 processApciMemoryReadPDU, called with [pos] = 10 (bcu_default.cpp:494) *)
Definition memoryReadPDU0701 (L : layout) (address : Z) (count : Z) (sb : list Z) (d : dev) : option (bool * list Z * dev) :=
  if (LOAD_STATE_ADDR <=? address) && (address <? LOAD_STATE_ADDR + INTERFACE_OBJECT_COUNT) then
    match bget (eeData d) (Z.to_nat (loadStateOffset + (address - LOAD_STATE_ADDR))) (Z.to_nat count) with
    | None => None
    | Some bs => match bput sb 10 bs with Some sb1 => Some (true, sb1, d) | None => None end
    end
  else processApciMemoryOperation L address 10 count true sb d.
(** bcu_default.cpp:492-506: the answer *)
Definition memoryRead0701 (L : layout) (count address : Z) (sb : list Z) (d : dev) : option (bool * list Z * dev) :=
  match memoryReadPDU0701 L address count sb d with
  | None => None
  | Some (ok, sb1, d1) =>
      let count := if ok then count else 0 in
      let sb2 := wr sb1 5 (u8 (0x60 + count + 3)) in
      let sb3 := setApciCommand sb2 APCI_MEMORY_RESPONSE_PDU count in
      Some (true, wr (wr sb3 8 (HIGH_BYTE address)) 9 (lowByte address), d1)
  end.
(** mask0701.cpp:41-64 processApciMemoryWritePDU; the payload starts at telegram[10] (bcu_default.cpp:481). The length is not looked at before the object is taken from the first byte *)
Definition memoryWritePDU0701 (L : layout) (static address count : Z) (telegram : list Z) (d : dev) : option (bool * dev) :=
  if address =? LOAD_CONTROL_ADDR then
    let objectIdx := Z.shiftr (rd telegram 10) 4 in
    if objectIdx <? INTERFACE_OBJECT_COUNT then
      let (state, d1) := loadProperty0701 L static objectIdx (skipn 10 telegram) count d in
      Some (true, touch (eeByte (loadStateOffset + objectIdx) state d1))
    else Some (false, d)
  else match processApciMemoryOperation L address 10 count false telegram d with None => None | Some (ok, _, d1) => Some (ok, d1) end.
(** bcu_default.cpp:474-507: the memory services of processApci; None also for any other APCI command *)
Definition processMemoryApci0701 (L : layout) (static : Z) (telegram sb : list Z) (d : dev) : option (bool * list Z * dev) :=
  let cmd := apciCommand telegram in
  let count := Z.land (rd telegram 7) 0x0f in
  let address := makeWord (rd telegram 8) (rd telegram 9) in
  if cmd =? APCI_MEMORY_READ_PDU then memoryRead0701 L count address sb d
  else if cmd =? APCI_MEMORY_WRITE_PDU then
    match memoryWritePDU0701 L static address count telegram d with
    | None => None
    | Some (ok, d1) =>
        if ok && ((0x1F <? maskVersion L) && negb (Z.land (deviceControl d1) DEVCTRL_MEM_AUTO_RESPONSE =? 0)) then memoryRead0701 L count address sb d1
        else Some (false, sb, d1)
    end
  else None.
(** a sequence of requests, each with the response buffer it is given; the answers *)
Fixpoint requests0701 (L : layout) (static : Z) (l : list (list Z * list Z)) (d : dev) : option (list (option (list Z)) * dev) :=
  match l with
  | [] => Some ([], d)
  | (t, sb) :: r =>
      match processMemoryApci0701 L static t sb d with
      | None => None
      | Some (ans, sb', d1) => match requests0701 L static r d1 with Some (out, d2) => Some ((if ans then Some sb' else None) :: out, d2) | None => None end
      end
  end.
(** propertiesBCU2.cpp:634-657 propertyValueWriteTelegram for a property of type PDT_CONTROL: the load state and the memories; [t], [telLen]: bus->telegram and bus->telegramLen.
    There modified() is not called *)
Definition loadControlProperty0701 (L : layout) (static objectIdx : Z) (t : list Z) (telLen : Z) (d : dev) : Z * dev :=
  let (state, d1) := loadProperty0701 L static objectIdx (skipn 12 t) (telLen - 13) d in (state, eeByte (loadStateOffset + objectIdx) state d1).
