(** Loading a System B device: interface object properties as changed by PropertiesSYSTEMB (sblib/src/eib/propertiesSYSTEMB.cpp) and PropertiesMASK0701
    (sblib/src/eib/propertiesMASK0701.cpp), on the memories of MemReq_Model and the property tables of Prop_Model.
    None stands for fatalError(), a null pointer that is used, or an access outside an array.
    IF_DEBUG(fatalError()) in line 300 is only part of debug builds and not modelled; nor is debug output. *)
From Verif Require Export Base Telegram_Model Mapper_Model MemReq_Model Prop_Model CRC_Model.

(** userEepromSYSTEMB.h:16-17, 27-28 addrTabAddr and assocTabAddr; userEepromBCU2.h:26-29, 55-58 commsTabAddr, eibObjAddr and commsSeg0Addr are not overridden.
    propertiesSYSTEMB.cpp:155-156: the array tableAddress, as offsets in userEepromData *)
Definition tableAddress : list Z := [0x21; 0x23; commsTabAddrOffset; eibObjAddrOffset; commsSeg0AddrOffset].
(** userEepromSYSTEMB.h:19-23, 29-33; propertiesSYSTEMB.cpp:160-161: the array tableSize *)
Definition tableSize : list Z := [0x4D; 0x55; 0x5D; 0x65; 0x6D].
(** a word of the EEPROM, low byte first (the byte order of the target) *)
Definition eeWordAt (o : Z) (d : dev) : Z := Z.lor (Z.shiftl (rd (eeData d) (Z.to_nat (o + 1))) 8) (rd (eeData d) (Z.to_nat o)).
(** propertiesSYSTEMB.cpp:163-168: the lowest address in use *)
Definition lowestTable (d : dev) : Z :=
  fold_left (fun v o => let w := eeWordAt o d in if negb (w =? 0) && (w <? v) then w else v) tableAddress 0x3A9E.
(** propertiesSYSTEMB.cpp:154 reqMemSize: the shift into the sign bit as every compiler in use does it *)
Definition reqMemSize (p : nat -> Z) : Z :=
  Z.lor (Z.lor (Z.lor (u32 (Z.shiftl (p 0%nat) 24)) (Z.shiftl (p 1%nat) 16)) (Z.shiftl (p 2%nat) 8)) (p 3%nat).
(** propertiesSYSTEMB.cpp:136-186 handleDataRelativeAllocation *)
Definition handleDataRelativeAllocation (L : layout) (objectIdx : Z) (p : nat -> Z) (d : dev) : option (Z * dev) :=
  if (objectIdx <? 1) || (5 <? objectIdx) then None
  else
    let i := Z.to_nat (objectIdx - 1) in
    let virtMemAddr := lowestTable d in
    let d := eeWord (nth i tableAddress 0) (u16 (virtMemAddr - reqMemSize p)) d in
    let tabSiz := nth i tableSize 0 in
    let d := eeByte (tabSiz + 3) (p 3%nat) (eeByte (tabSiz + 2) (p 2%nat) (eeByte (tabSiz + 1) (p 1%nat) (eeByte tabSiz (p 0%nat) d))) in
    if 0 <? p 4%nat then
      match zput (eeData d) (virtMemAddr - eeStart L) (repeat (p 5%nat) (Z.to_nat (reqMemSize p))) with
      | Some l => Some (LS_LOADING, setEe d l)
      | None => None
      end
    else Some (LS_LOADING, d).
(** propertiesSYSTEMB.cpp:89-97: can the address be reached? *)
Definition reachableB (L : layout) (a : Z) (d : dev) : bool :=
  inRange1 (ramStart L) (ramSize L) a || inRange1 (eeStart L) (eeSize L) a ||
  (match memMapper d with Some m => isMapped (mapCfg L) (s32 a) m | None => false end).
(** propertiesSYSTEMB.cpp:33-121 handleAllocAbsDataSegment (propertiesMASK0701.cpp:33-121 is the same) *)
Definition handleAllocAbsDataSegmentB (L : layout) (p : nat -> Z) (d : dev) : Z :=
  let a := makeWord (p 0%nat) (p 1%nat) in
  let aEnd := u32 (a + makeWord (p 2%nat) (p 3%nat) - 1) in
  let memType := Z.land (p 5%nat) 0x07 in
  if ((memType =? 1) || (memType =? 2) || (memType =? 3)) && reachableB L a d && reachableB L aEnd d then LS_LOADING else LS_ERROR.
(** propertiesMASK0701.cpp:135-215 handleAllocAbsTaskSegment; the call of modified() in line 212 is never reached *)
Definition handleAllocAbsTaskSegmentB (static objectIdx : Z) (p : nat -> Z) (len : Z) (d : dev) : Z * dev :=
  if len <? 7 then (LS_ERROR, d)
  else
    let addr := makeWord (p 0%nat) (p 1%nat) in
    if objectIdx =? OT_ADDR_TABLE then (LS_LOADING, eeWord (nth 0 tableAddress 0) addr d)
    else if objectIdx =? OT_ASSOC_TABLE then (LS_LOADING, eeWord (nth 1 tableAddress 0) addr d)
    else if objectIdx =? OT_APPLICATION then
      let d := eeWord commsTabAddrOffset (if static =? 0 then addr else static) d in
      (LS_LOADING,
       eeByte versionOffset (p 7%nat) (eeByte (deviceTypeHOffset + 1) (p 6%nat) (eeByte deviceTypeHOffset (p 5%nat)
         (eeByte (manufacturerHOffset + 1) (p 4%nat) (eeByte manufacturerHOffset (p 3%nat) (eeByte appPeiTypeOffset (p 2%nat) d))))))
    else (LS_ERROR, d).
(** property_types.h:184 PID_TABLE_REFERENCE, 244 PID_MCB_TABLE *)
Definition PID_TABLE_REFERENCE : Z := 7.
Definition PID_MCB_TABLE : Z := 27.
(** propertiesSYSTEMB.cpp:229-230, 234-235, 248-249: the value pointer of a property; an unknown property gives a null pointer, which is used *)
Definition pointerOf (tabs : list (list pdef)) (objectIdx id : Z) : option vptr :=
  match propertyDef tabs objectIdx id with Some (Some def) => valuePointer def | _ => None end.
(** propertiesSYSTEMB.cpp:229-240: the CRC of the table's memory goes into the memory control block *)
Definition storeCrc (L : layout) (tabs : list (list pdef)) (objectIdx : Z) (d : dev) : option dev :=
  match pointerOf tabs objectIdx PID_TABLE_REFERENCE with
  | None => None
  | Some ref =>
      match vget ref 0 2 d with
      | None => None
      | Some w =>
          let virtMemStart := u16 (Z.shiftl (rd w 1) 8 + rd w 0) in
          match pointerOf tabs objectIdx PID_MCB_TABLE with
          | None => None
          | Some mcb =>
              match vget mcb 2 2 d with
              | None => None
              | Some s =>
                  let memSize := u16 (Z.shiftl (rd s 0) 8 + rd s 1) in
                  match zget (eeData d) (virtMemStart - eeStart L) (Z.to_nat memSize) with
                  | None => None
                  | Some mem => let crc := systemb_crc16 mem in vput mcb 6 [u8 (Z.shiftr crc 8); u8 crc] d
                  end
              end
          end
      end
  end.
(** propertiesSYSTEMB.cpp:210-304 loadProperty. handleAllocAbsStackSeg, handleTaskPtr and handleRelativeAllocation (propertiesBCU2.cpp:324-346, 361-379, 483-497) only print *)
Definition loadPropertyB (L : layout) (static : Z) (tabs : list (list pdef)) (objectIdx : Z) (data : list Z) (len : Z) (d : dev) : option (Z * dev) :=
  if (11 <? len) || (len <? 10) then Some (LS_ERROR, d)
  else
    let s := handleLoadStateMachine (rd data 0) in
    if s =? LS_LOADED then match storeCrc L tabs objectIdx d with Some d1 => Some (s, d1) | None => None end
    else if s =? LS_UNLOADED then
      match pointerOf tabs objectIdx PID_TABLE_REFERENCE with
      | None => None
      | Some ref => match vput ref 0 [0; 0] d with Some d1 => Some (s, d1) | None => None end
      end
    else if negb (s =? LS_LOADCOMPLETING) then Some (s, d)
    else
      let segmentType := rd data 1 in
      let off := if len =? 10 then 2%nat else 3%nat in
      let p := fun i => rd data (off + i) in
      let len := len - Z.of_nat off in
      if segmentType =? 0 then Some (handleAllocAbsDataSegmentB L p d, d)
      else if segmentType =? 1 then Some (LS_LOADING, d)
      else if segmentType =? 2 then Some (handleAllocAbsTaskSegmentB static objectIdx p len d)
      else if segmentType =? 3 then Some (LS_LOADING, d)
      else if segmentType =? 0x0A then Some (LS_LOADING, d)
      else if segmentType =? 0x0B then handleDataRelativeAllocation L objectIdx p d
      else Some (LS_ERROR, d).

(** propertiesSYSTEMB.cpp:306-337 propertyValueReadTelegram *)
Definition propertyValueReadB (tabs : list (list pdef)) (objectIdx propertyId count start : Z) (sb : list Z) (d : dev) : option (bool * list Z) :=
  match propertyDef tabs objectIdx propertyId with
  | None => None
  | Some None => Some (false, sb)
  | Some (Some p) =>
      match valuePointer p with
      | None => None
      | Some v =>
          let size := psize p in
          let len := count * size in
          if 12 <? len then Some (false, sb)
          else match vget v ((start - 1) * size) (Z.to_nat len) d with
               | None => None
               | Some bs =>
                   let wide := (ptype p <? PDT_CHAR_BLOCK) && (propertyId =? PID_TABLE_REFERENCE) in
                   match (if wide then bput (wr (wr sb 12 0) 13 0) 14 (rev bs) else bput sb 12 (if ptype p <? PDT_CHAR_BLOCK then rev bs else bs)) with
                   | None => None
                   | Some sb1 => Some (true, wr sb1 5 (u8 (rd sb1 5 + (if wide then len + 2 else len))))
                   end
               end
      end
  end.
(** propertiesSYSTEMB.cpp:339-387 propertyValueWriteTelegram; [t], [telLen]: bus->telegram and bus->telegramLen *)
Definition propertyValueWriteB (L : layout) (static : Z) (tabs : list (list pdef)) (t : list Z) (telLen objectIdx propertyId count start : Z) (sb : list Z) (d : dev) :
  option (bool * list Z * dev) :=
  match propertyDef tabs objectIdx propertyId with
  | None => None
  | Some None => Some (false, sb, d)
  | Some (Some p) =>
      if Z.land (control p) PC_WRITABLE =? 0 then Some (false, sb, d)
      else match valuePointer p with
           | None => None
           | Some v =>
               if ptype p =? PDT_CONTROL then
                 match loadPropertyB L static tabs objectIdx (skipn 12 t) (telLen - 13) d with
                 | None => None
                 | Some (state, d1) =>
                     let sb1 := wr sb 12 (u8 state) in
                     Some (true, wr sb1 5 (u8 (rd sb1 5 + 1)), eeByte (loadStateOffset + objectIdx) state d1)
                 end
               else
                 let size := psize p in
                 let len := count * size in
                 let order := fun l : list Z => if propertyId =? PID_MCB_TABLE then l else rev l in
                 match bget t 12 (Z.to_nat len) with
                 | None => None
                 | Some bs =>
                     match vput v ((start - 1) * size) (order bs) d with
                     | None => None
                     | Some d1 =>
                         match vget v ((start - 1) * size) (Z.to_nat len) d1 with
                         | None => None
                         | Some bs1 =>
                             match bput sb 12 (order bs1) with
                             | None => None
                             | Some sb1 => Some (true, wr sb1 5 (u8 (rd sb1 5 + len)), if isEepromPointer p then touch d1 else d1)
                             end
                         end
                     end
                 end
           end
  end.
(** bcu2.cpp:105-152 BCU2::processApci, the property requests, with the System B variants of the functions called; descriptions as in Prop_Model *)
Definition processPropertyApciB (L : layout) (static : Z) (tabs : list (list pdef)) (t : list Z) (telLen : Z) (sb : list Z) (d : dev) : option (list Z * dev) :=
  let cmd := apciCommand t in
  let index := rd t 8 in
  let id := rd t 9 in
  if (cmd =? APCI_PROPERTY_VALUE_READ_PDU) || (cmd =? APCI_PROPERTY_VALUE_WRITE_PDU) then
    let count := Z.shiftr (rd t 10) 4 in
    let address := startIndex t in
    let sb := wr sb 5 0x65 in
    let sb := setApciCommand sb APCI_PROPERTY_VALUE_RESPONSE_PDU 0 in
    let sb := wr (wr (wr (wr sb 8 index) 9 id) 10 (rd t 10)) 11 (rd t 11) in
    match (if cmd =? APCI_PROPERTY_VALUE_READ_PDU then option_map (fun x => (x, d)) (propertyValueReadB tabs index id count address sb d)
           else propertyValueWriteB L static tabs t telLen index id count address sb d) with
    | None => None
    | Some (found, sb1, d1) => Some (if found then sb1 else wr sb1 10 0, d1)
    end
  else processPropertyApci L static tabs t telLen sb d.
(** a sequence of property requests: (telegram, telegramLen, response buffer) *)
Fixpoint propRequestsB (L : layout) (static : Z) (tabs : list (list pdef)) (l : list (list Z * Z * list Z)) (d : dev) : option (list (list Z) * dev) :=
  match l with
  | [] => Some ([], d)
  | (t, n, sb) :: r =>
      match processPropertyApciB L static tabs t n sb d with
      | None => None
      | Some (sb', d1) => match propRequestsB L static tabs r d1 with Some (out, d2) => Some (sb' :: out, d2) | None => None end
      end
  end.
