(** Memory requests from the bus: BcuDefault::processApciMemoryOperation and the memory branch of BcuDefault::processApci (sblib/src/eib/bcu_default.cpp),
    on the user RAM (sblib/src/eib/userRam.cpp), the user EEPROM held in RAM (sblib/src/eib/userEeprom.cpp) and an optional memory mapper.
    A telegram buffer is a list of bytes, a pointer into it a position; None stands for an access outside such a buffer (or outside a memory, or fatalError()). *)
From Verif Require Export Base Telegram_Model Mapper_Model.

(** where the memories lie: start and size of EEPROM and RAM (memory.cpp:24-28; userRam.cpp:25-34; userRamBCU1.h:24 (0, 0x100), userRamMASK0701.h:20 (0x5FC, 0x304),
    userEepromBCU1.h:18 (0x100, 256), userEepromBCU2.h:18 (0x100, 1024), userEepromMASK0701.h:19 (0x3f00, 3072), userEepromSYSTEMB.h:13 (0x3300, 3072)),
    the mapper's constants and the mask version (bcu1.h:48, bcu2.h:86, mask0705.h:37) *)
Record layout := mkL { eeStart : Z; eeSize : Z; ramStart : Z; ramSize : Z; mapCfg : mcfg; maskVersion : Z }.
(** memMapper (nullptr: None), userEepromData and userEepromModified, userRamData (with the shadow bytes) and _status (userRam.h) *)
Record dev := mkDev { memMapper : option mapper; eeData : list Z; eeModified : bool; ramData : list Z; status : Z }.
Definition setMapper (d : dev) (m : mapper) : dev := mkDev (Some m) (eeData d) (eeModified d) (ramData d) (status d).
(** userRamBCU1.h:47 _statusOffset; 31 _deviceControlOffset; userRam.h:37 DEVCTRL_MEM_AUTO_RESPONSE *)
Definition statusOffset : Z := 0x60.
Definition deviceControlOffset : nat := 98.
Definition DEVCTRL_MEM_AUTO_RESPONSE : Z := 0x04.
(** memory.cpp:45-48 and 50-55 inRange; endAddr is start + size - 1 *)
Definition inRange1 (start size a : Z) : bool := (start <=? a) && (a <=? start + size - 1).
Definition inRange2 (start size a b : Z) : bool := (a <=? b) && (start <=? a) && (b <=? start + size - 1).
(** userRam.cpp:46-51 isStatusAddress: the address is not normalised *)
Definition isStatusAddress (a : Z) : bool := a =? statusOffset.

(** memcpy and array accesses with the bounds of the array *)
Definition bget (l : list Z) (pos n : nat) : option (list Z) := if (pos + n <=? length l)%nat then Some (firstn n (skipn pos l)) else None.
Definition bput (l : list Z) (pos : nat) (bs : list Z) : option (list Z) := if (pos + length bs <=? length l)%nat then Some (wr_range l pos bs) else None.

(** userRam.cpp:69-77: the byte loop of cpyToUserRam *)
Fixpoint ramPutLoop (i : Z) (bs : list Z) (d : dev) : option dev :=
  match bs with
  | [] => Some d
  | b :: r =>
      if i =? statusOffset then ramPutLoop (u32 (i + 1)) r (mkDev (memMapper d) (eeData d) (eeModified d) (ramData d) b)
      else match bput (ramData d) (Z.to_nat i) [b] with
           | None => None
           | Some l => ramPutLoop (u32 (i + 1)) r (mkDev (memMapper d) (eeData d) (eeModified d) l (status d))
           end
  end.
(** userRam.cpp:53-79 cpyToUserRam *)
Definition cpyToUserRam (L : layout) (a : Z) (bs : list Z) (d : dev) : option dev :=
  if (a =? statusOffset) && Nat.eqb (length bs) 1 then Some (mkDev (memMapper d) (eeData d) (eeModified d) (ramData d) (rd bs 0))
  else
    let i := u32 (a - ramStart L) in
    if (statusOffset <? i) || (u32 (i + Z.of_nat (length bs)) <? statusOffset) then
      match bput (ramData d) (Z.to_nat i) bs with Some l => Some (mkDev (memMapper d) (eeData d) (eeModified d) l (status d)) | None => None end
    else ramPutLoop i bs d.
(** userRam.cpp:97-105: the byte loop of cpyFromUserRam *)
Fixpoint ramGetLoop (i : Z) (n : nat) (d : dev) : option (list Z) :=
  match n with
  | O => Some []
  | S k =>
      match (if i =? statusOffset then Some [status d] else bget (ramData d) (Z.to_nat i) 1) with
      | None => None
      | Some b => match ramGetLoop (u32 (i + 1)) k d with Some r => Some (b ++ r) | None => None end
      end
  end.
(** userRam.cpp:81-107 cpyFromUserRam *)
Definition cpyFromUserRam (L : layout) (a : Z) (n : nat) (d : dev) : option (list Z) :=
  if (a =? statusOffset) && Nat.eqb n 1 then Some [status d]
  else
    let i := u32 (a - ramStart L) in
    if (statusOffset <? i) || (u32 (i + Z.of_nat n) <? statusOffset) then bget (ramData d) (Z.to_nat i) n
    else ramGetLoop i n d.

(** ** Moving [n] bytes between a memory at address [a] and the buffer at [pos]; [r]: readMem *)
(** bcu_default.cpp:364-372, 381-389; userMemoryPtr (bcu_default.cpp:163-174) finds the EEPROM, as inRange(addressStart) was checked *)
Definition eeMove (L : layout) (r : bool) (a : Z) (n : nat) (pos : nat) (buf : list Z) (d : dev) : option (list Z * dev) :=
  let i := Z.to_nat (u32 (a - eeStart L)) in
  if r then
    match bget (eeData d) i n with
    | None => None
    | Some bs => match bput buf pos bs with Some b => Some (b, d) | None => None end
    end
  else
    match bget buf pos n with
    | None => None
    | Some bs => match bput (eeData d) i bs with Some e => Some (buf, mkDev (memMapper d) e true (ramData d) (status d)) | None => None end
    end.
(** bcu_default.cpp:401-404, 412-415 *)
Definition ramMove (L : layout) (r : bool) (a : Z) (n : nat) (pos : nat) (buf : list Z) (d : dev) : option (list Z * dev) :=
  if r then
    match cpyFromUserRam L a n d with
    | None => None
    | Some bs => match bput buf pos bs with Some b => Some (b, d) | None => None end
    end
  else
    match bget buf pos n with
    | None => None
    | Some bs => match cpyToUserRam L a bs d with Some d' => Some (buf, d') | None => None end
    end.
(** bcu_default.cpp:316-319, 337-340: readMemPtr / writeMemPtr == MEM_MAPPER_SUCCESS. Simplified: all [n] bytes of the buffer must exist before a write starts *)
Definition mapMove (L : layout) (r : bool) (a : Z) (n : nat) (pos : nat) (buf : list Z) (m : mapper) (d : dev) : option (bool * list Z * dev) :=
  if r then
    match readMemPtr (mapCfg L) a n false m with
    | None => None
    | Some (rc, bs, m') => match bput buf pos bs with Some b => Some (rc =? MEM_MAPPER_SUCCESS, b, setMapper d m') | None => None end
    end
  else
    match bget buf pos n with
    | None => None
    | Some bs => match writeMemPtr (mapCfg L) a bs m with Some (rc, m') => Some (rc =? MEM_MAPPER_SUCCESS, buf, setMapper d m') | None => None end
    end.

(** ** One pass of the loop *)
(** addressStart, payLoad (a position in the buffer), startNotFound (bcu_default.cpp:280-300), with the buffer and the memories *)
Record st := mkSt { sa : Z; spos : nat; snf : bool; sbuf : list Z; sdev : dev }.
(** a stage either returns from processApciMemoryOperation or goes on *)
Inductive res := Crash | Return (b : bool) (buf : list Z) (d : dev) | Go (s : st).
(** [k] bytes done: addressStart += k, payLoad += k, startNotFound = false *)
Definition advance (k : nat) (buf : list Z) (d : dev) (s : st) : st := mkSt (u32 (sa s + Z.of_nat k)) (spos s + k) false buf d.
(** bcu_default.cpp:332-355: byte by byte; [n] passes left *)
Fixpoint mapLoop (L : layout) (r : bool) (n : nat) (s : st) : option st :=
  match n with
  | O => Some s
  | S k =>
      match memMapper (sdev s) with
      | None => Some s
      | Some m =>
          if isMapped (mapCfg L) (s32 (sa s)) m then
            match mapMove L r (s32 (sa s)) 1 (spos s) (sbuf s) m (sdev s) with
            | None => None
            | Some (ok, b, d) => if ok then mapLoop L r k (advance 1 b d s) else Some (mkSt (sa s) (spos s) (snf s) b d)
            end
          else Some s
      end
  end.
(** bcu_default.cpp:308-357; the parameters of the mapper are int *)
Definition mapStage (L : layout) (r : bool) (aEnd len : Z) (s : st) : res :=
  match memMapper (sdev s) with
  | None => Go s
  | Some m =>
      let startFound := isMapped (mapCfg L) (s32 (sa s)) m in
      let endFound := isMapped (mapCfg L) (s32 aEnd) m in
      if startFound && endFound then
        match mapMove L r (s32 (sa s)) (Z.to_nat len) (spos s) (sbuf s) m (sdev s) with None => Crash | Some (ok, b, d) => Return ok b d end
      else if startFound then match mapLoop L r (Z.to_nat len) s with None => Crash | Some s' => Go s' end
      else Go s
  end.
(** bcu_default.cpp:360-394 *)
Definition eeStage (L : layout) (r : bool) (aEnd : Z) (s : st) : res :=
  if inRange2 (eeStart L) (eeSize L) (sa s) aEnd then
    match eeMove L r (sa s) (Z.to_nat (aEnd - sa s + 1)) (spos s) (sbuf s) (sdev s) with None => Crash | Some (b, d) => Return true b d end
  else if inRange1 (eeStart L) (eeSize L) (sa s) then
    let k := Z.to_nat (eeStart L + eeSize L - 1 - sa s + 1) in
    match eeMove L r (sa s) k (spos s) (sbuf s) (sdev s) with None => Crash | Some (b, d) => Go (advance k b d s) end
  else Go s.
(** bcu_default.cpp:397-420 *)
Definition ramStage (L : layout) (r : bool) (aEnd : Z) (s : st) : res :=
  if inRange2 (ramStart L) (ramSize L) (sa s) aEnd || (isStatusAddress (sa s) && isStatusAddress aEnd) then
    match ramMove L r (sa s) (Z.to_nat (aEnd - sa s + 1)) (spos s) (sbuf s) (sdev s) with None => Crash | Some (b, d) => Return true b d end
  else if inRange1 (ramStart L) (ramSize L) (sa s) then
    let k := Z.to_nat (ramStart L + ramSize L - 1 - sa s + 1) in
    match ramMove L r (sa s) k (spos s) (sbuf s) (sdev s) with None => Crash | Some (b, d) => Go (advance k b d s) end
  else Go s.
Definition andThen (x : res) (f : st -> res) : res := match x with Go s => f s | _ => x end.
(** bcu_default.cpp:304-436 and 451: the loop; [fuel] bounds the number of passes, None when it is used up *)
Fixpoint opLoop (fuel : nat) (L : layout) (r : bool) (aEnd len : Z) (s : st) : option (bool * list Z * dev) :=
  match fuel with
  | O => None
  | S k =>
      if negb (snf s) && (sa s <=? aEnd) then
        match andThen (andThen (mapStage L r aEnd len (mkSt (sa s) (spos s) true (sbuf s) (sdev s))) (eeStage L r aEnd)) (ramStage L r aEnd) with
        | Crash => None
        | Return b buf d => Some (b, buf, d)
        | Go s' => opLoop k L r aEnd (u32 (aEnd - sa s' + 1)) s'
        end
      else Some (len =? 0, sbuf s, sdev s)
  end.
(** bcu_default.cpp:280-452 processApciMemoryOperation (called by 242-254 processApciMemoryWritePDU and 256-278 processApciMemoryReadPDU). Debug output is not modelled *)
Definition processApciMemoryOperation (L : layout) (a : Z) (pos : nat) (len : Z) (r : bool) (buf : list Z) (d : dev) : option (bool * list Z * dev) :=
  if len =? 0 then Some (false, buf, d)
  else
    let aEnd := u32 (a + len - 1) in
    if aEnd <? a then Some (false, buf, d)
    else opLoop (S (S (Z.to_nat len))) L r aEnd len (mkSt a pos false buf d).

(** userRamBCU1.h:35 deviceControl *)
Definition deviceControl (d : dev) : Z := rd (ramData d) deviceControlOffset.
(** bcu_default.cpp:492-506: the answer *)
Definition memoryRead (L : layout) (count address : Z) (sb : list Z) (d : dev) : option (bool * list Z * dev) :=
  match processApciMemoryOperation L address 10 count true sb d with
  | None => None
  | Some (ok, sb1, d1) =>
      let count := if ok then count else 0 in
      let sb2 := wr sb1 5 (u8 (0x60 + count + 3)) in
      let sb3 := setApciCommand sb2 APCI_MEMORY_RESPONSE_PDU count in
      Some (true, wr (wr sb3 8 (HIGH_BYTE address)) 9 (lowByte address), d1)
  end.
(** bcu_default.cpp:474-507: APCI_MEMORY_READ_PDU and APCI_MEMORY_WRITE_PDU of processApci: is there an answer, the response buffer, the memories.
    None also for any other APCI command, which this model does not cover *)
Definition processMemoryApci (L : layout) (telegram sb : list Z) (d : dev) : option (bool * list Z * dev) :=
  let cmd := apciCommand telegram in
  let count := Z.land (rd telegram 7) 0x0f in
  let address := makeWord (rd telegram 8) (rd telegram 9) in
  if cmd =? APCI_MEMORY_READ_PDU then memoryRead L count address sb d
  else if cmd =? APCI_MEMORY_WRITE_PDU then
    match processApciMemoryOperation L address 10 count false telegram d with
    | None => None
    | Some (ok, _, d1) =>
        if ok && ((0x1F <? maskVersion L) && negb (Z.land (deviceControl d1) DEVCTRL_MEM_AUTO_RESPONSE =? 0)) then memoryRead L count address sb d1
        else Some (false, sb, d1)
    end
  else None.
(** a sequence of requests, each with the response buffer it is given; the answers *)
Fixpoint requests (L : layout) (l : list (list Z * list Z)) (d : dev) : option (list (option (list Z)) * dev) :=
  match l with
  | [] => Some ([], d)
  | (t, sb) :: r =>
      match processMemoryApci L t sb d with
      | None => None
      | Some (ans, sb', d1) => match requests L r d1 with Some (out, d2) => Some ((if ans then Some sb' else None) :: out, d2) | None => None end
      end
  end.
