(** Reading numbers from the user memories: sblib/src/eib/memory.cpp, userEeprom.cpp:115-148, userRam.cpp:25-34, 109-139. *)
From Verif Require Export Base.

(** memory.h:103-105: the members; [cells]: userEepromData or userRamData *)
Record area := mkArea { startAddress : Z; endAddress : Z; sizeTotal : Z; cells : list Z }.
(** memory.cpp:24-28 *)
Definition Memory (start size : Z) (l : list Z) : area := mkArea start (u32 (u32 (start + size) - 1)) size l.
(** userEeprom.cpp:115-121; [l]: the [size] bytes readUserEeprom leaves in the array *)
Definition UserEeprom (start size : Z) (l : list Z) : area := Memory start size l.
(** userRam.cpp:25-34; status and run state left out *)
Definition UserRam (start size shadowSize : Z) : area :=
  let m := Memory start (u32 (size + shadowSize)) (repeat 0 (Z.to_nat (u32 (size + shadowSize)))) in
  mkArea (startAddress m) (u32 (endAddress m - shadowSize)) (u32 (sizeTotal m - shadowSize)) (cells m).
(** memory.cpp:30-43 *)
Definition startAddr (m : area) : Z := startAddress m.
Definition endAddr (m : area) : Z := endAddress m.
Definition size (m : area) : Z := sizeTotal m.
(** memory.cpp:45-48 *)
Definition inRange (m : area) (address : Z) : bool := (startAddr m <=? address) && (address <=? endAddr m).
(** memory.cpp:50-55 *)
Definition inRange2 (m : area) (start stop : Z) : bool := (start <=? stop) && (startAddr m <=? start) && (stop <=? endAddr m).
(** memory.h:112 *)
Definition normalizeAddress (m : area) (address : Z) : Z := u32 (address - startAddress m).
(** the element of an array; None: there is none, undefined *)
Definition elem (l : list Z) (i : Z) : option Z := if (0 <=? i) && (i <? Z.of_nat (length l)) then Some (rd l (Z.to_nat i)) else None.
(** userEeprom.cpp:123-127, userRam.cpp:115-119: operator[], as a value and with a byte stored to it *)
Definition index (m : area) (address : Z) : option Z := elem (cells m) (normalizeAddress m address).
Definition store_at (m : area) (address v : Z) : option area :=
  match index m address with
  | None => None
  | Some _ => Some (mkArea (startAddress m) (endAddress m) (sizeTotal m) (wr (cells m) (Z.to_nat (normalizeAddress m address)) v))
  end.
(** userEeprom.cpp:130-138, userRam.cpp:121-129: the same code *)
Definition getUInt8 (m : area) (address : Z) : option Z :=
  let address := normalizeAddress m address in
  if u32 (size m - 1) <? address then Some 0 else elem (cells m) address.
(** bits.h:50-53 *)
Definition makeWord (high low : Z) : Z := u16 (Z.lor (Z.shiftl high 8) low).
(** userEeprom.cpp:140-148, userRam.cpp:131-139: the same code *)
Definition getUInt16 (m : area) (address : Z) : option Z :=
  let address := normalizeAddress m address in
  if u32 (size m - 1) <? u32 (address + 1) then Some 0 else
  match elem (cells m) address, elem (cells m) (u32 (address + 1)) with Some h, Some l => Some (makeWord h l) | _, _ => None end.
(** userRam.cpp:109-113 *)
Definition setUserRamStart (m : area) (newRamStart : Z) : area := mkArea newRamStart (u32 (u32 (newRamStart + sizeTotal m) - 1)) (sizeTotal m) (cells m).
