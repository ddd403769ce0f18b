(** The user EEPROM kept in the last flash sector (sblib/src/eib/userEeprom.cpp).
    The sector is a list of bytes; addresses are relative to flashSectorAddress() (userEeprom.cpp:29-32), which is a multiple of the sector size. *)
From Verif Require Export Base.

(** platform.h:67 FLASH_SECTOR_SIZE; userEeprom.cpp:97-103: the chunk size 1024 *)
Definition FLASH_SECTOR_SIZE : nat := Z.to_nat 4096.
Definition CHUNK : nat := Z.to_nat 1024.
(** size() (memory.cpp:40-43) and flashSize() (userEeprom.cpp:14-17), fixed by the constructor: 256/256 (BCU1), 1024/1024 (BCU2), 3072/4096 (mask 0701, 0705, SystemB) *)
Record ecfg := mkE { esize : nat; fsize : nat }.
(** userEeprom.cpp:19-22 numEepromPages *)
Definition numEepromPages (c : ecfg) : nat := FLASH_SECTOR_SIZE / fsize c.
(** userEeprom.cpp:34-48 findValidPage: the page number instead of its address; scan of the [n] lowest pages from above *)
Fixpoint findPage (c : ecfg) (s : list Z) (n : nat) : option nat :=
  match n with
  | O => None
  | S k => if rd s (k * fsize c + (esize c - 1)) =? 255 then findPage c s k else Some k
  end.
Definition findValidPage (c : ecfg) (s : list Z) : option nat := findPage c s (numEepromPages c).
(** flash operations: erasing the sector (userEeprom.cpp:85-90) and programming (userEeprom.cpp:104-108) *)
Inductive fop := Erase | Prog (a : nat) (bs : list Z).
(** iap.cpp:165-207 iapProgram, CMD_COPY_RAM2FLASH: programming can only clear bits *)
Definition program (s : list Z) (a : nat) (bs : list Z) : list Z := wr_range s a (map (fun i => Z.land (rd s (a + i)) (rd bs i)) (seq 0 (length bs))).
(** iap.cpp:165-207: sizes and alignment the boot ROM accepts (iap.h:36-40) *)
Definition progAllowed (a : nat) (bs : list Z) : bool :=
  (Z.of_nat a mod 256 =? 0) && existsb (Z.eqb (Z.of_nat (length bs))) [256; 512; 1024; 4096] && (a + length bs <=? FLASH_SECTOR_SIZE)%nat.
(** one operation; None: it fails and fatalError() is called (userEeprom.cpp:87-90, 105-108).
    Programming fails if it is not allowed or the comparison of flash and RAM fails (CMD_COMPARE, iap.cpp:199-206).
    Simplified: the hardware itself does not fail. *)
Definition doOp (o : fop) (s : list Z) : option (list Z) :=
  match o with
  | Erase => Some (repeat 255 FLASH_SECTOR_SIZE)
  | Prog a bs =>
      if progAllowed a bs then
        let s' := program s a bs in if list_eq_dec Z.eq_dec (firstn (length bs) (skipn a s')) bs then Some s' else None
      else None
  end.
Fixpoint doOps (l : list fop) (s : list Z) : option (list Z) :=
  match l with [] => Some s | o :: r => match doOp o s with Some s' => doOps r s' | None => None end end.

(** userEeprom.h:37, 114: userEepromData, userEepromModified, and the flash sector *)
Record eeprom := mkEep { sector : list Z; data : list Z; isModified : bool }.
(** userEeprom.cpp:50-60 readUserEeprom, called by the constructor (userEeprom.cpp:115-121) *)
Definition readUserEeprom (c : ecfg) (e : eeprom) : eeprom :=
  mkEep (sector e) (match findValidPage c (sector e) with Some p => firstn (esize c) (skipn (p * fsize c) (sector e)) | None => repeat 0 (esize c) end) false.
(** userEeprom.cpp:71-80: the page to write *)
Definition nextPage (c : ecfg) (s : list Z) : nat :=
  match findValidPage c s with
  | Some p => if Nat.eqb p (numEepromPages c - 1) then 0%nat else S p
  | None => 0%nat
  end.
(** userEeprom.cpp:93: the last byte marks the page as in use *)
Definition marked (c : ecfg) (d : list Z) : list Z := wr d (esize c - 1) 0.
(** userEeprom.cpp:97-109: the programming loop *)
Definition progOps (c : ecfg) (p : nat) (d : list Z) : list fop :=
  map (fun k => Prog (p * fsize c + CHUNK * k) (firstn CHUNK (skipn (CHUNK * k) d))) (seq 0 ((esize c + CHUNK - 1) / CHUNK)).
(** userEeprom.cpp:71-109: the flash operations of a save, in order *)
Definition saveOps (c : ecfg) (e : eeprom) : list fop :=
  let p := nextPage c (sector e) in
  (if Nat.eqb p 0 then [Erase] else []) ++ progOps c p (marked c (data e)).
(** userEeprom.cpp:62-113 writeUserEeprom; None: fatalError *)
Definition writeUserEeprom (c : ecfg) (e : eeprom) : option eeprom :=
  if isModified e then
    match doOps (saveOps c e) (sector e) with Some s' => Some (mkEep s' (marked c (data e)) false) | None => None end
  else Some e.
(** userEeprom.cpp:150-161 modified (the time stamp is only used by writeDelayElapsed) *)
Definition modified (b : bool) (e : eeprom) : eeprom := mkEep (sector e) (data e) b.
(** userEeprom.cpp:123-127 operator[]: storing [v] at offset [i] *)
Definition store (i : nat) (v : Z) (e : eeprom) : eeprom := mkEep (sector e) (wr (data e) i v) (isModified e).
(** histories; Restart: power-up, the constructor reads the flash *)
Inductive eevent := Store (i : nat) (v : Z) | Modified (b : bool) | Save | Restart.
Definition estep (c : ecfg) (ev : eevent) (e : eeprom) : option eeprom :=
  match ev with
  | Store i v => Some (store i v e)
  | Modified b => Some (modified b e)
  | Save => writeUserEeprom c e
  | Restart => Some (readUserEeprom c e)
  end.
Fixpoint eruns (c : ecfg) (l : list eevent) (e : eeprom) : option eeprom :=
  match l with [] => Some e | ev :: r => match estep c ev e with Some e' => eruns c r e' | None => None end end.
(** userEeprom.cpp:163-168 writeDelayElapsed; [now], [time]: millis() and writeUserEepromTime *)
Definition writeDelayElapsed (now time : Z) (modified : bool) : bool := modified || (0 <? s32 (s32 now - s32 time)).
