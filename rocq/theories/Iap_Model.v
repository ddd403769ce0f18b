(** sblib/src/iap.cpp: erasing and programming of the flash with the functions of the boot ROM *)
From Verif Require Export Base.

(** iap.cpp:25-37 *)
Definition CMD_PREPARE : Z := 50.
Definition CMD_COPY_RAM2FLASH : Z := 51.
Definition CMD_ERASE : Z := 52.
Definition CMD_BLANK_CHECK : Z := 53.
Definition CMD_READ_PART_ID : Z := 54.
Definition CMD_COMPARE : Z := 56.
Definition CMD_READ_UID : Z := 58.
Definition CMD_ERASE_PAGE : Z := 59.
(** iap.h:20-34, the two statuses the code looks at *)
Definition IAP_SUCCESS : Z := 0.
Definition IAP_INVALID_SECTOR : Z := 7.
(** platform.h:60-68 *)
Definition FLASH_BASE_ADDRESS : Z := 0.
Definition FLASH_SECTOR_SIZE : Z := 0x1000.
Definition FLASH_PAGE_SIZE : Z := 0x100.
(** iap.cpp:16, 19 *)
Definition MAX_FLASH_SIZE : Z := 0x80000.
Definition FLASH_SIZE_SEARCH_INC : Z := 0x2000.

(** iap.cpp:231-249; addresses are 32 bit numbers; the difference of two pointers is an int and is divided with truncation *)
Definition iapSectorOfAddress (address : Z) : Z := u32 (Z.quot (s32 (address - FLASH_BASE_ADDRESS)) FLASH_SECTOR_SIZE).
Definition iapPageOfAddress (address : Z) : Z := u32 (Z.quot (s32 (address - FLASH_BASE_ADDRESS)) FLASH_PAGE_SIZE).
Definition iapAddressOfPage (page : Z) : Z := u32 (u32 (page * FLASH_PAGE_SIZE) + FLASH_BASE_ADDRESS).
Definition iapAddressOfSector (sector : Z) : Z := u32 (u32 (sector * FLASH_SECTOR_SIZE) + FLASH_BASE_ADDRESS).

(** iap.cpp:42-48, 59: the boot ROM, environment: a call with the command and the parameters that have been assigned (the others are whatever was on the stack); the first
    argument tells whether interrupts are enabled while it runs. It gives the status and the result words. [handlers]: what interrupt handlers do to the ROM's state
    when they may run. *)
Record bootrom (S : Type) := { call : bool -> Z -> list Z -> S -> S * (Z * list Z); handlers : S -> S }.
Arguments call {S}. Arguments handlers {S}.

Section Iap.
  Context {S : Type} (w : bootrom S).
  (** the state: the ROM and flash, and whether interrupts are enabled (PRIMASK) *)
  Record cpu := mkCpu { hw : S; irq : bool }.
  (** interrupt.h:124-130 *)
  Definition noInterrupts (s : cpu) : cpu := mkCpu (hw s) false.
  (** interrupt.h:132-135; afterwards the handlers may run *)
  Definition interrupts (s : cpu) : cpu := mkCpu (handlers w (hw s)) true.
  (** iap.cpp:84-97 *)
  Definition IAP_Call_InterruptSafe (getLock : bool) (cmd : Z) (par : list Z) (s : cpu) : cpu * (Z * list Z) :=
    let s := if getLock then noInterrupts s else s in
    let '(h, r) := call w (irq s) cmd par (hw s) in
    let s := mkCpu h (irq s) in
    (if getLock then interrupts s else s, r).
  (** iap.cpp:99-109 *)
  Definition prepareSectorRange (getLock : bool) (startSector endSector : Z) (s : cpu) : cpu * Z :=
    let '(s, r) := IAP_Call_InterruptSafe getLock CMD_PREPARE [startSector; endSector] s in (s, fst r).
  (** iap.cpp:116-139; [clk]: SystemCoreClock *)
  Definition iapEraseSectorRange (clk : Z) (startSector endSector : Z) (s : cpu) : cpu * Z :=
    let '(s, stat) := prepareSectorRange true startSector endSector s in
    if stat =? IAP_SUCCESS then
      let '(s, r) := IAP_Call_InterruptSafe true CMD_ERASE [startSector; endSector; clk / 1000] s in
      if fst r =? IAP_SUCCESS then
        let '(s, r) := IAP_Call_InterruptSafe true CMD_BLANK_CHECK [startSector; endSector; clk / 1000] s in (s, fst r)
      else (s, fst r)
    else (s, stat).
  (** iap.cpp:111-114 *)
  Definition iapEraseSector (clk : Z) (sector : Z) (s : cpu) : cpu * Z := iapEraseSectorRange clk sector sector s.
  (** iap.cpp:146-163 *)
  Definition iapErasePageRange (clk : Z) (startPageNumber endPageNumber : Z) (s : cpu) : cpu * Z :=
    let startSector := startPageNumber / (FLASH_SECTOR_SIZE / FLASH_PAGE_SIZE) in
    let endSector := endPageNumber / (FLASH_SECTOR_SIZE / FLASH_PAGE_SIZE) in
    let '(s, stat) := prepareSectorRange true startSector endSector s in
    if stat =? IAP_SUCCESS then
      let '(s, r) := IAP_Call_InterruptSafe true CMD_ERASE_PAGE [startPageNumber; endPageNumber; clk / 1000] s in (s, fst r)
    else (s, stat).
  (** iap.cpp:141-144 *)
  Definition iapErasePage (clk : Z) (pageNumber : Z) (s : cpu) : cpu * Z := iapErasePageRange clk pageNumber pageNumber s.
  (** iap.cpp:165-207 *)
  Definition iapProgram (clk : Z) (rom ram size : Z) (s : cpu) : cpu * Z :=
    let startSector := iapSectorOfAddress rom in
    let endSector := iapSectorOfAddress (u32 (rom + size - 1)) in
    let s := noInterrupts s in
    let '(s, stat) := prepareSectorRange false startSector endSector s in
    if negb (stat =? IAP_SUCCESS) then (interrupts s, stat) else
    let '(s, r) := IAP_Call_InterruptSafe false CMD_COPY_RAM2FLASH [rom; ram; size; clk / 1000] s in
    if negb (fst r =? IAP_SUCCESS) then (interrupts s, fst r) else
    let '(s, r) := IAP_Call_InterruptSafe false CMD_COMPARE [rom; ram; size; clk / 1000] s in
    (interrupts s, fst r).
  (** iap.cpp:209-218: the status and the 16 bytes copied (the ROM's four words as they lie in memory, lowest byte first) *)
  Definition iapReadUID (s : cpu) : cpu * (Z * list Z) :=
    let '(s, r) := IAP_Call_InterruptSafe true CMD_READ_UID [] s in
    (s, (fst r, flat_map (fun i => let v := rd (snd r) i in [u8 v; u8 (Z.shiftr v 8); u8 (Z.shiftr v 16); u8 (Z.shiftr v 24)]) [0; 1; 2; 3]%nat)).
  (** iap.cpp:220-229 *)
  Definition iapReadPartID (s : cpu) : cpu * (Z * Z) :=
    let '(s, r) := IAP_Call_InterruptSafe true CMD_READ_PART_ID [] s in (s, (fst r, rd (snd r) 0)).
  (** iap.cpp:264-274: the loop; [n] passes are enough, as [sector] grows *)
  Fixpoint sizeLoop (n : nat) (sector : Z) (s : cpu) : cpu * Z :=
    match n with
    | O => (s, sector)
    | Datatypes.S n =>
        if sector <? MAX_FLASH_SIZE / FLASH_SECTOR_SIZE then
          let '(s, r) := IAP_Call_InterruptSafe true CMD_BLANK_CHECK [sector; sector] s in
          if fst r =? IAP_INVALID_SECTOR then (s, sector) else sizeLoop n (sector + FLASH_SIZE_SEARCH_INC / FLASH_SECTOR_SIZE) s
        else (s, sector)
    end.
  (** iap.cpp:251-277; [iapFlashBytes]: the static variable; result: the new value of it, which is returned *)
  Definition iapFlashSize (iapFlashBytes : Z) (s : cpu) : cpu * Z :=
    if negb (iapFlashBytes =? 0) then (s, iapFlashBytes) else
    let sectorInc := FLASH_SIZE_SEARCH_INC / FLASH_SECTOR_SIZE in
    let '(s, sector) := sizeLoop (Z.to_nat (MAX_FLASH_SIZE / FLASH_SECTOR_SIZE)) sectorInc s in
    (s, u32 (sector * FLASH_SECTOR_SIZE)).
End Iap.
Arguments cpu : clear implicits.
