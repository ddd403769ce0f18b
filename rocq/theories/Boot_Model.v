(** Bootloader: flash access rules, update protocol, difference decompressor, start of the application.
    Models firmware_updater/bootloader/src/{flash,boot_descriptor_block,update,upd_protocol,decompressor}.cpp and
    startup() of bootloader.cpp, built with DECOMPRESSOR defined and DEBUG not defined.

    Simplifications (they apply to the whole file):
    - addresses are numbers, FLASH_BASE_ADDRESS and _image_start are 0 (LPC_FLASH_BASE of the target, platform.h:61);
      pointers are 32 bits wide;
    - flash content is a function from addresses to bytes;
    - the ROM's IAP calls (iap.cpp:99-207) are an environment: a call with a range that is empty, outside flash or
      misaligned returns IAP_INVALID_SECTOR without effect; any other call either succeeds and has exactly its documented
      effect, or fails with a status of the environment's choice after writing arbitrary bytes into the requested range
      (and nowhere else).  Programming clears bits only: it succeeds where flash was erased before;
    - the return telegram is the pair (command byte [8], payload [9..]); its header bytes are not modelled;
    - counters totalBytesReceived, totalBytesFlashed (debug output only), bus pause/resume and debug output are omitted;
    - iapReadUID always succeeds. *)
From Verif Require Export Base CRC_Model.

(** boot_descriptor_block.cpp:26-44: symbols set by the linker; [chip_uid]: iapReadUID (iap.cpp:209-218) *)
Record layout := mkLayout { image_end : Z; flash_top : Z; chip_uid : list Z }.

(** boot_descriptor_block.cpp:139-143 *)
Definition bootLoaderLast (L : layout) : Z := image_end L - 1.
(** boot_descriptor_block.cpp:156-160 *)
Definition flashLast (L : layout) : Z := flash_top L - 1.
(** boot_descriptor_block.cpp:168-179 applicationFirstAddress; std::align(256, 1, ptr, space) with space = 255
    (platform.h:69) leaves ptr unchanged if padding + 1 > space *)
Definition appFirst (L : layout) : Z :=
  let x := image_end L + 256 in
  let p := (- x) mod 256 in
  if p + 1 <=? 255 then x + p else x.
(** boot_descriptor_block.cpp:181-185 bootDescriptorBlockAddress *)
Definition bootDescAddr (L : layout) : Z := appFirst L - 256.

(** iap.cpp:231-239 (pointer difference is a signed int, divided with truncation) *)
Definition iapSectorOfAddress (a : Z) : Z := u32 (Z.quot (s32 a) 4096).
Definition iapPageOfAddress (a : Z) : Z := u32 (Z.quot (s32 a) 256).
(** boot_descriptor_block.cpp:187-191 *)
Definition bootDescPage (L : layout) : Z := iapPageOfAddress (bootDescAddr L).

(** upd_protocol.h:150-188 UDP_State *)
Definition UDP_IAP_SUCCESS := 0x7f.
Definition UDP_UNKNOWN_COMMAND := 0x5f.
Definition UDP_CRC_ERROR := 0x5e.
Definition UDP_ADDRESS_NOT_ALLOWED_TO_FLASH := 0x5d.
Definition UDP_SECTOR_NOT_ALLOWED_TO_ERASE := 0x5c.
Definition UDP_RAM_BUFFER_OVERFLOW := 0x5b.
Definition UDP_APPLICATION_NOT_STARTABLE := 0x59.
Definition UDP_DEVICE_LOCKED := 0x58.
Definition UDP_UID_MISMATCH := 0x57.
Definition UDP_INVALID_DATA := 0x55.
Definition UDP_NO_DATA := 0x54.
Definition UDP_PAGE_NOT_ALLOWED_TO_ERASE := 0x52.
Definition UDP_ADDRESS_RANGE_NOT_ALLOWED_TO_ERASE := 0x51.
Definition UDP_BYTECOUNT_RECEIVED_TOO_LOW := 0x50.
Definition UDP_BYTECOUNT_RECEIVED_TOO_HIGH := 0x4f.
Definition UDP_NOT_IMPLEMENTED := 0x02.
Definition UDP_INVALID := 0x01.
(** upd_protocol.cpp:38-83 iapResult2UDPState (the twelve statuses of iap.h:20-34 map to 0x7f downwards) *)
Definition iapResult2UDPState (s : Z) : Z := if (0 <=? s) && (s <=? 11) then 0x7f - s else 0x73.

(** ** Flash and IAP *)
Definition flash := Z -> Z.
(** Outcome of the next IAP call: success, or failure [status] leaving [after] in the requested range *)
Inductive iap_res := IapOk | IapFail (status : Z) (after : flash).
Definition wk := (flash * list iap_res)%type.
Definition over (lo n : Z) (new old : flash) : flash := fun a => if (lo <=? a) && (a <? lo + n) then new a else old a.
(** iap.cpp:99-207: common part, see the head of the file *)
Definition iapCall (valid : bool) (lo n : Z) (new : flash) (w : wk) : Z * wk :=
  if negb valid then (7, w) else
  match snd w with
  | IapFail s g :: r => (s, (over lo n g (fst w), r))
  | IapOk :: r => (0, (over lo n new (fst w), r))
  | [] => (0, (over lo n new (fst w), []))
  end.
(** iap.cpp:146-163 iapErasePageRange *)
Definition iapErasePageRange (L : layout) (s e : Z) (w : wk) : Z * wk :=
  iapCall ((s <=? e) && (e * 256 <? flash_top L)) (s * 256) ((e - s + 1) * 256) (fun _ => 0xFF) w.
(** iap.cpp:116-139 iapEraseSectorRange *)
Definition iapEraseSectorRange (L : layout) (s e : Z) (w : wk) : Z * wk :=
  iapCall ((s <=? e) && (e * 4096 <? flash_top L)) (s * 4096) ((e - s + 1) * 4096) (fun _ => 0xFF) w.
(** [n] bytes from address [a] (source operand of memcpy, memcmp, crc32) *)
Definition bytes_at (f : Z -> Z) (a n : Z) : list Z := map (fun i => f (a + Z.of_nat i)) (seq 0 (Z.to_nat n)).
(** iap.cpp:165-207 iapProgram; [src i]: byte i of the RAM source.  Programming can only clear bits; the comparison that
    follows (CMD_COMPARE) reports IAP_COMPARE_ERROR if the content now differs from the source. *)
Definition iapProgram (L : layout) (rom : Z) (src : Z -> Z) (size : Z) (w : wk) : Z * wk :=
  let '(r, w') :=
    iapCall ((rom mod 256 =? 0) && existsb (Z.eqb size) [256; 512; 1024; 4096] && (rom + size <=? flash_top L))
            rom size (fun a => Z.land (fst w a) (src (a - rom))) w in
  if (r =? 0) && negb (if list_eq_dec Z.eq_dec (bytes_at (fst w') rom size) (bytes_at src 0 size) then true else false)
  then (10, w') else (r, w').

(** ** flash.cpp *)
(** flash.cpp:34-38 is_aligned *)
Definition is_aligned (a alignment : Z) : bool := Z.land a (alignment - 1) =? 0.
(** flash.cpp:52-67 addressAllowedToProgram *)
Definition addressAllowedToProgram (L : layout) (start len : Z) (isBootDescriptor : bool) : bool :=
  if negb (is_aligned start 256) || (len =? 0) then false else
  let e := u32 (start + len - 1) in
  if isBootDescriptor then (bootDescAddr L <=? start) && (e <? appFirst L)
  else (appFirst L <=? start) && (e <=? flashLast L).
(** flash.cpp:75-79 pageAllowedToErase *)
Definition pageAllowedToErase (L : layout) (p : Z) : bool :=
  (iapPageOfAddress (bootLoaderLast L) <? p) && (p <=? iapPageOfAddress (flashLast L)).
(** flash.cpp:87-91 sectorAllowedToErase *)
Definition sectorAllowedToErase (L : layout) (s : Z) : bool :=
  (iapSectorOfAddress (bootLoaderLast L) <? s) && (s <=? iapSectorOfAddress (flashLast L)).
(** flash.cpp:93-118 erasePageRange *)
Definition erasePageRange (L : layout) (s e : Z) (w : wk) : Z * wk :=
  if negb (pageAllowedToErase L s) || negb (pageAllowedToErase L e) then (UDP_PAGE_NOT_ALLOWED_TO_ERASE, w)
  else let '(r, w) := iapErasePageRange L s e w in (iapResult2UDPState r, w).
(** flash.cpp:127-151 eraseSectorRange *)
Definition eraseSectorRange (L : layout) (s e : Z) (w : wk) : Z * wk :=
  if negb (sectorAllowedToErase L s) || negb (sectorAllowedToErase L e) then (UDP_SECTOR_NOT_ALLOWED_TO_ERASE, w)
  else let '(r, w) := iapEraseSectorRange L s e w in (iapResult2UDPState r, w).

(** flash.cpp:218-223: last part of eraseAddressRange *)
Definition eraseMiddle (L : layout) (startSector endSector result : Z) (w : wk) : Z * wk :=
  if startSector <=? endSector then eraseSectorRange L startSector endSector w else (result, w).
(** flash.cpp:199-216: end of the range *)
Definition eraseTail (L : layout) (startAddress endAddress result : Z) (w : wk) : Z * wk :=
  let endPage := iapPageOfAddress endAddress in
  let endSector := iapSectorOfAddress endAddress in
  let startSector := iapSectorOfAddress startAddress in
  let start := u32 (endSector * 4096) / 256 in
  if u32 (endPage - start + 1) =? 16 then eraseMiddle L startSector endSector result w
  else
    let '(r, w) := erasePageRange L start endPage w in
    if negb (r =? UDP_IAP_SUCCESS) then (r, w)
    else eraseMiddle L startSector (u32 (endSector - 1)) r w.
(** flash.cpp:153-224 eraseAddressRange *)
Definition eraseAddressRange (L : layout) (startAddress endAddress : Z) (rangeCheck : bool) (w : wk) : Z * wk :=
  if rangeCheck && negb (addressAllowedToProgram L startAddress (u32 (endAddress - startAddress + 1)) false)
  then (UDP_ADDRESS_RANGE_NOT_ALLOWED_TO_ERASE, w)
  else
    let endPage := iapPageOfAddress endAddress in
    let startPage := iapPageOfAddress startAddress in
    if u32 (endPage - startPage + 1) <? 16 then erasePageRange L startPage endPage w
    else if negb (is_aligned startAddress 4096) then
      let next := u32 (u32 (iapSectorOfAddress startAddress + 1) * 4096) in
      let '(r, w) := erasePageRange L startPage (u32 (iapPageOfAddress next - 1)) w in
      if negb (r =? UDP_IAP_SUCCESS) then (r, w)
      else eraseTail L next endAddress r w
    else eraseTail L startAddress endAddress UDP_ADDRESS_RANGE_NOT_ALLOWED_TO_ERASE w.
(** flash.cpp:226-231 eraseFullFlash *)
Definition eraseFullFlash (L : layout) (w : wk) : Z * wk :=
  let page := u32 (iapPageOfAddress (bootLoaderLast L) + 1) in
  eraseAddressRange L (u32 (page * 256)) (flashLast L) false w.
(** flash.cpp:233-243 executeProgramFlash *)
Definition executeProgramFlash (L : layout) (address : Z) (src : Z -> Z) (size : Z) (isBootDescriptor : bool) (w : wk) : Z * wk :=
  if negb (addressAllowedToProgram L address size isBootDescriptor) then (UDP_ADDRESS_NOT_ALLOWED_TO_FLASH, w)
  else let '(r, w) := iapProgram L address src size w in (iapResult2UDPState r, w).

(** ** Application descriptor *)
(** update.cpp:123-126 streamToUIn32, 168-171 streamToUShort16 (bytes given by a function) *)
Definition le32 (f : Z -> Z) (i : Z) : Z :=
  Z.lor (Z.lor (Z.lor (Z.shiftl (f (i + 3)) 24) (Z.shiftl (f (i + 2)) 16)) (Z.shiftl (f (i + 1)) 8)) (f i).
Definition le16 (f : Z -> Z) (i : Z) : Z := Z.lor (Z.shiftl (f (i + 1)) 8) (f i).
Definition at_ (l : list Z) (i : Z) : Z := rd l (Z.to_nat i).

(** boot_descriptor_block.cpp:74-99 checkApplication; [blk i]: byte i of the descriptor (struct of four 32-bit words,
    boot_descriptor_block.h:54-60) *)
Definition checkApplication (L : layout) (fl : flash) (blk : Z -> Z) : bool :=
  let start := le32 blk 0 in
  let e := le32 blk 4 in
  let crc := le32 blk 8 in
  if (start <? appFirst L) || (flashLast L <? start) then false
  else if flashLast L <? e then false
  else if e <=? start then false
  else crc32 0xFFFFFFFF (bytes_at fl start (e - start + 1)) =? crc.
(** the descriptor in flash *)
Definition descriptor (L : layout) (fl : flash) : Z -> Z := fun i => fl (bootDescAddr L + i).

(** bootloader.cpp:233-258 startup *)
Inductive start_result := StartApplication (address : Z) | StayInBootloader.
Definition startup (L : layout) (fl : flash) (magicWord : Z) (buttonPressed : bool) : start_result :=
  if magicWord =? 0x5E1FB055 then StayInBootloader
  else if buttonPressed then StayInBootloader
  else if checkApplication L fl (descriptor L fl) then StartApplication (le32 (descriptor L fl) 0)
  else StayInBootloader.

(** boot_descriptor_block.h:44: "[SB KNX BL ]" *)
Definition bl_id_string : list Z := [0x5B; 0x53; 0x42; 0x20; 0x4B; 0x4E; 0x58; 0x20; 0x42; 0x4C; 0x20; 0x5D].
(** boot_descriptor_block.cpp:101-113 getAppVersion, update.cpp:344: the 12 bytes copied *)
Definition appVersion (L : layout) (fl : flash) : list Z :=
  let a := le32 (descriptor L fl) 12 in
  if (appFirst L <=? a) && (a <? flashLast L - 13) then bytes_at fl a 12 else bl_id_string.
(** boot_descriptor_block.cpp:122-132 getFirmwareStartAddress *)
Definition getFirmwareStartAddress (L : layout) (fl : flash) : Z :=
  if checkApplication L fl (descriptor L fl) then le32 (descriptor L fl) 0 else appFirst L.

(** ** Decompressor *)
(** decompressor.h:48-53 *)
Inductive dstate := EXPECT_COMMAND_BYTE | EXPECT_COMMAND_PARAMS | EXPECT_RAW_DATA.
(** decompressor.h:55-65 members *)
Record decomp := mkDec {
  cmdBuffer : list Z;         (* 5 bytes *)
  expectedCmdLength : Z;
  cmdBufferLength : Z;
  scratchpad : list Z;        (* 256 bytes *)
  oldPages : list Z;          (* 512 bytes *)
  bytesToFlash : Z;
  rawLength : Z;
  dst_ : dstate;              (* state *)
  pageAddr : Z;               (* startAddrOfPageToBeFlashed *)
  romStart : Z                (* startAddrOfFlash *)
}.
(** decompressor.cpp:33-37 constructor and decompressor.h:55-65 initial values *)
Definition decInit (start : Z) : decomp :=
  mkDec (repeat 0 5) 0 0 (repeat 0 256) (repeat 0 512) 0 0 EXPECT_COMMAND_BYTE start start.
(** decompressor.cpp:39-49 getLength *)
Definition isLong (cmd : list Z) : bool := Z.land (rd cmd 0) 0x40 =? 0x40.
Definition getLength (cmd : list Z) : Z :=
  if isLong cmd then Z.lor (Z.shiftl (Z.land (rd cmd 0) 0x3F) 8) (Z.land (rd cmd 1) 0xff) else Z.land (rd cmd 0) 0x3F.
(** decompressor.cpp:51-61 isCopyFromRam *)
Definition isCopyFromRam (cmd : list Z) : bool :=
  if isLong cmd then Z.land (rd cmd 2) 0x80 =? 0x80 else Z.land (rd cmd 1) 0x80 =? 0x80.
(** decompressor.cpp:63-73 getCopyAddress *)
Definition getCopyAddress (cmd : list Z) : Z :=
  let i := if isLong cmd then 2%nat else 1%nat in
  Z.lor (Z.lor (Z.shiftl (Z.land (rd cmd i) 0x7F) 16) (Z.shiftl (Z.land (rd cmd (i + 1)) 0xff) 8)) (Z.land (rd cmd (i + 2)) 0xff).

(** decompressor.cpp:127-243 putByte.  None: an access outside cmdBuffer, scratchpad, oldPages or flash. *)
Definition putByte (L : layout) (fl : flash) (data : Z) (d : decomp) : option decomp :=
  match dst_ d with
  | EXPECT_COMMAND_BYTE =>
      let cmd := wr (cmdBuffer d) 0 data in
      let n := 1 + (if Z.land data 0x80 =? 0x80 then 3 else 0) + (if Z.land data 0x40 =? 0x40 then 1 else 0) in
      if 1 <? n
      then Some (mkDec cmd n 1 (scratchpad d) (oldPages d) (bytesToFlash d) (rawLength d) EXPECT_COMMAND_PARAMS (pageAddr d) (romStart d))
      else Some (mkDec cmd n 1 (scratchpad d) (oldPages d) (bytesToFlash d) 0 EXPECT_RAW_DATA (pageAddr d) (romStart d))
  | EXPECT_COMMAND_PARAMS =>
      if 5 <=? cmdBufferLength d then None else
      let cmd := wr (cmdBuffer d) (Z.to_nat (cmdBufferLength d)) data in
      let n := cmdBufferLength d + 1 in
      if negb (expectedCmdLength d <=? n)
      then Some (mkDec cmd (expectedCmdLength d) n (scratchpad d) (oldPages d) (bytesToFlash d) (rawLength d) EXPECT_COMMAND_PARAMS (pageAddr d) (romStart d))
      else if Z.land (rd cmd 0) 0x80 =? 0x80 then
        let len := getLength cmd in
        let a := getCopyAddress cmd in
        if 256 <? bytesToFlash d + len then None else
        if (if isCopyFromRam cmd then 512 <? a + len else flash_top L <? romStart d + a + len) then None else
        let src := if isCopyFromRam cmd then bytes_at (at_ (oldPages d)) a len else bytes_at fl (romStart d + a) len in
        Some (mkDec cmd (expectedCmdLength d) n (wr_range (scratchpad d) (Z.to_nat (bytesToFlash d)) src) (oldPages d)
                    (bytesToFlash d + len) (rawLength d) EXPECT_COMMAND_BYTE (pageAddr d) (romStart d))
      else Some (mkDec cmd (expectedCmdLength d) n (scratchpad d) (oldPages d) (bytesToFlash d) 0 EXPECT_RAW_DATA (pageAddr d) (romStart d))
  | EXPECT_RAW_DATA =>
      if 256 <=? bytesToFlash d then None else
      let r := rawLength d + 1 in
      Some (mkDec (cmdBuffer d) (expectedCmdLength d) (cmdBufferLength d) (wr (scratchpad d) (Z.to_nat (bytesToFlash d)) data)
                  (oldPages d) (bytesToFlash d + 1) r
                  (if getLength (cmdBuffer d) <=? r then EXPECT_COMMAND_BYTE else EXPECT_RAW_DATA) (pageAddr d) (romStart d))
  end.
(** update.cpp:854-857 *)
Fixpoint putBytes (L : layout) (fl : flash) (data : list Z) (d : decomp) : option decomp :=
  match data with
  | [] => Some d
  | b :: r => match putByte L fl b d with Some d' => putBytes L fl r d' | None => None end
  end.
(** decompressor.cpp:269-271 getFlashPageNumberToBeFlashed (uint8_t) *)
Definition flashPageNumber (d : decomp) : Z := u8 (pageAddr d / 256).
(** decompressor.cpp:80-125 pageCompletedDoFlash.  None: reads flash beyond its end. *)
Definition pageCompletedDoFlash (L : layout) (d : decomp) (w : wk) : option (Z * decomp * wk) :=
  if flash_top L <? pageAddr d + 256 then None else
  let old := skipn 256 (oldPages d) ++ bytes_at (fst w) (pageAddr d) 256 in
  let n := Z.to_nat (bytesToFlash d) in
  let '(result, w) :=
    if list_eq_dec Z.eq_dec (bytes_at (fst w) (pageAddr d) (bytesToFlash d)) (firstn n (scratchpad d))
    then (UDP_IAP_SUCCESS, w)
    else let '(_, w) := erasePageRange L (flashPageNumber d) (flashPageNumber d) w in
         executeProgramFlash L (pageAddr d) (at_ (scratchpad d)) 256 false w in
  Some (result,
        mkDec (cmdBuffer d) (expectedCmdLength d) (cmdBufferLength d) (repeat 0 256) old 0 (rawLength d) (dst_ d)
              (pageAddr d + 256) (romStart d),
        w).
(** decompressor.cpp:245-259 getCrc32 *)
Definition decCrc32 (d : decomp) : Z := crc32 0xFFFFFFFF (firstn (Z.to_nat (bytesToFlash d)) (scratchpad d)).

(** ** Update protocol *)
(** update.cpp:59 bufferSize *)
Definition bufferSize := 1265.
(** update.cpp:60-68 and the decompressor object (update.cpp:46-48) *)
Record upd := mkUpd { fl : flash; unlocked : bool; ram : list Z; pos : Z; dec : decomp }.
(** update.cpp:46-68: after power-up *)
Definition updInit (L : layout) (f : flash) : upd := mkUpd f false (repeat 0 1265) 0 (decInit (getFirmwareStartAddress L f)).

(** what the environment supplies while one message is handled: outcomes of IAP calls, the contents of the memory behind
    ramBuffer, the two connection counters of updRequestStatistic *)
Record env := mkEnv { e_iap : list iap_res; e_beyond : Z -> Z; e_stat : list Z }.

Definition reply := (Z * list Z)%type.
(** update.cpp:258-262 setLastError *)
Definition lastError (e : Z) : reply := (0xdc, [e]).

(** upd_protocol.h:113-139 updCommands: (code, minBytes, maxBytes); upd_protocol.cpp:26-36 code2UPDCommand *)
Definition updCommands : list (Z * (Z * Z)) :=
  [(0x00, (0, 0)); (0xef, (1, 254)); (0xee, (10, 10)); (0xed, (8, 8)); (0xec, (1, 254)); (0xeb, (4, 4)); (0xea, (0, 0)); (0xe9, (8, 8));
   (0xe8, (3, 3)); (0xe7, (8, 8)); (0xdf, (0, 0)); (0xde, (4, 4)); (0xdc, (1, 1)); (0xbf, (12, 12)); (0xbe, (0, 0)); (0xbd, (12, 12));
   (0xbc, (0, 0)); (0xbb, (12, 12)); (0xba, (0, 0)); (0xb9, (12, 12)); (0xb8, (2, 2)); (0xb7, (10, 10)); (0xb6, (2, 2)); (0x01, (0xff, 0xff))].
Definition code2UPDCommand (code : Z) : Z * (Z * Z) :=
  match find (fun c => fst c =? code) updCommands with Some c => c | None => (0, (0, 0)) end.

(** members assigned by the command handlers *)
Definition set_fl f s := mkUpd f (unlocked s) (ram s) (pos s) (dec s).
Definition set_pos p s := mkUpd (fl s) (unlocked s) (ram s) p (dec s).
Definition set_dec d s := mkUpd (fl s) (unlocked s) (ram s) (pos s) d.

(** update.cpp:305-314: byte order of each 32-bit word of the received UID reversed *)
Definition reverse_words (d : list Z) : list Z :=
  flat_map (fun i => [rd d (i + 3); rd d (i + 2); rd d (i + 1); rd d i]) [0; 4; 8]%nat.
(** update.cpp:281-331 updUnlockDevice *)
Definition updUnlockDevice (L : layout) (data : list Z) (s : upd) : upd * reply :=
  if negb (Z.of_nat (length data) =? 12) then (s, lastError UDP_UID_MISMATCH) else
  let uid := firstn 12 (chip_uid L) in
  if (if list_eq_dec Z.eq_dec uid data then false else if list_eq_dec Z.eq_dec uid (reverse_words data) then false else true)
  then (s, lastError UDP_UID_MISMATCH)
  else (mkUpd (fl s) true (ram s) 0 (dec s), lastError UDP_IAP_SUCCESS).

(** update.cpp:430-451 updSendData *)
Definition updSendData (data : list Z) (s : upd) : upd * reply :=
  let n := Z.of_nat (length data) in
  if bufferSize <? pos s + n then (s, lastError UDP_RAM_BUFFER_OVERFLOW)
  else (mkUpd (fl s) (unlocked s) (wr_range (ram s) (Z.to_nat (pos s)) data) (u16 (pos s + n)) (dec s), lastError UDP_IAP_SUCCESS).

(** ramBuffer and the memory behind it *)
Definition ramAt (s : upd) (e : env) (i : Z) : Z := if i <? bufferSize then at_ (ram s) i else e_beyond e i.

(** variables of the loops in updProgram *)
Record prog := mkProg { p_err : Z; p_count : Z; p_addr : Z; p_buf : Z; p_w : wk }.
(** update.cpp:521-536: inner while loop for block size [bs]; None: not finished within [fuel] rounds *)
Fixpoint progWhile (fuel : nat) (L : layout) (src : Z -> Z) (bs : Z) (p : prog) : option prog :=
  if bs <=? p_count p then
    match fuel with
    | O => None
    | S n =>
        let '(r, w) := executeProgramFlash L (p_addr p) (fun i => src (p_buf p + i)) bs false (p_w p) in
        if negb (r =? UDP_IAP_SUCCESS) then Some (mkProg r (p_count p) (p_addr p) (p_buf p) w)
        else progWhile n L src bs (mkProg r (p_count p - bs) (p_addr p + bs) (p_buf p + bs) w)
    end
  else Some p.
(** update.cpp:514-542: for loop over the block sizes *)
Fixpoint progFor (fuel : nat) (L : layout) (src : Z -> Z) (sizes : list Z) (p : prog) : option prog :=
  match sizes with
  | [] => Some p
  | bs :: r =>
      if bufferSize <? bs then progFor fuel L src r p else
      match progWhile fuel L src bs p with
      | None => None
      | Some p => if negb (p_err p =? UDP_IAP_SUCCESS) || (p_count p <=? 0) then Some p else progFor fuel L src r p
      end
  end.
(** update.cpp:512-550: outer while loop; iap.h:40 IapBlockSize *)
Fixpoint progOuter (outer fuel : nat) (L : layout) (src : Z -> Z) (p : prog) : option prog :=
  if (p_err p =? UDP_IAP_SUCCESS) && (0 <? p_count p) then
    match outer with
    | O => None
    | S n =>
        match progFor fuel L src [4096; 1024; 512; 256] p with
        | None => None
        | Some p =>
            if (p_err p =? UDP_IAP_SUCCESS) && (0 <? p_count p) && (p_count p <=? 256) then
              let '(r, w) := executeProgramFlash L (p_addr p) (fun i => src (p_buf p + i)) 256 false (p_w p) in
              Some (mkProg r (p_count p) (p_addr p) (p_buf p) w)
            else progOuter n fuel L src p
        end
    end
  else Some p.
(** update.cpp:462-554 updProgram *)
Definition updProgram (L : layout) (e : env) (data : list Z) (s : upd) : option (upd * reply) :=
  let count := le16 (at_ data) 0 in
  let address := le32 (at_ data) 2 in
  let crc := le32 (at_ data) 6 in
  if negb (addressAllowedToProgram L address count false) then Some (s, lastError UDP_ADDRESS_NOT_ALLOWED_TO_FLASH)
  else if bufferSize <? count then Some (s, lastError UDP_RAM_BUFFER_OVERFLOW)
  else if count <? pos s then Some (set_pos 0 s, lastError UDP_BYTECOUNT_RECEIVED_TOO_HIGH)
  else if pos s <? count then Some (set_pos 0 s, lastError UDP_BYTECOUNT_RECEIVED_TOO_LOW)
  else if negb (crc32 0xFFFFFFFF (firstn (Z.to_nat count) (ram s)) =? crc) then Some (s, lastError UDP_CRC_ERROR)
  else match progOuter 3 8 L (ramAt s e) (mkProg UDP_IAP_SUCCESS count address 0 (fl s, e_iap e)) with
       | None => None
       | Some p => Some (set_fl (fst (p_w p)) (set_pos 0 s), lastError (p_err p))
       end.

(** update.cpp:394-403 updEraseAddressRange *)
Definition updEraseAddressRange (L : layout) (e : env) (data : list Z) (s : upd) : upd * reply :=
  let '(r, w) := eraseAddressRange L (le32 (at_ data) 0) (le32 (at_ data) 4) true (fl s, e_iap e) in
  (set_fl (fst w) (set_pos 0 s), lastError r).
(** update.cpp:412-419 updEraseFullFlash *)
Definition updEraseFullFlash (L : layout) (e : env) (s : upd) : upd * reply :=
  let '(r, w) := eraseFullFlash L (fl s, e_iap e) in
  (set_fl (fst w) (set_pos 0 s), lastError r).

(** update.cpp:738-835 updUpdateBootDescriptorBlock *)
Definition updUpdateBootDescriptorBlock (L : layout) (e : env) (data : list Z) (s : upd) : upd * reply :=
  let count := le32 (at_ data) 0 in
  let crcReceived := le32 (at_ data) 4 in
  if bufferSize <? count then (s, lastError UDP_RAM_BUFFER_OVERFLOW) else
  let n := Z.to_nat count in
  if negb (crc32 0xFFFFFFFF (firstn n (ram s)) =? crcReceived) then (s, lastError UDP_CRC_ERROR) else
  let check (f : flash) (result : Z) :=
    (set_fl f s, lastError (if checkApplication L f (at_ (ram s)) then result else UDP_APPLICATION_NOT_STARTABLE)) in
  if list_eq_dec Z.eq_dec (bytes_at (fl s) (bootDescAddr L) count) (firstn n (ram s)) then check (fl s) UDP_IAP_SUCCESS else
  let '(r, w) := erasePageRange L (bootDescPage L) (bootDescPage L) (fl s, e_iap e) in
  if negb (r =? UDP_IAP_SUCCESS) then (set_fl (fst w) s, lastError r) else
  let '(r, w) := executeProgramFlash L (bootDescAddr L) (ramAt s e) 256 true w in
  if r =? UDP_ADDRESS_NOT_ALLOWED_TO_FLASH then (set_fl (fst w) s, lastError r) else check (fst w) r.

(** update.cpp:637-666 udpRequestBootDescriptionBlock.  For an invalid descriptor the code stores through a pointer into
    flash; modelled as if the store took effect (as it does in the unit test emulation; the target may fault instead). *)
Definition udpRequestBootDescriptionBlock (L : layout) (s : upd) : upd * reply :=
  let d := descriptor L (fl s) in
  let start := le32 d 0 in
  let e := le32 d 4 in
  let valid := (start <=? e) && ((start <=? flashLast L) && (e <=? flashLast L)) && ((appFirst L <=? start) && (appFirst L <=? e)) in
  let f := if valid then fl s else over (bootDescAddr L) 16 (fun _ => 0xFF) (fl s) in
  (set_fl f s, (0xb9, bytes_at f (bootDescAddr L) 12)).

(** update.cpp:142-148 uInt32ToStream: the bytes written *)
Definition uInt32ToStream (v : Z) : list Z := [u8 v; u8 (Z.shiftr v 8); u8 (Z.shiftr v 16); u8 (Z.shiftr v 24)].
(** update.cpp:564-612 updRequestBootloaderIdentity (versions: version.h:28-32; BL_FEATURES 0x0100; SBLIB_VERSION 0x0210,
    sblib/version.h:17; a pointer has 4 bytes; release build) *)
Definition updRequestBootloaderIdentity (L : layout) (data : list Z) (s : upd) : upd * reply :=
  if (1 <? rd data 0) || ((rd data 0 =? 1) && (0 <=? rd data 1))
  then (s, (0xb7, [1; 20; 0x00; 0x01; 0x02; 0x10] ++ uInt32ToStream (appFirst L)))
  else (s, (0xb6, [1; 0])).

(** update.cpp:875-913 updProgramDecompressedDataToFlash *)
Definition updProgramDecompressed (L : layout) (e : env) (data : list Z) (s : upd) : option (upd * reply) :=
  if negb (addressAllowedToProgram L (pageAddr (dec s)) (bytesToFlash (dec s)) false)
  then Some (s, lastError UDP_ADDRESS_NOT_ALLOWED_TO_FLASH)
  else if negb (decCrc32 (dec s) =? le32 (at_ data) 0) then Some (s, lastError UDP_CRC_ERROR)
  else match pageCompletedDoFlash L (dec s) (fl s, e_iap e) with
       | None => None
       | Some (r, d, w) => Some (mkUpd (fst w) (unlocked s) (ram s) 0 d, lastError r)
       end.

(** update.cpp:983-1030: command dispatch on an unlocked device (or a command allowed while locked) *)
Definition dispatch (L : layout) (e : env) (code : Z) (data : list Z) (s : upd) : option (upd * reply) :=
  if code =? 0xbf then Some (updUnlockDevice L data s)
  else if code =? 0xbe then Some (s, (0xbd, firstn 12 (chip_uid L)))
  else if code =? 0xbc then Some (s, (0xbb, appVersion L (fl s)))
  else if code =? 0xef then Some (updSendData data s)
  else if code =? 0xee then updProgram L e data s
  else if code =? 0xec then match putBytes L (fl s) data (dec s) with
                            | None => None
                            | Some d => Some (set_dec d s, lastError UDP_IAP_SUCCESS)
                            end
  else if code =? 0xeb then updProgramDecompressed L e data s
  else if code =? 0xea then Some (updEraseFullFlash L e s)
  else if code =? 0xe9 then Some (updEraseAddressRange L e data s)
  else if code =? 0xe7 then Some (s, lastError UDP_NOT_IMPLEMENTED)
  else if code =? 0xdf then Some (s, (0xde, e_stat e))
  else if code =? 0xed then Some (updUpdateBootDescriptorBlock L e data s)
  else if code =? 0xba then Some (udpRequestBootDescriptionBlock L s)
  else if code =? 0xb8 then Some (updRequestBootloaderIdentity L data s)
  else if code =? 0xe8 then Some (s, lastError UDP_NOT_IMPLEMENTED)
  else Some (s, lastError UDP_UNKNOWN_COMMAND).

(** update.cpp:929-1031 handleApciUsermsgManufacturerInternal.  [data]: the bytes of the message behind the APCI
    (bcu_updater.cpp:62-72).  None: an access outside the decompressor's buffers happened. *)
Definition handle (L : layout) (e : env) (data : list Z) (s : upd) : option (upd * reply) :=
  match data with
  | [] => Some (s, lastError UDP_NO_DATA)
  | c :: data =>
      let '(code, (lo, hi)) := code2UPDCommand c in
      let size := Z.of_nat (length data) in
      if code =? 0 then Some (s, lastError UDP_INVALID)
      else if (size <? lo) || (hi <? size) then Some (s, lastError UDP_INVALID_DATA)
      else if negb (unlocked s) && negb ((code =? 0xbf) || (code =? 0xbe) || (code =? 0xbc))
           then Some (s, lastError UDP_DEVICE_LOCKED)
      else dispatch L e code data s
  end.
