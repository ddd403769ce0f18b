(** The bootloader on the bus: requests and answers as telegrams (firmware_updater/bootloader/src/bcu_updater.cpp, update.cpp).
    Built on Boot_Model: [handle] executes the command, here the telegram is taken apart and the answer put together. *)
From Verif Require Export Base Boot_Model Telegram_Model.
Open Scope Z_scope.

(** apci.h:64, 70, 75 *)
Definition APCI_USERMSG_MANUFACTURER_0 : Z := 0x2F8.
Definition APCI_USERMSG_MANUFACTURER_6 : Z := 0x2FE.
Definition APCI_BASIC_RESTART_PDU : Z := 0x380.
(** update.cpp:180-197; [debug]: fatalError() in a debug build: None *)
Definition prepareReturnTelegram (debug : bool) (retTelegram : list Z) (count cmd : Z) : option (list Z) :=
  let count := count + 2 in
  let fill count := wr (setApciCommand (wr retTelegram 5 (u8 (0x60 + count))) APCI_USERMSG_MANUFACTURER_6 0) 8 cmd in
  if 0x0f <? count then if debug then None else Some (fill (Z.land count 0x0f)) else Some (fill count).
(** the count each answer is prepared with, by its command byte: update.cpp:260 (1), 344 (12), 575 (2), 588-596 (10), 622-624 (4), 657 (12), 706 (12) *)
Definition replyCount (cmd : Z) : Z :=
  if cmd =? 0xdc then 1 else if cmd =? 0xb6 then 2 else if cmd =? 0xb7 then 10 else if cmd =? 0xde then 4 else 12.
(** the answer of a command: telegram prepared, then the data from byte 9 on (as in update.cpp:258-262, 342-346, 575-577, 596-607, 624-626, 657-666, 706-707) *)
Definition answer (debug : bool) (retTelegram : list Z) (r : reply) : option (list Z) :=
  match prepareReturnTelegram debug retTelegram (replyCount (fst r)) (fst r) with
  | None => None
  | Some t => Some (wr_range t 9 (map u8 (snd r)))
  end.
(** update.cpp:915-927 *)
Definition handleDeprecatedApciMemoryWrite (sendBuffer : list Z) : list Z :=
  wr (wr (wr (wr (wr (wr (wr (wr (wr sendBuffer 5 (0x63 + 4)) 6 0x42) 7 (Z.lor 0x40 4)) 8 0) 9 0x15) 10 0xff) 11 0xff) 12 0) 13 0.
(** update.cpp:929-962: [data]: what follows in the telegram buffer, [size]: the length calculated. A size beyond the buffer (telegrams without data): only data[0] is read before the size is refused; None: more would be read *)
Definition manufacturerInternal (L : layout) (e : env) (data : list Z) (size : Z) (s : upd) : option (upd * reply) :=
  if size <=? Z.of_nat (length data) then handle L e (firstn (Z.to_nat size) data) s
  else
    let '(code, (lo, hi)) := code2UPDCommand (rd data 0) in
    if code =? 0 then Some (s, lastError UDP_INVALID)
    else if (u32 (size - 1) <? lo) || (hi <? u32 (size - 1)) then Some (s, lastError UDP_INVALID_DATA)
    else None.
(** update.cpp:1033-1039 *)
Definition handleApciUsermsgManufacturer (debug : bool) (L : layout) (e : env) (sendBuffer data : list Z) (size : Z) (s : upd) : option (upd * list Z * bool) :=
  match manufacturerInternal L e data size s with
  | None => None
  | Some (s, r) => match answer debug sendBuffer r with Some t => Some (s, t, true) | None => None end
  end.
(** bcu_updater.cpp:59-87; the true of [restart] stands for BcuBase::processApci, which restarts the device (Device_Model, C74). Result: new state, buffer, whether it is sent, restart *)
Definition processApci (debug : bool) (L : layout) (e : env) (apciCmd : Z) (telegram : list Z) (telLength : Z) (sendBuffer : list Z) (s : upd) : option (upd * list Z * bool * bool) :=
  let offset := 8 in
  let dataLength := u32 (telLength - offset - 1) in
  if apciCmd =? APCI_MEMORY_WRITE_PDU then Some (s, handleDeprecatedApciMemoryWrite sendBuffer, true, false)
  else if apciCmd =? APCI_USERMSG_MANUFACTURER_0 then
    match handleApciUsermsgManufacturer debug L e sendBuffer (skipn 8 telegram) dataLength s with Some (s, t, b) => Some (s, t, b, false) | None => None end
  else if apciCmd =? APCI_BASIC_RESTART_PDU then Some (s, sendBuffer, false, true)
  else Some (s, sendBuffer, false, false).
