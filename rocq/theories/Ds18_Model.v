(** Temperature sensors DS18S20, DS18B20 and DS1822 (sblib/src/sensors/ds18x20.cpp, sblib/inc/sblib/sensors/ds18x20.h) *)
From Verif Require Export Base.
From Verif Require OneWire_Model CRC_Model.

(** ds18x20.h:21-23 *)
Definition MAX_DS_DEVICES : nat := 10.
(** ds18x20.h:29-34 eDsType *)
Definition DS18S20 : Z := 0x10.
Definition DS18B20 : Z := 0x28.
Definition DS1822 : Z := 0x22.
Definition DS_UNKNOWN : Z := 0.
(** ds18x20.h:38-55 sDS18x20. The temperatures are floats in the code; they are sixteenths of a degree, and every 16-bit number of sixteenths is a float, so they are integers here *)
Record sDev := mkDev { type : Z; res_type : Z; data : list Z; addr : list Z; crcOK : bool; lastReadOK : bool; current_temperature : Z; last_temperature : Z; conversionStarted : bool; readyAt : Z }.
(** ds18x20.h:74-75 *)
Record ds := mkDs { foundDevices : Z; dsDev : list sDev }.
Definition noDev : sDev := mkDev 0 0 [] [] false false 0 0 false 0.
Definition device (s : ds) (i : nat) : sDev := nth i (dsDev s) noDev.
(** ds18x20.h:73 *)
Definition leadTime : Z := 800.
(** the bus: after a reset and a ROM select for an address a command is written (onewire.cpp:51-81, 259-266; the transfer of bytes is in Wire_Model, the driver on top of it in Ds18Wire_Model) *)
Inductive ev := Reset | Command (rom : list Z) (c : Z).

(** ds18x20.cpp:65-94 Search, the loop. [bus], [s]: the one-wire bus and the state of its search (OneWire_Model); [tmp]: sDevTmp, whose content at the start is arbitrary; [ret]: bRet.
    None: a write beyond m_dsDev (undefined behaviour), or an error of the search model *)
Fixpoint searchLoop (fuel : nat) (bus : list OneWire_Model.device) (s : OneWire_Model.search) (tmp : sDev) (j max ret : Z) (st : ds) : option (Z * ds * OneWire_Model.search) :=
  match fuel with
  | O => None
  | S n =>
      match OneWire_Model.oneWireSearch bus s with
      | None => None
      | Some (found, a, s) =>
          let a := match a with Some a => a | None => addr tmp end in
          if negb (found && (j <? max)) then Some (ret, st, s)
          else
            let ok := CRC_Model.OneWireCRC8 (firstn 7 a) =? rd a 7 in
            if ok then
              let t := if rd a 0 =? DS18S20 then DS18S20 else if rd a 0 =? DS18B20 then DS18B20 else if rd a 0 =? DS1822 then DS1822 else DS_UNKNOWN in
              if negb (t =? DS_UNKNOWN) then
                let tmp := mkDev t (if t =? DS18S20 then 1 else 0) (data tmp) a ok (lastReadOK tmp) (current_temperature tmp) (last_temperature tmp) false (readyAt tmp) in
                if (Z.to_nat j <? length (dsDev st))%nat then
                  searchLoop n bus s tmp (u8 (j + 1)) max 0 (mkDs (u8 (foundDevices st + 1)) (wr (dsDev st) (Z.to_nat j) tmp))
                else None
              else searchLoop n bus s (mkDev t (res_type tmp) (data tmp) a ok (lastReadOK tmp) (current_temperature tmp) (last_temperature tmp) (conversionStarted tmp) (readyAt tmp)) (u8 (j + 1)) max 1 st
            else searchLoop n bus s (mkDev (type tmp) (res_type tmp) (data tmp) a ok (lastReadOK tmp) (current_temperature tmp) (last_temperature tmp) (conversionStarted tmp) (readyAt tmp)) (u8 (j + 1)) max 2 st
      end
  end.
(** ds18x20.cpp:65-94 Search: bRet and the new state; at most [max] < 256 rounds and one more call of the search *)
Definition Search (bus : list OneWire_Model.device) (junk : sDev) (max : Z) (st : ds) : option (Z * ds) :=
  option_map fst (searchLoop (S (Z.to_nat max)) bus OneWire_Model.resetSearch junk 0 max 4 (mkDs 0 (dsDev st))).
(** result of an operation on one device: returned value, new state, events; None: an access outside m_dsDev *)
Definition result : Type := option (bool * ds * list ev).
(** ds18x20.cpp:110-126 startConversion at the time [now]; [present]: a device answers the reset *)
Definition startConversion (st : ds) (deviceIdx now : Z) (present : bool) : result :=
  if foundDevices st <=? deviceIdx then Some (false, st, [])
  else if (deviceIdx <? 0) || (Z.of_nat (length (dsDev st)) <=? deviceIdx) then None
  else
    let i := Z.to_nat deviceIdx in
    let d := device st i in
    if negb (type d =? DS_UNKNOWN) || negb (rd (addr d) 0 =? 0) then
      if present then
        Some (true, mkDs (foundDevices st) (wr (dsDev st) i (mkDev (type d) (res_type d) (data d) (addr d) (crcOK d) (lastReadOK d) (current_temperature d) (last_temperature d) true (u32 (now + leadTime)))), [Reset; Command (addr d) 0x44])
      else Some (false, st, [Reset])
    else Some (false, st, []).
(** int16_t of an int *)
Definition s16 (z : Z) : Z := let u := z mod 65536 in if u <? 32768 then u else u - 65536.
(** ds18x20.cpp:147-163: the value in sixteenths of a degree. (A negative number is shifted left as in two's complement) *)
Definition rawValue (res : Z) (data : list Z) : Z :=
  let raw := s16 (Z.lor (Z.shiftl (rd data 1) 8) (rd data 0)) in
  if negb (res =? 0) then
    let raw := s16 (Z.shiftl raw 3) in
    if rd data 7 =? 0x10 then s16 (Z.land raw 0xFFF0 + 12 - rd data 6) else raw
  else
    let cfg := Z.land (rd data 4) 0x60 in
    if cfg =? 0x00 then Z.land raw (Z.lnot 7)
    else if cfg =? 0x20 then Z.land raw (Z.lnot 3)
    else if cfg =? 0x40 then Z.land raw (Z.lnot 1)
    else raw.
(** ds18x20.cpp:139-142: the first nine bytes of data *)
Definition received (old : list Z) (bytes : list Z) : list Z := firstn 9 bytes ++ skipn 9 old.
(** ds18x20.cpp:128-171 readResult; [answer rom]: the bytes read from the bus after the command to read the scratchpad of [rom] *)
Definition readResult (st : ds) (deviceIdx now : Z) (present : bool) (answer : list Z -> list Z) : result :=
  if foundDevices st <=? deviceIdx then Some (false, st, [])
  else if (deviceIdx <? 0) || (Z.of_nat (length (dsDev st)) <=? deviceIdx) then None
  else
    let i := Z.to_nat deviceIdx in
    let d := device st i in
    if negb (conversionStarted d) || (now <? readyAt d) then Some (false, st, [])
    else if negb present then Some (false, st, [Reset])
    else
      let bytes := received (data d) (answer (addr d)) in
      let v := rawValue (res_type d) bytes in
      let ok := (-55 * 16 <=? v) && (v <=? 125 * 16) in
      Some (true, mkDs (foundDevices st) (wr (dsDev st) i (mkDev (type d) (res_type d) bytes (addr d) (crcOK d) ok v (if ok then v else last_temperature d) false (readyAt d))), [Reset; Command (addr d) 0xBE]).
(** ds18x20.cpp:173-177 lastReadOk *)
Definition lastReadOk (st : ds) (deviceIdx : Z) : option bool :=
  if foundDevices st <=? deviceIdx then Some false
  else if (deviceIdx <? 0) || (Z.of_nat (length (dsDev st)) <=? deviceIdx) then None else Some (lastReadOK (device st (Z.to_nat deviceIdx))).
(** ds18x20.cpp:179-183 temperature; the outer None: access outside m_dsDev, the inner: -999.9 *)
Definition temperature (st : ds) (deviceIdx : Z) : option (option Z) :=
  if foundDevices st <=? deviceIdx then Some None
  else if (deviceIdx <? 0) || (Z.of_nat (length (dsDev st)) <=? deviceIdx) then None else Some (Some (last_temperature (device st (Z.to_nat deviceIdx)))).
(** ds18x20.cpp:194-206 startConversionAll, from device [j] on, [n] devices; [present k]: the answer to the reset for device [k] *)
Fixpoint startAll (n : nat) (j : Z) (st : ds) (now : Z) (present : Z -> bool) : result :=
  match n with
  | O => Some (false, st, [])
  | S m =>
      match startConversion st j now (present j) with
      | None => None
      | Some (b, st, l) => match startAll m (j + 1) st now present with None => None | Some (b2, st, l2) => Some (b || b2, st, l ++ l2) end
      end
  end.
Definition startConversionAll (st : ds) (now : Z) (present : Z -> bool) : result := startAll (Z.to_nat (foundDevices st)) 0 st now present.
(** ds18x20.cpp:220-232 readResultAll *)
Fixpoint readAll (n : nat) (j : Z) (st : ds) (now : Z) (present : Z -> bool) (answer : list Z -> list Z) : result :=
  match n with
  | O => Some (false, st, [])
  | S m =>
      match readResult st j now (present j) answer with
      | None => None
      | Some (b, st, l) => match readAll m (j + 1) st now present answer with None => None | Some (b2, st, l2) => Some (b || b2, st, l ++ l2) end
      end
  end.
Definition readResultAll (st : ds) (now : Z) (present : Z -> bool) (answer : list Z -> list Z) : result := readAll (Z.to_nat (foundDevices st)) 0 st now present answer.
