(** The driver of the temperature sensors on the pin (sblib/src/sensors/ds18x20.cpp:65-232): as Ds18_Model, with the calls of onewire.cpp in place of an abstract bus *)
From Verif Require Export Ds18_Model.
From Verif Require Wire_Model.

Section Driver.
  Context {S : Type} (w : Wire_Model.pins S) (parasite : bool).
  (** ds18x20.cpp:65-94 Search, the loop; parameters as Ds18_Model.searchLoop *)
  Fixpoint searchLoopW (fuel : nat) (s : S) (q : OneWire_Model.search) (tmp : sDev) (j max ret : Z) (st : ds) : option (S * (Z * ds * OneWire_Model.search)) :=
    match fuel with
    | O => None
    | Datatypes.S n =>
        match Wire_Model.OneWireSearch w parasite q s with
        | None => None
        | Some (s, (found, a, q)) =>
            let a := match a with Some a => a | None => addr tmp end in
            if negb (found && (j <? max)) then Some (s, (ret, st, q))
            else
              let ok := CRC_Model.OneWireCRC8 (firstn 7 a) =? rd a 7 in
              if ok then
                let t := if rd a 0 =? DS18S20 then DS18S20 else if rd a 0 =? DS18B20 then DS18B20 else if rd a 0 =? DS1822 then DS1822 else DS_UNKNOWN in
                if negb (t =? DS_UNKNOWN) then
                  let tmp := mkDev t (if t =? DS18S20 then 1 else 0) (data tmp) a ok (lastReadOK tmp) (current_temperature tmp) (last_temperature tmp) false (readyAt tmp) in
                  if (Z.to_nat j <? length (dsDev st))%nat then
                    searchLoopW n s q tmp (u8 (j + 1)) max 0 (mkDs (u8 (foundDevices st + 1)) (wr (dsDev st) (Z.to_nat j) tmp))
                  else None
                else searchLoopW n s q (mkDev t (res_type tmp) (data tmp) a ok (lastReadOK tmp) (current_temperature tmp) (last_temperature tmp) (conversionStarted tmp) (readyAt tmp)) (u8 (j + 1)) max 1 st
              else searchLoopW n s q (mkDev (type tmp) (res_type tmp) (data tmp) a ok (lastReadOK tmp) (current_temperature tmp) (last_temperature tmp) (conversionStarted tmp) (readyAt tmp)) (u8 (j + 1)) max 2 st
        end
    end.
  (** ds18x20.cpp:65-94 Search *)
  Definition SearchW (s : S) (junk : sDev) (max : Z) (st : ds) : option (S * (Z * ds)) :=
    option_map (fun r => (fst r, fst (snd r))) (searchLoopW (Datatypes.S (Z.to_nat max)) s OneWire_Model.resetSearch junk 0 max 4 (mkDs 0 (dsDev st))).
  (** ds18x20.cpp:110-126 startConversion at the time [now]; None: an access outside m_dsDev *)
  Definition startConversionW (st : ds) (deviceIdx now : Z) (s : S) : option (S * (bool * ds)) :=
    if foundDevices st <=? deviceIdx then Some (s, (false, st))
    else if (deviceIdx <? 0) || (Z.of_nat (length (dsDev st)) <=? deviceIdx) then None
    else
      let i := Z.to_nat deviceIdx in
      let d := device st i in
      if negb (type d =? DS_UNKNOWN) || negb (rd (addr d) 0 =? 0) then
        let '(s, there) := Wire_Model.OneWireReset w s in
        if there then
          let s := Wire_Model.OneWireSelect w parasite (addr d) s in
          let s := Wire_Model.OneWireWrite w parasite 0x44 s in
          Some (s, (true, mkDs (foundDevices st) (wr (dsDev st) i (mkDev (type d) (res_type d) (data d) (addr d) (crcOK d) (lastReadOK d) (current_temperature d) (last_temperature d) true (u32 (now + leadTime))))))
        else Some (s, (false, st))
      else Some (s, (false, st)).
  (** ds18x20.cpp:128-171 readResult; the loop of lines 139-142 is Wire_Model.OneWireReadBytes with nine bytes *)
  Definition readResultW (st : ds) (deviceIdx now : Z) (s : S) : option (S * (bool * ds)) :=
    if foundDevices st <=? deviceIdx then Some (s, (false, st))
    else if (deviceIdx <? 0) || (Z.of_nat (length (dsDev st)) <=? deviceIdx) then None
    else
      let i := Z.to_nat deviceIdx in
      let d := device st i in
      if negb (conversionStarted d) || (now <? readyAt d) then Some (s, (false, st))
      else
        let '(s, there) := Wire_Model.OneWireReset w s in
        if negb there then Some (s, (false, st))
        else
          let s := Wire_Model.OneWireSelect w parasite (addr d) s in
          let s := Wire_Model.OneWireWrite w parasite 0xBE s in
          let s := if parasite then Wire_Model.OneWireDePower w s else s in
          let '(s, nine) := Wire_Model.OneWireReadBytes w 9 s in
          let bytes := received (data d) nine in
          let v := rawValue (res_type d) bytes in
          let ok := (-55 * 16 <=? v) && (v <=? 125 * 16) in
          Some (s, (true, mkDs (foundDevices st) (wr (dsDev st) i (mkDev (type d) (res_type d) bytes (addr d) (crcOK d) ok v (if ok then v else last_temperature d) false (readyAt d))))).
  (** ds18x20.cpp:194-206 startConversionAll, from device [j] on, [n] devices *)
  Fixpoint startAllW (n : nat) (j : Z) (st : ds) (now : Z) (s : S) : option (S * (bool * ds)) :=
    match n with
    | O => Some (s, (false, st))
    | Datatypes.S m =>
        match startConversionW st j now s with
        | None => None
        | Some (s, (b, st)) => match startAllW m (j + 1) st now s with None => None | Some (s, (b2, st)) => Some (s, (b || b2, st)) end
        end
    end.
  Definition startConversionAllW (st : ds) (now : Z) (s : S) : option (S * (bool * ds)) := startAllW (Z.to_nat (foundDevices st)) 0 st now s.
  (** ds18x20.cpp:220-232 readResultAll *)
  Fixpoint readAllW (n : nat) (j : Z) (st : ds) (now : Z) (s : S) : option (S * (bool * ds)) :=
    match n with
    | O => Some (s, (false, st))
    | Datatypes.S m =>
        match readResultW st j now s with
        | None => None
        | Some (s, (b, st)) => match readAllW m (j + 1) st now s with None => None | Some (s, (b2, st)) => Some (s, (b || b2, st)) end
        end
    end.
  Definition readResultAllW (st : ds) (now : Z) (s : S) : option (S * (bool * ds)) := readAllW (Z.to_nat (foundDevices st)) 0 st now s.
End Driver.
