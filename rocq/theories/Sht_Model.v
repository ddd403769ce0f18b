(** Sensirion sensors on the I2C bus: SHT2x and SHT4x (temperature, humidity), SGP4x (gas); sblib/src/i2c/SHT2x.cpp, SHT4x.cpp, SGP4x.cpp.
    Transfers as in I2c_Model; [w]: the bus, [n]: the attempts to win it in one call. i2c_lpcopen_init (i2c.cpp:124-129), called at the start and after failures, does nothing once the interface is set up, as it is here.
    [ms k]: what the k-th call of millis() within a function returns. Delays (delay) only let time pass. Floating point conversions and the gas index (GasIndexAlgorithm_process) are not modelled *)
From Verif Require Export Base I2c_Model.
From Verif Require CRC_Model.

(** ** SHT2x *)
(** SHT2x.cpp:39-50 *)
Definition eSHT2xAddress : Z := 0x40.
Definition eTempHoldCmd : Z := 0xE3.
Definition eRHumidityHoldCmd : Z := 0xE5.
Definition eWriteUserReg : Z := 0xE6.
Definition eReadUserReg : Z := 0xE7.
(** SHT2x.cpp:52-63 Init; [initialized] before and afterwards *)
Definition Init {S} (w : bus S) (n : nat) (h : hw S) (initialized : bool) : res (hw S * bool) :=
  match MasterCmdRead w n h eSHT2xAddress eReadUserReg 1 1 with
  | Done (h, c, l) =>
      if c =? 1 then match MasterSend w n h eSHT2xAddress [eWriteUserReg; Z.land (rd l 0) 0x7E] 2 with Done (h, _) => Done (h, true) | Fault => Fault | Hang => Hang end
      else Done (h, initialized)
  | Fault => Fault
  | Hang => Hang
  end.
(** SHT2x.cpp:127-134: the checksum and the value; [result] holds three bytes *)
Definition checked (result : list Z) : Z :=
  if negb (CRC_Model.sensirion_crc8 0 (firstn 2 result) =? rd result 2) then 0 else u16 (Z.lor (Z.shiftl (rd result 0) 8) (Z.shiftl (rd result 1) 0)).
(** SHT2x.cpp:120-125: the loop, at most [fuel] times; [k]: calls of millis() so far. millis() - timeout is unsigned *)
Fixpoint sht2xLoop {S} (w : bus S) (n : nat) (ms : nat -> Z) (timeout : Z) (fuel k : nat) (h : hw S) (command : Z) : res (hw S * Z) :=
  match fuel with
  | O => Hang
  | Datatypes.S f =>
      match MasterCmdRead w n h eSHT2xAddress command 3 3 with
      | Done (h, c, l) =>
          if c <? 3 then if 0 <? u32 (ms k - timeout) then Done (h, 0) else sht2xLoop w n ms timeout f (Datatypes.S k) h command
          else Done (h, checked l)
      | Fault => Fault
      | Hang => Hang
      end
  end.
(** SHT2x.cpp:106-140 readSensor *)
Definition readSHT2x {S} (w : bus S) (n fuel : nat) (ms : nat -> Z) (h : hw S) (initialized : bool) (command : Z) : res (hw S * bool * Z) :=
  let timeout := u32 (ms 0%nat + 300) in
  match (if initialized then Done (h, true) else Init w n h initialized) with
  | Done (h, initialized) =>
      if initialized : bool then match sht2xLoop w n ms timeout fuel 1 h command with Done (h, v) => Done (h, true, v) | Fault => Fault | Hang => Hang end
      else Done (h, false, 0)
  | Fault => Fault
  | Hang => Hang
  end.
(** SHT2x.cpp:65-77 GetHumidity: [unsigned int] calculation, the result an [int] *)
Definition humidityOf (value : Z) : Z :=
  if (value =? 0) || (Z.land value 2 =? 0) then 0 else s32 (u32 (u32 (12500 * Z.land value 0xFFFC) / 65536 - 600)).
(** SHT2x.cpp:79-91 GetTemperature: [int] calculation; the quotient rounds towards 0 *)
Definition temperatureOf (value : Z) : Z :=
  if (value =? 0) || negb (Z.land value 2 =? 0) then -27300 else Z.quot (17572 * Z.land value 0xFFFC) 65536 - 4685.
(** SHT2x.cpp:65-67, 79-81 *)
Definition GetHumidity {S} (w : bus S) (n fuel : nat) (ms : nat -> Z) (h : hw S) (initialized : bool) : res (hw S * bool * Z) :=
  match readSHT2x w n fuel ms h initialized eRHumidityHoldCmd with Done (h, i, v) => Done (h, i, humidityOf v) | Fault => Fault | Hang => Hang end.
Definition GetTemperature {S} (w : bus S) (n fuel : nat) (ms : nat -> Z) (h : hw S) (initialized : bool) : res (hw S * bool * Z) :=
  match readSHT2x w n fuel ms h initialized eTempHoldCmd with Done (h, i, v) => Done (h, i, temperatureOf v) | Fault => Fault | Hang => Hang end.

(** ** SHT4x *)
(** SHT4x.h:41-54, 91 *)
Definition eSHT4xAddress : Z := 0x44.
Definition measHi : Z := 0xFD.
Definition getSerial4 : Z := 0x89.
Definition softReset : Z := 0x94.
(** SHT4x.cpp:149-154 writeCommand *)
Definition writeCommand {S} (w : bus S) (n : nat) (h : hw S) (command : Z) : res (hw S * bool) :=
  match MasterSend w n h eSHT4xAddress [command] 1 with Done (h, c) => Done (h, c =? 1) | Fault => Fault | Hang => Hang end.
(** SHT4x.cpp:50-57 init *)
Definition init4 {S} (w : bus S) (n : nat) (h : hw S) : res (hw S * bool) := writeCommand w n h softReset.
(** SHT4x.cpp:174-184: the loop, at most [fuel] times; None: timeout. The bytes of a shorter answer are in the buffer too *)
Fixpoint sht4xLoop {S} (w : bus S) (n : nat) (ms : nat -> Z) (timeout : Z) (fuel k : nat) (h : hw S) : res (hw S * option (list Z)) :=
  match fuel with
  | O => Hang
  | Datatypes.S f =>
      if timeout <? ms k then Done (h, None)
      else
        match MasterRead w n h eSHT4xAddress 6 6 with
        | Done (h, c, l) => if u8 c =? 0 then sht4xLoop w n ms timeout f (Datatypes.S k) h else Done (h, Some l)
        | Fault => Fault
        | Hang => Hang
        end
  end.
(** SHT4x.cpp:156-190 readSensor, called with a buffer of 6 bytes (SHT4x.cpp:78, 134); Some: true, with the bytes. The length 6 is that of the bytes received (u8 of the result) *)
Definition readSHT4x {S} (w : bus S) (n fuel : nat) (ms : nat -> Z) (h : hw S) (command : Z) : res (hw S * option (list Z)) :=
  match writeCommand w n h command with
  | Done (h, true) =>
      let timeout := u32 (ms 0%nat + 300) in
      match sht4xLoop w n ms timeout fuel 1 h with
      | Done (h, Some b) =>
          if (length b =? 6)%nat && (rd b 2 =? CRC_Model.sensirion_crc8 0xFF (firstn 2 b)) && (rd b 5 =? CRC_Model.sensirion_crc8 0xFF (firstn 2 (skipn 3 b))) then Done (h, Some b) else Done (h, None)
      | Done (h, None) => Done (h, None)
      | Fault => Fault
      | Hang => Hang
      end
  | Done (h, false) => Done (h, None)
  | Fault => Fault
  | Hang => Hang
  end.
(** a word of two bytes, as in SHT4x.cpp:83-88, makeWord (bits.h:50-53) *)
Definition word (hi lo : Z) : Z := u16 (Z.lor (u16 (Z.shiftl hi 8)) lo).
(** SHT4x.cpp:74-90 measureHighPrecisionTicks: temperature and humidity ticks *)
Definition measureTicks {S} (w : bus S) (n fuel : nat) (ms : nat -> Z) (h : hw S) : res (hw S * option (Z * Z)) :=
  match readSHT4x w n fuel ms h measHi with
  | Done (h, Some b) => Done (h, Some (word (rd b 0) (rd b 1), word (rd b 3) (rd b 4)))
  | Done (h, None) => Done (h, None)
  | Fault => Fault
  | Hang => Hang
  end.
(** SHT4x.cpp:129-144 getSerialnumber *)
Definition getSerialnumber4 {S} (w : bus S) (n fuel : nat) (ms : nat -> Z) (h : hw S) : res (hw S * Z) :=
  match readSHT4x w n fuel ms h getSerial4 with
  | Done (h, Some b) => Done (h, Z.lor (Z.lor (Z.lor (u32 (Z.shiftl (rd b 0) 24)) (u32 (Z.shiftl (rd b 1) 16))) (u32 (Z.shiftl (rd b 3) 8))) (rd b 4))
  | Done (h, None) => Done (h, 0)
  | Fault => Fault
  | Hang => Hang
  end.

(** ** SGP4x *)
(** SGP4x.cpp:19-21, SGP4x.h:34-57 *)
Definition eSGP4xAddress : Z := 0x59.
Definition selfConditioning : Z := 0x2612.
Definition getSerial : Z := 0x3682.
Definition measureRaw : Z := 0x2619.
Definition heaterOff : Z := 0x3615.
Definition selfTest : Z := 0x280E.
Definition featureSetCmd : Z := 0x202F.
(** SGP4x.h:20-29 SGP4xResult *)
Inductive result := success | invalidCommandBuffer | sendError | readError | invalidByteCount | crc8Mismatch | vocPixelError | noxPixelError.
(** SGP4x.cpp:76-82: every third byte is the checksum of the two before it; [b] has a multiple of three bytes *)
Fixpoint wordsChecked (fuel : nat) (b : list Z) : bool :=
  match fuel, b with
  | Datatypes.S f, b0 :: b1 :: c :: r => if negb (CRC_Model.sensirion_crc8 0xFF [b0; b1] =? c) then false else wordsChecked f r
  | _, _ => true
  end.
(** SGP4x.cpp:36-85 readSensor: [params]: the bytes of commandBuffer behind the two of the command, [size]: readBufferSize (0 for none). The bytes read are returned with success *)
Definition readSGP4x {S} (w : bus S) (n : nat) (h : hw S) (command : Z) (params : list Z) (size : nat) : res (hw S * result * list Z) :=
  let buffer := Z.land (Z.shiftr command 8) 255 :: Z.land command 255 :: params in
  match MasterSend w n h eSGP4xAddress buffer (Z.of_nat (length buffer)) with
  | Done (h, c) =>
      if negb (c =? Z.of_nat (length buffer)) then Done (h, sendError, [])
      else if (size =? 0)%nat then Done (h, success, [])
      else
        match MasterRead w n h eSGP4xAddress size (Z.of_nat size) with
        | Done (h, c, l) =>
            if negb (c =? Z.of_nat size) then Done (h, readError, [])
            else if (c =? 0) || negb (c mod 3 =? 0) then Done (h, invalidByteCount, [])
            else if wordsChecked size l then Done (h, success, l) else Done (h, crc8Mismatch, [])
        | Fault => Fault
        | Hang => Hang
        end
  | Fault => Fault
  | Hang => Hang
  end.
(** SGP4x.cpp:23-28: the members (without the gas index) *)
Record gas := mkGas { rawVocTics : Z; rawNoxTics : Z; featureSet : Z }.
(** SGP4x.cpp:101-112 executeConditioning *)
Definition executeConditioning {S} (w : bus S) (n : nat) (h : hw S) : res (hw S * result) :=
  match readSGP4x w n h selfConditioning [0x80; 0x00; 0xA2; 0x66; 0x66; 0x93] 3 with Done (h, r, _) => Done (h, r) | Fault => Fault | Hang => Hang end.
(** SGP4x.cpp:87-99 init *)
Definition initSGP4x {S} (w : bus S) (n : nat) (h : hw S) (g : gas) : res (hw S * gas * result) :=
  match executeConditioning w n h with Done (h, r) => Done (h, mkGas 0 0 (featureSet g), r) | Fault => Fault | Hang => Hang end.
(** SGP4x.cpp:115-144 executeSelfTest *)
Definition executeSelfTest {S} (w : bus S) (n : nat) (h : hw S) : res (hw S * result) :=
  match readSGP4x w n h selfTest [] 3 with
  | Done (h, success, b) => Done (h, if negb (Z.land (rd b 1) 1 =? 0) then vocPixelError else if negb (Z.land (rd b 1) 2 =? 0) then noxPixelError else success)
  | Done (h, r, _) => Done (h, r)
  | Fault => Fault
  | Hang => Hang
  end.
(** SGP4x.cpp:168-173: a parameter with its checksum *)
Definition param (ticks : Z) : list Z := let hi := Z.land (Z.shiftr ticks 8) 255 in let lo := Z.land ticks 255 in [hi; lo; CRC_Model.sensirion_crc8 0xFF [hi; lo]].
(** SGP4x.cpp:146-190 measureRawSignal; [comp]: humidity and temperature ticks (uint16_t, SGP4x.cpp:161-162) with useCompensation *)
Definition measureRawSignal {S} (w : bus S) (n : nat) (h : hw S) (g : gas) (comp : option (Z * Z)) : res (hw S * gas * result) :=
  let params := match comp with Some (rh, t) => param rh ++ param t | None => [0x80; 0x00; 0xA2; 0x66; 0x66; 0x93] end in
  match readSGP4x w n h measureRaw params 6 with
  | Done (h, success, b) => Done (h, mkGas (word (rd b 0) (rd b 1)) (word (rd b 3) (rd b 4)) (featureSet g), success)
  | Done (h, r, _) => Done (h, g, r)
  | Fault => Fault
  | Hang => Hang
  end.
(** SGP4x.cpp:211-223: the loop copying the serial number; [i]: idxBuffer, [len]: length - idxSerial. Some i: readBuffer with 9 bytes *)
Fixpoint copySerial (len i : nat) (b : list Z) : list Z :=
  match len with
  | O => []
  | Datatypes.S m => if (i <? 9)%nat then rd b i :: (let i := Datatypes.S i in copySerial m (if (i mod 3 =? 2)%nat then Datatypes.S i else i) b) else []
  end.
(** SGP4x.cpp:197-226 getSerialnumber: the bytes stored at *serialNumber *)
Definition getSerialnumber {S} (w : bus S) (n : nat) (h : hw S) (length : nat) : res (hw S * result * list Z) :=
  match readSGP4x w n h getSerial [] 9 with
  | Done (h, success, b) => Done (h, success, copySerial length 0 b)
  | Done (h, r, _) => Done (h, r, [])
  | Fault => Fault
  | Hang => Hang
  end.
(** SGP4x.cpp:228-236 turnHeaterOffAndReturnToIdle *)
Definition turnHeaterOff {S} (w : bus S) (n : nat) (h : hw S) : res (hw S * result) :=
  match readSGP4x w n h heaterOff [] 0 with Done (h, r, _) => Done (h, r) | Fault => Fault | Hang => Hang end.
(** SGP4x.cpp:238-254 readFeatureSet *)
Definition readFeatureSet {S} (w : bus S) (n : nat) (h : hw S) (g : gas) : res (hw S * gas * result) :=
  match readSGP4x w n h featureSetCmd [] 3 with
  | Done (h, success, b) => Done (h, mkGas (rawVocTics g) (rawNoxTics g) (word (rd b 0) (rd b 1)), success)
  | Done (h, r, _) => Done (h, g, r)
  | Fault => Fault
  | Hang => Hang
  end.
