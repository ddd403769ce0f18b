(** The temperature and humidity sensor SHT1x on two pins: sblib/src/i2c/SHT1x.cpp, sblib/inc/sblib/i2c/SHT1x.h.
    [float] taken as exact rational numbers; __NOP left out; the delays let time pass for the sensor. The data line is pulled up: it is low if the pin or the sensor pulls it low. *)
From Coq Require Export QArith.
From Verif Require Export Base.
Open Scope Z_scope.

(** What is at the other end: [lines]: clock and data as the pins leave them, after a change; [low]: it pulls the data line low; [wait]: microseconds pass *)
Record wire (S : Type) := mkWire { lines : S -> bool -> bool -> S; low : S -> bool; wait : S -> Z -> S }.
Arguments lines {S}. Arguments low {S}. Arguments wait {S}.
(** The two pins: the level of the clock; whether the data pin is an output, and its output level (kept while it is an input); what is at the other end *)
Record pins (S : Type) := mkPins { clk : bool; out : bool; latch : bool; world : S }.
Arguments mkPins {S}. Arguments clk {S}. Arguments out {S}. Arguments latch {S}. Arguments world {S}.

(** SHT1x.h:33-37 *)
Definition WAIT_STEP_MS : Z := 20.
Definition MAX_WAIT_MS : Z := 340.
Definition INVALID_TEMPERATURE : Z := -27300.
Definition INVALID_HUMIDITY : Z := 0.
(** timer.h:36 *)
Definition MAX_DELAY_MICROSECONDS : Z := 4000.
(** SHT1x.h:146-152 *)
Definition sht1xMeasureTemperature : Z := 0x03.
Definition sht1xMeasureRelativeHumidity : Z := 0x05.
Definition sht1xReadStatusRegister : Z := 0x07.
Definition sht1xWriteStatusRegister : Z := 0x06.
Definition sht1xSoftReset : Z := 0x1e.
(** SHT1x.h:183-184: the members; the pin numbers are left out *)
Record sht := mkSht { lastTemperatureC : Z; lastHumidity : Z }.
(** conversion of a floating point number to an integer type: towards zero, undefined outside the range *)
Definition towards0 (q : Q) : Z := Z.quot (Qnum q) (Zpos (Qden q)).
Definition toS16 (q : Q) : option Z := let z := towards0 q in if (-32768 <=? z) && (z <=? 32767) then Some z else None.
Definition toU16 (q : Q) : option Z := let z := towards0 q in if (0 <=? z) && (z <=? 65535) then Some z else None.
Definition s16 (z : Z) : Z := if u16 z <? 32768 then u16 z else u16 z - 65536.

(** SHT1x.cpp:61-80; sensors/units.h:9-13 *)
Inductive eScale := CELCIUS | FARENHEIT.
Definition convertRawTemperature (temperature : Q) (type : eScale) : Q :=
  let D1 := (-397 # 10)%Q in let D2 := match type with CELCIUS => (1 # 100)%Q | FARENHEIT => (18 # 1000)%Q end in (temperature * D2 + D1)%Q.

Section Driver.
  Context {S : Type} (w : wire S).
  (** the level the data pin leaves *)
  Definition drive (m : pins S) : bool := if out m then latch m else true.
  Definition tell (m : pins S) : pins S := mkPins (clk m) (out m) (latch m) (lines w (world m) (clk m) (drive m)).
  (** digitalWrite, digitalRead, pinMode of the two pins *)
  Definition clock (m : pins S) (b : bool) : pins S := tell (mkPins b (out m) (latch m) (world m)).
  Definition data (m : pins S) (b : bool) : pins S := tell (mkPins (clk m) (out m) b (world m)).
  Definition read (m : pins S) : bool := drive m && negb (low w (world m)).
  Definition mode (m : pins S) (o : bool) : pins S := tell (mkPins (clk m) o (latch m) (world m)).
  Definition pass (m : pins S) (us : Z) : pins S := mkPins (clk m) (out m) (latch m) (wait w (world m) us).
  (** digital_pin_shift.cpp:30-44, most significant bit first; [i]: bits still to send *)
  Fixpoint shiftOut (m : pins S) (val : Z) (i : nat) : pins S :=
    match i with O => m | Datatypes.S j => shiftOut (clock (clock (data m (negb (Z.land val (Z.shiftl 1 (Z.of_nat j)) =? 0))) true) false) val j end.
  (** digital_pin_shift.cpp:12-28, likewise *)
  Fixpoint shiftIn (m : pins S) (value : Z) (i : nat) : pins S * Z :=
    match i with
    | O => (m, value)
    | Datatypes.S j => let m := clock m true in let value := Z.lor value (Z.shiftl (if read m then 1 else 0) (Z.of_nat j)) in shiftIn (clock m false) value j
    end.
  (** SHT1x.cpp:43-47 *)
  Definition activateDataPin (m : pins S) : pins S := data (mode m true) true.
  (** SHT1x.cpp:49-52 *)
  Definition releaseDataPin (m : pins S) : pins S := mode m false.
  (** SHT1x.cpp:54-59 *)
  Definition clockCycle (m : pins S) : pins S := clock (clock m true) false.
  (** SHT1x.cpp:173-188 *)
  Definition sendTransmissionStart (m : pins S) : pins S :=
    let m := data m true in let m := clock m true in let m := data m false in let m := clock m false in let m := clock m true in let m := data m true in clock m false.
  (** SHT1x.cpp:213-220; [i]: rounds left *)
  Fixpoint ackLoop (m : pins S) (i : nat) : pins S * bool :=
    match i with O => (m, false) | Datatypes.S j => if read m then (m, true) else ackLoop (pass m MAX_DELAY_MICROSECONDS) j end.
  (** SHT1x.cpp:190-223 *)
  Definition sendByteToSHT (m : pins S) (toSend : Z) (isCommand : bool) : pins S * bool :=
    let m := activateDataPin m in
    let m := if isCommand then sendTransmissionStart m else m in
    let m := shiftOut m toSend 8 in
    let m := releaseDataPin m in
    let m := clock m true in
    if read m then (m, false) else ackLoop (clock m false) 25.
  (** SHT1x.cpp:228-240; [i] rounds left of the loop, which ends when i * WAIT_STEP_MS exceeds MAX_WAIT_MS *)
  Fixpoint waitLoop (m : pins S) (i : nat) : pins S * bool :=
    match i with O => (m, false) | Datatypes.S j => if read m then waitLoop (pass m (WAIT_STEP_MS * 1000)) j else (m, true) end.
  (** SHT1x.cpp:225-243 *)
  Definition waitForResultSHT (m : pins S) : pins S * bool := waitLoop (releaseDataPin m) (Z.to_nat (MAX_WAIT_MS / WAIT_STEP_MS + 1)).
  (** SHT1x.cpp:245-262 *)
  Definition getData16SHT (m : pins S) : pins S * Z :=
    let m := releaseDataPin m in
    let '(m, h) := shiftIn m 0 8 in
    let m := activateDataPin m in
    let m := data m false in
    let m := clockCycle m in
    let m := releaseDataPin m in
    let '(m, l) := shiftIn m 0 8 in
    (m, Z.lor (u16 (Z.shiftl (u8 h) 8)) (u8 l)).
  (** SHT1x.cpp:264-270 *)
  Definition skipCrcSHT (m : pins S) : pins S := releaseDataPin (clockCycle (activateDataPin m)).
  (** SHT1x.cpp:32-41: the constructor; the output level of the data pin is what it was *)
  Definition construct (m : pins S) : pins S * sht := (releaseDataPin (clock m false), mkSht INVALID_TEMPERATURE INVALID_HUMIDITY).
  (** send a command, wait, and read 16 bits: SHT1x.cpp:158-170, 131-141, 333-344; None: one of the steps failed *)
  Definition ask (m : pins S) (cmd : Z) : pins S * option Z :=
    let '(m, ok) := sendByteToSHT m cmd true in
    if negb ok then (m, None) else
    let '(m, ok) := waitForResultSHT m in
    if negb ok then (m, None) else
    let '(m, v) := getData16SHT m in
    (skipCrcSHT m, Some v).
  (** SHT1x.cpp:155-171; None: false *)
  Definition readTemperatureRaw (m : pins S) (d : sht) : pins S * sht * option Z :=
    let '(m, r) := ask m sht1xMeasureTemperature in (m, mkSht INVALID_TEMPERATURE (lastHumidity d), match r with Some v => Some (s16 v) | None => None end).
  (** SHT1x.cpp:82-92; outer None: undefined behaviour *)
  Definition readTemperatureC (m : pins S) (d : sht) : option (pins S * sht * option Q) :=
    let '(m, d, r) := readTemperatureRaw m d in
    match r with
    | None => Some (m, d, None)
    | Some val => let t := convertRawTemperature (inject_Z val) CELCIUS in
        match toS16 (t * 100)%Q with Some z => Some (m, mkSht z (lastHumidity d), Some t) | None => None end
    end.
  (** SHT1x.cpp:94-106 *)
  Definition readTemperatureF (m : pins S) (d : sht) : option (pins S * sht * option Q) :=
    let '(m, d, r) := readTemperatureRaw m d in
    match r with
    | None => Some (m, d, None)
    | Some val => let t := convertRawTemperature (inject_Z val) CELCIUS in
        match toS16 (t * 100)%Q with Some z => Some (m, mkSht z (lastHumidity d), Some (convertRawTemperature (inject_Z val) FARENHEIT)) | None => None end
    end.
  (** SHT1x.cpp:108-153 *)
  Definition readHumidity (m : pins S) (d : sht) : option (pins S * sht * option Q) :=
    let d := mkSht (lastTemperatureC d) INVALID_HUMIDITY in
    match readTemperatureC m d with
    | None => None
    | Some (m, d, None) => Some (m, d, None)
    | Some (m, d, Some temperatureC) =>
        let '(m, r) := ask m sht1xMeasureRelativeHumidity in
        match r with
        | None => Some (m, d, None)
        | Some v =>
            let _val := inject_Z v in
            let linearHumidity := ((-20468 # 10000) + (367 # 10000) * _val + (-15955 # 10000000000) * _val * _val)%Q in
            let humidity := ((temperatureC - 25) * ((1 # 100) + (8 # 100000) * _val) + linearHumidity)%Q in
            match toU16 (humidity * 100)%Q with Some z => Some (m, mkSht (lastTemperatureC d) z, Some humidity) | None => None end
        end
    end.
  (** SHT1x.cpp:277-288 *)
  Definition GetHumidity (m : pins S) (d : sht) : option (pins S * sht * Z) :=
    match readHumidity m d with
    | None => None
    | Some (m, d, None) => Some (m, d, INVALID_HUMIDITY)
    | Some (m, d, Some h) => match toU16 (h * 100)%Q with Some z => Some (m, d, z) | None => None end
    end.
  (** SHT1x.cpp:290-301: converted to uint16_t, although the result is int16_t *)
  Definition GetTemperature (m : pins S) (d : sht) : option (pins S * sht * Z) :=
    match readTemperatureC m d with
    | None => None
    | Some (m, d, None) => Some (m, d, INVALID_TEMPERATURE)
    | Some (m, d, Some t) => match toU16 (t * 100)%Q with Some z => Some (m, d, s16 z) | None => None end
    end.
  (** SHT1x.cpp:325-346 *)
  Definition getStatusRegister (m : pins S) : pins S * option Z := ask (Nat.iter 10 clockCycle (activateDataPin m)) sht1xReadStatusRegister.
  (** SHT1x.cpp:348-360 *)
  Definition setStatusRegister (m : pins S) (status : Z) : pins S * bool :=
    let '(m, ok) := sendByteToSHT m sht1xWriteStatusRegister true in if negb ok then (m, false) else sendByteToSHT m (u8 status) false.
  (** SHT1x.cpp:362-369 *)
  Definition softReset (m : pins S) : pins S * bool := sendByteToSHT m sht1xSoftReset true.
End Driver.
