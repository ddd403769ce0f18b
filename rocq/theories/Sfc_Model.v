(** Conversions of the sensors in floats as the processor calculates them (Flt_Model: multiples of 2^-149, rounded). The other sensor models (Bh_Model, Sht1_Model) calculate exactly; here is the rounding.
    Left out: the humidity of the SHT1x, dew points (logf). *)
From Verif Require Export Base Flt_Model.
Open Scope Z_scope.

(** C++: a + b, a / b (b > 0) for floats; a decimal literal n / d *)
Definition fadd (a b : Z) : Z := flq (a + b) 1.
Definition fdiv (a b : Z) : Z := flq (a * ONE) b.
Definition lit (n d : Z) : Z := flq (n * ONE) d.
(** C++: conversion to uint16_t and int16_t: towards zero; None: undefined *)
Definition toU16 (a : Z) : option Z := let n := Z.quot a ONE in if (0 <=? n) && (n <? 65536) then Some n else None.
Definition toS16f (a : Z) : option Z := let n := Z.quot a ONE in if (-32768 <=? n) && (n <? 32768) then Some n else None.
(** SHT4x.cpp:93-96 *)
Definition convertTicksToCelsius (ticks : Z) : Z := fsub (fdiv (fmul (ofInt ticks) (lit 175 1)) (lit 65535 1)) (lit 45 1).
(** SHT4x.cpp:98-101 *)
Definition convertTicksToPercentRH (ticks : Z) : Z := fsub (fdiv (fmul (ofInt ticks) (lit 125 1)) (lit 65535 1)) (lit 6 1).
(** SGP4x.cpp:161 *)
Definition relativeHumidityTicks (relativeHumidity : Z) : option Z := toU16 (fdiv (fmul relativeHumidity (ofInt 65535)) (ofInt 100)).
(** SGP4x.cpp:162 *)
Definition temperatureTicks (temperature : Z) : option Z := toU16 (fdiv (fmul (fadd temperature (lit 45 1)) (ofInt 65535)) (ofInt 175)).
(** bh1750.cpp:226-250; bh1750.h:45, 80; [buf]: the two bytes read *)
Definition lightLevel (hi lo mtreg : Z) (mode2 : bool) : Z :=
  let level := ofInt (Z.lor (Z.shiftl hi 8) lo) in
  let level := if negb (mtreg =? 69) then fmul level (fdiv (ofInt 69) (ofInt mtreg)) else level in
  let level := if mode2 then fdiv level (ofInt 2) else level in
  fdiv level (lit 12 10).
(** SHT1x.cpp:61-80; [type]: degrees Fahrenheit *)
Definition convertRawTemperature (temperature : Z) (fahrenheit : bool) : Z :=
  let D1 := lit (-397) 10 in
  let D2 := if fahrenheit then lit 18 1000 else lit 1 100 in
  fadd (fmul temperature D2) D1.
(** SHT1x.cpp:89-90: the temperature and the hundredths kept *)
Definition sht1Temperature (val : Z) : Z * option Z :=
  let newTemperature := convertRawTemperature (ofInt val) false in
  (newTemperature, toS16f (fmul newTemperature (ofInt 100))).
(** ds18x20.cpp:265-270, dht.cpp:165-170 *)
Inductive scaleOf := FARENHEIT | KELVIN | CELSIUS.
Definition ConvertTemperature (fTemperature : Z) (Scale : scaleOf) : Z :=
  match Scale with
  | FARENHEIT => fadd (fdiv (fmul fTemperature (ofInt 9)) (ofInt 5)) (ofInt 32)
  | KELVIN => fadd fTemperature (lit 27315 100)
  | CELSIUS => fTemperature
  end.
