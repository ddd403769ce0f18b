(** Humidity and temperature sensors DHT11 and DHT22 (sblib/src/sensors/dht.cpp, sblib/inc/sblib/sensors/dht.h) *)
From Verif Require Export Base.

(** dht.h:33-43 eLastError, the values that occur *)
Inductive error := NONE | NOT_PRESENT | DATA_TIMEOUT | CHECKSUM | TIMER_NOT_REACHED.
(** dht.h:48-67: the object. [maxcycles] is the time limit for a level in readings of the pin, dht.cpp:35. The temperature and humidity are floats in the code; here they are in hundredths, and
    the rounding of the division by 100 (dht.cpp:148-149) is left out *)
Record dht := mkDht { type22 : bool; lastReadTime : Z; lastError : error; temperature : Z; humidity : Z; data : list Z; maxcycles : nat }.
(** what happens on the pin: level written, output or input with pull-up, interrupt of the pin disabled or enabled, a pause in microseconds *)
Inductive ev := Drive (b : bool) | Output | Input | IntOff | IntOn | Pause (us : Z).
(** dht.cpp:27-38 DHTInit; [cycles]: clock cycles of a millisecond (timer.h:102) *)
Definition init (type22 : bool) (cycles : nat) (data : list Z) : dht * list ev := (mkDht type22 (-2000) NONE 0 0 data cycles, [Input]).

(** dht.cpp:182-191 expectPulse; [line k] is the level of the [k]-th reading of the pin, [fuel] = _maxcycles - count. Result: the count, and the number of the next reading *)
Fixpoint expectPulse (fuel : nat) (line : nat -> bool) (level : bool) (count pos : nat) : nat * nat :=
  if Bool.eqb (line pos) level then
    match fuel with
    | O => (O, S pos)
    | S n => expectPulse n line level (S count) (S pos)
    end
  else (count, S pos).
(** dht.cpp:99-102: the lengths of [n] low and high levels, each cut to 8 bits (dht.cpp:61, 100-101) *)
Fixpoint pulses (max n : nat) (line : nat -> bool) (pos : nat) : list (Z * Z) :=
  match n with
  | O => []
  | S m =>
      let '(low, p1) := expectPulse max line false 0 pos in
      let '(high, p2) := expectPulse max line true 0 p1 in
      (u8 (Z.of_nat low), u8 (Z.of_nat high)) :: pulses max m line p2
  end.
(** dht.cpp:108-122: the bits from number [i] on *)
Fixpoint bits (i : nat) (cycles : list (Z * Z)) (d : list Z) : error * list Z :=
  match cycles with
  | [] => (NONE, d)
  | (low, high) :: r =>
      if (low =? 0) || (high =? 0) then (DATA_TIMEOUT, d)
      else
        let d := wr d (i / 8) (u8 (Z.shiftl (rd d (i / 8)) 1)) in
        bits (S i) r (if low <? high then wr d (i / 8) (Z.lor (rd d (i / 8)) 1) else d)
  end.
(** dht.cpp:133-147: humidity and temperature in hundredths *)
Definition convert (type22 : bool) (d : list Z) : Z * Z :=
  if type22 then
    ((Z.shiftl (rd d 0) 8 + rd d 1) * 10,
     if negb (Z.land (rd d 2) 0x80 =? 0) then (Z.shiftl (Z.land 0x7F (rd d 2)) 8 + rd d 3) * -10 else (Z.shiftl (rd d 2) 8 + rd d 3) * 10)
  else
    (rd d 0 * 100, if negb (Z.land (rd d 2) 0x80 =? 0) then Z.land 0x7F (rd d 2) * -100 else rd d 2 * 100).
(** dht.cpp:51-153 readData at the time [now] (millis(), 32 bits) with the levels [line]. None: the difference of the times does not fit an int (undefined behaviour) *)
Definition readData (s : dht) (force : bool) (now : Z) (line : nat -> bool) : option (bool * dht * list ev) :=
  let current := s32 now in
  let elapsed := current - lastReadTime s in
  if negb force && ((elapsed <? -2147483648) || (2147483647 <? elapsed)) then None
  else if negb force && (elapsed <? 2000) then Some (false, mkDht (type22 s) (lastReadTime s) TIMER_NOT_REACHED (temperature s) (humidity s) (data s) (maxcycles s), [])
  else
    let d0 := wr (wr (wr (wr (wr (data s) 0 0) 1 0) 2 0) 3 0) 4 0 in
    let failed e d tr := Some (false, mkDht (type22 s) current e (temperature s) (humidity s) d (maxcycles s), tr) in
    let start := [Drive true; Pause 1000; Output; Drive false; Pause (if type22 s then 1100 else 20000); IntOff; Drive true; Pause 55; Input; Pause 10] in
    let '(c0, p0) := expectPulse (maxcycles s) line false 0 0 in
    if (c0 =? 0)%nat then failed DATA_TIMEOUT d0 start
    else
      let '(c1, p1) := expectPulse (maxcycles s) line true 0 p0 in
      if (c1 =? 0)%nat then failed NOT_PRESENT d0 start
      else
        let '(e, d) := bits 0 (pulses (maxcycles s) 40 line p1) d0 in
        match e with
        | NONE =>
            if rd d 4 =? Z.land (rd d 0 + rd d 1 + rd d 2 + rd d 3) 0xFF then
              let '(h, t) := convert (type22 s) d in Some (true, mkDht (type22 s) current NONE t h d (maxcycles s), start ++ [IntOn])
            else failed CHECKSUM d (start ++ [IntOn])
        | _ => failed e d (start ++ [IntOn])
        end.
