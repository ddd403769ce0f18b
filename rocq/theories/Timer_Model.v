(** System time, delays, the timer peripherals' mode registers and pulse measurement.
    Files of /repo: sblib/src/timer.cpp, sblib/inc/sblib/timer.h, sblib/src/lpc11xx/digital_pin_pulse.cpp.

    A register or variable that changes while the program runs (SysTick->VAL, systemTime, a pin) is given by the
    sequence of values that the successive reads of it yield; what the program does between two reads takes any
    time at all, so interrupts and the sleep of __WFI need no definition of their own. *)
From Verif Require Import Base.

(** ** Delays *)
(** How a delay ends: it returns (the next read is number k), it stopped in fatalError, or it still waits after
    as many loop rounds as the model was allowed to make. *)
Inductive ended := Returned (k : nat) | Stopped | Waiting.

(** timer.h:31, 36, 41 *)
Definition MIN_DELAY_MICROSECONDS := 2.
Definition MAX_DELAY_MICROSECONDS := 4000.
Definition MAX_DELAY_MILLISECONDS := MAX_DELAY_MICROSECONDS / 1000.

(** timer.cpp:83-95, the loop of delayMicroseconds. [val k] is SysTick->VAL at read [k], [load] is SysTick->LOAD.
    The addition of the unsigned LOAD to the int is exact: both are below 2^25. *)
Fixpoint tickLoop (rounds : nat) (load : Z) (val : nat -> Z) (k : nat) (last ticks : Z) : ended :=
  if ticks <=? 0 then Returned k
  else match rounds with
       | O => Waiting
       | S r => let v := u16 (val k) in
                let e := last - v in
                let e := if e <? 0 then e + load else e in
                tickLoop r load val (S k) v (ticks - e)
       end.

(** timer.cpp:66-96 delayMicroseconds; [clock] is SystemCoreClock. The product is below 2^25 for the admitted
    times and a 32-bit clock, so its conversion to int is exact. *)
Definition delayMicroseconds (rounds : nat) (clock load : Z) (val : nat -> Z) (k : nat) (usec : Z) : ended :=
  let last := u16 (val k) in
  if MIN_DELAY_MICROSECONDS <? usec then
    if MAX_DELAY_MICROSECONDS <? usec then Stopped
    else tickLoop rounds load val (S k) last ((usec - MIN_DELAY_MICROSECONDS) * (clock / 1000000))
  else tickLoop rounds load val (S k) last 1.

(** timer.cpp:37-46, delay within an interrupt handler; [chunks] bounds the rounds of the outer loop. *)
Fixpoint busyDelay (chunks rounds : nat) (clock load : Z) (val : nat -> Z) (k : nat) (msec : Z) : ended :=
  if MAX_DELAY_MILLISECONDS <? msec then
    match chunks with
    | O => Waiting
    | S c => match delayMicroseconds rounds clock load val k (u32 (MAX_DELAY_MILLISECONDS * 1000)) with
             | Returned k => busyDelay c rounds clock load val k (u32 (msec - MAX_DELAY_MILLISECONDS))
             | e => e
             end
    end
  else delayMicroseconds rounds clock load val k (u32 (msec * 1000)).

(** timer.cpp:50-62, delay in the main program. [st k] is systemTime at read [k]. *)
Fixpoint sleepLoop (rounds : nat) (st : nat -> Z) (k : nat) (last msec : Z) : ended :=
  if msec =? 0 then Returned k
  else match rounds with
       | O => Waiting
       | S r => if last =? st k then sleepLoop r st (S k) last msec
                else sleepLoop r st (S (S k)) (st (S k)) (u32 (msec - 1))
       end.

(** timer.cpp:24-63 delay: [enabled], [tickint] are the bits ENABLE and TICKINT of SysTick->CTRL, [inside] is
    isInsideInterrupt(). The reads of systemTime ([st]) and of SysTick->VAL ([val]) both start at number 0. *)
Definition delay (chunks rounds : nat) (enabled tickint inside : bool) (clock load : Z) (val st : nat -> Z)
    (msec : Z) : ended :=
  if negb enabled && negb tickint then Stopped
  else if inside then busyDelay chunks rounds clock load val 0 msec
  else sleepLoop rounds st 1 (st 0%nat) msec.

(** timer.cpp:248-251 SysTick_Handler on systemTime *)
Definition SysTick_Handler (systemTime : Z) : Z := u32 (systemTime + 1).

(** timer.cpp:106-114 millis, elapsed *)
Definition millis (systemTime : Z) : Z := systemTime.
Definition elapsed (systemTime ref : Z) : Z := u32 (millis systemTime - ref).

(** ** The timer peripherals: the mode registers of one of them (platform header: MCR, EMR, CCR, CTCR, TCR) *)
Record timer := mkTimer { MCR : Z; EMR : Z; CCR : Z; CTCR : Z; TCR : Z }.

(** types.h:49-89 *)
Definition INTERRUPT := 1.
Definition RESET := 2.
Definition STOP := 4.
Definition CLEAR := 16.
Definition SET := 32.
Definition TOGGLE := 48.
Definition RISING_EDGE := 64.
Definition FALLING_EDGE := 128.
(** types.h:155, 160 *)
Definition CAP0 := 0.
Definition CAP1 := 1.

(** reg = (reg & ~(mask << off)) | (bits << off), the form of timer.cpp:147-149, 180-182 and timer.h:626-628, on
    a 32-bit register. *)
Definition setBits (reg mask off bits : Z) : Z :=
  Z.lor (Z.ldiff reg (Z.shiftl mask off)) (Z.shiftl bits off).

(** timer.cpp:130-137 begin: the registers of the timer, and SYSAHBCLKCTRL *)
Definition begin (num : Z) (t : timer) (sysahbclkctrl : Z) : timer * Z :=
  (mkTimer 0 0 0 (CTCR t) (TCR t), Z.lor sysahbclkctrl (Z.shiftl 1 (7 + num))).
(** timer.h:520-523 end *)
Definition endTimer (num : Z) (sysahbclkctrl : Z) : Z := Z.ldiff sysahbclkctrl (Z.shiftl 1 (7 + num)).

(** timer.h:623-629 matchModePinConfig *)
Definition matchModePinConfig (t : timer) (channel mode : Z) : timer :=
  mkTimer (MCR t) (setBits (EMR t) 48 (Z.shiftl channel 1) (Z.land mode 48)) (CCR t) (CTCR t) (TCR t).

(** timer.cpp:140-153 matchMode(channel, mode) *)
Definition matchMode (t : timer) (channel mode : Z) : timer :=
  matchModePinConfig
    (mkTimer (setBits (MCR t) 7 (channel * 3) (Z.land mode 7)) (EMR t) (CCR t) (CTCR t) (TCR t)) channel mode.

(** timer.cpp:155-170 matchMode(channel) *)
Definition getMatchMode (t : timer) (channel : Z) : Z :=
  Z.lor (Z.land (Z.shiftr (MCR t) (channel * 3)) 7) (Z.land (Z.shiftr (EMR t) (Z.shiftl channel 1)) 48).

(** timer.cpp:172-183 captureMode(channel, mode) *)
Definition captureMode (t : timer) (channel mode : Z) : timer :=
  let val := Z.land (Z.shiftr mode 6) 3 in
  let val := if negb (Z.land mode INTERRUPT =? 0) then Z.lor val 4 else val in
  mkTimer (MCR t) (EMR t) (setBits (CCR t) 7 (channel * 3) val) (CTCR t) (TCR t).

(** timer.cpp:185-196 captureMode(channel) *)
Definition getCaptureMode (t : timer) (channel : Z) : Z :=
  let mode := Z.shiftl (Z.land (Z.shiftr (CCR t) (channel * 3)) 7) 6 in
  if negb (Z.land mode 256 =? 0) then Z.lor (Z.land mode 192) INTERRUPT else mode.

(** timer.cpp:198-223 counterMode(mode, clearMode) *)
Definition counterMode (t : timer) (mode clearMode : Z) : timer :=
  let isSet v m := negb (Z.land v m =? 0) in
  let config := 0 in
  let config := if isSet mode RISING_EDGE then Z.lor config 1 else config in
  let config := if isSet mode FALLING_EDGE then Z.lor config 2 else config in
  let config := if isSet mode CAP1 then Z.lor config 4 else config in
  let config :=
    if negb (clearMode =? 0) then
      let config := Z.lor config 16 in
      if isSet clearMode (Z.lor CAP1 FALLING_EDGE) then Z.lor config 96
      else if isSet clearMode (Z.lor CAP1 RISING_EDGE) then Z.lor config 64
      else if isSet clearMode (Z.lor CAP0 FALLING_EDGE) then Z.lor config 32
      else config
    else config in
  mkTimer (MCR t) (EMR t) (CCR t) config (TCR t).

(** timer.h:510-518 start, stop; 525-535 restart, reset (the last value written to TCR) *)
Definition start (t : timer) : timer := mkTimer (MCR t) (EMR t) (CCR t) (CTCR t) (Z.lor (TCR t) 1).
Definition stop (t : timer) : timer := mkTimer (MCR t) (EMR t) (CCR t) (CTCR t) (Z.ldiff (TCR t) 1).
Definition restart (t : timer) : timer := mkTimer (MCR t) (EMR t) (CCR t) (CTCR t) 1.
Definition reset (t : timer) : timer :=
  mkTimer (MCR t) (EMR t) (CCR t) (CTCR t) (Z.ldiff (Z.lor (TCR t) 2) 2).

(** ** Pulse measurement *)
(** digital_pin_pulse.cpp:27-29, 31-33, 35-40: a loop that reads the pin while it is ([is] = true) or is not
    ([is] = false) at the level to measure. [pin k] tells whether read [k] of the pin gives that level (bitMask and
    stateMask select it; a pin has two levels). The result is the number of the next read and numloops when the
    loop has ended, None when it ran into the time limit. The rounds left are the first argument: numloops
    counts them up to [maxloops], so that it cannot wrap. *)
Fixpoint pinLoop (left : nat) (pin : nat -> bool) (is : bool) (k : nat) : option (nat * nat) :=
  if Bool.eqb (pin k) is then
    match left with O => None | S l => pinLoop l pin is (S k) end
  else Some (S k, left).

(** timer.h:86 clockCyclesPerMicrosecond, 94 clockCyclesToMicroseconds, 102 microsecondsToClockCycles: unsigned int *)
Definition clockCyclesPerMicrosecond (clock : Z) : Z := clock / 1000000.
Definition clockCyclesToMicroseconds (clock cyc : Z) : Z := cyc / clockCyclesPerMicrosecond clock.
Definition microsecondsToClockCycles (clock usec : Z) : Z := u32 (usec * clockCyclesPerMicrosecond clock).

(** digital_pin_pulse.cpp:18-47 pulseIn; unsigned long has 32 bits *)
Definition pulseIn (clock : Z) (pin : nat -> bool) (timeout : Z) : Z :=
  match pinLoop (Z.to_nat (microsecondsToClockCycles clock timeout)) pin true 0 with
  | None => 0
  | Some (k, l) =>
    match pinLoop l pin false k with
    | None => 0
    | Some (k, l) =>
      match pinLoop l pin true k with
      | None => 0
      | Some (_, l') => clockCyclesToMicroseconds clock (u32 (Z.of_nat (l - l') * 21 + 16))
      end
    end
  end.
