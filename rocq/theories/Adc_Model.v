(** Analog inputs: sblib/src/analog_pin.cpp, built without IAP_EMULATION. The converter is any automaton with the registers CR and DR[0..7]; each access is one step of it. *)
From Verif Require Export Base.

(** analog_pin.cpp:16-25 *)
Definition ADC_DONE : Z := 0x80000000.
Definition ADC_OVERRUN : Z := 0x40000000.
Definition ADC_START_NOW : Z := Z.shiftl 1 24.
Definition ADC_CLOCK : Z := 2400000.
(** no code: the registers LPC_ADC->CR (reading and writing) and LPC_ADC->DR[channel] (reading, which has an effect) *)
Record converter (S : Type) := { getCR : S -> S * Z; setCR : S -> Z -> S; readDR : S -> nat -> S * Z }.
Arguments getCR {S}. Arguments setCR {S}. Arguments readDR {S}.

Section Analog.
  Context {S : Type} (w : converter S).
  (** no code: CR = f(CR) *)
  Definition changeCR (h : S) (f : Z -> Z) : S := let '(h, v) := getCR w h in setCR w h (u32 (f v)).
  (** analog_pin.cpp:60-64: the loop; [n] passes left, None: still waiting *)
  Fixpoint waitDone (n : nat) (h : S) (channel : nat) : option (S * Z) :=
    match n with
    | O => None
    | Datatypes.S m => let '(h, regVal) := readDR w h channel in if negb (Z.land regVal ADC_DONE =? 0) then Some (h, regVal) else waitDone m h channel
    end.
  (** analog_pin.cpp:49-68 *)
  Definition analogPoll (n : nat) (h : S) (channel : nat) : option (S * Z) :=
    let h := changeCR h (fun v => Z.land v 0xffffff00) in
    let '(h, _) := readDR w h channel in
    let h := changeCR h (fun v => Z.lor v (Z.lor (Z.shiftl 1 (Z.of_nat channel)) ADC_START_NOW)) in
    match waitDone n h channel with
    | Some (h, regVal) => Some (changeCR h (fun v => Z.land v 0xf8ffffff), regVal)
    | None => None
    end.
  (** analog_pin.cpp:70-79 *)
  Definition analogRead (n : nat) (h : S) (channel : nat) : option (S * Z) :=
    match analogPoll n h channel with
    | Some (h, regVal) => Some (h, if negb (Z.land regVal ADC_OVERRUN =? 0) then 0 else Z.land (Z.shiftr regVal 6) 0x3ff)
    | None => None
    end.
  (** analog_pin.cpp:81-90 *)
  Definition analogValidRead (n : nat) (h : S) (channel : nat) : option (S * Z) :=
    match analogPoll n h channel with
    | Some (h, regVal) => Some (h, if negb (Z.land regVal ADC_OVERRUN =? 0) then -1 else Z.land (Z.shiftr regVal 6) 0x3ff)
    | None => None
    end.
End Analog.

(** analog_pin.cpp:28-38: PDRUNCFG, SYSAHBCLKCTRL and CR; [clock]: SystemCoreClock, [div]: SYSAHBCLKDIV (not 0) *)
Definition analogBegin (pdruncfg sysahbclkctrl clock div : Z) : Z * Z * Z :=
  (Z.land pdruncfg (u32 (Z.lnot (Z.shiftl 1 4))), Z.lor sysahbclkctrl (Z.shiftl 1 13), u32 (Z.shiftl (u32 (clock / div / ADC_CLOCK - 1)) 8)).
(** analog_pin.cpp:40-47 *)
Definition analogEnd (pdruncfg sysahbclkctrl : Z) : Z * Z :=
  (Z.lor pdruncfg (Z.shiftl 1 4), Z.land sysahbclkctrl (u32 (Z.lnot (Z.shiftl 1 13)))).
