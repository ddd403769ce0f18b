(** What the pins of an LPC11xx are and what their registers mean, by the LPC11xx manual (chapters IOCONFIG and GPIO): no definition of Pin_Model is used except the record of the registers and the constants a caller writes. *)
From Verif Require Import Base Pin_Model.

(** what a pin can serve for *)
Inductive role := Gpio | Analog | Reset | SwdIo | SwdClk | Match | Capture | ClkOut | Sda | Scl | Ssel | Miso | Mosi | Sck | Rxd | Txd | Rts | Dtr | Dsr | Cts | Dcd | Ri.
(** equality of roles *)
Definition role_eqb (a b : role) : bool :=
  match a, b with
  | Gpio, Gpio | Analog, Analog | Reset, Reset | SwdIo, SwdIo | SwdClk, SwdClk | Match, Match | Capture, Capture | ClkOut, ClkOut | Sda, Sda | Scl, Scl | Ssel, Ssel
  | Miso, Miso | Mosi, Mosi | Sck, Sck | Rxd, Rxd | Txd, Txd | Rts, Rts | Dtr, Dtr | Dsr, Dsr | Cts, Cts | Dcd, Dcd | Ri, Ri => true
  | _, _ => false
  end.
(** a pin as the manual lists it: port, number, its configuration word, the roles by function number, whether it has an A/D mode bit; and the constant a caller uses *)
Record pin := { name : Z; port : nat; num : nat; word : nat; roles : list (option role); admode : bool }.
(** the pins *)
Definition p0_0 : pin := {| name := PIO0_0; port := 0; num := 0; word := 3; roles := [Some Reset; Some Gpio; None; None]; admode := false |}.
Definition p0_1 : pin := {| name := PIO0_1; port := 0; num := 1; word := 4; roles := [Some Gpio; Some ClkOut; Some Match; None]; admode := false |}.
Definition p0_2 : pin := {| name := PIO0_2; port := 0; num := 2; word := 7; roles := [Some Gpio; Some Ssel; Some Capture; None]; admode := false |}.
Definition p0_3 : pin := {| name := PIO0_3; port := 0; num := 3; word := 11; roles := [Some Gpio; None; None; None]; admode := false |}.
Definition p0_4 : pin := {| name := PIO0_4; port := 0; num := 4; word := 12; roles := [Some Gpio; Some Scl; None; None]; admode := false |}.
Definition p0_5 : pin := {| name := PIO0_5; port := 0; num := 5; word := 13; roles := [Some Gpio; Some Sda; None; None]; admode := false |}.
Definition p0_6 : pin := {| name := PIO0_6; port := 0; num := 6; word := 19; roles := [Some Gpio; None; Some Sck; None]; admode := false |}.
Definition p0_7 : pin := {| name := PIO0_7; port := 0; num := 7; word := 20; roles := [Some Gpio; Some Cts; None; None]; admode := false |}.
Definition p0_8 : pin := {| name := PIO0_8; port := 0; num := 8; word := 24; roles := [Some Gpio; Some Miso; Some Match; None]; admode := false |}.
Definition p0_9 : pin := {| name := PIO0_9; port := 0; num := 9; word := 25; roles := [Some Gpio; Some Mosi; Some Match; None]; admode := false |}.
Definition p0_10 : pin := {| name := PIO0_10; port := 0; num := 10; word := 26; roles := [Some SwdClk; Some Gpio; Some Sck; Some Match]; admode := false |}.
Definition p0_11 : pin := {| name := PIO0_11; port := 0; num := 11; word := 29; roles := [None; Some Gpio; Some Analog; Some Match]; admode := true |}.
Definition p1_0 : pin := {| name := PIO1_0; port := 1; num := 0; word := 30; roles := [None; Some Gpio; Some Analog; Some Capture]; admode := true |}.
Definition p1_1 : pin := {| name := PIO1_1; port := 1; num := 1; word := 31; roles := [None; Some Gpio; Some Analog; Some Match]; admode := true |}.
Definition p1_2 : pin := {| name := PIO1_2; port := 1; num := 2; word := 32; roles := [None; Some Gpio; Some Analog; Some Match]; admode := true |}.
Definition p1_3 : pin := {| name := PIO1_3; port := 1; num := 3; word := 36; roles := [Some SwdIo; Some Gpio; Some Analog; Some Match]; admode := true |}.
Definition p1_4 : pin := {| name := PIO1_4; port := 1; num := 4; word := 37; roles := [Some Gpio; Some Analog; Some Match; None]; admode := true |}.
Definition p1_5 : pin := {| name := PIO1_5; port := 1; num := 5; word := 40; roles := [Some Gpio; Some Rts; Some Capture; None]; admode := false |}.
Definition p1_6 : pin := {| name := PIO1_6; port := 1; num := 6; word := 41; roles := [Some Gpio; Some Rxd; Some Match; None]; admode := false |}.
Definition p1_7 : pin := {| name := PIO1_7; port := 1; num := 7; word := 42; roles := [Some Gpio; Some Txd; Some Match; None]; admode := false |}.
Definition p1_8 : pin := {| name := PIO1_8; port := 1; num := 8; word := 5; roles := [Some Gpio; Some Capture; None; None]; admode := false |}.
Definition p1_9 : pin := {| name := PIO1_9; port := 1; num := 9; word := 14; roles := [Some Gpio; Some Match; Some Mosi; None]; admode := false |}.
Definition p1_10 : pin := {| name := PIO1_10; port := 1; num := 10; word := 27; roles := [Some Gpio; Some Analog; Some Match; Some Miso]; admode := true |}.
Definition p1_11 : pin := {| name := PIO1_11; port := 1; num := 11; word := 38; roles := [Some Gpio; Some Analog; Some Capture; None]; admode := true |}.
Definition p2_0 : pin := {| name := PIO2_0; port := 2; num := 0; word := 2; roles := [Some Gpio; Some Dtr; Some Ssel; None]; admode := false |}.
Definition p2_1 : pin := {| name := PIO2_1; port := 2; num := 1; word := 10; roles := [Some Gpio; Some Dsr; Some Sck; None]; admode := false |}.
Definition p2_2 : pin := {| name := PIO2_2; port := 2; num := 2; word := 23; roles := [Some Gpio; Some Dcd; Some Miso; None]; admode := false |}.
Definition p2_3 : pin := {| name := PIO2_3; port := 2; num := 3; word := 35; roles := [Some Gpio; Some Ri; Some Mosi; None]; admode := false |}.
Definition p2_4 : pin := {| name := PIO2_4; port := 2; num := 4; word := 16; roles := [Some Gpio; Some Match; Some Ssel; None]; admode := false |}.
Definition p2_5 : pin := {| name := PIO2_5; port := 2; num := 5; word := 17; roles := [Some Gpio; Some Match; None; None]; admode := false |}.
Definition p2_6 : pin := {| name := PIO2_6; port := 2; num := 6; word := 0; roles := [Some Gpio; Some Match; None; None]; admode := false |}.
Definition p2_7 : pin := {| name := PIO2_7; port := 2; num := 7; word := 8; roles := [Some Gpio; Some Match; Some Rxd; None]; admode := false |}.
Definition p2_8 : pin := {| name := PIO2_8; port := 2; num := 8; word := 9; roles := [Some Gpio; Some Match; Some Txd; None]; admode := false |}.
Definition p2_9 : pin := {| name := PIO2_9; port := 2; num := 9; word := 21; roles := [Some Gpio; Some Capture; None; None]; admode := false |}.
Definition p2_10 : pin := {| name := PIO2_10; port := 2; num := 10; word := 22; roles := [Some Gpio; None; None; None]; admode := false |}.
Definition p2_11 : pin := {| name := PIO2_11; port := 2; num := 11; word := 28; roles := [Some Gpio; Some Sck; Some Capture; None]; admode := false |}.
Definition p3_0 : pin := {| name := PIO3_0; port := 3; num := 0; word := 33; roles := [Some Gpio; Some Dtr; Some Match; Some Txd]; admode := false |}.
Definition p3_1 : pin := {| name := PIO3_1; port := 3; num := 1; word := 34; roles := [Some Gpio; Some Dsr; Some Match; Some Rxd]; admode := false |}.
Definition p3_2 : pin := {| name := PIO3_2; port := 3; num := 2; word := 39; roles := [Some Gpio; Some Dcd; Some Match; Some Sck]; admode := false |}.
Definition p3_3 : pin := {| name := PIO3_3; port := 3; num := 3; word := 43; roles := [Some Gpio; Some Ri; Some Capture; None]; admode := false |}.
Definition p3_4 : pin := {| name := PIO3_4; port := 3; num := 4; word := 15; roles := [Some Gpio; Some Capture; Some Rxd; None]; admode := false |}.
Definition p3_5 : pin := {| name := PIO3_5; port := 3; num := 5; word := 18; roles := [Some Gpio; Some Capture; Some Txd; None]; admode := false |}.
Definition pins : list pin := [p0_0; p0_1; p0_2; p0_3; p0_4; p0_5; p0_6; p0_7; p0_8; p0_9; p0_10; p0_11; p1_0; p1_1; p1_2; p1_3; p1_4; p1_5; p1_6; p1_7; p1_8; p1_9; p1_10; p1_11; p2_0; p2_1; p2_2; p2_3; p2_4; p2_5; p2_6; p2_7; p2_8; p2_9; p2_10; p2_11; p3_0; p3_1; p3_2; p3_3; p3_4; p3_5].
(** the number of a role at a pin *)
Fixpoint index (r : role) (l : list (option role)) (k : Z) : option Z :=
  match l with
  | [] => None
  | Some x :: t => if role_eqb x r then Some k else index r t (k + 1)
  | None :: t => index r t (k + 1)
  end.
Definition number (p : pin) (r : role) : option Z := index r (roles p) 0.
(** signals that reach their peripheral from one of several pins: the register that selects and its value for the pin *)
Definition place (r : role) (p : pin) : option (nat * Z) :=
  match r, port p, num p with
  | Capture, 0%nat, 2%nat => Some (48%nat, 0) | Capture, 3%nat, 3%nat => Some (48%nat, 1)
  | Capture, 1%nat, 5%nat => Some (52%nat, 0) | Capture, 2%nat, 9%nat => Some (52%nat, 1)
  | Rxd, 1%nat, 6%nat => Some (53%nat, 0) | Rxd, 2%nat, 7%nat => Some (53%nat, 1) | Rxd, 3%nat, 1%nat => Some (53%nat, 2) | Rxd, 3%nat, 4%nat => Some (53%nat, 3)
  | Miso, 2%nat, 2%nat => Some (50%nat, 0) | Miso, 1%nat, 10%nat => Some (50%nat, 1)
  | Mosi, 2%nat, 3%nat => Some (51%nat, 0) | Mosi, 1%nat, 9%nat => Some (51%nat, 1)
  | Sck, 0%nat, 10%nat => Some (44%nat, 0) | Sck, 2%nat, 11%nat => Some (44%nat, 1) | Sck, 0%nat, 6%nat => Some (44%nat, 2)
  | Sck, 2%nat, 1%nat => Some (49%nat, 0) | Sck, 3%nat, 2%nat => Some (49%nat, 1)
  | Ssel, 2%nat, 0%nat => Some (6%nat, 0) | Ssel, 2%nat, 4%nat => Some (6%nat, 1)
  | Dsr, 2%nat, 1%nat => Some (45%nat, 0) | Dsr, 3%nat, 1%nat => Some (45%nat, 1)
  | Dcd, 2%nat, 2%nat => Some (46%nat, 0) | Dcd, 3%nat, 2%nat => Some (46%nat, 1)
  | Ri, 2%nat, 3%nat => Some (47%nat, 0) | Ri, 3%nat, 3%nat => Some (47%nat, 1)
  | _, _, _ => None
  end.
(** the signal of role [r] goes to pin [p] as far as the selecting register is concerned *)
Definition routed (g : regs) (r : role) (p : pin) : Prop := match place r p with Some (w, v) => rd (IOCON g) w = v | None => True end.

(** ** the configuration word of a pin *)
(** bits 0..2: the role; bits 3 and 4: the resistor; bit 5: hysteresis; bit 7: digital (only pins with [admode]); bit 10: open drain *)
Definition serves (g : regs) (p : pin) (r : role) : Prop := number p r = Some (Z.land (rd (IOCON g) (word p)) 7).
Inductive resistor := NoPull | PullDown | PullUp | Repeater.
Definition pull_code (q : resistor) : Z := match q with NoPull => 0 | PullDown => 1 | PullUp => 2 | Repeater => 3 end.
Definition pulled (g : regs) (p : pin) (q : resistor) : Prop := Z.land (Z.shiftr (rd (IOCON g) (word p)) 3) 3 = pull_code q.
Definition hysteresis (g : regs) (p : pin) : bool := Z.testbit (rd (IOCON g) (word p)) 5.
Definition open_drain (g : regs) (p : pin) : bool := Z.testbit (rd (IOCON g) (word p)) 10.
Definition analog_mode (g : regs) (p : pin) : bool := admode p && negb (Z.testbit (rd (IOCON g) (word p)) 7).
(** the direction *)
Definition output (g : regs) (p : pin) : bool := Z.testbit (rd (DIR g) (port p)) (Z.of_nat (num p)).

(** ** a request to pinMode, as the header documents it *)
Inductive kind := Inward | InCapture | InAnalog | Outward | OutMatch.
Record request := { what : kind; func : option role; res : resistor; hyst : bool; drain : bool }.
(** the constants of digital_pin.h and ioports.h a caller writes *)
Definition kind_code (k : kind) : Z := match k with Inward => 0x1000 | InCapture => 0x2000 | InAnalog => 0x3000 | Outward => 0x6000 | OutMatch => 0x7000 end.
Definition role_code (r : role) : Z :=
  match r with
  | Gpio => PF_PIO | Analog => PF_AD | Reset => PF_RESET | SwdIo => PF_SWDIO | SwdClk => PF_SWCLK | Match => PF_MAT | Capture => PF_CAP | ClkOut => PF_CLKOUT | Sda => PF_SDA | Scl => PF_SCL
  | Ssel => PF_SSEL | Miso => PF_MISO | Mosi => PF_MOSI | Sck => PF_SCK | Rxd => PF_RXD | Txd => PF_TXD | Rts => PF_RTS | Dtr => PF_DTR | Dsr => PF_DSR | Cts => PF_CTS | Dcd => PF_DCD | Ri => PF_RI
  end.
Definition mode_of (q : request) : Z :=
  kind_code (what q) + (match func q with Some r => role_code r * 262144 | None => 0 end) + pull_code (res q) * 8 + (if hyst q then 0x20 else 0) + (if drain q then 0x400 else 0).
(** the role asked for *)
Definition wanted (q : request) : role :=
  match what q with InCapture => Capture | InAnalog => Analog | OutMatch => Match | _ => match func q with Some r => r | None => Gpio end end.
Definition outward (q : request) : bool := match what q with Outward | OutMatch => true | _ => false end.
(** a receiver's data line is an input; a capture input is asked for by INPUT_CAPTURE *)
Definition sensible (q : request) : Prop := (wanted q = Rxd -> what q = Inward) /\ (wanted q = Capture -> what q = InCapture).

(** [g'] treats every pin other than [p] as [g] does *)
Definition spared (g g' : regs) (p : pin) : Prop :=
  rd (IOCON g') (word p) = rd (IOCON g) (word p) /\
  forall l, List.In l [DIR; DATA; IS; IBE; IEV; IE] -> Z.testbit (rd (l g') (port p)) (Z.of_nat (num p)) = Z.testbit (rd (l g) (port p)) (Z.of_nat (num p)).
(** the pin's bits in the other registers *)
Definition kept (l : list (regs -> list Z)) (g g' : regs) (p : pin) : Prop := forall f, List.In f l -> Z.testbit (rd (f g') (port p)) (Z.of_nat (num p)) = Z.testbit (rd (f g) (port p)) (Z.of_nat (num p)).
(** registers as the hardware has them *)
Definition whole (g : regs) : Prop :=
  length (IOCON g) = 54%nat /\ Forall is_u32 (IOCON g) /\
  forall l, List.In l [DIR; DATA; IS; IBE; IEV; IE] -> length (l g) = 4%nat /\ Forall is_u32 (l g).

(** ** interrupts *)
Inductive trigger := LowLevel | HighLevel | Falling | Rising | BothEdges.
(** constants of digital_pin.h *)
Definition trigger_code (t : trigger) : Z := match t with LowLevel => 0x100 | HighLevel => 0x101 | Falling => 0 | Rising => 1 | BothEdges => 0x10 end.
Definition bit_of (l : regs -> list Z) (g : regs) (p : pin) : bool := Z.testbit (rd (l g) (port p)) (Z.of_nat (num p)).
(** what the registers make of it: IS set: levels; IBE set: both edges; IEV: which *)
Definition senses (g : regs) (p : pin) : trigger :=
  if bit_of IS g p then if bit_of IEV g p then HighLevel else LowLevel
  else if bit_of IBE g p then BothEdges else if bit_of IEV g p then Rising else Falling.
Definition armed (g : regs) (p : pin) : bool := bit_of IE g p.

(** ** levels *)
(** what the outside does at each pin *)
Definition outside := nat -> nat -> bool.
(** a pin used as digital output: low drives it low; high drives it high, or lets go if open drain. Otherwise the outside decides *)
Definition level (g : regs) (e : outside) (p : pin) : bool :=
  if output g p then if Z.testbit (rd (DATA g) (port p)) (Z.of_nat (num p)) then if open_drain g p then e (port p) (num p) else true else false else e (port p) (num p).
(** the levels of all pins of each port as the port registers show them *)
Definition shown (g : regs) (e : outside) (levels : list Z) : Prop := forall p, List.In p pins -> Z.testbit (rd levels (port p)) (Z.of_nat (num p)) = level g e p.

