(** Digital pins of the LPC11xx: sblib/inc/sblib/ioports.h, sblib/src/ioports.cpp, sblib/inc/sblib/digital_pin.h, sblib/src/lpc11xx/digital_pin.cpp, digital_pin_port.cpp, platform.cpp.
    The registers are those of test/sblib/cpu-emu/LPC11xx.h (the CMSIS header itself is not in the repository). Each register access is one step; interrupts between reading and writing a register are not modelled. *)
From Verif Require Export Base.

(** LPC11xx.h:314-332 and 206-267: the registers, for each of the four ports; IOCON: the 54 words of LPC_IOCON_TypeDef. DATA: the output latch. RIS, MIS, IC: not modelled *)
Record regs := { DATA : list Z; DIR : list Z; IS : list Z; IBE : list Z; IEV : list Z; IE : list Z; IOCON : list Z }.
(** no code: assignments to one register (all 32 bits wide) *)
Definition setDATA (r : regs) (p : nat) (v : Z) : regs := {| DATA := wr (DATA r) p (u32 v); DIR := DIR r; IS := IS r; IBE := IBE r; IEV := IEV r; IE := IE r; IOCON := IOCON r |}.
Definition setDIR (r : regs) (p : nat) (v : Z) : regs := {| DATA := DATA r; DIR := wr (DIR r) p (u32 v); IS := IS r; IBE := IBE r; IEV := IEV r; IE := IE r; IOCON := IOCON r |}.
Definition setIS (r : regs) (p : nat) (v : Z) : regs := {| DATA := DATA r; DIR := DIR r; IS := wr (IS r) p (u32 v); IBE := IBE r; IEV := IEV r; IE := IE r; IOCON := IOCON r |}.
Definition setIBE (r : regs) (p : nat) (v : Z) : regs := {| DATA := DATA r; DIR := DIR r; IS := IS r; IBE := wr (IBE r) p (u32 v); IEV := IEV r; IE := IE r; IOCON := IOCON r |}.
Definition setIEV (r : regs) (p : nat) (v : Z) : regs := {| DATA := DATA r; DIR := DIR r; IS := IS r; IBE := IBE r; IEV := wr (IEV r) p (u32 v); IE := IE r; IOCON := IOCON r |}.
Definition setIE (r : regs) (p : nat) (v : Z) : regs := {| DATA := DATA r; DIR := DIR r; IS := IS r; IBE := IBE r; IEV := IEV r; IE := wr (IE r) p (u32 v); IOCON := IOCON r |}.
Definition setIOCON (r : regs) (w : nat) (v : Z) : regs := {| DATA := DATA r; DIR := DIR r; IS := IS r; IBE := IBE r; IEV := IEV r; IE := IE r; IOCON := wr (IOCON r) w (u32 v) |}.
(** what a call comes to: it returns, it ends in fatalError() (utils.cpp:37-48, never returns), or it reads a table outside its bounds *)
Inductive call := Back (r : regs) | Fatal | Undefined.

(** ioports.h:35-43 *)
Definition PF_NONE : Z := 0.
Definition PF_PIO : Z := 1.
Definition PF_AD : Z := 2.
Definition PF_RESET : Z := 3.
Definition PF_SWDIO : Z := 4.
Definition PF_SWCLK : Z := 5.
Definition PF_MAT : Z := 6.
Definition PF_CAP : Z := 7.
Definition PF_CLKOUT : Z := 8.
Definition PF_SDA : Z := 9.
Definition PF_SCL : Z := 10.
Definition PF_SSEL : Z := 11.
Definition PF_MISO : Z := 12.
Definition PF_MOSI : Z := 13.
Definition PF_SCK : Z := 14.
Definition PF_RXD : Z := 15.
Definition PF_TXD : Z := 16.
Definition PF_RTS : Z := 17.
Definition PF_DTR : Z := 18.
Definition PF_DSR : Z := 19.
Definition PF_CTS : Z := 20.
Definition PF_DCD : Z := 21.
Definition PF_RI : Z := 22.
Definition PF_USBP : Z := 23.
Definition PF_USB_M : Z := 24.
Definition PF_USB_VBUS : Z := 25.
Definition PF_USB_CONNECT : Z := 26.
Definition PF_USB_FTOGGLE : Z := 27.
Definition PF_ARM_TRACE_CLK : Z := 28.
Definition PF_ARM_TRACE_SWV : Z := 29.
Definition PF_SCLK : Z := 30.
(** ioports.h:57-67 *)
Definition PFL_ADMODE : Z := 0x100.
Definition PFF_SHIFT_OFFSET : Z := 5.
Definition PFF_MASK : Z := Z.shiftl 1 PFF_SHIFT_OFFSET - 1.
Definition PF0_SHIFT : Z := 9.
Definition PF1_SHIFT : Z := PF0_SHIFT + PFF_SHIFT_OFFSET.
Definition PF2_SHIFT : Z := PF1_SHIFT + PFF_SHIFT_OFFSET.
Definition PF3_SHIFT : Z := PF2_SHIFT + PFF_SHIFT_OFFSET.
(** ioports.h:69-72 *)
Definition FUNC0 (x : Z) : Z := Z.shiftl x PF0_SHIFT.
Definition FUNC1 (x : Z) : Z := Z.shiftl x PF1_SHIFT.
Definition FUNC2 (x : Z) : Z := Z.shiftl x PF2_SHIFT.
Definition FUNC3 (x : Z) : Z := Z.shiftl x PF3_SHIFT.
(** no code: [|] *)
Local Infix "or" := Z.lor (at level 50, left associativity).
(** ioports.h:90-220 *)
Definition PIO0_0 : Z := 0x00 or FUNC0 PF_RESET or FUNC1 PF_PIO.
Definition PIO0_1 : Z := 0x01 or FUNC0 PF_PIO or FUNC1 PF_CLKOUT or FUNC2 PF_MAT.
Definition PIO0_2 : Z := 0x02 or FUNC0 PF_PIO or FUNC1 PF_SSEL or FUNC2 PF_CAP.
Definition PIO0_3 : Z := 0x03 or FUNC0 PF_PIO.
Definition PIO0_4 : Z := 0x04 or FUNC0 PF_PIO or FUNC1 PF_SCL.
Definition PIO0_5 : Z := 0x05 or FUNC0 PF_PIO or FUNC1 PF_SDA.
Definition PIO0_6 : Z := 0x06 or FUNC0 PF_PIO or FUNC1 PF_NONE or FUNC2 PF_SCK.
Definition PIO0_7 : Z := 0x07 or FUNC0 PF_PIO or FUNC1 PF_CTS.
Definition PIO0_8 : Z := 0x08 or FUNC0 PF_PIO or FUNC1 PF_MISO or FUNC2 PF_MAT.
Definition PIO0_9 : Z := 0x09 or FUNC0 PF_PIO or FUNC1 PF_MOSI or FUNC2 PF_MAT.
Definition PIO0_10 : Z := 0x0a or FUNC0 PF_SWCLK or FUNC1 PF_PIO or FUNC2 PF_SCK or FUNC3 PF_MAT.
Definition PIO0_11 : Z := 0x0b or FUNC0 PF_NONE or FUNC1 PF_PIO or FUNC2 PF_AD or FUNC3 PF_MAT or PFL_ADMODE.
Definition PIO1_0 : Z := 0x20 or FUNC0 PF_NONE or FUNC1 PF_PIO or FUNC2 PF_AD or FUNC3 PF_CAP or PFL_ADMODE.
Definition PIO1_1 : Z := 0x21 or FUNC0 PF_NONE or FUNC1 PF_PIO or FUNC2 PF_AD or FUNC3 PF_MAT or PFL_ADMODE.
Definition PIO1_2 : Z := 0x22 or FUNC0 PF_NONE or FUNC1 PF_PIO or FUNC2 PF_AD or FUNC3 PF_MAT or PFL_ADMODE.
Definition PIO1_3 : Z := 0x23 or FUNC0 PF_SWDIO or FUNC1 PF_PIO or FUNC2 PF_AD or FUNC3 PF_MAT or PFL_ADMODE.
Definition PIO1_4 : Z := 0x24 or FUNC0 PF_PIO or FUNC1 PF_AD or FUNC2 PF_MAT or PFL_ADMODE.
Definition PIO1_5 : Z := 0x25 or FUNC0 PF_PIO or FUNC1 PF_RTS or FUNC2 PF_CAP.
Definition PIO1_6 : Z := 0x26 or FUNC0 PF_PIO or FUNC1 PF_RXD or FUNC2 PF_MAT.
Definition PIO1_7 : Z := 0x27 or FUNC0 PF_PIO or FUNC1 PF_TXD or FUNC2 PF_MAT.
Definition PIO1_8 : Z := 0x28 or FUNC0 PF_PIO or FUNC1 PF_CAP.
Definition PIO1_9 : Z := 0x29 or FUNC0 PF_PIO or FUNC1 PF_MAT or FUNC2 PF_MOSI.
Definition PIO1_10 : Z := 0x2a or FUNC0 PF_PIO or FUNC1 PF_AD or FUNC2 PF_MAT or FUNC3 PF_MISO or PFL_ADMODE.
Definition PIO1_11 : Z := 0x2b or FUNC0 PF_PIO or FUNC1 PF_AD or FUNC2 PF_CAP or PFL_ADMODE.
Definition PIO2_0 : Z := 0x40 or FUNC0 PF_PIO or FUNC1 PF_DTR or FUNC2 PF_SSEL.
Definition PIO2_1 : Z := 0x41 or FUNC0 PF_PIO or FUNC1 PF_DSR or FUNC2 PF_SCK.
Definition PIO2_2 : Z := 0x42 or FUNC0 PF_PIO or FUNC1 PF_DCD or FUNC2 PF_MISO.
Definition PIO2_3 : Z := 0x43 or FUNC0 PF_PIO or FUNC1 PF_RI or FUNC2 PF_MOSI.
Definition PIO2_4 : Z := 0x44 or FUNC0 PF_PIO or FUNC1 PF_MAT or FUNC2 PF_SSEL.
Definition PIO2_5 : Z := 0x45 or FUNC0 PF_PIO or FUNC1 PF_MAT.
Definition PIO2_6 : Z := 0x46 or FUNC0 PF_PIO or FUNC1 PF_MAT.
Definition PIO2_7 : Z := 0x47 or FUNC0 PF_PIO or FUNC1 PF_MAT or FUNC2 PF_RXD.
Definition PIO2_8 : Z := 0x48 or FUNC0 PF_PIO or FUNC1 PF_MAT or FUNC2 PF_TXD.
Definition PIO2_9 : Z := 0x49 or FUNC0 PF_PIO or FUNC1 PF_CAP.
Definition PIO2_10 : Z := 0x4a or FUNC0 PF_PIO.
Definition PIO2_11 : Z := 0x4b or FUNC0 PF_PIO or FUNC1 PF_SCK or FUNC2 PF_CAP.
Definition PIO3_0 : Z := 0x60 or FUNC0 PF_PIO or FUNC1 PF_DTR or FUNC2 PF_MAT or FUNC3 PF_TXD.
Definition PIO3_1 : Z := 0x61 or FUNC0 PF_PIO or FUNC1 PF_DSR or FUNC2 PF_MAT or FUNC3 PF_RXD.
Definition PIO3_2 : Z := 0x62 or FUNC0 PF_PIO or FUNC1 PF_DCD or FUNC2 PF_MAT or FUNC3 PF_SCK.
Definition PIO3_3 : Z := 0x63 or FUNC0 PF_PIO or FUNC1 PF_RI or FUNC2 PF_CAP.
Definition PIO3_4 : Z := 0x64 or FUNC0 PF_PIO or FUNC1 PF_CAP or FUNC2 PF_RXD.
Definition PIO3_5 : Z := 0x65 or FUNC0 PF_PIO or FUNC1 PF_CAP or FUNC2 PF_TXD.
(** LPC11xx.h:206-267: places in LPC_IOCON_TypeDef, in words *)
Definition SSEL1_LOC : nat := 6.
Definition SCK_LOC : nat := 44.
Definition CT16B0_CAP0_LOC : nat := 48.
Definition SCK1_LOC : nat := 49.
Definition MISO1_LOC : nat := 50.
Definition MOSI1_LOC : nat := 51.
Definition CT32B0_CAP0_LOC : nat := 52.
Definition RXD_LOC : nat := 53.
(** platform.cpp:22-75, with the offsets of LPC11xx.h:206-267. The last row is shorter; the rest of an array is 0 *)
Definition ioconOffsets : list (list nat) :=
  [ [3; 4; 7; 11; 12; 13; 19; 20; 24; 25; 26; 29];
    [30; 31; 32; 36; 37; 40; 41; 42; 5; 14; 27; 38];
    [2; 10; 23; 35; 16; 17; 0; 8; 9; 21; 22; 28];
    [33; 34; 39; 43; 15; 18; 0; 0; 0; 0; 0; 0] ]%nat.
(** digital_pin.h:150-166 *)
Definition digitalPinToPort (pin : Z) : nat := Z.to_nat (Z.land (Z.shiftr pin 5) 3).
Definition digitalPinToPinNum (pin : Z) : Z := Z.land pin 31.
Definition digitalPinToBitMask (pin : Z) : Z := Z.shiftl 1 (Z.land pin 31).
(** platform.cpp:83-87 (None: outside the table) *)
Definition ioconOf (port : nat) (pinNum : Z) : option nat :=
  if (Z.to_nat pinNum <? 12)%nat && (port <? 4)%nat then Some (nth (Z.to_nat pinNum) (nth port ioconOffsets []) O) else None.
(** platform.cpp:77-81 *)
Definition ioconPointer (pin : Z) : option nat := ioconOf (digitalPinToPort pin) (digitalPinToPinNum pin).
(** ioports.cpp:23-29: the loop, [k] passes left *)
Fixpoint functionLoop (k : nat) (funcNumber pin func : Z) : Z :=
  match k with
  | O => -1
  | S k' => if Z.land pin PFF_MASK =? func then funcNumber else functionLoop k' (funcNumber + 1) (Z.shiftr pin PFF_SHIFT_OFFSET) func
  end.
(** ioports.cpp:19-32 *)
Definition getPinFunctionNumber (pin func : Z) : Z := functionLoop 4 0 (Z.shiftr pin PF0_SHIFT) func.
(** digital_pin.h:172-299 *)
Definition INPUT : Z := 0x1000.
Definition INPUT_CAPTURE : Z := 0x2000.
Definition INPUT_ANALOG : Z := 0x3000.
Definition OUTPUT : Z := 0x6000.
Definition OUTPUT_MATCH : Z := 0x7000.
(** digital_pin.cpp:17 *)
Definition rxPinLocation : list Z := [PIO1_6; PIO2_7; PIO3_1; PIO3_4].
(** digital_pin.cpp:21-31, from the idx-th entry on (None: fatalError) *)
Fixpoint pinLocation (pin : Z) (arr : list Z) (idx : Z) : option Z :=
  match arr with
  | [] => None
  | a :: r => if a =? pin then Some idx else pinLocation pin r (idx + 1)
  end.
(** digital_pin.cpp:35-80: the direction and, for inputs, the place of the signal. The registers and the function *)
Definition pinModeDir (r : regs) (pin type func : Z) : option (regs * Z) :=
  let port := digitalPinToPort pin in
  let mask := u16 (digitalPinToBitMask pin) in
  if (type =? OUTPUT) || (type =? OUTPUT_MATCH) then
    Some (setDIR r port (Z.lor (rd (DIR r) port) mask), if type =? OUTPUT_MATCH then PF_MAT else func)
  else
    let r := setDIR r port (Z.land (rd (DIR r) port) (Z.lnot mask)) in
    if type =? INPUT_CAPTURE then
      Some (if pin =? PIO0_2 then setIOCON r CT16B0_CAP0_LOC 0
            else if pin =? PIO3_3 then setIOCON r CT16B0_CAP0_LOC 1
            else if pin =? PIO1_5 then setIOCON r CT32B0_CAP0_LOC 0
            else if pin =? PIO2_9 then setIOCON r CT32B0_CAP0_LOC 1
            else r, PF_CAP)
    else if type =? INPUT_ANALOG then Some (r, PF_AD)
    else if func =? PF_RXD then
      match pinLocation pin rxPinLocation 0 with
      | Some l => Some (setIOCON r RXD_LOC l, func)
      | None => None
      end
    else Some (r, func).
(** digital_pin.cpp:82-119: the place of SPI signals *)
Definition pinModeSpi (r : regs) (pin func : Z) : regs :=
  if func =? PF_MISO then
    if pin =? PIO2_2 then setIOCON r MISO1_LOC 0 else if pin =? PIO1_10 then setIOCON r MISO1_LOC 1 else r
  else if func =? PF_MOSI then
    if pin =? PIO2_3 then setIOCON r MOSI1_LOC 0 else if pin =? PIO1_9 then setIOCON r MOSI1_LOC 1 else r
  else if func =? PF_SCK then
    if pin =? PIO0_10 then setIOCON r SCK_LOC 0 else if pin =? PIO2_11 then setIOCON r SCK_LOC 1
    else if pin =? PIO0_6 then setIOCON r SCK_LOC 2 else if pin =? PIO2_1 then setIOCON r SCK1_LOC 0
    else if pin =? PIO3_2 then setIOCON r SCK1_LOC 1 else r
  else if func =? PF_SSEL then
    if pin =? PIO2_2 then setIOCON r SSEL1_LOC 0 else if pin =? PIO2_4 then setIOCON r SSEL1_LOC 1 else r
  else r.
(** digital_pin.cpp:33-129; [func] is never 0 at the test in line 121 *)
Definition pinMode (r : regs) (pin mode : Z) : call :=
  let type := Z.land mode 0xf000 in
  let iocon := Z.land mode 0xfff in
  let func := Z.land (Z.shiftr mode 18) 31 in
  let func := if func =? 0 then PF_PIO else func in
  match pinModeDir r pin type func with
  | None => Fatal
  | Some (r, func) =>
      let r := pinModeSpi r pin func in
      let iocon := if negb (Z.land pin PFL_ADMODE =? 0) && negb (func =? PF_AD) then Z.lor iocon 0x80 else iocon in
      let funcNum := getPinFunctionNumber pin func in
      if 0 <=? funcNum then
        match ioconPointer pin with
        | Some w => Back (setIOCON r w (Z.lor iocon funcNum))
        | None => Undefined
        end
      else Fatal
  end.
(** digital_pin.cpp:131-139 *)
Definition pinDirection (r : regs) (pin dir : Z) : regs :=
  let port := digitalPinToPort pin in
  let mask := u16 (digitalPinToBitMask pin) in
  if dir =? OUTPUT then setDIR r port (Z.lor (rd (DIR r) port) mask) else setDIR r port (Z.land (rd (DIR r) port) (Z.lnot mask)).
(** no code: [reg |= mask] if the flag is set, else [reg &= ~mask] *)
Definition flagged (on : bool) (old mask : Z) : Z := if on then Z.lor old mask else Z.land old (Z.lnot mask).
(** digital_pin.cpp:141-164 *)
Definition pinInterruptMode (r : regs) (pin mode : Z) : call :=
  let port := digitalPinToPort pin in
  let mask := u16 (digitalPinToBitMask pin) in
  match pinMode r pin INPUT with
  | Back r =>
      let r := setIS r port (flagged (negb (Z.land mode 0x0100 =? 0)) (rd (IS r) port) mask) in
      let r := setIBE r port (flagged (negb (Z.land mode 0x0010 =? 0)) (rd (IBE r) port) mask) in
      let r := setIEV r port (flagged (negb (Z.land mode 0x0001 =? 0)) (rd (IEV r) port) mask) in
      Back (setIE r port (flagged (negb (Z.land mode 0x1000 =? 0)) (rd (IE r) port) mask))
  | c => c
  end.
(** digital_pin.h:349-355 *)
Definition pinEnableInterrupt (r : regs) (pin : Z) : regs := let port := digitalPinToPort pin in setIE r port (Z.lor (rd (IE r) port) (u16 (digitalPinToBitMask pin))).
(** digital_pin.h:357-364 *)
Definition pinDisableInterrupt (r : regs) (pin : Z) : regs := let port := digitalPinToPort pin in setIE r port (Z.land (rd (IE r) port) (Z.lnot (u16 (digitalPinToBitMask pin)))).
(** LPC11xx.h:317: a write to MASKED_ACCESS[mask] changes the bits of [mask] only, the index is 0..4095 (LPC11xx manual, GPIOnDATA) *)
Definition maskedWrite (r : regs) (port : nat) (mask v : Z) : regs := setDATA r port (Z.lor (Z.land (rd (DATA r) port) (Z.lnot mask)) (Z.land v mask)).
(** digital_pin.h:338-342 *)
Definition digitalWrite (r : regs) (pin : Z) (value : bool) : regs :=
  let mask := digitalPinToBitMask pin in maskedWrite r (digitalPinToPort pin) mask (if value then mask else 0).
(** digital_pin.h:344-347; [levels]: the levels of the pins of each port at the moment of the access; reading MASKED_ACCESS[mask] gives those of [mask] *)
Definition digitalRead (levels : list Z) (pin : Z) : bool := negb (Z.land (rd levels (digitalPinToPort pin)) (digitalPinToBitMask pin) =? 0).
(** digital_pin_port.cpp:35-39: the loop from pin [pinNum] on; a negative mask never becomes 0 and soon leaves the table, so 32 passes suffice ([k]: passes left) *)
Fixpoint portLoop (k : nat) (r : regs) (portNum : nat) (pinNum pinMask iocon : Z) : call :=
  if pinMask =? 0 then Back r
  else match k with
       | O => Undefined
       | S k' =>
           if Z.odd pinMask then
             match ioconOf portNum pinNum with
             | Some w => portLoop k' (setIOCON r w iocon) portNum (pinNum + 1) (Z.shiftr pinMask 1) iocon
             | None => Undefined
             end
           else portLoop k' r portNum (pinNum + 1) (Z.shiftr pinMask 1) iocon
       end.
(** digital_pin_port.cpp:17-40; the function computed there is not used *)
Definition portMode (r : regs) (portNum : nat) (pinMask mode : Z) : call :=
  let type := Z.land mode 0xf000 in
  let iocon := Z.land mode 0xfff in
  let r := if (type =? OUTPUT) || (type =? OUTPUT_MATCH) then setDIR r portNum (Z.lor (rd (DIR r) portNum) pinMask) else setDIR r portNum (Z.land (rd (DIR r) portNum) (Z.lnot pinMask)) in
  portLoop 32 r portNum 0 pinMask iocon.
(** digital_pin_port.cpp:42-49 *)
Definition portDirection (r : regs) (portNum : nat) (pinMask dir : Z) : regs :=
  if dir =? OUTPUT then setDIR r portNum (Z.lor (rd (DIR r) portNum) pinMask) else setDIR r portNum (Z.land (rd (DIR r) portNum) (Z.lnot pinMask)).
