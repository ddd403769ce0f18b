(** Clocks and life of the serial port (sblib/src/serial.cpp: begin, end, setRxPin, setTxPin, flush) and the clock of the I2C bus (sblib/src/i2c.cpp).
    The UART is abstracted to the registers the driver sets, its input FIFO, the holding register (THR) and the shift register; buffers are queues (their rings: Serial_Model).
    Builds without SERIAL_WRITE_DIRECT and IAP_EMULATION. *)
From Verif Require Export Base.
Open Scope Z_scope.

(** [sent]: bytes completely on the line; [shiftreg], [thr]: at most a byte each; [output], [input]: the buffers of the stream; [fifo]: received, not yet read from RBR *)
Record port := mkPort { enabled : bool; clocked : bool; irq : bool; prio : Z; lcr : Z; dlm : Z; dll : Z; fdr : Z; clkdiv : Z; rbrIrq : bool;
  sent : list Z; shiftreg : list Z; thr : list Z; output : list Z; input : list Z; fifo : list Z }.
(** serial.cpp:71-84: divisor and fractional divider; [clock], [ahbdiv]: SystemCoreClock, SYSAHBCLKDIV; UARTCLKDIV is 1; unsigned arithmetic of 32 bits; None: division by zero *)
Definition divisor (clock ahbdiv baudRate oldFdr : Z) : option (Z * Z) :=
  if u32 baudRate =? 0 then None
  else
    let val := u32 (clock * ahbdiv) / 1 / 16 / u32 baudRate in
    Some (if baudRate =? 460800 then (5, 0xa3) else if baudRate =? 576000 then (3, 0xfb) else (val, oldFdr)).
(** serial.cpp:98-100: what is in the FIFO is read and dropped *)
Fixpoint dropAll (l : list Z) : list Z := match l with [] => [] | _ :: l => dropAll l end.
(** serial.cpp:62-106; [arriving]: bytes which arrive while the port is set up (after the reset of the FIFO); registers DLM, DLL of 8 bits. FCR = 7 empties the FIFOs of the UART; flush() finds an empty buffer. Simplified: a byte left in the shift register is dropped as well *)
Definition begin (clock ahbdiv baudRate config : Z) (arriving : list Z) (p : port) : option port :=
  match divisor clock ahbdiv baudRate (fdr p) with
  | None => None
  | Some (val, f) => Some (mkPort true true true 3 config (u8 (val / 256)) (u8 (val mod 256)) f 1 true (sent p) [] [] [] [] (dropAll arriving))
  end.
(** the UART: the byte in the shift register is complete and the next one follows; then the interrupt handler (serial.cpp:204-217) refills THR. Without a clock nothing moves *)
Definition tick (p : port) : port :=
  if negb (clocked p) then p
  else
    mkPort (enabled p) (clocked p) (irq p) (prio p) (lcr p) (dlm p) (dll p) (fdr p) (clkdiv p) (rbrIrq p) (sent p ++ shiftreg p) (thr p)
      (if irq p then firstn 1 (output p) else []) (if irq p then skipn 1 (output p) else output p) (input p) (fifo p).
(** time passes: [n] bytes *)
Fixpoint ticks (n : nat) (p : port) : port := match n with O => p | S n => ticks n (tick p) end.
(** serial.cpp:159-172: waits while the output buffer is not empty *)
Fixpoint waitOutput (fuel : nat) (p : port) : option port :=
  match output p with
  | [] => Some p
  | _ => match fuel with O => None | S fuel => waitOutput fuel (tick p) end
  end.
(** serial.cpp:159-172; [fuel]: bytes to wait for at most, None: still waiting *)
Definition flush (fuel : nat) (p : port) : option port := if enabled p then waitOutput fuel p else Some p.
(** serial.cpp:108-114 *)
Definition endPort (fuel : nat) (p : port) : option port :=
  match flush fuel p with
  | None => None
  | Some p => Some (mkPort false false false (prio p) (lcr p) (dlm p) (dll p) (fdr p) (clkdiv p) (rbrIrq p) (sent p) (shiftreg p) (thr p) (output p) (input p) (fifo p))
  end.
(** serial.cpp:44-60: setRxPin and setTxPin alike; the pins themselves: Pin_Model *)
Definition setPin (fuel : nat) (p : port) : option port := if enabled p then endPort fuel p else Some p.
(** serial.h:180-187 *)
Definition begin8N1 (fuel : nat) (clock ahbdiv baudRate : Z) (arriving : list Z) (p : port) : option port :=
  match (if enabled p then endPort fuel p else Some p) with None => None | Some p => begin clock ahbdiv baudRate 0x03 arriving p end.
(** serial.cpp:116-157 as far as the queues are concerned, with room in the buffer: the byte is taken (1) or not (0); a byte in THR moves on at once if the shift register is free *)
Definition writeByte (ch : Z) (p : port) : port * Z :=
  let put s t o := mkPort (enabled p) (clocked p) (irq p) (prio p) (lcr p) (dlm p) (dll p) (fdr p) (clkdiv p) (rbrIrq p) (sent p) s t o (input p) (fifo p) in
  if negb (enabled p) then (p, 0)
  else
    match output p, thr p with
    | [], [] => (match shiftreg p with [] => put [ch] [] [] | s => put s [ch] [] end, 1)
    | o, t => (put (shiftreg p) t (o ++ [ch]), 1)
    end.
(** several calls of write *)
Fixpoint writeBytes (l : list Z) (p : port) : port := match l with [] => p | c :: l => writeBytes l (fst (writeByte c p)) end.

(** i2c.cpp:495-502: SCLH, SCLL (16 bits each, SCLH is read back); None: division by zero *)
Definition setClockRate (clock clockrate : Z) : option (Z * Z) :=
  if clockrate =? 0 then None
  else
    let SCLValue := clock / clockrate in
    let sclh := u16 (Z.shiftr SCLValue 1) in
    Some (sclh, u16 (u32 (SCLValue - sclh))).
(** i2c.cpp:505-508 *)
Definition getClockRate (clock : Z) (scl : Z * Z) : option Z := if fst scl + snd scl =? 0 then None else Some (clock / (fst scl + snd scl)).
