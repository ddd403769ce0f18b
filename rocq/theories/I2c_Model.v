(** The master side of the I2C driver (sblib/src/i2c.cpp, sblib/inc/sblib/i2c.h). Polling mode, which i2c_app_init selects (i2c.cpp:83-109); no slave set up (i2c.cpp:352-432 and 620-667 not modelled) *)
From Verif Require Export Base.

(** ** Environment: the other participants of the bus *)
(** answer to a byte that the master sends: acknowledged or not, arbitration lost, or a bus error *)
Inductive answer := Ack | Nak | Lost | Error.
(** a byte for the master, or trouble (never Ack or Nak) *)
Inductive input := Byte (b : Z) | Trouble (lost : bool).
(** what the others do; [S]: their state. [supply s ack]: the byte sent to the master, who acknowledges it or not *)
Record bus (S : Type) := mkBus { start : S -> S; select : S -> Z -> bool -> S * answer; accept : S -> Z -> S * answer; supply : S -> bool -> S * input; stop : S -> S }.
Arguments start {S}. Arguments select {S}. Arguments accept {S}. Arguments supply {S}. Arguments stop {S}.
(** what can be seen on the lines: START (also repeated), address with direction (true: read), a byte written, a byte read with the acknowledge of the master, STOP *)
Inductive ev := Start | Addr (a : Z) (read : bool) (o : answer) | Wr (b : Z) (o : answer) | Rd (b : Z) (ack : bool) | RdTrouble (ack lost : bool) | Stop.

(** ** The peripheral (i2c.h:62-79): the bits of the control register, status and data register *)
Record hw (S : Type) := mkHw { sta : bool; sto : bool; si : bool; aa : bool; i2en : bool; stat : Z; dat : Z; world : S; log : list ev }.
Arguments mkHw {S}. Arguments sta {S}. Arguments sto {S}. Arguments si {S}. Arguments aa {S}. Arguments i2en {S}. Arguments stat {S}. Arguments dat {S}. Arguments world {S}. Arguments log {S}.
(** i2c.h:66, 72: a one written to CONSET sets, to CONCLR clears a bit; bits 2 to 6 by i2c.h:117-121 *)
Definition CONSET {S} (h : hw S) (v : Z) : hw S := mkHw (sta h || Z.testbit v 5) (sto h || Z.testbit v 4) (si h || Z.testbit v 3) (aa h || Z.testbit v 2) (i2en h || Z.testbit v 6) (stat h) (dat h) (world h) (log h).
Definition CONCLR {S} (h : hw S) (v : Z) : hw S := mkHw (sta h && negb (Z.testbit v 5)) (sto h && negb (Z.testbit v 4)) (si h && negb (Z.testbit v 3)) (aa h && negb (Z.testbit v 2)) (i2en h && negb (Z.testbit v 6)) (stat h) (dat h) (world h) (log h).
(** a write to DAT *)
Definition DAT {S} (h : hw S) (v : Z) : hw S := mkHw (sta h) (sto h) (si h) (aa h) (i2en h) (stat h) v (world h) (log h).
(** the peripheral goes on to a new status with SI set *)
Definition state {S} (h : hw S) (code d : Z) (s : S) (e : list ev) : hw S := mkHw (sta h) (sto h) true (aa h) (i2en h) code d s (log h ++ e).
(** it rests *)
Definition rest {S} (h : hw S) (s : S) (e : list ev) : hw S := mkHw (sta h) false (si h) (aa h) (i2en h) 0xF8 (dat h) s (log h ++ e).
(** The next action of the peripheral in master mode, when SI is cleared; status codes of i2c.h:132-155 (the tables of the LPC11xx user manual, not part of the code). With SI set or the interface disabled it waits *)
Definition advance {S} (w : bus S) (h : hw S) : hw S :=
  if si h || negb (i2en h) then h
  else
    let begin := state h 0x08 (dat h) (start w (world h)) [Start] in
    let again := state h 0x10 (dat h) (start w (world h)) [Start] in
    let halt := rest h (stop w (world h)) [Stop] in
    let send (acked refused : Z) (r : S * answer) (e : answer -> ev) :=
      match snd r with
      | Ack => state h acked (dat h) (fst r) [e Ack]
      | Nak => state h refused (dat h) (fst r) [e Nak]
      | Lost => state h 0x38 (dat h) (fst r) [e Lost]
      | Error => state h 0x00 (dat h) (fst r) [e Error]
      end in
    let receive := let r := supply w (world h) (aa h) in
      match snd r with
      | Byte b => state h (if aa h then 0x50 else 0x58) (u8 b) (fst r) [Rd (u8 b) (aa h)]
      | Trouble l => state h (if l then 0x38 else 0x00) (dat h) (fst r) [RdTrouble (aa h) l]
      end in
    let c := stat h in
    if (c =? 0xF8) || (c =? 0x38) then if sta h then begin else rest h (world h) []
    else if (c =? 0x08) || (c =? 0x10) then
      let a := Z.shiftr (dat h) 1 in let read := Z.testbit (dat h) 0 in
      if read then send 0x40 0x48 (select w (world h) a true) (Addr a true) else send 0x18 0x20 (select w (world h) a false) (Addr a false)
    else if c =? 0x00 then rest h (world h) []
    else if sto h then halt
    else if (c =? 0x18) || (c =? 0x20) || (c =? 0x28) || (c =? 0x30) then
      if sta h then again else send 0x28 0x30 (accept w (world h) (dat h)) (Wr (dat h))
    else if (c =? 0x40) || (c =? 0x50) then receive
    else if sta h then again else h.

(** ** Driver *)
(** i2c.h:269-275 I2C_STATUS_T *)
Inductive status := DONE | NAK | ARBLOST | BUSERR | BUSY.
(** i2c.h:280-289 I2C_XFER_T. [txBuff]: the bytes from the pointer on; [rxBuff]: the bytes stored so far, [room]: the bytes left in the caller's buffer *)
Record xfer := mkXfer { slaveAddr : Z; txBuff : list Z; txSz : Z; rxBuff : list Z; room : nat; rxSz : Z; xstatus : status }.
Definition setStatus (x : xfer) (s : status) : xfer := mkXfer (slaveAddr x) (txBuff x) (txSz x) (rxBuff x) (room x) (rxSz x) s.
(** result of a call: Fault: access outside the buffers; Hang: the call does not come back (within the given fuel) *)
Inductive res (A : Type) := Done (a : A) | Fault | Hang.
Arguments Done {A}. Arguments Fault {A}. Arguments Hang {A}.
(** i2c.h:117-121, i2c.cpp:146 *)
Definition I2C_CON_AA : Z := 4.
Definition I2C_CON_SI : Z := 8.
Definition I2C_CON_STO : Z := 16.
Definition I2C_CON_STA : Z := 32.
Definition I2C_CON_I2EN : Z := 64.
Definition I2C_CON_FLAGS : Z := 0x3C.
(** i2c.cpp:203-210 startMasterXfer *)
Definition startMasterXfer {S} (h : hw S) : hw S := CONSET (CONCLR h (Z.lor I2C_CON_SI (Z.lor I2C_CON_STO (Z.lor I2C_CON_STA I2C_CON_AA)))) (Z.lor I2C_CON_I2EN I2C_CON_STA).
(** cclr &= ~bit *)
Definition drop (cclr bit : Z) : Z := Z.land cclr (Z.lnot bit).
(** i2c.cpp:312-313: a byte of DAT to the buffer *)
Definition store {S} (h : hw S) (x : xfer) : option xfer :=
  match room x with
  | O => None
  | Datatypes.S n => Some (mkXfer (slaveAddr x) (txBuff x) (txSz x) (rxBuff x ++ [dat h]) n (rxSz x - 1) (xstatus x))
  end.
(** i2c.cpp:339-350: the flags written and the end of a transfer; true: goes on *)
Definition finish {S} (h : hw S) (x : xfer) (cclr : Z) : res (hw S * xfer * bool) :=
  let h := CONCLR (CONSET h (Z.lxor cclr I2C_CON_FLAGS)) cclr in
  if (Z.land cclr I2C_CON_STO =? 0) || match xstatus x with ARBLOST => true | _ => false end then
    Done (h, match xstatus x with BUSY => setStatus x DONE | _ => x end, false)
  else Done (h, x, true).
(** i2c.cpp:285-351 handleMasterXferState *)
Definition handleMasterXferState {S} (h : hw S) (x : xfer) : res (hw S * xfer * bool) :=
  let cclr := I2C_CON_FLAGS in
  let c := Z.land (stat h) 0xF8 in
  let more (x : xfer) (cclr : Z) := finish h x (if 1 <? rxSz x then drop cclr I2C_CON_AA else cclr) in
  if (c =? 0x08) || (c =? 0x10) then finish (DAT h (u8 (Z.lor (Z.shiftl (slaveAddr x) 1) (if txSz x =? 0 then 1 else 0)))) x cclr
  else if (c =? 0x18) || (c =? 0x28) then
    if txSz x =? 0 then finish h x (drop cclr (if negb (rxSz x =? 0) then I2C_CON_STA else I2C_CON_STO))
    else match txBuff x with
         | [] => Fault
         | b :: r => finish (DAT h b) (mkXfer (slaveAddr x) r (txSz x - 1) (rxBuff x) (room x) (rxSz x) (xstatus x)) cclr
         end
  else if c =? 0x58 then match store h x with None => Fault | Some x => more x (drop cclr I2C_CON_STO) end
  else if c =? 0x50 then match store h x with None => Fault | Some x => more x cclr end
  else if c =? 0x40 then more x cclr
  else if (c =? 0x20) || (c =? 0x30) || (c =? 0x48) then finish h (setStatus x NAK) (drop cclr I2C_CON_STO)
  else if c =? 0x38 then finish h (setStatus x ARBLOST) cclr
  else if c =? 0x00 then finish h (setStatus x BUSERR) (drop cclr I2C_CON_STO)
  else finish h x cclr.
(** i2c.cpp:453-470 Chip_I2C_EventHandlerPolling, event WAIT (with i2c.cpp:613-618 Chip_I2C_MasterStateHandler, whose DONE event does nothing here); between two looks at the status register the peripheral does one action *)
Fixpoint polling {S} (w : bus S) (fuel : nat) (h : hw S) (x : xfer) : res (hw S * xfer) :=
  match xstatus x with
  | BUSY =>
      match fuel with
      | O => Hang
      | Datatypes.S n =>
          let h := advance w h in
          if si h then match handleMasterXferState h x with Done (h, x, _) => polling w n h x | Fault => Fault | Hang => Hang end
          else polling w n h x
      end
  | _ => Done (h, x)
  end.
(** i2c.cpp:527-552 Chip_I2C_MasterTransfer; the wait for the STOP (i2c.cpp:543) is one action of the peripheral. The fuel covers the bytes, two addresses and two STARTs (C98_transfer shows that it is enough) *)
Definition MasterTransfer {S} (w : bus S) (h : hw S) (x : xfer) : res (hw S * xfer) :=
  match polling w (Z.to_nat (txSz x) + Z.to_nat (rxSz x) + 6) (startMasterXfer h) (setStatus x BUSY) with
  | Done (h, x) => let h := if sto h then advance w h else h in if sto h then Hang else Done (h, x)
  | Fault => Fault
  | Hang => Hang
  end.
(** i2c.cpp:561, 576, 591, 602: while (Chip_I2C_MasterTransfer(id, &xfer) == I2C_STATUS_ARBLOST) {}; at most [n] times *)
Fixpoint untilWon {S} (w : bus S) (n : nat) (h : hw S) (x : xfer) : res (hw S * xfer) :=
  match n with
  | O => Hang
  | Datatypes.S m =>
      match MasterTransfer w h x with
      | Done (h, x) => match xstatus x with ARBLOST => untilWon w m h x | _ => Done (h, x) end
      | Fault => Fault
      | Hang => Hang
      end
  end.
(** i2c.cpp:555-563 Chip_I2C_MasterSend *)
Definition MasterSend {S} (w : bus S) (n : nat) (h : hw S) (a : Z) (buff : list Z) (len : Z) : res (hw S * Z) :=
  match untilWon w n h (mkXfer a buff len [] 0 0 DONE) with Done (h, x) => Done (h, len - txSz x) | Fault => Fault | Hang => Hang end.
(** i2c.cpp:583-593 Chip_I2C_MasterWriteRead; the result with the bytes stored *)
Definition MasterWriteRead {S} (w : bus S) (n : nat) (h : hw S) (a : Z) (cmd : list Z) (size : nat) (txlen rxlen : Z) : res (hw S * Z * list Z) :=
  match untilWon w n h (mkXfer a cmd txlen [] size rxlen DONE) with Done (h, x) => Done (h, rxlen - rxSz x, rxBuff x) | Fault => Fault | Hang => Hang end.
(** i2c.cpp:568-578 Chip_I2C_MasterCmdRead *)
Definition MasterCmdRead {S} (w : bus S) (n : nat) (h : hw S) (a cmd : Z) (size : nat) (len : Z) : res (hw S * Z * list Z) := MasterWriteRead w n h a [cmd] size 1 len.
(** i2c.cpp:596-604 Chip_I2C_MasterRead *)
Definition MasterRead {S} (w : bus S) (n : nat) (h : hw S) (a : Z) (size : nat) (len : Z) : res (hw S * Z * list Z) := MasterWriteRead w n h a [] size 0 len.
