(** The slave side of the I2C driver: sblib/src/i2c.cpp:70-79, 212-282, 352-432, 620-667. No transfer as master meanwhile (mXfer is 0).
    The handler of the I2C interrupt is called at each change of state (by the interrupt, which the application enables, or because it polls). Control register and transfer structure as in I2c_Model. *)
From Verif Require Export Base I2c_Model.
Open Scope Z_scope.

(** ** Environment: the peripheral as a slave (tables of the LPC11xx user manual, not part of the code) *)
(** how it takes part in the transfer on the bus: not at all, receiving (gc: general call), sending *)
Inductive role := Away | Listening (gc : bool) | Talking.
(** i2c.h:69-79: ADR0 to ADR3 and MASK[0..3] *)
Record own := mkOwn { ADR : nat -> Z; MASK : nat -> Z; part : role }.
(** The address byte [b] is one of register n: all of the bits 1 to 7 that are not masked agree *)
Definition answers (o : own) (n : nat) (b : Z) : bool := forallb (fun i => Z.testbit (MASK o n) i || Bool.eqb (Z.testbit (ADR o n) i) (Z.testbit b i)) [1; 2; 3; 4; 5; 6; 7].
(** what another master does: START (or repeated START) and an address byte, a byte sent, a byte read and acknowledged or not, STOP, a START or STOP in the middle of a byte *)
Inductive act := Call (b : Z) | Send (b : Z) | Fetch (ack : bool) | Finish | Broken.
(** what it sees: whether a byte was acknowledged, or the byte read *)
Inductive seen := Acked (a : bool) | Got (b : Z) | Nothing.
Definition becomes (h : hw own) (r : role) (code d : Z) : hw own := mkHw (sta h) (sto h) true (aa h) (i2en h) code d (mkOwn (ADR (world h)) (MASK (world h)) r) (log h).
Definition leaves (h : hw own) : hw own := mkHw (sta h) (sto h) (si h) (aa h) (i2en h) 0xF8 (dat h) (mkOwn (ADR (world h)) (MASK (world h)) Away) (log h).
(** an address byte; nobody answers the START byte 1 *)
Definition addressed (h : hw own) (b : Z) : hw own * seen :=
  let o := world h in
  if negb (i2en h && aa h) then (leaves h, Acked false)
  else if b =? 0 then if existsb (fun n => Z.testbit (ADR o n) 0) [0; 1; 2; 3]%nat then (becomes h (Listening true) 0x70 b, Acked true) else (leaves h, Acked false)
  else if negb (b =? 1) && existsb (fun n => answers o n b) [0; 1; 2; 3]%nat then (if Z.testbit b 0 then becomes h Talking 0xA8 b else becomes h (Listening false) 0x60 b, Acked true)
  else (leaves h, Acked false).
(** the end of a transfer, by a STOP or a repeated START *)
Definition ended (h : hw own) : hw own := match part (world h) with Away => h | _ => becomes h Away 0xA0 (dat h) end.
Definition sent (h : hw own) (b : Z) : hw own * seen :=
  match part (world h) with
  | Listening gc => if aa h then (becomes h (Listening gc) (if gc then 0x90 else 0x80) b, Acked true) else (becomes h Away (if gc then 0x98 else 0x88) b, Acked false)
  | _ => (h, Acked false)
  end.
Definition fetched (h : hw own) (ack : bool) : hw own * seen :=
  match part (world h) with
  | Talking => ((if negb ack then becomes h Away 0xC0 (dat h) else if aa h then becomes h Talking 0xB8 (dat h) else becomes h Away 0xC8 (dat h)), Got (dat h))
  | _ => (h, Got 0xff)
  end.

(** ** Driver *)
(** i2c.h:308-314, 86-89 *)
Definition I2C_EVENT_DONE : Z := 2.
Definition RET_SLAVE_TX : Z := 6.
Definition RET_SLAVE_RX : Z := 5.
Definition RET_SLAVE_IDLE : Z := 2.
Definition RET_SLAVE_BUSY : Z := 0.
(** i2c.cpp:241-253; [sid]: 1 to 4 for I2C_SLAVE_0 to I2C_SLAVE_3 *)
Definition setSlaveAddr (h : hw own) (sid : nat) (addr mask : Z) : hw own :=
  let index := (sid - 1)%nat in
  let o := world h in
  mkHw (sta h) (sto h) (si h) (aa h) (i2en h) (stat h) (dat h) (mkOwn (fun n => if Nat.eqb n index then addr else ADR o n) (fun n => if Nat.eqb n index then mask else MASK o n) (part o)) (log h).
(** i2c.cpp:255-259; uint8_t *)
Definition isSlaveAddrMatching (addr1 addr2 mask : Z) : bool := let mask := Z.lor mask 1 in Z.land (u8 addr1) (Z.lnot (u8 mask)) =? Z.land (u8 addr2) (Z.lnot (u8 mask)).
(** i2c.cpp:262-282 *)
Definition lookupSlaveIndex (o : own) (slaveAddr : Z) : nat :=
  if Z.shiftr slaveAddr 1 =? 0 then 0%nat
  else if isSlaveAddrMatching (ADR o 0%nat) slaveAddr (MASK o 0%nat) then 1%nat
  else if isSlaveAddrMatching (ADR o 1%nat) slaveAddr (MASK o 1%nat) then 2%nat
  else if isSlaveAddrMatching (ADR o 2%nat) slaveAddr (MASK o 2%nat) then 3%nat
  else if isSlaveAddrMatching (ADR o 3%nat) slaveAddr (MASK o 3%nat) then 4%nat
  else 0%nat.
(** i2c.cpp:354-368 *)
Definition getSlaveIndex (h : hw own) : nat :=
  let c := Z.land (stat h) 0xF8 in
  if (c =? 0x60) || (c =? 0x68) || (c =? 0x70) || (c =? 0x78) || (c =? 0xA8) || (c =? 0xB0) then lookupSlaveIndex (world h) (u8 (dat h)) else 0%nat.
(** i2c.cpp:425-426 *)
Definition flags (h : hw own) (cclr : Z) : hw own := CONCLR (CONSET h (Z.lxor cclr I2C_CON_FLAGS)) cclr.
Definition setAddr (x : xfer) (a : Z) : xfer := mkXfer a (txBuff x) (txSz x) (rxBuff x) (room x) (rxSz x) (xstatus x).
(** i2c.cpp:402-409: the next byte to DAT; None: outside the buffer *)
Definition load (h : hw own) (x : xfer) : option (hw own * xfer * Z) :=
  match txBuff x with
  | [] => None
  | b :: r => let x := mkXfer (slaveAddr x) r (txSz x - 1) (rxBuff x) (room x) (rxSz x) (xstatus x) in
      Some (flags (DAT h b) (if 0 <? txSz x then drop I2C_CON_FLAGS I2C_CON_AA else I2C_CON_FLAGS), x, RET_SLAVE_TX)
  end.
(** i2c.cpp:371-429 *)
Definition handleSlaveXferState (h : hw own) (x : xfer) : option (hw own * xfer * Z) :=
  let cclr := I2C_CON_FLAGS in
  let x := setStatus x BUSY in
  let c := Z.land (stat h) 0xF8 in
  let more (x : xfer) (ret : Z) := Some (flags h (if 1 <? rxSz x then drop cclr I2C_CON_AA else cclr), x, ret) in
  if (c =? 0x80) || (c =? 0x90) then match store h x with None => None | Some x => more x RET_SLAVE_RX end
  else if (c =? 0x60) || (c =? 0x68) || (c =? 0x70) || (c =? 0x78) then more (setAddr x (Z.land (u8 (dat h)) (Z.lnot 1))) RET_SLAVE_BUSY
  else if (c =? 0xA8) || (c =? 0xB0) then load h (setAddr x (Z.land (u8 (dat h)) (Z.lnot 1)))
  else if c =? 0xB8 then load h x
  else if (c =? 0xC0) || (c =? 0xC8) || (c =? 0x88) || (c =? 0x98) || (c =? 0xA0) then
    let cclr := drop cclr I2C_CON_AA in
    Some (flags h (if negb (Z.land (slaveAddr x) 1 =? 0) then drop cclr I2C_CON_STA else cclr), setStatus x DONE, RET_SLAVE_IDLE)
  else Some (flags h cclr, x, RET_SLAVE_BUSY).

Section Driver.
  (** [event sid e u x]: the handler of a slave, with its own memory u, may change the transfer structure *)
  Context {U : Type} (event : nat -> Z -> U -> xfer -> U * xfer).
  (** i2c.cpp:151-176: the slave being served (sXfer, sEvent), the structures of the slaves (NULL: None) - each slave has its own -, the memory of the handlers; [told]: the events so far *)
  Record drv := mkDrv { sXfer : option nat; slaves : nat -> option xfer; memory : U; told : list (nat * Z) }.
  Definition setSlave (d : drv) (sid : nat) (x : xfer) : nat -> option xfer := fun n => if Nat.eqb n sid then Some x else slaves d n.
  (** i2c.cpp:644-667; None: access through NULL or outside a buffer *)
  Definition SlaveStateHandler (h : hw own) (d : drv) : option (hw own * drv) :=
    let sid := match sXfer d with Some sid => sid | None => getSlaveIndex h end in
    match slaves d sid with
    | None => None
    | Some x =>
        match handleSlaveXferState h x with
        | None => None
        | Some (h, x, ret) =>
            if ret =? RET_SLAVE_BUSY then Some (h, mkDrv (Some sid) (setSlave d sid x) (memory d) (told d))
            else
              let s := match xstatus x with DONE => None | _ => Some sid end in
              let '(u, x) := event sid ret (memory d) x in
              Some (h, mkDrv s (setSlave d sid x) u (told d ++ [(sid, ret)]))
        end
    end.
  (** i2c.cpp:71-79 with 606-610 and 235-238; the state handler of the master with mXfer = 0 accesses NULL *)
  Definition i2c_state_handling (h : hw own) (d : drv) : option (hw own * drv) := if Z.land (stat h) 0xF8 <? 0x60 then None else SlaveStateHandler h d.
  Definition interrupt (h : hw own) (d : drv) : option (hw own * drv) := if si h then i2c_state_handling h d else Some (h, d).
  (** one action of the other master, which waits while the interrupt is pending *)
  Definition serve (h : hw own) (d : drv) (a : act) : option (hw own * drv * seen) :=
    let react (r : hw own * seen) (d : drv) := match interrupt (fst r) d with Some (h, d) => Some (h, d, snd r) | None => None end in
    match a with
    | Call b => match interrupt (ended h) d with Some (h, d) => react (addressed h b) d | None => None end
    | Send b => react (sent h b) d
    | Fetch ack => react (fetched h ack) d
    | Finish => react (ended h, Nothing) d
    | Broken => react (match part (world h) with Away => h | _ => becomes h Away 0x00 (dat h) end, Nothing) d
    end.
  Fixpoint serves (h : hw own) (d : drv) (l : list act) : option (hw own * drv * list seen) :=
    match l with
    | [] => Some (h, d, [])
    | a :: l => match serve h d a with None => None | Some (h, d, s) => match serves h d l with Some (h, d, r) => Some (h, d, s :: r) | None => None end end
    end.
  (** i2c.cpp:213-220 *)
  Definition startSlaverXfer (h : hw own) : hw own := CONSET (CONCLR h (Z.lor I2C_CON_SI (Z.lor I2C_CON_STO I2C_CON_STA))) (Z.lor I2C_CON_I2EN I2C_CON_AA).
  (** i2c.cpp:621-641; [active]: a slave was set up before (flags) *)
  Definition SlaveSetup (h : hw own) (d : drv) (active : bool) (sid : nat) (x : xfer) (addrMask : Z) : hw own * drv * bool :=
    let h := if Nat.eqb sid 0 then h else setSlaveAddr h sid (slaveAddr x) addrMask in
    let h := if negb active then startSlaverXfer h else h in
    (h, mkDrv (sXfer d) (setSlave d sid x) (memory d) (told d), true).
End Driver.
Arguments drv : clear implicits.
Arguments mkDrv {U}. Arguments sXfer {U}. Arguments slaves {U}. Arguments memory {U}. Arguments told {U}.
