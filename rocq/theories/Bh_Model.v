(** The light sensor BH1750 on the I2C bus: sblib/src/i2c/bh1750.cpp, sblib/inc/sblib/i2c/bh1750.h. Transfers as in I2c_Model; [w]: the bus, [n]: the attempts to win it in one transfer.
    i2c_lpcopen_init (i2c.cpp:124-129) does nothing once the interface is set up, as it is here; delay() only lets time pass; [now]: what millis() returns. *)
From Coq Require Export QArith.
From Verif Require Export Base I2c_Model.
Open Scope Z_scope.

(** bh1750.h:75-82: the members *)
Record bh := mkBh { BH1750_I2CADDR : Z; BH1750_MTreg : Z; BH1750_MODE : Z; lastReadTimestamp : Z }.
(** bh1750.h:50-65 *)
Definition UNCONFIGURED : Z := 0.
Definition CONTINUOUS_HIGH_RES_MODE : Z := 0x10.
Definition CONTINUOUS_HIGH_RES_MODE_2 : Z := 0x11.
Definition CONTINUOUS_LOW_RES_MODE : Z := 0x13.
Definition ONE_TIME_HIGH_RES_MODE : Z := 0x20.
Definition ONE_TIME_HIGH_RES_MODE_2 : Z := 0x21.
Definition ONE_TIME_LOW_RES_MODE : Z := 0x23.
(** bh1750.h:45 *)
Definition BH1750_DEFAULT_MTREG : Z := 69.
(** bh1750.cpp:174-177 *)
Definition highRes (mode : Z) : bool := (mode =? CONTINUOUS_HIGH_RES_MODE) || (mode =? CONTINUOUS_HIGH_RES_MODE_2) || (mode =? ONE_TIME_HIGH_RES_MODE) || (mode =? ONE_TIME_HIGH_RES_MODE_2).
(** bh1750.cpp:181-182 *)
Definition lowRes (mode : Z) : bool := (mode =? CONTINUOUS_LOW_RES_MODE) || (mode =? ONE_TIME_LOW_RES_MODE).

Section Driver.
  Context {S : Type} (w : bus S) (n : nat).
  (** bh1750.cpp:91-96, 145-149: one byte is sent, again as long as arbitration is lost; the status. The transfer structure was cleared, so there is no buffer for reading *)
  Definition transferByte (h : hw S) (addr b : Z) : res (hw S * status) :=
    match untilWon w n h (mkXfer addr [b] 1 [] 0 0 DONE) with Done (h, x) => Done (h, xstatus x) | Fault => Fault | Hang => Hang end.
  (** bh1750.cpp:74-117 *)
  Definition configure (now : Z) (h : hw S) (d : bh) (mode : Z) : res (hw S * bh * bool) :=
    if highRes mode || lowRes mode then
      match transferByte h (BH1750_I2CADDR d) mode with
      | Done (h, DONE) => Done (h, mkBh (BH1750_I2CADDR d) (BH1750_MTreg d) mode now, true)
      | Done (h, _) => Done (h, d, false)
      | Fault => Fault
      | Hang => Hang
      end
    else Done (h, d, false).
  (** bh1750.cpp:126-163; the bytes are the lowest ones of the three [int] *)
  Definition setMTreg (h : hw S) (d : bh) (MTreg : Z) : res (hw S * bh * bool) :=
    if (MTreg <=? 31) || (MTreg >? 254) then Done (h, d, false) else
    match transferByte h (BH1750_I2CADDR d) (u8 (Z.lor (Z.shiftl 8 3) (Z.shiftr MTreg 5))) with
    | Done (h, _) =>
        match transferByte h (BH1750_I2CADDR d) (u8 (Z.lor (Z.shiftl 3 5) (Z.land MTreg 31))) with
        | Done (h, _) =>
            match transferByte h (BH1750_I2CADDR d) (u8 (BH1750_MODE d)) with
            | Done (h, DONE) => Done (h, mkBh (BH1750_I2CADDR d) MTreg (BH1750_MODE d) (lastReadTimestamp d), true)
            | Done (h, _) => Done (h, d, false)
            | Fault => Fault
            | Hang => Hang
            end
        | Fault => Fault
        | Hang => Hang
        end
    | Fault => Fault
    | Hang => Hang
    end.
  (** bh1750.cpp:33-43 *)
  Definition begin (now : Z) (h : hw S) (d : bh) (mode addr : Z) : res (hw S * bh * bool) :=
    let d := if negb (addr =? 0) then mkBh addr (BH1750_MTreg d) (BH1750_MODE d) (lastReadTimestamp d) else d in
    match configure now h d mode with
    | Done (h, d, true) => setMTreg h d BH1750_DEFAULT_MTREG
    | r => r
    end.
  (** bh1750.cpp:212-258; the [float] calculation is taken as exact *)
  Definition readLightLevel (now : Z) (h : hw S) (d : bh) : res (hw S * bh * Q) :=
    if BH1750_MODE d =? UNCONFIGURED then Done (h, d, inject_Z (-2)) else
    match MasterRead w n h (BH1750_I2CADDR d) 2 2 with
    | Done (h, c, buf) =>
        let d := mkBh (BH1750_I2CADDR d) (BH1750_MTreg d) (BH1750_MODE d) now in
        if 2 =? c then
          let level := inject_Z (Z.lor (Z.shiftl (rd buf 0) 8) (rd buf 1)) in
          let level := if negb (BH1750_MTreg d =? BH1750_DEFAULT_MTREG) then Qmult level (Qdiv (inject_Z BH1750_DEFAULT_MTREG) (inject_Z (BH1750_MTreg d))) else level in
          let level := if (BH1750_MODE d =? ONE_TIME_HIGH_RES_MODE_2) || (BH1750_MODE d =? CONTINUOUS_HIGH_RES_MODE_2) then Qdiv level (inject_Z 2) else level in
          Done (h, d, Qdiv level (12 # 10))
        else Done (h, d, inject_Z (-1))
    | Fault => Fault
    | Hang => Hang
    end.
End Driver.
(** bh1750.cpp:171-202 *)
Definition measurementReady (now : Z) (d : bh) (maxWait : bool) : bool :=
  let delaytime :=
    if highRes (BH1750_MODE d) then (if maxWait then 180 else 120) * BH1750_MTreg d / BH1750_DEFAULT_MTREG
    else if lowRes (BH1750_MODE d) then (if maxWait then 24 else 16) * BH1750_MTreg d / BH1750_DEFAULT_MTREG
    else 0 in
  u32 (now - lastReadTimestamp d) >=? delaytime.
