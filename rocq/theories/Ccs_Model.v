(** The gas sensor CCS811 on the I2C bus: sblib/src/i2c/CCS811.cpp, sblib/inc/sblib/i2c/CCS811.h. Transfers as in I2c_Model; [w]: the bus, [n]: the attempts to win it in one transfer.
    i2c_lpcopen_init (i2c.cpp:124-129) does nothing once the interface is set up, as it is here; pinMode is left out; the delays only let time pass. *)
From Coq Require Export QArith.
From Verif Require Export Base I2c_Model.
Open Scope Z_scope.

(** CCS811.h:37-45 *)
Definition STATUS : Z := 0x00.
Definition MEAS_MODE : Z := 0x01.
Definition ALG_RESULT_DATA : Z := 0x02.
Definition ENV_DATA : Z := 0x05.
Definition APP_START : Z := 0xF4.
Definition BASELINE_REG : Z := 0x11.
Definition HW_ID : Z := 0x20.
Definition ERROR_ID : Z := 0xE0.
(** CCS811.h:65, 69: the members; the number of the wake pin is left out *)
Record ccs := mkCcs { TVOC : Z; CO2 : Z; _I2C_ADDR : Z }.

Section Driver.
  (** [pin s b]: the level of the wake pin becomes b *)
  Context {S : Type} (w : bus S) (n : nat) (pin : S -> bool -> S).
  (** CCS811.cpp:233-237, and digitalWrite *)
  Definition wake (h : hw S) (level : bool) : hw S := mkHw (sta h) (sto h) (si h) (aa h) (i2en h) (stat h) (dat h) (pin (world h) level) (log h).
  (** CCS811.cpp:94-99, 104-110, 122-129, 144-148, 179-186: the pin goes low, bytes of a register are read, the pin goes high; the bytes stored *)
  Definition readRegister (h : hw S) (d : ccs) (reg : Z) (len : nat) : res (hw S * Z * list Z) :=
    match MasterCmdRead w n (wake h false) (_I2C_ADDR d) reg len (Z.of_nat len) with
    | Done (h, c, l) => Done (wake h true, c, l)
    | Fault => Fault
    | Hang => Hang
    end.
  (** CCS811.cpp:57-62, 71-88, 136-140, 157-161, 170-174, 207-208, 228-230: likewise for sending; the count returned is not used *)
  Definition sendBytes (h : hw S) (d : ccs) (bytes : list Z) : res (hw S) :=
    match MasterSend w n (wake h false) (_I2C_ADDR d) bytes (Z.of_nat (length bytes)) with
    | Done (h, _) => Done (wake h true)
    | Fault => Fault
    | Hang => Hang
    end.
  (** a local array of which the first bytes have been stored; [junk]: what the memory held before *)
  Definition local (l : list Z) (junk : nat -> Z) (i : nat) : Z := if Nat.ltb i (length l) then rd l i else junk i.
  (** CCS811.cpp:93-101; the result as a byte *)
  Definition readStatus (junk : nat -> Z) (h : hw S) (d : ccs) : res (hw S * Z) :=
    match readRegister h d STATUS 1 with Done (h, _, l) => Done (h, local l junk 0) | Fault => Fault | Hang => Hang end.
  (** CCS811.cpp:103-112 *)
  Definition readHW_ID (junk : nat -> Z) (h : hw S) (d : ccs) : res (hw S * Z) :=
    match readRegister h d HW_ID 1 with Done (h, c, l) => Done (h, if negb (c =? 1) then 0 else local l junk 0) | Fault => Fault | Hang => Hang end.
  (** CCS811.cpp:121-132 *)
  Definition getBaseline (junk : nat -> Z) (h : hw S) (d : ccs) : res (hw S * Z) :=
    match readRegister h d BASELINE_REG 2 with Done (h, _, l) => Done (h, u16 (Z.shiftl (local l junk 0) 8 + local l junk 1)) | Fault => Fault | Hang => Hang end.
  (** CCS811.cpp:135-141 *)
  Definition setBaseline (h : hw S) (d : ccs) (baseline : Z) : res (hw S) := sendBytes h d [BASELINE_REG; u8 (Z.shiftr baseline 8); u8 baseline].
  (** CCS811.cpp:143-154 *)
  Definition readErrorID (junk : nat -> Z) (h : hw S) (d : ccs) (_status : Z) : res (hw S * Z) :=
    match readRegister h d ERROR_ID 1 with Done (h, _, l) => Done (h, if negb (Z.land _status 1 =? 0) then local l junk 0 else 0) | Fault => Fault | Hang => Hang end.
  (** CCS811.cpp:156-162 *)
  Definition sleep (h : hw S) (d : ccs) : res (hw S) := sendBytes h d [MEAS_MODE; 0].
  (** CCS811.cpp:169-175 *)
  Definition setMode (h : hw S) (d : ccs) (modeNumber : Z) : res (hw S) := sendBytes h d [MEAS_MODE; u8 (Z.shiftl modeNumber 4)].
  (** CCS811.cpp:178-196 *)
  Definition getData (h : hw S) (d : ccs) : res (hw S * ccs * bool) :=
    match readRegister h d ALG_RESULT_DATA 4 with
    | Done (h, c, buffer) =>
        if negb (u8 c =? 4) then Done (h, d, false)
        else Done (h, mkCcs (Z.shiftl (rd buffer 2) 8 + rd buffer 3) (Z.shiftl (rd buffer 0) 8 + rd buffer 1) (_I2C_ADDR d), true)
    | Fault => Fault
    | Hang => Hang
    end.
  (** (int) of a number: towards zero *)
  Definition trunc (q : Q) : Z := Z.quot (Qnum q) (Zpos (Qden q)).
  (** CCS811.cpp:211-217; [float] taken as exact rational numbers; [(int) t + 0.5f] is a [float], which is converted when it is assigned *)
  Definition roundTemp (t : Q) : Z :=
    let _temp := if negb (Qle_bool t (inject_Z 0)) then trunc (Qplus (inject_Z (trunc t)) (1 # 2)) else if negb (Qle_bool (inject_Z 0) t) then trunc (Qminus (inject_Z (trunc t)) (1 # 2)) else 0 in
    _temp + 25.
  (** CCS811.cpp:218 *)
  Definition roundRh (rh : Q) : Z := trunc (Qplus (inject_Z (trunc rh)) (1 # 2)).
  (** CCS811.cpp:206-231 *)
  Definition compensate (h : hw S) (d : ccs) (t rh : Q) : res (hw S) := sendBytes h d [ENV_DATA; u8 (Z.shiftl (roundRh rh) 1); 0; u8 (Z.shiftl (roundTemp t) 1); 0].
  (** CCS811.cpp:35-91; [junk k]: what the uninitialised variable of the k-th call that reads the status or the error holds, [junk 4] that of the one that reads the identification *)
  Definition begin (junk : nat -> nat -> Z) (h : hw S) (d : ccs) (I2C_ADDR : Z) : res (hw S * ccs * bool) :=
    let d := mkCcs (TVOC d) (CO2 d) I2C_ADDR in
    match readHW_ID (junk 4%nat) h d with
    | Done (h, hw_id) =>
        if negb (hw_id =? 0x81) then Done (h, d, false) else
        match readStatus (junk 0%nat) h d with
        | Done (h, status) =>
            if Z.land status (Z.shiftl 1 4) =? 0 then match readErrorID (junk 1%nat) h d status with Done (h, _) => Done (h, d, false) | Fault => Fault | Hang => Hang end else
            match sendBytes h d [APP_START] with
            | Done h =>
                match readStatus (junk 2%nat) h d with
                | Done (h, status) =>
                    if Z.land status (Z.shiftl 1 7) =? 0 then match readErrorID (junk 3%nat) h d status with Done (h, _) => Done (h, d, false) | Fault => Fault | Hang => Hang end else
                    match sendBytes h d [MEAS_MODE; 0x20] with Done h => Done (h, d, true) | Fault => Fault | Hang => Hang end
                | Fault => Fault
                | Hang => Hang
                end
            | Fault => Fault
            | Hang => Hang
            end
        | Fault => Fault
        | Hang => Hang
        end
    | Fault => Fault
    | Hang => Hang
    end.
End Driver.
