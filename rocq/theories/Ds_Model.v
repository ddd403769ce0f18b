(** OneWireDS2482, the driver of a 1-Wire bridge on the I2C bus (sblib/src/i2c/ds2482.cpp, sblib/inc/sblib/i2c/ds2482.h). Transfers as in I2c_Model; [w]: the bus, [n]: the attempts to win it in one call.
    Fault: besides an access outside a buffer, the use of a variable that was never written. delayMicroseconds only lets time pass. i2c_lpcopen_init (i2c.cpp:124-129): does nothing once the interface is set up. crc8 (ds2482.cpp:340-369) is in CRC_Model *)
From Verif Require Export Base I2c_Model.

(** ds2482.h:18-49 *)
Definition COMMAND_RESET : Z := 0xF0.
Definition COMMAND_SRP : Z := 0xE1.
Definition POINTER_STATUS : Z := 0xF0.
Definition STATUS_BUSY : Z := 1.
Definition STATUS_PPD : Z := 2.
Definition STATUS_SD : Z := 4.
Definition STATUS_SBR : Z := 32.
Definition STATUS_TSB : Z := 64.
Definition STATUS_DIR : Z := 128.
Definition POINTER_DATA : Z := 0xE1.
Definition POINTER_CONFIG : Z := 0xC3.
Definition CONFIG_APU : Z := 1.
Definition CONFIG_SPU : Z := 4.
Definition COMMAND_WRITECONFIG : Z := 0xD2.
Definition COMMAND_RESETWIRE : Z := 0xB4.
Definition COMMAND_WRITEBYTE : Z := 0xA5.
Definition COMMAND_READBYTE : Z := 0x96.
Definition COMMAND_SINGLEBIT : Z := 0x87.
Definition COMMAND_TRIPLET : Z := 0x78.
Definition WIRE_COMMAND_SKIP : Z := 0xCC.
Definition WIRE_COMMAND_SELECT : Z := 0x55.
Definition WIRE_COMMAND_SEARCH : Z := 0xF0.
Definition ERROR_TIMEOUT : Z := 1.
Definition ERROR_SHORT : Z := 2.
Definition ERROR_CONFIG : Z := 4.

(** ds2482.h:102-108: the members of the class; searchLastDeviceFlag is 0 or 1 *)
Record drv := mkDrv { activePullUpEnabled : bool; mAddress : Z; mError : Z; searchAddress : list Z; searchLastDiscrepancy : Z; searchLastDeviceFlag : bool }.
(** assignments: mError (ds2482.cpp:150, 162, 182) *)
Definition setError (d : drv) (e : Z) : drv := mkDrv (activePullUpEnabled d) (mAddress d) e (searchAddress d) (searchLastDiscrepancy d) (searchLastDeviceFlag d).
(** activePullUpEnabled (ds2482.cpp:128, 133) *)
Definition setActive (d : drv) (b : bool) : drv := mkDrv b (mAddress d) (mError d) (searchAddress d) (searchLastDiscrepancy d) (searchLastDeviceFlag d).
(** the search state (ds2482.cpp:256-264, 322-332) *)
Definition setSearch (d : drv) (a : list Z) (ld : Z) (f : bool) : drv := mkDrv (activePullUpEnabled d) (mAddress d) (mError d) a ld f.
(** ds2482.cpp:23-30: the address; the other members are not set, they are zero in an object with static storage *)
Definition construct (address : Z) : drv := mkDrv false (u8 (Z.lor 0x18 address)) 0 (repeat 0 8) 0 false.

(** one call after the other *)
Definition bind {A B} (r : res A) (f : A -> res B) : res B := match r with Done x => f x | Fault => Fault | Hang => Hang end.

Section Driver.
  Context {S : Type} (w : bus S) (n : nat).
  (** ds2482.cpp:50-53 writeByte: the answer is not looked at *)
  Definition writeByte (h : hw S) (d : drv) (data : Z) : res (hw S) := bind (MasterSend w n h (mAddress d) [data] 1) (fun r => Done (fst r)).
  (** ds2482.cpp:55-58 writeBytes, used with two bytes *)
  Definition writeBytes (h : hw S) (d : drv) (data : list Z) : res (hw S) := bind (MasterSend w n h (mAddress d) data (Z.of_nat (length data))) (fun r => Done (fst r)).
  (** ds2482.cpp:79-88 *)
  Definition setReadPointer (h : hw S) (d : drv) (readPointer : Z) : res (hw S) := writeBytes h d [COMMAND_SRP; readPointer].
  (** ds2482.cpp:90-102: [data] is returned whether it was written or not *)
  Definition setReadPointerAndRead (h : hw S) (d : drv) (readPointer : Z) : res (hw S * Z) :=
    bind (MasterWriteRead w n h (mAddress d) [COMMAND_SRP; readPointer] 1 2 1) (fun r => match snd r with b :: _ => Done (fst (fst r), b) | [] => Fault end).
  (** ds2482.cpp:105-117 *)
  Definition readStatus (h : hw S) (d : drv) : res (hw S * Z) := setReadPointerAndRead h d POINTER_STATUS.
  Definition readData (h : hw S) (d : drv) : res (hw S * Z) := setReadPointerAndRead h d POINTER_DATA.
  Definition readConfig (h : hw S) (d : drv) : res (hw S * Z) := setReadPointerAndRead h d POINTER_CONFIG.
  (** ds2482.cpp:141-146: the loop; [i]: passes left, [status]: the last one read (the loop runs at least once) *)
  Fixpoint pollStatus (i : nat) (h : hw S) (d : drv) (status : Z) : res (hw S * Z) :=
    match i with
    | O => Done (h, status)
    | Datatypes.S i' => bind (readStatus h d) (fun r => if Z.land (snd r) STATUS_BUSY =? 0 then Done r else pollStatus i' (fst r) d (snd r))
    end.
  (** ds2482.cpp:138-154 *)
  Definition waitOnBusy (h : hw S) (d : drv) : res (hw S * drv * Z) :=
    bind (pollStatus (Z.to_nat 1000) h d 0) (fun r => Done (fst r, if Z.land (snd r) STATUS_BUSY =? 0 then d else setError d ERROR_TIMEOUT, snd r)).
  (** ds2482.cpp:157-163 writeConfig, with power 0 in ds2482.cpp:205-217 wireWriteCmdAndData *)
  Definition writeConfig (h : hw S) (d : drv) (config : Z) : res (hw S * drv) :=
    bind (waitOnBusy h d) (fun r => let '(h, d, _) := r in
    bind (writeBytes h d [COMMAND_WRITECONFIG; u8 (Z.lor config (Z.shiftl (Z.lnot config) 4))]) (fun h =>
    bind (readConfig h d) (fun r => Done (fst r, if snd r =? config then d else setError d ERROR_CONFIG)))).
  (** ds2482.cpp:119-135 *)
  Definition setStrongPullup (h : hw S) (d : drv) : res (hw S * drv) := bind (readConfig h d) (fun r => writeConfig (fst r) d (u8 (Z.lor (snd r) CONFIG_SPU))).
  Definition clearStrongPullup (h : hw S) (d : drv) : res (hw S * drv) := bind (readConfig h d) (fun r => writeConfig (fst r) d (u8 (Z.land (snd r) (Z.lnot CONFIG_SPU)))).
  Definition setActivePullup (h : hw S) (d : drv) : res (hw S * drv) := let d := setActive d true in bind (readConfig h d) (fun r => writeConfig (fst r) d (u8 (Z.lor (snd r) CONFIG_APU))).
  Definition clearActivePullup (h : hw S) (d : drv) : res (hw S * drv) := let d := setActive d false in bind (readConfig h d) (fun r => writeConfig (fst r) d (u8 (Z.land (snd r) (Z.lnot CONFIG_APU)))).
  (** ds2482.cpp:205-217 wireWriteCmdAndData *)
  Definition wireWriteCmdAndData (h : hw S) (d : drv) (command data : Z) (power : bool) : res (hw S * drv) :=
    bind (waitOnBusy h d) (fun r => let '(h, d, _) := r in
    bind (if power then setStrongPullup h d else Done (h, d)) (fun r => let '(h, d) := r in
    bind (writeBytes h d [command; data]) (fun h => Done (h, d)))).
  (** ds2482.cpp:189-202 wireWriteByte *)
  Definition wireWriteByte (h : hw S) (d : drv) (data : Z) (power : bool) : res (hw S * drv) :=
    bind (waitOnBusy h d) (fun r => let '(h, d, _) := r in
    bind (if power then setStrongPullup h d else Done (h, d)) (fun r => let '(h, d) := r in
    bind (writeBytes h d [COMMAND_WRITEBYTE; data]) (fun h => Done (h, d)))).
  (** ds2482.cpp:168-186 wireReset: whether a device answered *)
  Definition wireReset (h : hw S) (d : drv) : res (hw S * drv * bool) :=
    bind (waitOnBusy h d) (fun r => let '(h, d, _) := r in
    bind (clearStrongPullup h d) (fun r => let '(h, d) := r in
    bind (waitOnBusy h d) (fun r => let '(h, d, _) := r in
    bind (writeByte h d COMMAND_RESETWIRE) (fun h =>
    bind (waitOnBusy h d) (fun r => let '(h, d, status) := r in
    Done (h, if Z.land status STATUS_SD =? 0 then d else setError d ERROR_SHORT, negb (Z.land status STATUS_PPD =? 0))))))).
  (** ds2482.cpp:220-227 *)
  Definition wireReadByte (h : hw S) (d : drv) : res (hw S * drv * Z) :=
    bind (waitOnBusy h d) (fun r => let '(h, d, _) := r in
    bind (writeByte h d COMMAND_READBYTE) (fun h =>
    bind (waitOnBusy h d) (fun r => let '(h, d, _) := r in
    bind (readData h d) (fun r => Done (fst r, d, snd r))))).
  (** ds2482.cpp:233-235 *)
  Definition wireWriteBit (h : hw S) (d : drv) (data : Z) (power : bool) : res (hw S * drv) := wireWriteCmdAndData h d COMMAND_SINGLEBIT (if data =? 0 then 0x00 else 0x80) power.
  (** ds2482.cpp:238-242 *)
  Definition wireReadBit (h : hw S) (d : drv) : res (hw S * drv * Z) :=
    bind (wireWriteBit h d 1 false) (fun r => let '(h, d) := r in
    bind (waitOnBusy h d) (fun r => let '(h, d, status) := r in Done (h, d, if Z.land status STATUS_SBR =? 0 then 0 else 1))).
  (** ds2482.cpp:245-247 *)
  Definition wireSkip (h : hw S) (d : drv) : res (hw S * drv) := wireWriteByte h d WIRE_COMMAND_SKIP false.
  (** ds2482.cpp:251-252: the bytes of [rom] from the i-th on *)
  Fixpoint wireWriteAll (h : hw S) (d : drv) (bytes : list Z) : res (hw S * drv) :=
    match bytes with
    | [] => Done (h, d)
    | b :: r => bind (wireWriteByte h d b false) (fun r' => let '(h, d) := r' in wireWriteAll h d r)
    end.
  (** ds2482.cpp:249-253; [rom] has 8 bytes *)
  Definition wireSelect (h : hw S) (d : drv) (rom : list Z) : res (hw S * drv) :=
    bind (wireWriteByte h d WIRE_COMMAND_SELECT false) (fun r => let '(h, d) := r in wireWriteAll h d (firstn 8 rom)).
  (** ds2482.cpp:69-76 deviceReset, with ds2482.cpp:425-427 write (power 0 by ds2482.h:91) *)
  Definition deviceReset (h : hw S) (d : drv) : res (hw S * drv) :=
    bind (wireWriteByte h d COMMAND_RESET false) (fun r => let '(h, d) := r in if activePullUpEnabled d then setActivePullup h d else Done (h, d)).
  (** ds2482.cpp:256-264 *)
  Definition wireResetSearch (d : drv) : drv := setSearch d (repeat 0 8) 0 false.
  (** ds2482.cpp:296-327: the loop from bit [i] on; [m]: passes left; [lz]: last_zero. None: left by [return 0] *)
  Fixpoint searchLoop (m i : nat) (h : hw S) (d : drv) (lz : Z) : res (hw S * drv * option Z) :=
    match m with
    | O => Done (h, d, Some lz)
    | Datatypes.S m' =>
        let num := (i / 8)%nat in
        let bit := Z.shiftl 1 (Z.of_nat (i mod 8)) in
        let direction := if Z.of_nat i <? searchLastDiscrepancy d then negb (Z.land (rd (searchAddress d) num) bit =? 0) else Z.of_nat i =? searchLastDiscrepancy d in
        bind (waitOnBusy h d) (fun r => let '(h, d, _) := r in
        bind (wireWriteCmdAndData h d COMMAND_TRIPLET (if direction then 0x80 else 0x00) false) (fun r => let '(h, d) := r in
        bind (waitOnBusy h d) (fun r => let '(h, d, status) := r in
        let id := negb (Z.land status STATUS_SBR =? 0) in
        let comp_id := negb (Z.land status STATUS_TSB =? 0) in
        let direction := negb (Z.land status STATUS_DIR =? 0) in
        if id && comp_id then Done (h, d, None)
        else
          let lz := if negb id && negb comp_id && negb direction then Z.of_nat i else lz in
          let a := searchAddress d in
          let a := if direction then wr a num (u8 (Z.lor (rd a num) bit)) else wr a num (u8 (Z.land (rd a num) (Z.lnot bit))) in
          searchLoop m' (Datatypes.S i) h (setSearch d a (searchLastDiscrepancy d) (searchLastDeviceFlag d)) lz)))
    end.
  (** ds2482.cpp:282-338 wireSearch: the address if 1 is returned *)
  Definition wireSearch (h : hw S) (d : drv) : res (hw S * drv * option (list Z)) :=
    if searchLastDeviceFlag d then Done (h, d, None)
    else
      bind (wireReset h d) (fun r => let '(h, d, here) := r in
      if negb here then Done (h, d, None)
      else
        bind (waitOnBusy h d) (fun r => let '(h, d, _) := r in
        bind (wireWriteByte h d WIRE_COMMAND_SEARCH false) (fun r => let '(h, d) := r in
        bind (searchLoop 64 0 h d 0) (fun r => let '(h, d, last_zero) := r in
        match last_zero with
        | None => Done (h, d, None)
        | Some lz => Done (h, setSearch d (searchAddress d) lz (searchLastDeviceFlag d || (lz =? 0)), Some (searchAddress d))
        end)))).
End Driver.
