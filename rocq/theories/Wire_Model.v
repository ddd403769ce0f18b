(** 1-Wire bus at the level of the pin (sblib/src/onewire.cpp:27-304, 382-458) *)
From Verif Require Export OneWire_Spec.

(** The modes used (onewire.cpp: INPUT, INPUT | PULL_UP, OUTPUT) *)
Inductive pinmode := Input | InputPullUp | Output.
(** digital_pin.h, timer.h: the functions of the library used, environment here *)
Record pins (S : Type) := { pinMode : pinmode -> S -> S; digitalWrite : bool -> S -> S; digitalRead : S -> S * bool; delayMicroseconds : Z -> S -> S; pinInterrupt : bool -> S -> S }.
Arguments pinMode {S}. Arguments digitalWrite {S}. Arguments digitalRead {S}. Arguments delayMicroseconds {S}. Arguments pinInterrupt {S}.

Section Wire.
  Context {S : Type} (w : pins S).
  (** onewire.cpp:63-66: the loop that waits for the line to become high; [retries] is the counter after its first decrement. Result: went high *)
  Fixpoint waitHigh (retries : nat) (s : S) : S * bool :=
    match retries with
    | O => (s, false)
    | Datatypes.S retries =>
        let s := delayMicroseconds w 2 s in
        let '(s, high) := digitalRead w s in
        if high then (s, true) else waitHigh retries s
    end.
  (** onewire.cpp:51-81 (onewire.h:27 ONEWIRE_INTERNAL_PULLUP is 1) *)
  Definition OneWireReset (s : S) : S * bool :=
    let s := pinInterrupt w false s in
    let '(s, bHigh) := digitalRead w s in
    let s := pinMode w InputPullUp s in
    let s := digitalWrite w true s in
    let '(s, ok) := waitHigh 124 s in
    if negb ok then (s, false) else
    let s := if negb bHigh then delayMicroseconds w 60 s else s in
    let s := pinMode w Output s in
    let s := digitalWrite w false s in
    let s := delayMicroseconds w 480 s in
    let s := pinMode w InputPullUp s in
    let s := digitalWrite w true s in
    let s := delayMicroseconds w 70 s in
    let '(s, v) := digitalRead w s in
    let s := delayMicroseconds w 410 s in
    let s := pinInterrupt w true s in
    (s, negb v).
  (** onewire.cpp:95-112 *)
  Definition OneWireWriteBit (uValue : Z) (s : S) : S :=
    let s := pinInterrupt w false s in
    let s :=
      if negb (Z.land uValue 1 =? 0) then
        let s := pinMode w Output s in
        let s := digitalWrite w false s in
        let s := delayMicroseconds w 10 s in
        let s := digitalWrite w true s in
        delayMicroseconds w 55 s
      else
        let s := pinMode w Output s in
        let s := digitalWrite w false s in
        let s := delayMicroseconds w 65 s in
        let s := digitalWrite w true s in
        delayMicroseconds w 5 s in
    pinInterrupt w true s.
  (** onewire.cpp:125-142 *)
  Definition OneWireReadBit (s : S) : S * bool :=
    let s := pinInterrupt w false s in
    let s := pinMode w Output s in
    let s := digitalWrite w false s in
    let s := delayMicroseconds w 3 s in
    let s := pinMode w InputPullUp s in
    let s := digitalWrite w true s in
    let s := delayMicroseconds w 10 s in
    let '(s, uRet) := digitalRead w s in
    let s := delayMicroseconds w 53 s in
    (pinInterrupt w true s, uRet).
  (** onewire.cpp:165-168: the loop; [n] passes at most *)
  Fixpoint writeLoop (n : nat) (bitMask v : Z) (s : S) : S :=
    match n with
    | O => s
    | Datatypes.S n =>
        if bitMask =? 0 then s else
        writeLoop n (u8 (Z.shiftl bitMask 1)) v (OneWireWriteBit (if negb (Z.land bitMask v =? 0) then 1 else 0) s)
    end.
  (** onewire.cpp:170-178, 198-206 *)
  Definition release (parasite : bool) (s : S) : S :=
    if negb parasite then pinInterrupt w true (pinMode w Input (pinInterrupt w false s)) else s.
  (** onewire.cpp:162-179 *)
  Definition OneWireWrite (parasite : bool) (v : Z) (s : S) : S := release parasite (writeLoop 9 1 v s).
  (** onewire.cpp:195-207; [buf]: the first count bytes *)
  Definition OneWireWriteBytes (parasite : bool) (buf : list Z) (s : S) : S := release parasite (fold_left (fun s b => OneWireWrite parasite b s) buf s).
  (** onewire.cpp:223-226: the loop; [n] passes at most *)
  Fixpoint readLoop (n : nat) (bitMask rRet : Z) (s : S) : S * Z :=
    match n with
    | O => (s, rRet)
    | Datatypes.S n =>
        if bitMask =? 0 then (s, rRet) else
        let '(s, b) := OneWireReadBit s in
        readLoop n (u8 (Z.shiftl bitMask 1)) (if b then Z.lor rRet bitMask else rRet) s
    end.
  (** onewire.cpp:219-228 *)
  Definition OneWireRead (s : S) : S * Z := readLoop 9 1 0 s.
  (** onewire.cpp:240-246: the bytes stored in buf *)
  Fixpoint OneWireReadBytes (count : nat) (s : S) : S * list Z :=
    match count with
    | O => (s, [])
    | Datatypes.S count => let '(s, b) := OneWireRead s in let '(s, r) := OneWireReadBytes count s in (s, b :: r)
    end.
  (** onewire.cpp:259-266 *)
  Definition OneWireSelect (parasite : bool) (rom : list Z) (s : S) : S :=
    fold_left (fun s i => OneWireWrite parasite (rd rom i) s) [0; 1; 2; 3; 4; 5; 6; 7]%nat (OneWireWrite parasite 0x55 s).
  (** onewire.cpp:279-282 *)
  Definition OneWireSkip (parasite : bool) (s : S) : S := OneWireWrite parasite 0xCC s.
  (** onewire.cpp:298-304 *)
  Definition OneWireDePower (s : S) : S := pinInterrupt w true (digitalWrite w false (pinMode w Input (pinInterrupt w false s))).

  (** onewire.cpp:402-438: the loop of the search as in OneWire_Model, on the pin *)
  Fixpoint searchLoop (fuel : nat) (ld : Z) (rom : list Z) (bit mask lz : Z) (num : nat) (lfd : Z) (s : S) : option (S * (list Z * Z * Z * Z)) :=
    match fuel with
    | O => None
    | Datatypes.S n =>
        let '(s, id_bit) := OneWireReadBit s in
        let '(s, cmp_id_bit) := OneWireReadBit s in
        if id_bit && cmp_id_bit then Some (s, (rom, bit, lz, lfd))
        else
          let '(dir, lz, lfd) :=
            if negb (Bool.eqb id_bit cmp_id_bit) then (id_bit, lz, lfd)
            else
              let dir := if bit <? ld then 0 <? Z.land (rd rom num) mask else bit =? ld in
              if negb dir then (dir, bit, if bit <? 9 then bit else lfd) else (dir, lz, lfd) in
          let rom := if dir : bool then wr rom num (Z.lor (rd rom num) mask) else wr rom num (Z.land (rd rom num) (u8 (Z.lnot mask))) in
          let s := OneWireWriteBit (if dir then 1 else 0) s in
          let bit := u8 (bit + 1) in
          let mask := u8 (Z.shiftl mask 1) in
          let '(num, mask) := if mask =? 0 then (Datatypes.S num, 1) else (num, mask) in
          if (num <? 8)%nat then searchLoop n ld rom bit mask lz num lfd s else Some (s, (rom, bit, lz, lfd))
    end.
  (** onewire.cpp:382-458: as OneWire_Model.oneWireSearch, on the pin *)
  Definition OneWireSearch (parasite : bool) (q : search) (s : S) : option (S * (bool * option (list Z) * search)) :=
    if bLastDeviceFlag q then Some (s, (false, None, q)) else
    let '(s, there) := OneWireReset s in
    if negb there then Some (s, (false, None, mkSearch (ROM_NO q) 0 0 false)) else
    let s := OneWireWrite parasite 0xF0 s in
    match searchLoop 65 (LastDiscrepancy q) (ROM_NO q) 1 1 0 0 (LastFamilyDiscrepancy q) s with
    | None => None
    | Some (s, (rom, bit, lz, lfd)) =>
        let '(ret, ld, flag) := if negb (bit <? 65) then (true, lz, (lz =? 0) || bLastDeviceFlag q) else (false, LastDiscrepancy q, bLastDeviceFlag q) in
        Some (s, if negb ret || (rd rom 0 =? 0) then (ret, None, mkSearch rom 0 0 false) else (ret, Some rom, mkSearch rom ld lfd flag))
    end.
End Wire.
