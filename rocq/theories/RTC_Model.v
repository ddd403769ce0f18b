(** DS3231 real-time clock driver (sblib/src/i2c/ds3231.cpp) *)
From Verif Require Export Base.

(** ** Environment: the clock chip's 19 registers behind the I2C driver (Chip_I2C_MasterSend / MasterRead, not modelled beyond this).
    A transfer may stop early: [n] is the number of bytes that get through.  The first byte of a write sets the register address,
    the following ones go to successive registers.  The registers do not advance by themselves between two transfers (simplified: no ticking). *)
Definition chip := list Z.
Definition masterSend (n : nat) (data : list Z) (c : chip) : nat * chip :=
  let n := Nat.min n (length data) in
  (n, match data, n with
      | a :: _, S k => wr_range c (Z.to_nat a) (firstn k (tl data))
      | _, _ => c
      end).
Definition masterRead (n : nat) (a len : nat) (c : chip) : option (list Z) :=
  if (n <? len)%nat then None else Some (map (fun i => rd c (a + i)) (seq 0 len)).

(** ** Structures (ds3231.h:90-150) *)
Record rtc_time := mkTime { seconds : Z; minutes : Z; hours : Z; am_pm : bool; mode : bool }.
Record calendar := mkCal { day : Z; date : Z; month : Z; year : Z }.
Record alarm := mkAlarm { a_seconds : Z; a_minutes : Z; a_hours : Z; a_day : Z; a_date : Z; am1 : bool; am2 : bool; am3 : bool; am4 : bool;
  a_am_pm : bool; a_mode : bool; dy_dt : bool }.

(** ds3231.h:23-26 *)
Definition AM_PM : Z := 32. Definition MODE : Z := 64. Definition DY_DT : Z := 64. Definition ALRM_MASK : Z := 128.

(** ds3231.cpp:684-700 uchar_2_bcd (uint8_t in, uint16_t out) *)
Definition uchar_2_bcd (d : Z) : Z :=
  let r := Z.shiftl (d / 100) 8 in
  let d := d - d / 100 * 100 in
  let r := Z.lor r (Z.shiftl (d / 10) 4) in
  let d := d - d / 10 * 10 in
  Z.lor r d.
(** ds3231.cpp:714-722 bcd_2_uchar *)
Definition bcd_2_uchar (b : Z) : Z := u8 (Z.shiftr (Z.land b 240) 4 * 10 + Z.land b 15).
Definition bit_if (b : bool) (m : Z) : Z := if b then m else 0.
Definition tst (v m : Z) : bool := negb (Z.land v m =? 0).

(** ds3231.cpp:48-82 SetTime *)
Definition setTime (n : nat) (t : rtc_time) (c : chip) : bool * chip :=
  let h := Z.lor (Z.lor (u8 (uchar_2_bcd (hours t))) (bit_if (mode t) MODE)) (bit_if (mode t && am_pm t) AM_PM) in
  let data := [0; u8 (uchar_2_bcd (seconds t)); u8 (uchar_2_bcd (minutes t)); h] in
  let max_hour := if mode t then 24 / 2 else 24 - 1 in
  if negb ((59 <? seconds t) || (59 <? minutes t) || (max_hour <? hours t))
  then let '(k, c) := masterSend n data c in (Nat.eqb k 4, c) else (false, c).
(** ds3231.cpp:100-118 GetTime ([n1], [n2]: bytes sent and read) *)
Definition getTime (n1 n2 : nat) (c : chip) : option rtc_time :=
  if Nat.eqb (fst (masterSend n1 [0] c)) 1 then
    match masterRead n2 0 3 c with
    | None => None
    | Some d =>
        let md := tst (rd d 2) MODE in
        Some (mkTime (bcd_2_uchar (rd d 0)) (bcd_2_uchar (rd d 1)) (if md then bcd_2_uchar (Z.land (rd d 2) 31) else bcd_2_uchar (Z.land (rd d 2) 63)) (tst (rd d 2) AM_PM) md)
    end
  else None.
(** ds3231.cpp:135-155 SetCalendar *)
Definition setCalendar (n : nat) (k : calendar) (c : chip) : bool * chip :=
  let data := [3; u8 (uchar_2_bcd (day k)); u8 (uchar_2_bcd (date k)); u8 (uchar_2_bcd (month k)); u8 (uchar_2_bcd (year k))] in
  if negb (((day k <? 1) || (7 <? day k)) || ((date k <? 1) || (31 <? date k)) || ((month k <? 1) || (12 <? month k)) || (99 <? year k))
  then let '(m, c) := masterSend n data c in (Nat.eqb m 5, c) else (false, c).
(** ds3231.cpp:173-189 GetCalendar *)
Definition getCalendar (n1 n2 : nat) (c : chip) : option calendar :=
  if Nat.eqb (fst (masterSend n1 [3] c)) 1 then
    match masterRead n2 3 4 c with
    | None => None
    | Some d => Some (mkCal (bcd_2_uchar (rd d 0)) (bcd_2_uchar (rd d 1)) (bcd_2_uchar (Z.land (rd d 2) 127)) (bcd_2_uchar (rd d 3)))
    end
  else None.
(** ds3231.cpp:207-332 SetAlarm ([one]: bAlarmNumber) *)
Definition setAlarm (n : nat) (a : alarm) (one : bool) (c : chip) : bool * chip :=
  let s := Z.lor (bit_if (am1 a) ALRM_MASK) (u8 (uchar_2_bcd (a_seconds a))) in
  let m := Z.lor (bit_if (am2 a) ALRM_MASK) (u8 (uchar_2_bcd (a_minutes a))) in
  let h := Z.lor (Z.lor (Z.lor (bit_if (am3 a) ALRM_MASK) (bit_if (a_mode a) MODE)) (bit_if (a_mode a && a_am_pm a) AM_PM)) (u8 (uchar_2_bcd (a_hours a))) in
  let d := if dy_dt a then Z.lor (Z.lor (bit_if (am4 a) ALRM_MASK) DY_DT) (u8 (uchar_2_bcd (a_day a)))
           else Z.lor (bit_if (am4 a) ALRM_MASK) (u8 (uchar_2_bcd (a_date a))) in
  let data := if one then [7; s; m; h; d] else [11; m; h; d] in
  let max_hour := if a_mode a then 24 / 2 else 24 - 1 in
  if negb ((one && (59 <? a_seconds a)) || (59 <? a_minutes a) || (max_hour <? a_hours a) || (a_day a <? 1) || (7 <? a_day a) || (a_date a <? 1) || (31 <? a_date a))
  then let '(k, c) := masterSend n data c in (Nat.eqb k (length data), c) else (false, c).
(** ds3231.cpp:351-411 GetAlarm: fills the caller's structure [a] *)
Definition getAlarm (n1 n2 : nat) (a : alarm) (one : bool) (c : chip) : option alarm :=
  let addr := if one then 7%nat else 11%nat in
  let len := if one then 4%nat else 3%nat in
  let o := if one then 1%nat else 0%nat in
  if Nat.eqb (fst (masterSend n1 [Z.of_nat addr] c)) 1 then
    match masterRead n2 addr len c with
    | None => None
    | Some d =>
        let m := rd d o in let h := rd d (o + 1) in let w := rd d (o + 2) in
        let md := tst h MODE in
        Some (mkAlarm
          (if one then bcd_2_uchar (Z.land (rd d 0) 127) else a_seconds a)
          (bcd_2_uchar (Z.land m 127))
          (if md then bcd_2_uchar (Z.land h 31) else bcd_2_uchar (Z.land h 63))
          (if tst w DY_DT then bcd_2_uchar (Z.land w 15) else a_day a)
          (if tst w DY_DT then a_date a else bcd_2_uchar (Z.land w 63))
          (if one then tst (rd d 0) ALRM_MASK else am1 a)
          (tst m ALRM_MASK) (tst h ALRM_MASK) (tst w ALRM_MASK) (tst h AM_PM) md
          (if tst w DY_DT then true else dy_dt a))
    end
  else None.
(** ds3231.cpp:428-439 SetCtrlStatReg: always sends 3 bytes *)
Definition setCtrlStatReg (n : nat) (control status : Z) (bSetControl bSetStatus : bool) (c : chip) : bool * chip :=
  let l := [14] ++ (if bSetControl then [control] else []) ++ (if bSetStatus then [status] else []) in
  let data := firstn 3 (l ++ [0; 0]) in
  let '(k, c) := masterSend n data c in (Nat.eqb k 3, c).
(** ds3231.cpp:457-471 GetCtrlStatReg *)
Definition getCtrlStatReg (n1 n2 : nat) (c : chip) : option (Z * Z) :=
  if Nat.eqb (fst (masterSend n1 [14] c)) 1 then
    match masterRead n2 14 2 c with None => None | Some d => Some (rd d 0, rd d 1) end
  else None.
(** ds3231.cpp:524-543 CheckAlarm *)
Definition checkAlarm (n1 n2 : nat) (one : bool) (c : chip) : bool :=
  match getCtrlStatReg n1 n2 c with None => false | Some (_, st) => tst st (if one then 1 else 2) end.
(** ds3231.cpp:555-572 ResetAlarm *)
Definition resetAlarm (n1 n2 n3 : nat) (one : bool) (c : chip) : bool * chip :=
  match getCtrlStatReg n1 n2 c with
  | None => (false, c)
  | Some (ct, st) => let m := if one then 254 else 253 in setCtrlStatReg n3 (Z.land ct m) (Z.land st m) true true c
  end.
(** ds3231.cpp:584-601 TurnOnAlarm *)
Definition turnOnAlarm (n1 n2 n3 : nat) (one : bool) (c : chip) : bool * chip :=
  match getCtrlStatReg n1 n2 c with
  | None => (false, c)
  | Some (ct, st) => let m := if one then 5 else 6 in setCtrlStatReg n3 (Z.land ct m) (Z.land st m) true true c
  end.
(** ds3231.cpp:615-646 EnableOscillator *)
Definition enableOscillator (n1 n2 n3 : nat) (tf bBattery : bool) (rs : Z) (c : chip) : bool * chip :=
  match getCtrlStatReg n1 n2 c with
  | None => (false, c)
  | Some (ct, st) =>
      let ct := Z.land ct 231 in
      let ct := if bBattery then Z.lor ct 64 else Z.land ct 191 in
      let ct := if tf then Z.land ct 123 else Z.lor ct 128 in
      setCtrlStatReg n3 (Z.lor ct rs) st true false c
  end.
(** ds3231.cpp:488-512 GetEpoch: the hour of day passed to mktime (mktime itself is not modelled) *)
Definition epoch_hour (t : rtc_time) : Z :=
  if mode t then (if am_pm t && negb (hours t =? 12) then hours t + 12 else hours t) else hours t.
