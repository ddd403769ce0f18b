(** Small utilities of sblib: Timeout, Debouncer, reverseCopy, hashUID, indexOf, shiftIn/shiftOut.
    [now] is the value of millis() (an unsigned 32-bit number) the operation observes. *)
From Verif Require Export Base.

(** ** Timeout (sblib/inc/sblib/timeout.h); the object is its one member [timeout] *)
(** timeout.h:98 *)
Definition STOPPED := 0.
(** timeout.h:91-94 stop, 36-39 constructor *)
Definition to_stop : Z := STOPPED.
(** timeout.h:44-53 start *)
Definition to_start (now ms : Z) : Z :=
  if ms =? 0 then to_stop
  else let t := u32 (now + ms) in if t =? STOPPED then u32 (t + 1) else t.
(** timeout.h:59-70 expired: (result, new member) *)
Definition to_expired (now t : Z) : bool * Z :=
  if negb (t =? STOPPED) then
    if 0 <=? s32 (now - t) then (true, to_stop) else (false, t)
  else (false, t).
(** timeout.h:76-79 started, 85-88 stopped *)
Definition to_started (t : Z) : bool := negb (t =? STOPPED).
Definition to_stopped (t : Z) : bool := t =? STOPPED.

(** ** Debouncer (sblib/inc/sblib/debounce.h:59-62) *)
Record debouncer := mkDeb { d_time : Z; d_valid : Z; d_last : Z }.
(** debounce.cpp:16-19: only [time] is initialised; the other members have whatever value the storage has *)
Definition deb_new (valid last : Z) : debouncer := mkDeb 0 valid last.
(** debounce.cpp:21-36 debounce: (new object, returned value) *)
Definition deb_debounce (now current timeout : Z) (d : debouncer) : debouncer * Z :=
  let d :=
    if negb (d_last d =? current) then mkDeb now (d_valid d) current
    else if negb (d_time d =? 0) && (0 <=? s32 (now - u32 (d_time d + timeout))) then mkDeb 0 current (d_last d)
    else d in
  (d, d_valid d).
(** debounce.h:74-78 init *)
Definition deb_init (v : Z) (d : debouncer) : debouncer := mkDeb 0 v (d_last d).

(** ** reverseCopy (sblib/src/utils.cpp:21-29); memory is a function from addresses to bytes *)
Definition memory := Z -> Z.
Definition store (m : memory) (a v : Z) : memory := fun x => if x =? a then v else m x.
(** utils.cpp:24-28: the loop, [n] iterations left *)
Fixpoint reverseLoop (n : nat) (dest src : Z) (m : memory) : memory :=
  match n with
  | O => m
  | S k => reverseLoop k (dest + 1) (src - 1) (store m dest (m src))
  end.
(** utils.cpp:21-23 *)
Definition reverseCopy (dest src len : Z) (m : memory) : memory := reverseLoop (Z.to_nat len) dest (src + (len - 1)) m.

(** ** hashUID (sblib/src/utils.cpp:73-97).  [ga], [gb]: contents of the uninitialised variables a and b. *)
Definition BigPrime48 := 281474976710597.
(** utils.cpp:86-87 memcpy into a 64-bit little-endian variable with previous content [g] *)
Definition load_le (g : Z) (bytes : list Z) : Z :=
  fold_right (fun b acc => b + 256 * acc) (g / 2 ^ (8 * Z.of_nat (length bytes))) bytes.
Definition hashUID (ga gb : Z) (uid : list Z) (len_hash : Z) : option (list Z) :=
  let len_uid := Z.of_nat (length uid) in
  if (len_uid <=? 0) || (16 <? len_uid) then None
  else if (len_hash <=? 0) || (len_uid <? len_hash) then None
  else
    let mid := (length uid / 2)%nat in
    let a := load_le ga (firstn mid uid) mod BigPrime48 in
    let b := load_le gb (skipn mid uid) mod BigPrime48 in
    let h := Z.lxor a b in
    Some (map (fun i => Z.land (Z.shiftr h (8 * Z.of_nat i)) 0xFF) (seq 0 (Z.to_nat len_hash))).

(** ** indexOf (sblib/src/arrays.cpp:14-45, three overloads with the same body); [arr]: the elements, [count] <= their number *)
Fixpoint indexLoop (fuel : nat) (val idx : Z) (arr : list Z) : Z :=
  match fuel with
  | O => -1
  | S k => if rd arr (Z.to_nat idx) =? val then idx else indexLoop k val (idx + 1) arr
  end.
Definition indexOf (val : Z) (arr : list Z) (count : Z) : Z := indexLoop (Z.to_nat count) val 0 arr.

(** ** Shift registers (sblib/src/digital_pin_shift.cpp) *)
Inductive bitOrder := LSBFIRST | MSBFIRST.
(** writes to the data pin (level) and to the clock pin (level) in program order *)
Inductive pin_write := Data (level : bool) | Clock (level : bool).
(** digital_pin_shift.cpp:30-44 shiftOut (digitalWrite of a value other than 0 sets the pin) *)
Definition shiftOut (order : bitOrder) (val : Z) : list pin_write :=
  flat_map (fun i => [Data (negb (Z.land val (Z.shiftl 1 (match order with LSBFIRST => i | MSBFIRST => 7 - i end)) =? 0));
                      Clock true; Clock false])
           [0; 1; 2; 3; 4; 5; 6; 7].
(** digital_pin_shift.cpp:12-28 shiftIn; [level i]: the data pin after the (i+1)-th rising edge of the clock *)
Definition shiftIn (order : bitOrder) (level : nat -> bool) : Z :=
  u8 (fold_left (fun value i => Z.lor value (Z.shiftl (if level i then 1 else 0) (match order with LSBFIRST => Z.of_nat i | MSBFIRST => 7 - Z.of_nat i end)))
                [0; 1; 2; 3; 4; 5; 6; 7]%nat 0).
