(** Text output and input: Print (numbers), Stream (parseInt, readBytesUntil, findUntil) and the bootloader's Intel-HEX dump. *)
From Verif Require Export Base.

(** ** Print (sblib/src/print.cpp); output is the list of the bytes passed to write(); None: undefined behaviour *)
(** print.cpp:17 *)
Definition PRINTBUF_SIZE : nat := 33.
(** print.cpp:52 *)
Definition digitChar (ch : Z) : Z := u8 ((if ch <? 10 then 48 else 65 - 10) + ch).
(** print.cpp:49-56: the loop; [room]: bytes of buf below pos; storing with no room left overruns the buffer *)
Fixpoint printLoop (room : nat) (value b digits : Z) (acc : list Z) : option (list Z) :=
  match room with
  | O => None
  | S r =>
      if digits =? -2^31 then None
      else
        let acc := digitChar (value mod b) :: acc in
        let value := value / b in
        let digits := digits - 1 in
        if (0 <? digits) || negb (value =? 0) then printLoop r value b digits acc else Some acc
  end.
(** print.cpp:40-59 print(uintptr_t, Base, int); [value] < 2^32, [base] a short *)
Definition printUInt (value base digits : Z) : option (list Z) :=
  printLoop PRINTBUF_SIZE value (if base <? 2 then 2 else base) digits [].
(** print.cpp:20-31 print(int, Base, int) *)
Definition printInt (value base digits : Z) : option (list Z) :=
  if value <? 0 then
    if (value =? -2^31) || (digits =? -2^31) then None
    else option_map (cons 45) (printUInt (- value) base (digits - 1))
  else printUInt value base digits.
(** print.cpp:97-100 println() *)
Definition CRLF : list Z := [13; 10].

(** ** Stream (sblib/src/stream.cpp).  A stream is the list of the bytes that arrive, each within the timeout after the
    library begins to wait for it; after the last one every wait times out.  (timedRead 88-99 and timedPeek 101-112 then
    return the next byte or -1.)  The functions return their result and the bytes not yet consumed. *)
Definition stream := list Z.
Definition isDigit (ch : Z) : bool := (48 <=? ch) && (ch <=? 57).
(** stream.cpp:114-129 peekNextDigit: the stream from the digit or minus on *)
Fixpoint peekNextDigit (s : stream) : stream :=
  match s with
  | [] => []
  | ch :: r => if (ch =? 45) || isDigit ch then s else peekNextDigit r
  end.
(** stream.cpp:28-37 the loop.  [value] is a 32-bit int computed with wrap-around; [ovf] records whether a signed
    overflow (undefined behaviour in C++) has happened: value * 10, + ch, - '0' *)
Fixpoint parseLoop (skip value : Z) (ovf : bool) (s : stream) : Z * bool * stream :=
  match s with
  | [] => (value, ovf, [])
  | ch :: r =>
      if isDigit ch then
        parseLoop skip (s32 (value * 10 + ch - 48)) (ovf || negb (value * 10 + ch <? 2^31)) r
      else if negb (ch =? skip) then (value, ovf, s)
      else parseLoop skip value ovf r
  end.
(** stream.cpp:16-41 parseInt(skipChar); a minus is handled as the digit 0 (24-25) *)
Definition parseInt (skip : Z) (s : stream) : Z * bool * stream :=
  match peekNextDigit s with
  | [] => (0, false, [])
  | ch :: r =>
      if ch =? 45 then let '(v, ovf, rest) := parseLoop skip 0 false r in (s32 (- v), ovf || (v =? -2^31), rest)
      else parseLoop skip 0 false (ch :: r)
  end.
(** stream.cpp:43-57 _readBytesUntil: the bytes stored in the buffer and the rest of the stream; [terminator] -1: none *)
Fixpoint readBytesUntil (terminator : Z) (length : nat) (s : stream) : list Z * stream :=
  match length with
  | O => ([], s)
  | S n =>
      match s with
      | [] => ([], [])
      | ch :: r => if ch =? terminator then ([], r) else let '(l, rest) := readBytesUntil terminator n r in (ch :: l, rest)
      end
  end.
(** stream.cpp:59-86 findUntil; [targetIdx], [termIdx] as in the code; [target] and [term] hold targetLen and termLen bytes *)
Fixpoint findLoop (target term : list Z) (targetIdx termIdx : nat) (s : stream) : bool * stream :=
  match s with
  | [] => (false, [])
  | ch :: r =>
      let hit := ch =? rd target targetIdx in
      if hit && (length target <=? S targetIdx)%nat then (true, r)
      else
        let targetIdx := if hit then S targetIdx else O in
        if (0 <? length term)%nat then
          let thit := ch =? rd term termIdx in
          if thit && (length term <=? S termIdx)%nat then (false, r)
          else findLoop target term targetIdx (if thit then S termIdx else O) r
        else findLoop target term targetIdx termIdx r
  end.
Definition findUntil (target term : list Z) (s : stream) : bool * stream := findLoop target term 0 0 s.
(** stream.h find(target, length): no terminator *)
Definition streamFind (target : list Z) (s : stream) : bool * stream := findUntil target [] s.

(** ** Intel-HEX dump (firmware_updater/bootloader/src/intelhex.cpp:31-102) *)
Definition HEX := 16.
Definition app_opt (a b : option (list Z)) : option (list Z) :=
  match a, b with Some x, Some y => Some (x ++ y) | _, _ => None end.
Infix "+++" := app_opt (at level 60, right associativity).
(** ":" (21), "04000003" (24), "00000001FF" (23) *)
Definition HEX_STARTCODE : list Z := [58].
Definition HEX_START_SEGMENT_RECORD : list Z := [48; 52; 48; 48; 48; 48; 48; 51].
Definition HEX_END_OF_FILE : list Z := [48; 48; 48; 48; 48; 48; 48; 49; 70; 70].
(** intelhex.cpp:73-74 and 94-95 *)
Definition finalCheckSum (c : Z) : Z := Z.land (u8 (Z.lxor (Z.land c 0xff) 0xff) + 1) 0xff.
(** intelhex.cpp:65-72: the bytes of a line and the running checksum *)
Fixpoint dumpBytes (n : nat) (mem : Z -> Z) (data check : Z) : option (list Z) * Z :=
  match n with
  | O => (Some [], check)
  | S k => let x := mem data in
           let '(out, c) := dumpBytes k mem (data + 1) (u32 (check + x)) in (printInt x HEX 2 +++ out, c)
  end.
(** intelhex.cpp:40-77: the lines, [left] = count - i bytes to go, [data] the pointer; [fuel] bounds the number of lines.
    The data are read through [mem]; a line of 0 bytes would repeat forever (fuel runs out: None) *)
Fixpoint dumpLines (fuel : nat) (mem : Z -> Z) (data left bytesPerLine : Z) : option (list Z) :=
  if left <=? 0 then Some []
  else match fuel with
  | O => None
  | S k =>
      let bytesToWrite := if left <? bytesPerLine then left else bytesPerLine in
      let check := u32 (bytesToWrite + (Z.land (Z.shiftr data 8) 0xff + Z.land data 0xff)) in
      let '(out, c) := dumpBytes (Z.to_nat bytesToWrite) mem data check in
      Some HEX_STARTCODE +++ printUInt bytesToWrite HEX 2 +++ printUInt data HEX 4 +++ printInt 0 HEX 2 +++ out +++
      printUInt (finalCheckSum c) HEX 2 +++ Some CRLF +++
      dumpLines k mem (data + bytesToWrite) (left - bytesToWrite) bytesPerLine
  end.
(** intelhex.cpp:31-102; addresses are assumed not to wrap past 2^32 *)
Definition dumpIntelHex (mem : Z -> Z) (start count bytesPerLine : Z) : option (list Z) :=
  let stop := start + count in
  let check := 7 + (Z.land (Z.shiftr start 8) 0xff + Z.land start 0xff) + (Z.land (Z.shiftr stop 8) 0xff + Z.land stop 0xff) in
  dumpLines (Z.to_nat count) mem start count bytesPerLine +++
  Some HEX_STARTCODE +++ Some HEX_START_SEGMENT_RECORD +++ printUInt start HEX 4 +++ printUInt stop HEX 4 +++
  printUInt (finalCheckSum check) HEX 2 +++ Some CRLF +++
  Some HEX_STARTCODE +++ Some HEX_END_OF_FILE +++ Some CRLF.
