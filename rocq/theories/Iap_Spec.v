(** What the boot ROM does (UM10398, 26.7), and the chip: no code of /repo. *)
From Verif Require Export Iap_Model.

(** Flash of [sectors] sectors of 4096 bytes; which sectors are prepared; the calls so far; whether one of them was made with interrupts enabled. *)
Record chip := mkChip { cells : Z -> Z; ready : Z -> bool; calls : nat; exposed : bool }.
(** What else matters: the size, the RAM, whether the flash controller is busy at the k-th call, what worn cells make of the byte they should hold, what interrupt
    handlers that use these functions themselves do to the preparation, and the answers to the identification commands. *)
Record world := { sectors : Z; ram : Z -> Z; busy : nat -> bool; worn : nat -> Z -> Z -> Z; meddle : nat -> Z -> bool -> bool; uid : list Z; part : Z }.

Definition sane (wd : world) : Prop := 1 <= sectors wd <= 128 /\ forall a, is_byte (ram wd a).
Definition all (f : Z -> bool) (lo hi : Z) : bool := forallb f (map (fun k => lo + Z.of_nat k) (seq 0 (Z.to_nat (hi - lo + 1)))).
Definition within (lo n a : Z) : bool := (lo <=? a) && (a <? lo + n).
Definition sectorsOk (wd : world) (a b : Z) : bool := (0 <=? a) && (a <=? b) && (b <? sectors wd).
Definition SRC_ADDR_ERROR : Z := 2. Definition DST_ADDR_ERROR : Z := 3. Definition DST_ADDR_NOT_MAPPED : Z := 5. Definition COUNT_ERROR : Z := 6.
Definition INVALID_SECTOR : Z := 7. Definition SECTOR_NOT_BLANK : Z := 8. Definition NOT_PREPARED : Z := 9. Definition COMPARE_ERROR : Z := 10. Definition BUSY : Z := 11.
Definition arg (par : list Z) (i : nat) : Z := rd par i.

(** The commands by their numbers in the manual: 50 prepare, 51 copy RAM to flash, 52 erase sectors, 53 blank check, 54 part identification, 56 compare, 58 serial number, 59 erase pages *)
Definition rom_call (wd : world) (enabled : bool) (cmd : Z) (par : list Z) (c : chip) : chip * (Z * list Z) :=
  let k := calls c in
  let c := mkChip (cells c) (ready c) (S k) (exposed c || enabled) in
  let fails st := (c, (st, [])) in
  let p0 := arg par 0 in let p1 := arg par 1 in let p2 := arg par 2 in
  if busy wd k then fails BUSY else
  if cmd =? 50 then
    if sectorsOk wd p0 p1 then (mkChip (cells c) (fun s => ready c s || ((p0 <=? s) && (s <=? p1))) (calls c) (exposed c), (0, [])) else fails INVALID_SECTOR
  else if cmd =? 52 then
    if negb (sectorsOk wd p0 p1) then fails INVALID_SECTOR else
    if negb (all (ready c) p0 p1) then fails NOT_PREPARED else
    (mkChip (fun a => if within (p0 * 4096) ((p1 - p0 + 1) * 4096) a then worn wd k a 0xff else cells c a) (fun _ => false) (calls c) (exposed c), (0, []))
  else if cmd =? 59 then
    if negb ((0 <=? p0) && (p0 <=? p1) && (p1 <? sectors wd * 16)) then fails INVALID_SECTOR else
    if negb (all (ready c) (p0 / 16) (p1 / 16)) then fails NOT_PREPARED else
    (mkChip (fun a => if within (p0 * 256) ((p1 - p0 + 1) * 256) a then worn wd k a 0xff else cells c a) (fun _ => false) (calls c) (exposed c), (0, []))
  else if cmd =? 53 then
    if negb (sectorsOk wd p0 p1) then fails INVALID_SECTOR else
    if all (fun a => cells c a =? 0xff) (p0 * 4096) (p1 * 4096 + 4095) then fails 0 else fails SECTOR_NOT_BLANK
  else if cmd =? 51 then
    if negb (p1 mod 4 =? 0) then fails SRC_ADDR_ERROR else
    if negb (p0 mod 256 =? 0) then fails DST_ADDR_ERROR else
    if negb (existsb (Z.eqb p2) [256; 512; 1024; 4096]) then fails COUNT_ERROR else
    if negb ((0 <=? p0) && (p0 + p2 <=? sectors wd * 4096)) then fails DST_ADDR_NOT_MAPPED else
    if negb (all (ready c) (p0 / 4096) ((p0 + p2 - 1) / 4096)) then fails NOT_PREPARED else
    (mkChip (fun a => if within p0 p2 a then worn wd k a (Z.land (cells c a) (ram wd (p1 + (a - p0)))) else cells c a) (fun _ => false) (calls c) (exposed c), (0, []))
  else if cmd =? 56 then
    if negb (p1 mod 4 =? 0) then fails SRC_ADDR_ERROR else
    if negb (p0 mod 4 =? 0) then fails DST_ADDR_ERROR else
    if negb (p2 mod 4 =? 0) then fails COUNT_ERROR else
    if all (fun a => cells c a =? ram wd (p1 + (a - p0))) p0 (p0 + p2 - 1) then fails 0 else fails COMPARE_ERROR
  else if cmd =? 58 then (c, (0, uid wd))
  else if cmd =? 54 then (c, (0, [part wd]))
  else fails 1.

Definition lpc (wd : world) : bootrom chip :=
  {| call := rom_call wd; handlers := fun c => mkChip (cells c) (fun s => meddle wd (calls c) s (ready c s)) (calls c) (exposed c) |}.

(** Nothing unusual: never busy, no worn cells, handlers do not use these functions. *)
Definition healthy (wd : world) : Prop := (forall k, busy wd k = false) /\ (forall k a v, worn wd k a v = v) /\ (forall k s b, meddle wd k s b = b).
