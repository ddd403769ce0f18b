(** Interface object properties as a bus client sees them *)
From Verif Require Import Base Mapper_Model Mapper_Spec MemReq_Model MemReq_Spec Prop_Model.

(** ** Telegrams *)
Definition telegram (t : list Z) : Prop := length t = 23%nat /\ Forall is_byte t.
Definition f_command (t : list Z) : Z := 256 * (rd t 6 mod 4) + rd t 7.
Definition f_object (t : list Z) : Z := rd t 8.
Definition f_id (t : list Z) : Z := rd t 9.
Definition f_count (t : list Z) : Z := rd t 10 / 16.
Definition f_start (t : list Z) : Z := 256 * (rd t 10 mod 16) + rd t 11.
Definition is_read (t : list Z) : Prop := f_command t = 0x3d5.
Definition is_write (t : list Z) : Prop := f_command t = 0x3d7.
Definition is_describe (t : list Z) : Prop := f_command t = 0x3d8.
(** what a property value response says: object, property, count, start and data; None: it is not a well-formed one *)
Definition value_answer (sb : list Z) : option (Z * Z * Z * Z * list Z) :=
  if (rd sb 5 / 16 =? 6) && (5 <=? rd sb 5 mod 16) && (f_command sb =? 0x3d6) then
    Some (f_object sb, f_id sb, f_count sb, f_start sb, firstn (Z.to_nat (rd sb 5 mod 16 - 5)) (skipn 12 sb))
  else None.
(** bytes of the whole telegram: seven, the data counted in the length nibble, the checksum *)
Definition telegram_bytes (sb : list Z) : Z := 8 + rd sb 5 mod 16.
(** what a property description response says: object, property, index, type, writable, number of elements *)
Definition description (sb : list Z) : option (Z * Z * Z * Z * bool * Z) :=
  if (rd sb 5 =? 0x68) && (f_command sb =? 0x3d9) then
    Some (rd sb 8, rd sb 9, rd sb 10, rd sb 11 mod 64, Z.testbit (rd sb 11) 7, 256 * (rd sb 12 mod 16) + rd sb 13)
  else None.

(** ** Properties *)
(** sizes of the property data types (KNX 3/7/3): numbers, dates and times, blocks of 10 and 5, poll group settings, date and time, variable length, generic 1..15 *)
Definition type_size (ty : Z) : Z :=
  if 17 <=? ty then ty - 16
  else if ty <=? 2 then 1 else if ty <=? 5 then 2 else if ty <=? 7 then 3 else if ty <=? 10 then 4 else if ty =? 11 then 8
  else if ty =? 12 then 10 else if ty =? 13 then 3 else if ty =? 14 then 5 else if ty =? 15 then 8 else 0.
Definition type_of (p : pdef) : Z := control p mod 32.
Definition size_of (p : pdef) : Z := type_size (type_of p).
(** numbers are kept low byte first in memory and shown high byte first *)
Definition numeric (p : pdef) : bool := type_of p <? 12.
Definition writable (p : pdef) : bool := Z.testbit (control p) 7.
(** the memory from the property's first byte on *)
Definition storage (p : pdef) (d : dev) : option (list Z) :=
  if Z.testbit (control p) 5 then
    let o := Z.to_nat (valAddr p mod 4096) in
    if (valAddr p / 4096) mod 8 =? 0 then Some (skipn o (ramData d))
    else if (valAddr p / 4096) mod 8 =? 4 then Some (skipn o (eeData d))
    else None
  else Some [valAddr p mod 256; valAddr p / 256].
(** element [i] of a property, counted from 1, as it is shown *)
Definition element (p : pdef) (l : list Z) (i : Z) : list Z :=
  let bs := firstn (Z.to_nat (size_of p)) (skipn (Z.to_nat ((i - 1) * size_of p)) l) in
  if numeric p then rev bs else bs.
Definition elements (p : pdef) (l : list Z) (start count : Z) : list Z :=
  concat (map (fun k => element p l (start + Z.of_nat k)) (seq 0 (Z.to_nat count))).
(** object [o] of the tables has property [p]: the first entry of its id, before the end mark *)
Definition has_property (tabs : list (list pdef)) (o : Z) (p : pdef) : Prop :=
  0 <= o < 6 /\ is_byte (control p) /\ is_u16 (valAddr p) /\ pid p <> 0 /\
  exists pre post, nth_error tabs (Z.to_nat o) = Some (pre ++ p :: post) /\ Forall (fun q => pid q <> 0 /\ pid q <> pid p) pre.

(** ** Load control *)
Definition load_state (d : dev) (o : Z) : Z := rd (eeData d) (Z.to_nat (0x370 + o)).
(** a request: telegram, its length on the bus and the buffer for the response *)
Definition request : Type := list Z * Z * list Z.
(** a load-control event for object [o]: a value write to property 5. The event is what follows the twelve header bytes, without the checksum *)
Definition event_for (o : Z) (q : request) : bool := let '(t, _, _) := q in (f_command t =? 0x3d7) && (f_object t =? o) && (f_id t =? 5).
Definition event_bytes (q : request) : list Z := let '(t, _, _) := q in skipn 12 t.
Definition event_length (q : request) : Z := let '(_, n, _) := q in n - 13.
Definition event_control (q : request) : Z := rd (event_bytes q) 0 mod 8.
Definition event_well_sized (q : request) : Prop := event_length q = 10 \/ event_length q = 11.
(** the parameters of an additional load control: its last eight bytes *)
Definition event_arg (q : request) (i : nat) : Z := rd (event_bytes q) (Z.to_nat (event_length q - 8) + i).
(** addresses that exist: RAM, EEPROM, mapped pages and the high RAM of a BCU 2 *)
Definition hosts (L : layout) (d : dev) (a : Z) : Prop :=
  inside (ramStart L) (ramSize L) a \/ inside (eeStart L) (eeSize L) a \/
  (exists m, memMapper d = Some m /\ (autoAddPage (mapCfg L) = true \/ mapper_array m a <> None)) \/ 0x900 <= a < 0x9bc.
(** additional load controls that are accepted *)
Definition acceptable (L : layout) (d : dev) (o : Z) (q : request) : Prop :=
  let seg := rd (event_bytes q) 1 in
  let first := 256 * event_arg q 0 + event_arg q 1 in
  let len := 256 * event_arg q 2 + event_arg q 3 in
  (seg = 0 /\ 1 <= event_arg q 5 mod 8 <= 3 /\ hosts L d first /\ hosts L d (first + len - 1)) \/
  (seg = 2 /\ 1 <= o <= 3) \/ In seg [1; 3; 4; 5; 10; 11].
(** the state an event leads to: 0 unloaded, 1 loaded, 2 loading, 3 error; [s]: the state before *)
Definition prescribed (L : layout) (d : dev) (o : Z) (q : request) (s s' : Z) : Prop :=
  (~ event_well_sized q /\ s' = 3) \/
  (event_well_sized q /\
   ((event_control q = 0 /\ s' = s) \/ (event_control q = 1 /\ s' = 2) \/ (event_control q = 2 /\ s' = 1) \/ (event_control q = 4 /\ s' = 0) \/
    (event_control q = 3 /\ acceptable L d o q /\ s' = 2) \/ (event_control q = 3 /\ ~ acceptable L d o q /\ s' = 3) \/ (5 <= event_control q /\ s' = 3))).
(** the state of object [o] after a sequence of requests *)
Fixpoint after (L : layout) (d : dev) (o : Z) (l : list request) (s s' : Z) : Prop :=
  match l with
  | [] => s' = s
  | q :: r => exists s1, (if event_for o q then prescribed L d o q s s1 else s1 = s) /\ after L d o r s1 s'
  end.
Definition no_operation (q : request) : Prop := event_well_sized q /\ event_control q = 0.
(** the last event for object [o] *)
Fixpoint last_event (o : Z) (l : list request) : option request :=
  match l with
  | [] => None
  | q :: r => match last_event o r with Some x => Some x | None => if event_for o q then Some q else None end
  end.
(** a device of the BCU 2 family *)
Definition bcu2_device (L : layout) (d : dev) : Prop := layout_ok L /\ dev_ok L d /\ 1024 <= eeSize L /\ 0x100 <= ramSize L.
Definition request_fits (q : request) : Prop := let '(t, n, sb) := q in telegram t /\ 0 <= n <= 23 /\ length sb = 23%nat /\ Forall is_byte sb.

(** ** The properties of a BCU 2: object, property id, where (0: RAM, 1: EEPROM, 2: the constant), offset or value, bytes, high byte first *)
Definition bcu2_values : list (Z * Z * Z * Z * nat * bool) :=
  [ (0, 1, 2, 0, 2%nat, true); (0, 14, 0, 0x62, 1%nat, false); (0, 5, 1, 0x370, 1%nat, true); (0, 8, 1, 0x386, 2%nat, true); (0, 9, 2, 0x10, 1%nat, true);
    (0, 11, 1, 0x38a, 6%nat, false); (0, 12, 1, 3, 2%nat, false); (0, 15, 1, 0x39a, 10%nat, false); (0, 16, 0, 0x63, 1%nat, true); (0, 17, 1, 0x0c, 1%nat, true);
    (0, 78, 1, 0x390, 6%nat, false);
    (1, 1, 2, 1, 2%nat, true); (1, 5, 1, 0x371, 1%nat, true); (1, 7, 1, 0x378, 2%nat, true); (1, 27, 1, 0x3a4, 8%nat, false);
    (2, 1, 2, 2, 2%nat, true); (2, 5, 1, 0x372, 1%nat, true); (2, 7, 1, 0x37a, 2%nat, true); (2, 27, 1, 0x3ac, 8%nat, false);
    (3, 1, 2, 3, 2%nat, true); (3, 5, 1, 0x373, 1%nat, true); (3, 6, 0, 0x61, 1%nat, true); (3, 13, 1, 3, 5%nat, false); (3, 7, 1, 0x37c, 2%nat, true);
    (3, 27, 1, 0x3b4, 8%nat, false); (3, 0xcc, 0, 0xc8, 10%nat, false);
    (4, 1, 2, 4, 2%nat, true); (4, 5, 1, 0x374, 1%nat, true); (4, 7, 1, 0x382, 2%nat, true); (4, 13, 1, 0x3cc, 5%nat, false); (4, 27, 1, 0x3bc, 8%nat, false);
    (5, 1, 2, 5, 2%nat, true); (5, 5, 1, 0x375, 1%nat, true); (5, 7, 1, 0x37e, 2%nat, true); (5, 13, 1, 0x3d1, 5%nat, false); (5, 28, 2, 0, 1%nat, false) ].
Definition bcu2_value (mem v : Z) (n : nat) (msb : bool) (d : dev) : list Z :=
  let bs := if mem =? 2 then firstn n [v mod 256; v / 256] else firstn n (skipn (Z.to_nat v) (if mem =? 0 then ramData d else eeData d)) in
  if msb then rev bs else bs.

(** [bs] put into a memory at [pos] *)
Definition splice (l : list Z) (pos : nat) (bs : list Z) : list Z := firstn pos l ++ bs ++ skipn (pos + length bs) l.
(** the elements asked for exist: they lie in the memory *)
Definition fits (p : pdef) (l : list Z) (start count : Z) : Prop := 1 <= start /\ 0 <= count /\ (start - 1 + count) * size_of p <= Z.of_nat (length l).
(** a property kept in RAM or EEPROM *)
Definition in_ram (p : pdef) : Prop := Z.testbit (control p) 5 = true /\ (valAddr p / 4096) mod 8 = 0.
Definition in_eeprom (p : pdef) : Prop := Z.testbit (control p) 5 = true /\ (valAddr p / 4096) mod 8 = 4.
(** the place of element [start] in its memory *)
Definition where_ (p : pdef) (start : Z) : nat := (Z.to_nat (valAddr p mod 4096) + Z.to_nat ((start - 1) * size_of p))%nat.
(** what a write of [bs] at element [start] leaves *)
Definition written (p : pdef) (start : Z) (bs : list Z) (d d' : dev) : Prop :=
  memMapper d' = memMapper d /\ status d' = status d /\
  ((in_ram p /\ ramData d' = splice (ramData d) (where_ p start) bs /\ eeData d' = eeData d /\ eeModified d' = eeModified d) \/
   (in_eeprom p /\ eeData d' = splice (eeData d) (where_ p start) bs /\ ramData d' = ramData d /\ eeModified d' = true)).

(** what an additional load control makes readable: object, property and value. [static]: a fixed address of the communication object table, or 0 *)
Definition allocated (static o : Z) (q : request) : list (Z * Z * list Z) :=
  let a := event_arg q in
  let seg := rd (event_bytes q) 1 in
  if seg =? 2 then
    if o =? 1 then [(1, 7, [a 0%nat; a 1%nat])] else if o =? 2 then [(2, 7, [a 0%nat; a 1%nat])]
    else if o =? 3 then [(3, 13, [a 3%nat; a 4%nat; a 5%nat; a 6%nat; a 7%nat])] else []
  else if seg =? 4 then [(4, 7, [a 0%nat; a 1%nat])]
  else if seg =? 5 then [(3, 7, if static =? 0 then [a 2%nat; a 3%nat] else [static / 256; static mod 256]); (5, 7, [a 4%nat; a 5%nat])]
  else [].
