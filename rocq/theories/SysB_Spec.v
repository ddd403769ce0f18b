(** Loading a System B device as a management client sees it: five tables in the EEPROM, their memory and their checksums *)
From Verif Require Import Base Mapper_Model Mapper_Spec MemReq_Model MemReq_Spec Prop_Model Prop_Spec CRC_Spec.

(** ** The device *)
(** EEPROM of 3072 bytes from 0x3300 *)
Definition sysb_device (L : layout) (d : dev) : Prop := layout_ok L /\ dev_ok L d /\ eeStart L = 0x3300 /\ eeSize L = 3072.
Definition ee (d : dev) (a : Z) : Z := rd (eeData d) (Z.to_nat (a - 0x3300)).
(** the address of table [k] (1 addresses, 2 associations, 3 communication objects, 4 interface objects, 5 the second application program); 0: none *)
Definition start_at (k : Z) : Z := if k =? 1 then 0x3321 else if k =? 2 then 0x3323 else if k =? 3 then 0x367c else if k =? 4 then 0x3682 else 0x367e.
Definition table_start (d : dev) (k : Z) : Z := ee d (start_at k) + 256 * ee d (start_at k + 1).
(** its size: the first four bytes of its memory control block *)
Definition size_at (k : Z) : Z := 0x3345 + 8 * k.
Definition table_size (d : dev) (k : Z) : Z :=
  2 ^ 24 * ee d (size_at k) + 2 ^ 16 * ee d (size_at k + 1) + 256 * ee d (size_at k + 2) + ee d (size_at k + 3).
Definition is_table (k : Z) : Prop := 1 <= k <= 5.
Definition area (d : dev) (k a : Z) : Prop := table_start d k <> 0 /\ table_start d k <= a < table_start d k + table_size d k.
(** the memory for tables: above the device's own data, which end with the version of the second application program, and below 0x3a9e *)
Definition first_free : Z := 0x36d6.
Definition end_free : Z := 0x3a9e.
(** every table lies in that memory and no two share a byte *)
Definition tidy (d : dev) : Prop :=
  (forall k a, is_table k -> area d k a -> first_free <= a < end_free) /\
  (forall j k a, is_table j -> is_table k -> area d j a -> area d k a -> j = k).
(** everything from [b] on is free for allocations: no table starts below it *)
Definition used_from (d : dev) (b : Z) : Prop := b <= end_free /\ forall k, is_table k -> table_start d k <> 0 -> b <= table_start d k /\ table_start d k + table_size d k <= end_free.

(** ** Load events *)
(** an additional load control of kind "relative data allocation": four bytes size, mode (fill or not), fill byte *)
Definition allocation (q : request) : bool := (10 <=? event_length q) && (event_length q <=? 11) && (event_control q =? 3) && (rd (event_bytes q) 1 =? 11).
Definition wanted (q : request) : Z := 2 ^ 24 * event_arg q 0 + 2 ^ 16 * event_arg q 1 + 256 * event_arg q 2 + event_arg q 3.
Definition fills (q : request) : bool := 0 <? event_arg q 4.
(** an additional load control that sets an absolute address *)
Definition absolute (q : request) : bool := (event_control q =? 3) && (rd (event_bytes q) 1 =? 2).
(** the event allocates for table [k] *)
Definition allocates (k : Z) (q : request) : bool := event_for k q && allocation q.
(** what a request asks for, and a history *)
Definition asks (q : request) : Z := if existsb (fun k => allocates k q) [1; 2; 3; 4; 5] then wanted q else 0.
Definition total (l : list request) : Z := fold_right (fun q n => asks q + n) 0 l.
(** a property read or described, or a load event for one of the six objects that sets no absolute address and does not fill memory *)
Definition plain (q : request) : Prop :=
  let '(t, _, _) := q in
  is_read t \/ is_describe t \/ exists o, 0 <= o < 6 /\ event_for o q = true /\ absolute q = false /\ (allocation q = true -> fills q = false).

(** the CRC (CCITT, start value 0x1d0f, most significant bit first) of a memory *)
Definition crc_of (m : list Z) : list bool := crc_poly gen_ccitt (bits_msb 16 0x1d0f) (msg_msb m).
(** memory from address [a] *)
Definition memory (d : dev) (a : Z) (n : nat) : list Z := firstn n (skipn (Z.to_nat (a - 0x3300)) (eeData d)).
(** the value of the table reference property (id 7) of object [k], and the eight bytes of its memory control block property (id 27): size, flags and CRC *)
Definition reference_at (k : Z) : Z := if k =? 1 then 0x3678 else if k =? 2 then 0x367a else if k =? 3 then 0x367c else if k =? 4 then 0x3682 else 0x367e.
Definition reference (d : dev) (k : Z) : Z := ee d (reference_at k) + 256 * ee d (reference_at k + 1).
Definition block_at (k : Z) : Z := 0x369c + 8 * k.
Definition block (d : dev) (k : Z) : list Z := memory d (block_at k) 8.
(** the size in it, as far as it is used: the last two of its four bytes *)
Definition block_size (d : dev) (k : Z) : Z := 256 * ee d (block_at k + 2) + ee d (block_at k + 3).
(** a well-formed event "load completed" *)
Definition completes (k : Z) (q : request) : Prop := event_for k q = true /\ event_well_sized q /\ event_control q = 2.
(** the value shown for elements of a property: a table reference has four bytes *)
Definition shown_value (p : pdef) (id : Z) (l : list Z) (start count : Z) : list Z := (if numeric p && (id =? 7) then [0; 0] else []) ++ elements p l start count.
