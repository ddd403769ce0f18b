(** What an application sees of group objects: flags and values as cells of the user memory addressed by their KNX addresses.
    Independent of the functions of ComObj_Model; only its records (tables and memory contents) are used. *)
From Verif Require Import Base ComObj_Model.

(** ** Memory by address *)
Definition in_eep (c : cfg) (a : Z) : bool := (eepStart c <=? a) && (a <? eepStart c + eepSize c).
Definition in_ram (c : cfg) (a : Z) : bool := (ramStart c <=? a) && (a <? ramStart c + ramSize c).
(** the byte at user address [a] *)
Definition cell (c : cfg) (m : mem) (a : Z) : Z :=
  if in_eep c a then rd (eep m) (Z.to_nat (a - eepStart c)) else if in_ram c a then rd (ram m) (Z.to_nat (a - ramStart c)) else 0.
(** the [n] bytes from [a] lie in one area *)
Definition in_area (c : cfg) (a n : Z) : Prop :=
  (eepStart c <= a /\ a + n <= eepStart c + eepSize c) \/ (ramStart c <= a /\ a + n <= ramStart c + ramSize c).
(** RAM and EEPROM are disjoint ranges below 64K; the tables hold bytes *)
Record cfg_ok (c : cfg) : Prop := {
  ok_ram : 0 <= ramStart c /\ 0 <= ramSize c /\ ramStart c + ramSize c <= 65536;
  ok_eep : 0 <= eepStart c /\ 0 <= eepSize c /\ eepStart c + eepSize c <= 65536;
  ok_disj : ramStart c + ramSize c <= eepStart c \/ eepStart c + eepSize c <= ramStart c;
  ok_addr : Forall is_byte (addrTab c); ok_assoc : Forall is_byte (assocTab c); ok_com : Forall is_byte (comTab c) }.
Record mem_ok (c : cfg) (m : mem) : Prop := {
  ok_rl : length (ram m) = Z.to_nat (ramSize c); ok_el : length (eep m) = Z.to_nat (eepSize c);
  ok_rb : Forall is_byte (ram m); ok_eb : Forall is_byte (eep m) }.

(** ** Layout given by the communication object table *)
Definition word16 (high low : Z) : Z := high * 256 + low.
Definition flags_base (c : cfg) : Z :=
  if isBCU2 c then if le_ptr c then word16 (rd (comTab c) 2) (rd (comTab c) 1) else word16 (rd (comTab c) 1) (rd (comTab c) 2)
  else rd (comTab c) 1.
Definition obj_entry (c : cfg) (o k : nat) : Z := rd (comTab c) (if isBCU2 c then 3 + 4 * o + k else 2 + 3 * o + k)%nat.
Definition obj_conf (c : cfg) (o : nat) : Z := obj_entry c o (if isBCU2 c then 2 else 1).
Definition obj_typ (c : cfg) (o : nat) : Z := obj_entry c o (if isBCU2 c then 3 else 2).
Definition obj_addr (c : cfg) (o : nat) : Z :=
  if isBCU2 c then if le_ptr c then word16 (obj_entry c o 1) (obj_entry c o 0) else word16 (obj_entry c o 0) (obj_entry c o 1)
  else obj_entry c o 0 + (if Z.testbit (obj_conf c o) 5 then eepStart c else 0).
Definition num_objs (c : cfg) : nat := Z.to_nat (rd (comTab c) 0).
(** bytes of storage for the types 1 bit, 2 bit, ... 6 bit (0..5), 7 bit, 1 .. 4 byte, 6, 8, 10, 14 bytes, variable *)
Definition type_size (t : Z) : nat := nth (Z.to_nat t) [1; 1; 1; 1; 1; 1; 1; 1; 2; 3; 4; 6; 8; 10; 14; 14]%nat 0%nat.
Definition short_type (t : Z) : Prop := 0 <= t < 6.
Definition obj_size (c : cfg) (o : nat) : nat := type_size (obj_typ c o).
Definition comm_enabled (c : cfg) (o : nat) : Prop := Z.testbit (obj_conf c o) 2 = true.
Definition read_enabled (c : cfg) (o : nat) : Prop := comm_enabled c o /\ Z.testbit (obj_conf c o) 3 = true.
Definition write_enabled (c : cfg) (o : nat) : Prop := comm_enabled c o /\ Z.testbit (obj_conf c o) 4 = true.
Definition trans_enabled (c : cfg) (o : nat) : Prop := comm_enabled c o /\ Z.testbit (obj_conf c o) 6 = true.

(** the flags of object [o]: half a byte of the flags table *)
Definition flags (c : cfg) (m : mem) (o : nat) : Z := (cell c m (flags_base c + Z.of_nat o / 2) / (if Nat.odd o then 16 else 1)) mod 16.
Definition updated (c : cfg) (m : mem) (o : nat) : Prop := Z.testbit (flags c m o) 3 = true.
(** the value of object [o], least significant byte first *)
Definition value (c : cfg) (m : mem) (o : nat) : list Z := map (fun i => cell c m (obj_addr c o + Z.of_nat i)) (seq 0 (obj_size c o)).
Fixpoint le_num (bs : list Z) : Z := match bs with [] => 0 | b :: r => b + 256 * le_num r end.

(** the flags table of [num_objs] objects is in memory *)
Definition flags_ok (c : cfg) : Prop := in_area c (flags_base c) ((Z.of_nat (num_objs c) + 1) / 2).
Definition in_flags (c : cfg) (a : Z) : Prop := flags_base c <= a < flags_base c + (Z.of_nat (num_objs c) + 1) / 2.
(** object [o] exists, has a known type and its value is in memory *)
Definition obj_ok (c : cfg) (o : nat) : Prop :=
  (o < num_objs c)%nat /\ obj_typ c o <= 15 /\ in_area c (obj_addr c o) (Z.of_nat (obj_size c o)).
Definition in_obj (c : cfg) (o : nat) (a : Z) : Prop := obj_addr c o <= a < obj_addr c o + Z.of_nat (obj_size c o).
(** the storage of different objects and of the flags is disjoint *)
Definition layout_ok (c : cfg) : Prop :=
  flags_ok c /\ (forall o, (o < num_objs c)%nat -> obj_ok c o) /\
  (forall o a, (o < num_objs c)%nat -> in_obj c o a -> ~ in_flags c a) /\
  (forall o1 o2 a, (o1 < num_objs c)%nat -> (o2 < num_objs c)%nat -> in_obj c o1 a -> in_obj c o2 a -> o1 = o2).

(** ** Group addresses *)
(** entry [k] of the address table; entry 0 is the device's own address, byte 0 is the number of entries including that one *)
Definition entry (c : cfg) (k : nat) : Z := word16 (rd (addrTab c) (1 + 2 * k)) (rd (addrTab c) (2 + 2 * k)).
Definition num_addrs (c : cfg) : nat := Z.to_nat (rd (addrTab c) 0).
Definition knows (c : cfg) (addr : Z) : Prop := exists k, (1 <= k < num_addrs c)%nat /\ entry c k = addr.
(** [k] is the first group address entry equal to [addr] *)
Definition first_entry (c : cfg) (addr : Z) (k : nat) : Prop :=
  (1 <= k < num_addrs c)%nat /\ entry c k = addr /\ (forall j, (1 <= j < k)%nat -> entry c j <> addr).
(** the two bytes behind the table do not happen to be an address that the table lacks *)
Definition no_stray (c : cfg) (addr : Z) : Prop := (1 <= num_addrs c)%nat -> entry c (num_addrs c) = addr -> knows c addr.
(** the association table has the pair (address index k, object o) *)
Definition paired (c : cfg) (k o : nat) : Prop :=
  exists i, (i < Z.to_nat (rd (assocTab c) 0))%nat /\ rd (assocTab c) (1 + 2 * i) = Z.of_nat k /\ rd (assocTab c) (2 + 2 * i) = Z.of_nat o.
Definition associated (c : cfg) (addr : Z) (o : nat) : Prop := exists k, first_entry c addr k /\ paired c k o.
(** every object named by the association table exists *)
Definition assoc_ok (c : cfg) : Prop := forall k o, paired c k o -> (o < num_objs c)%nat.

(** the value a group telegram carries for an object of type [t]: the low six bits of byte 7, or the bytes from 8, most significant first *)
Definition payload (t : Z) (tel : list Z) : list Z :=
  if t <? 6 then [rd tel 7 mod 64] else map (fun i => rd tel (8 + (type_size t - 1 - i))) (seq 0 (type_size t)).

(** ** Sending *)
(** every pair of the association table names a group address of the table *)
Definition assoc_idx_ok (c : cfg) : Prop := forall k o, paired c k o -> (1 <= k < num_addrs c)%nat.
(** the address object [o] sends to: that of its first pair in the association table *)
Definition sending_addr (c : cfg) (o : nat) (a : Z) : Prop :=
  exists i, (i < Z.to_nat (rd (assocTab c) 0))%nat /\ rd (assocTab c) (2 + 2 * i) = Z.of_nat o /\
    (forall j, (j < i)%nat -> rd (assocTab c) (2 + 2 * j) <> Z.of_nat o) /\ a = entry c (Z.to_nat (rd (assocTab c) (1 + 2 * i))).
Definition sendable (c : cfg) (o : nat) : Prop := trans_enabled c o /\ exists a, sending_addr c o a /\ a <> 0.
(** the low two flag bits are both set by a transmission or read request; bit 2 distinguishes the read request *)
Definition pending (c : cfg) (m : mem) (o : nat) : Prop := flags c m o mod 4 = 3.
Definition wants_read (c : cfg) (m : mem) (o : nat) : bool := Z.testbit (flags c m o) 2.
Definition request (c : cfg) (m : mem) (o : nat) : Z := flags c m o mod 8.

(** a standard frame of low priority to group address [a] with [n] data bytes and the given byte 7 *)
Definition group_frame (t : list Z) (a : Z) (n : nat) (b7 : Z) : Prop :=
  length t = (8 + n)%nat /\ rd t 0 = 188 /\ word16 (rd t 3) (rd t 4) = a /\ rd t 5 = 224 + Z.of_nat (n + 1) /\ rd t 6 = 0 /\ rd t 7 = b7.
(** a short object's value fits the short payload *)
Definition short_ok (c : cfg) (m : mem) (o : nat) : Prop := short_type (obj_typ c o) -> Forall (fun v => v < 64) (value c m o).
(** telegram [t] carries the value of object [o] to [a]; [cmd]: 128 write, 64 response *)
Definition carries (c : cfg) (m : mem) (o : nat) (a cmd : Z) (t : list Z) : Prop :=
  group_frame t a (if obj_typ c o <? 6 then 0 else obj_size c o) (cmd + (if obj_typ c o <? 6 then hd 0 (value c m o) else 0)) /\
  (obj_typ c o < 6 \/ skipn 8 t = rev (value c m o)).

(** what a send opportunity that serves object [o] does ([m], [m'] the memories before and after, [t] the telegram):
    a read request or the value goes to the sending address, the request is cleared, other objects' requests stay,
    and a value sent also reaches the device's own objects listening to that address, and no others *)
Definition serves (c : cfg) (o : nat) (m m' : mem) (t : list Z) : Prop :=
  exists a, sending_addr c o a /\
    (if wants_read c m o then group_frame t a 0 0 else short_ok c m o -> carries c m o a 128 t) /\
    request c m' o = 1 /\ value c m' o = value c m o /\
    (forall q, (q < num_objs c)%nat -> q <> o -> request c m' q = request c m q) /\
    (forall q, (q < num_objs c)%nat -> q <> o -> wants_read c m o = true \/ ~ associated c a q \/ ~ write_enabled c q ->
       value c m' q = value c m q /\ flags c m' q = flags c m q) /\
    (forall q, (q < num_objs c)%nat -> q <> o -> wants_read c m o = false -> short_ok c m o -> associated c a q -> write_enabled c q -> obj_typ c q = obj_typ c o ->
       value c m' q = value c m o /\ updated c m' q).
(** [t'] is [t] with the sender address filled in and anything (the checksum) appended *)
Definition on_the_bus (t t' : list Z) : Prop :=
  Forall is_byte t' /\ (length t <= length t')%nat /\ (forall i, (i < length t)%nat -> i <> 1%nat -> i <> 2%nat -> rd t' i = rd t i).

(** the objects that answer a read request for entry [k] of the address table: one answer per pair of the association table *)
Definition responders (c : cfg) (k : nat) : list nat :=
  map (fun i => Z.to_nat (rd (assocTab c) (2 + 2 * i)))
    (filter (fun i => (rd (assocTab c) (1 + 2 * i) =? Z.of_nat k) && (let conf := obj_conf c (Z.to_nat (rd (assocTab c) (2 + 2 * i))) in Z.testbit conf 2 && Z.testbit conf 3))
      (seq 0 (Z.to_nat (rd (assocTab c) 0)))).
