(** What an application sees of the group objects of a System B device: values by their addresses in RAM, tables as the KNX specification lays them out
    (16 bit counts, objects numbered from 1).  Independent of the functions of SysBObj_Model; memory by address as in ComObj_Spec. *)
From Verif Require Import Base ComObj_Model ComObj_Spec.

(** ** Communication object table *)
Definition num_b (c : cfg) : nat := Z.to_nat (word16 (rd (comTab c) 0) (rd (comTab c) 1)).
Definition conf_b (c : cfg) (o : nat) : Z := rd (comTab c) (2 * o).
Definition typ_b (c : cfg) (o : nat) : Z := rd (comTab c) (2 * o + 1).
(** bytes of a value: 1 to 6 bit, 7 bit, 1 .. 4, 6, 8, 10, 14, 5, 7, 9, 11, 12, 13, then 15 and so on *)
Definition size_of (t : Z) : nat :=
  if t <? 21 then nth (Z.to_nat t) [1; 1; 1; 1; 1; 1; 1; 1; 2; 3; 4; 6; 8; 10; 14; 5; 7; 9; 11; 12; 13]%nat 0%nat else if t =? 255 then 252%nat else Z.to_nat (t - 6).
Definition size_b (c : cfg) (o : nat) : nat := size_of (typ_b c o).
(** the values follow each other from the third byte of the RAM *)
Fixpoint upto (c : cfg) (o : nat) : nat := match o with O => 0%nat | S k => (upto c k + match k with O => 0 | _ => size_b c k end)%nat end.
Definition addr_b (c : cfg) (o : nat) : Z := ramStart c + 2 + Z.of_nat (upto c o).
Definition in_b (c : cfg) (o : nat) (a : Z) : Prop := addr_b c o <= a < addr_b c o + Z.of_nat (size_b c o).
Definition value_b (c : cfg) (m : mem) (o : nat) : list Z := map (fun i => cell c m (addr_b c o + Z.of_nat i)) (seq 0 (size_b c o)).
Definition read_b (c : cfg) (o : nat) : Prop := Z.testbit (conf_b c o) 2 = true /\ Z.testbit (conf_b c o) 3 = true.
Definition write_b (c : cfg) (o : nat) : Prop := Z.testbit (conf_b c o) 2 = true /\ Z.testbit (conf_b c o) 4 = true.
Definition object_b (c : cfg) (o : nat) : Prop := (1 <= o <= num_b c)%nat.

(** the tables hold bytes, all values fit in the RAM and each fits a telegram *)
Definition device_b (c : cfg) : Prop :=
  isBCU2 c = true /\ cfg_ok c /\ addr_b c (S (num_b c)) <= ramStart c + ramSize c /\ (forall o, object_b c o -> (size_b c o <= 14)%nat).
(** The place of the flags (half a byte per object) that the device derives from the object table: none if it is not in memory.
    [flags_clear]: it does not overlap the values *)
Definition flags_at (c : cfg) : Z := flags_base c.
Definition flags_len (c : cfg) : Z := Z.of_nat (num_b c) / 2 + 1.
Definition in_flags_b (c : cfg) (a : Z) : Prop := in_area c (flags_at c) 1 /\ flags_at c <= a < flags_at c + flags_len c.
Definition flags_clear (c : cfg) : Prop :=
  ~ in_area c (flags_at c) 1 \/
  (in_area c (flags_at c) (flags_len c) /\ (flags_at c + flags_len c <= addr_b c 1 \/ addr_b c (S (num_b c)) <= flags_at c)).

(** ** Group addresses and associations *)
Definition addrs_b (c : cfg) : nat := Z.to_nat (word16 (rd (addrTab c) 0) (rd (addrTab c) 1)).
Definition entry_b (c : cfg) (k : nat) : Z := word16 (rd (addrTab c) (2 * k)) (rd (addrTab c) (2 * k + 1)).
Definition first_b (c : cfg) (addr : Z) (k : nat) : Prop :=
  (1 <= k <= addrs_b c)%nat /\ entry_b c k = addr /\ (forall j, (1 <= j < k)%nat -> entry_b c j <> addr).
Definition pairs_b (c : cfg) : nat := Z.to_nat (word16 (rd (assocTab c) 0) (rd (assocTab c) 1)).
Definition pair_addr (c : cfg) (i : nat) : Z := word16 (rd (assocTab c) (2 + 4 * i)) (rd (assocTab c) (3 + 4 * i)).
Definition pair_obj (c : cfg) (i : nat) : Z := word16 (rd (assocTab c) (4 + 4 * i)) (rd (assocTab c) (5 + 4 * i)).
Definition paired_b (c : cfg) (k o : nat) : Prop := exists i, (i < pairs_b c)%nat /\ pair_addr c i = Z.of_nat k /\ pair_obj c i = Z.of_nat o.
Definition assoc_b (c : cfg) (addr : Z) (o : nat) : Prop := exists k, first_b c addr k /\ paired_b c k o.
Definition pairs_ok (c : cfg) : Prop := forall k o, paired_b c k o -> object_b c o.
(** the objects that answer a read request for entry [k] *)
Definition responders_b (c : cfg) (k : nat) : list nat :=
  map (fun i => Z.to_nat (pair_obj c i))
    (filter (fun i => (pair_addr c i =? Z.of_nat k) && (let conf := conf_b c (Z.to_nat (pair_obj c i)) in Z.testbit conf 2 && Z.testbit conf 3)) (seq 0 (pairs_b c))).

(** ** Telegrams *)
Definition payload_b (t : Z) (tel : list Z) : list Z :=
  if t <? 6 then [rd tel 7 mod 64] else map (fun i => rd tel (8 + (size_of t - 1 - i))) (seq 0 (size_of t)).
Definition short_b (c : cfg) (m : mem) (o : nat) : Prop := typ_b c o < 6 -> Forall (fun v => v < 64) (value_b c m o).
Definition carries_b (c : cfg) (m : mem) (o : nat) (a cmd : Z) (t : list Z) : Prop :=
  group_frame t a (if typ_b c o <? 6 then 0 else size_b c o) (cmd + (if typ_b c o <? 6 then hd 0 (value_b c m o) else 0)) /\
  (typ_b c o < 6 \/ skipn 8 t = rev (value_b c m o)).
