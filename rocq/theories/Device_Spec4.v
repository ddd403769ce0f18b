(** What is visible of a device from outside, continued: the content of its EEPROM (C76) *)
From Verif Require Import Base Device_Model Device_Spec.

(** the device executes the request *)
Definition requested (l : list dout) (t : list Z) : Prop := In (Bus (Exec t)) l \/ In (Bus (ExecDirect t)) l.
(** the request is a memory write whose byte for EEPROM offset [j] is [v] *)
Definition writes_byte (c : conf) (t : list Z) (j : nat) (v : Z) : Prop :=
  0x280 <= service t < 0x2C0 /\ two t 8 <= eeStart (lay c) + Z.of_nat j < two t 8 + rd t 7 mod 16 /\ v = rd t (10 + Z.to_nat (eeStart (lay c) + Z.of_nat j - two t 8)).
(** all its bytes go to the EEPROM: the address range lies in it and is not taken by the memory mapper *)
Definition in_eeprom_range (c : conf) (x : device) (t : list Z) : Prop :=
  eeStart (lay c) <= two t 8 /\ two t 8 + rd t 7 mod 16 <= eeStart (lay c) + eeSize (lay c) /\
  match memMapper (mem x) with Some m => isMapped (mapCfg (lay c)) (two t 8) m = false | None => True end.
Definition group_telegram (t : list Z) : Prop := destination t <> 0 /\ Z.testbit (rd t 5) 7 = true.
(** how byte [j] of the EEPROM can change in an operation: by a memory write of exactly this value, by a property write (BCU2), by an order to take another address,
    by a group telegram (communication objects) or by the application itself *)
Inductive change (c : conf) (x : device) (o : dop) (x' : device) (l : list dout) (j : nat) : Prop :=
| by_memory_write t : requested l t -> writes_byte c t j (rd (eeData (mem x')) j) -> change c x o x' l j
| by_property_write t : kind c = Bcu2 -> requested l t -> service t = 0x3D7 -> change c x o x' l j
| by_address_order r a : takes x o r -> address_order (kind c) (mem x) (rxTel r) a -> (not_loading (kind c) (mem x) -> j = Z.to_nat 0x17 \/ j = Z.to_nat 0x18) -> change c x o x' l j
| by_group r : takes x o r -> group_telegram (rxTel r) -> change c x o x' l j
| by_application g : o = AppMem g -> change c x o x' l j.
(** the application and the communication objects do not take back the mark that the EEPROM was modified *)
Definition mark_kept (x : device) (o : dop) : Prop :=
  eeModified (mem x) = true -> match o with Loop i => forall r, rx i = Some r -> group_telegram (rxTel r) -> efModified (rxEffect r) = true | AppMem g => efModified g = true | _ => True end.
(** a history without a power-up that leaves byte [j] at [v] *)
Fixpoint byte_stays (c : conf) (j : nat) (v : Z) (x : device) (l : list dop) : Prop :=
  match l with
  | [] => True
  | o :: r => is_power_up o = false /\ mark_kept x o /\ forall y lo, dstep c x o = Some (y, lo) -> rd (eeData (mem y)) j = v /\ byte_stays c j v y r
  end.
