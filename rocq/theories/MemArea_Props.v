(** C134: numbers read from the user memories *)
From Verif Require Import MemArea_Proofs.

(** A byte is read where there is memory, 0 elsewhere; no address is outside of the array *)
Theorem C134_byte m start n f a : holds m start n f -> is_u32 a -> getUInt8 m a = Some (byte_or_0 start n f a).
Proof. apply get8. Qed.
Print Assumptions C134_byte.
(** The same for words. Missing: the address before the first, see the refutation *)
Theorem C134_word_partial m start n f a : holds m start n f -> is_u32 a -> a <> (start - 1) mod 4294967296 -> getUInt16 m a = Some (word_or_0 start n f a).
Proof. apply get16. Qed.
Print Assumptions C134_word_partial.
(** The address before the first byte: address + 1 wraps to 0, the check passes and the array is read at 0xffffffff *)
Theorem C134_word_before_refuted : forall m start n f, holds m start n f -> Z.of_nat (length (cells m)) < 4294967296 -> getUInt16 m ((start - 1) mod 4294967296) = None.
Proof. intros m start n f. apply get16_before. Qed.
Print Assumptions C134_word_before_refuted.
(** The range checks say where the memory is *)
Theorem C134_range m start n f : holds m start n f ->
  (forall a, inRange m a = true <-> start <= a < start + n) /\ (forall a b, inRange2 m a b = true <-> a <= b /\ forall c, a <= c <= b -> start <= c < start + n).
Proof. intros H. split; intros; [eapply range_iff|eapply range2_iff]; eauto. Qed.
Print Assumptions C134_range.
(** Storing a byte changes this byte only, the memory stays where it is *)
Theorem C134_store m start n f a v : holds m start n f -> start <= a < start + n -> is_byte v ->
  exists m', store_at m a v = Some m' /\ holds m' start n (fun b => if b =? a then v else f b).
Proof. apply store_holds. Qed.
Print Assumptions C134_store.
(** After construction the EEPROM holds what was read from flash and the RAM, whatever its shadow, zeros; moving the RAM keeps its contents *)
Theorem C134_eeprom start n l : 0 <= start -> 1 <= n -> start + n <= 4294967296 -> Z.of_nat (length l) = n -> Forall is_byte l ->
  holds (UserEeprom start n l) start n (fun a => rd l (Z.to_nat (a - start))).
Proof. apply eeprom_holds. Qed.
Print Assumptions C134_eeprom.
Theorem C134_ram start n shadow : 0 <= start -> 1 <= n -> 0 <= shadow -> start + n + shadow <= 4294967295 -> holds (UserRam start n shadow) start n (fun _ => 0).
Proof. apply ram_holds. Qed.
Print Assumptions C134_ram.
Theorem C134_move m start n f start' : holds m start n f -> 0 <= start' -> start' + n <= 4294967296 -> holds (setUserRamStart m start') start' n (fun a => f (a - start' + start)).
Proof. apply moved. Qed.
Print Assumptions C134_move.

Example C134_example : let m := UserEeprom 256 4 [1; 2; 3; 4] in holds m 256 4 (fun a => rd [1; 2; 3; 4] (Z.to_nat (a - 256))) /\ is_u32 258 /\ 258 <> (256 - 1) mod 4294967296
  /\ getUInt8 m 258 = Some 3 /\ getUInt8 m 260 = Some 0 /\ getUInt16 m 258 = Some 772 /\ getUInt16 m 259 = Some 0 /\ getUInt16 m 255 = None /\ inRange m 259 = true /\ inRange m 260 = false
  /\ (exists m', store_at m 257 9 = Some m' /\ getUInt16 m' 256 = Some 265).
Proof.
  cbn zeta. split; [apply eeprom_holds; try lia; [reflexivity|repeat constructor; unfold is_byte; lia]|]. split; [unfold is_u32; lia|]. split; [vm_compute; discriminate|].
  repeat (split; [vm_compute; reflexivity|]). exists (mkArea 256 259 4 [1; 9; 3; 4]). split; vm_compute; reflexivity.
Qed.
Example C134_ram_example : let m := setUserRamStart (UserRam 0 4 3) 1532 in holds m 1532 4 (fun _ => 0) /\ getUInt8 m 1535 = Some 0 /\ index m 1537 = Some 0 /\ inRange m 1536 = false.
Proof. cbn zeta. split; [apply (moved (UserRam 0 4 3) 0 4 (fun _ => 0)); try lia; apply ram_holds; lia|]. repeat split; vm_compute; reflexivity. Qed.
