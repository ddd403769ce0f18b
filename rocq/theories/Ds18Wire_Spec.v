(** The temperature sensors on a line (C111) *)
From Verif Require Export Ds18Wire_Model.
From Verif Require Export Wire_Spec.

(** Sensors, each with its address and the nine bytes it sends when it is read *)
Definition sensors : Type := list (list Z * list Z).
Definition on_line (xs : sensors) (l : line (list slave)) : Prop := map (fun s => (code s, memory s)) (bus l) = map (fun x => (rom_bits (fst x), flat_map byte_bits (snd x))) xs.
Definition distinct (xs : sensors) : Prop := NoDup (map fst xs) /\ Forall (fun x => rom_ok (fst x) /\ length (snd x) = 9%nat /\ Forall is_byte (snd x)) xs.
Definition answers (xs : sensors) : bool := match xs with [] => false | _ => true end.
(** what is read from address [a]; a line with nobody sending stays high *)
Fixpoint answer (xs : sensors) (a : list Z) : list Z :=
  match xs with [] => repeat 255 9 | (r, b) :: xs => if list_eq_dec Z.eq_dec r a then b else answer xs a end.
(** conversions started by the sensors after they were selected by the addresses [sel], in order *)
Definition conversions (l : line (list slave)) : list nat := map started (bus l).
Definition selected (xs : sensors) (sel : list (list Z)) : list nat := map (fun x => count_occ (list_eq_dec Z.eq_dec) sel (fst x)) xs.
(** the addresses to which a command was sent *)
Definition commanded (c : Z) (ev : list ev) : list (list Z) := flat_map (fun e => match e with Ds18_Model.Command a k => if k =? c then [a] else [] | _ => [] end) ev.
