(** Specification for C52, C62 *)
From Verif Require Export Base OneWire_Model.
From Coq Require Export Permutation.

(** A ROM code as 8 bytes and as 64 bits, least significant bit of byte 0 first. *)
Definition rom_ok (r : list Z) : Prop := length r = 8%nat /\ Forall is_byte r.
Definition byte_bits (b : Z) : list bool := map (Z.testbit b) [0; 1; 2; 3; 4; 5; 6; 7].
Definition rom_bits (r : list Z) : device := flat_map byte_bits r.
(** the answers of [n] calls of the search function, and the state after them *)
Fixpoint searches (n : nat) (devs : list device) (s : search) : option (list (bool * option (list Z)) * search) :=
  match n with
  | O => Some ([], s)
  | S k => match oneWireSearch devs s with
           | None => None
           | Some (ret, addr, s) =>
               match searches k devs s with None => None | Some (l, s) => Some ((ret, addr) :: l, s) end
           end
  end.
