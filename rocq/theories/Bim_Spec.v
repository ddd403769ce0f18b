(** Loading a BIM112 device as a bus client sees it: the memory of MemReq_Spec with a load control port at 0x104 and a window on the load states at 0xb6e9. Covers C94. *)
From Verif Require Import Base Mapper_Model Mapper_Spec MemReq_Model MemReq_Spec.

(** load states *)
Definition unloaded : Z := 0.
Definition loaded : Z := 1.
Definition loading : Z := 2.
Definition failed : Z := 3.
(** the device: EEPROM large enough for the system's variables *)
Definition bim_ok (L : layout) : Prop := layout_ok L /\ 0x386 <= eeSize L.
(** where the EEPROM keeps the load states; how many there are *)
Definition states : Z := 0x370.
Definition objects : Z := 8.
Definition hasMemory (f : Z -> option Z) (a : Z) : bool := match f a with Some _ => true | None => false end.
(** ** A load control: 10 or 11 bytes, event in the first, segment type in the second; parameters from the third or fourth on *)
Definition proper (data : list Z) : bool := (length data =? 10)%nat || (length data =? 11)%nat.
Definition loadEvent (data : list Z) : Z := nth 0 data 0 mod 8.
Definition segment (data : list Z) : Z := nth 1 data 0.
Definition parameter (data : list Z) (i : nat) : Z := nth (length data - 8 + i) data 0.
Definition parameterWord (data : list Z) (i : nat) : Z := 256 * parameter data i + parameter data (S i).
(** the load state that results: events 1 start, 2 completed, 4 unload, 3 additional load controls by segment type *)
Definition allocated (f : Z -> option Z) (data : list Z) : bool :=
  let start := parameterWord data 0 in
  (match parameter data 5 mod 8 with 1 | 2 | 3 => true | _ => false end) && hasMemory f start && hasMemory f (start + parameterWord data 2 - 1).
Definition outcome (f : Z -> option Z) (o : Z) (data : list Z) : Z :=
  if negb (proper data) then failed
  else match loadEvent data with
       | 1 => loading
       | 2 => loaded
       | 4 => unloaded
       | 3 => match segment data with
              | 0 => if allocated f data then loading else failed
              | 2 => match o with 1 | 2 | 3 => loading | _ => failed end
              | 1 | 3 | 4 | 5 | 10 | 11 => loading
              | _ => failed
              end
       | _ => failed
       end.
(** the system variables that are set: offset in the EEPROM and byte; words low byte first.
    [static]: the application's own address of the object table, or 0 *)
Definition wordAt (k v : Z) : list (Z * Z) := [(k, v mod 256); (k + 1, v / 256)].
Definition ownOr (static v : Z) : Z := match static with 0 => v | s => s end.
Definition variables (static o : Z) (data : list Z) : list (Z * Z) :=
  if negb (proper data) then []
  else match loadEvent data, segment data, o with
       | 3, 2, 1 => wordAt 0x378 (parameterWord data 0)
       | 3, 2, 2 => wordAt 0x37A (parameterWord data 0)
       | 3, 2, 3 => wordAt 0x37C (ownOr static (parameterWord data 0)) ++
                    [(0x09, parameter data 2); (0x03, parameter data 3); (0x04, parameter data 4); (0x05, parameter data 5); (0x06, parameter data 6); (0x07, parameter data 7)]
       | 3, 4, _ => wordAt 0x382 (parameterWord data 0) ++ [(0x384, parameter data 2)]
       | 3, 5, _ => wordAt 0x37C (ownOr static (parameterWord data 2)) ++ wordAt 0x37E (parameterWord data 4) ++ wordAt 0x380 (parameterWord data 6)
       | _, _, _ => []
       end.
Definition putEe (L : layout) (f : Z -> option Z) (s : Z * Z) : Z -> option Z := store f (eeStart L + fst s) (snd s).
Definition loadControl (L : layout) (static o : Z) (data : list Z) (f : Z -> option Z) : Z -> option Z :=
  fold_left (putEe L) (variables static o data ++ [(states + o, outcome f o data)]) f.

(** ** Requests *)
(** the window on the load states *)
Definition inWindow (a : Z) : bool := (0xb6e9 <=? a) && (a <? 0xb6e9 + objects).
Definition bim_answer (L : layout) (a : Z) (n : nat) (f : Z -> option Z) : answer :=
  if inWindow a then match read_bytes (eeStart L + states + (a - 0xb6e9)) n f with Some bs => (Z.of_nat n, a, bs) | None => (0, a, []) end
  else ideal_answer L a n f.
(** a write to 0x104 is a load control for the object in the upper half of its first byte *)
Definition bim_request (L : layout) (static : Z) (t : list Z) (f : Z -> option Z) : option answer * (Z -> option Z) :=
  let a := q_address t in
  let n := q_count t in
  if q_command t =? 0x200 then (Some (bim_answer L a n f), f)
  else
    let o := rd t 10 / 16 in
    let (ok, g) := if a =? 0x104 then if o <? objects then (true, loadControl L static o (q_data t) f) else (false, f)
                   else match n with O => (false, f) | _ => write_bytes (place L a n f) (q_data t) f end in
    let auto := match g (ramStart L + 0x62) with Some v => Z.testbit v 2 | None => false end in
    (if ok && (0x1F <? maskVersion L) && auto then Some (bim_answer L a n g) else None, g).
Fixpoint bim_requests (L : layout) (static : Z) (l : list (list Z)) (f : Z -> option Z) : list (option answer) * (Z -> option Z) :=
  match l with
  | [] => ([], f)
  | t :: r => let (ans, g) := bim_request L static t f in let (out, h) := bim_requests L static r g in (ans :: out, h)
  end.
