(** The memory of a device as a bus client sees it: a partial array of bytes *)
From Verif Require Import Base Mapper_Model Mapper_Spec MemReq_Model.

(** ** Devices *)
(** layouts in use: EEPROM and RAM do not overlap, lie in the 64K address space, the EEPROM above the system locations; the RAM either starts at 0 and contains
    the locations 0x60 (status) and 0x62 (device control), or it starts above them *)
Record layout_ok (L : layout) : Prop := {
  l_ee : 0x60 < eeStart L /\ 0 < eeSize L /\ eeStart L + eeSize L <= 65536;
  l_ram : 0x62 < ramSize L /\ ramStart L + ramSize L <= 65536 /\ (ramStart L = 0 \/ 0x60 < ramStart L);
  l_sep : eeStart L + eeSize L <= ramStart L \/ ramStart L + ramSize L <= eeStart L;
  l_map : mcfg_ok (mapCfg L) }.
(** a mapper as it can be found while the device runs: started on some flash content, then used *)
Definition mapper_ok (c : mcfg) (m : mapper) : Prop :=
  exists f junk hi l out, boots c f hi /\ page_ok junk /\ Forall event_ok l /\ mruns c l (newMapper c f junk) = Some (out, m).
(** the array a mapper stands for: the page in the write buffer is the current one *)
Definition mapper_array (m : mapper) : Z -> option Z := decode (allocTable m) (fun p => if p =? writePage m then writeBuf m else flash m p).
Definition inside (start size a : Z) : Prop := start <= a < start + size.
(** a device: memories have their sizes and hold bytes, mapped pages do not cover EEPROM or RAM *)
Record dev_ok (L : layout) (d : dev) : Prop := {
  d_ee : Z.of_nat (length (eeData d)) = eeSize L /\ Forall is_byte (eeData d);
  d_ram : Z.of_nat (length (ramData d)) = ramSize L + 3 /\ Forall is_byte (ramData d);
  d_status : is_byte (status d);
  d_map : forall m, memMapper d = Some m ->
    mapper_ok (mapCfg L) m /\ forall a, mapper_array m a <> None -> ~ inside (eeStart L) (eeSize L) a /\ ~ inside (ramStart L) (ramSize L) a }.
(** no mapper that maps pages by itself *)
Definition no_auto (L : layout) (d : dev) : Prop := memMapper d <> None -> autoAddPage (mapCfg L) = false.

(** ** The array *)
(** EEPROM and RAM; the system status replaces the RAM byte at offset 0x60 *)
Definition local_array (L : layout) (d : dev) (a : Z) : option Z :=
  if (eeStart L <=? a) && (a <? eeStart L + eeSize L) then Some (rd (eeData d) (Z.to_nat (a - eeStart L)))
  else if (ramStart L <=? a) && (a <? ramStart L + ramSize L) then
    Some (if a =? ramStart L + 0x60 then status d else rd (ramData d) (Z.to_nat (a - ramStart L)))
  else None.
(** everything; a mapper with autoAddPage hides EEPROM and RAM *)
Definition array (L : layout) (d : dev) (a : Z) : option Z :=
  match memMapper d with
  | None => local_array L d a
  | Some m => match mapper_array m a with Some v => Some v | None => if autoAddPage (mapCfg L) then None else local_array L d a end
  end.

(** ** The ideal memory *)
Definition store (f : Z -> option Z) (a v : Z) : Z -> option Z := fun b => if b =? a then Some v else f b.
(** writing goes on until all bytes are stored or one has no place *)
Fixpoint write_bytes (a : Z) (bs : list Z) (f : Z -> option Z) : bool * (Z -> option Z) :=
  match bs with
  | [] => (true, f)
  | b :: r => match f a with None => (false, f) | Some _ => write_bytes (a + 1) r (store f a b) end
  end.
Fixpoint read_bytes (a : Z) (n : nat) (f : Z -> option Z) : option (list Z) :=
  match n with
  | O => Some []
  | S k => match f a, read_bytes (a + 1) k f with Some b, Some r => Some (b :: r) | _, _ => None end
  end.
(** a request for the single byte 0x60 means the status byte wherever the RAM is, unless there is something at 0x60 *)
Definition place (L : layout) (a : Z) (n : nat) (f : Z -> option Z) : Z :=
  if (Nat.eqb n 1 && (a =? 0x60))%bool then match f 0x60 with Some _ => a | None => ramStart L + 0x60 end else a.

(** ** Requests *)
(** fields of a request telegram *)
Definition q_count (t : list Z) : nat := Z.to_nat (rd t 7 mod 16).
Definition q_address (t : list Z) : Z := 256 * rd t 8 + rd t 9.
Definition q_command (t : list Z) : Z := 256 * (rd t 6 mod 4) + 64 * (rd t 7 / 64).
Definition q_data (t : list Z) : list Z := firstn (q_count t) (skipn 10 t).
Definition request_ok (t : list Z) : Prop := length t = 23%nat /\ Forall is_byte t /\ (q_command t = 0x200 \/ q_command t = 0x280).
(** an answer: number of bytes, address and data *)
Definition answer : Type := Z * Z * list Z.
(** what a memory response telegram says; None: it is not a well-formed one of standard length *)
Definition decode_response (sb : list Z) : option answer :=
  let n := rd sb 7 mod 16 in
  if (rd sb 5 =? 0x60 + 3 + n) && (rd sb 6 =? 2) && (rd sb 7 / 16 =? 4) then Some (n, 256 * rd sb 8 + rd sb 9, firstn (Z.to_nat n) (skipn 10 sb)) else None.
(** reading; a failed or empty read is answered with zero bytes *)
Definition ideal_answer (L : layout) (a : Z) (n : nat) (f : Z -> option Z) : answer :=
  match n with
  | O => (0, a, [])
  | _ => match read_bytes (place L a n f) n f with Some bs => (Z.of_nat n, a, bs) | None => (0, a, []) end
  end.
(** a request: the answer, if one is sent, and the memory afterwards. Newer masks (above 0x1F) answer a successful write if bit 2 of the device control byte is set *)
Definition ideal_request (L : layout) (t : list Z) (f : Z -> option Z) : option answer * (Z -> option Z) :=
  let a := q_address t in
  let n := q_count t in
  if q_command t =? 0x200 then (Some (ideal_answer L a n f), f)
  else
    let (ok, g) := match n with O => (false, f) | _ => write_bytes (place L a n f) (q_data t) f end in
    let auto := match g (ramStart L + 0x62) with Some v => Z.testbit v 2 | None => false end in
    (if ok && (0x1F <? maskVersion L) && auto then Some (ideal_answer L a n g) else None, g).
Fixpoint ideal_requests (L : layout) (l : list (list Z)) (f : Z -> option Z) : list (option answer) * (Z -> option Z) :=
  match l with
  | [] => ([], f)
  | t :: r => let (ans, g) := ideal_request L t f in let (out, h) := ideal_requests L r g in (ans :: out, h)
  end.
