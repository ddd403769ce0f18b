(** What is visible of a device with its communication objects.  The tables, objects and telegrams are described as in ComObj_Spec; of Node_Model only the records are used,
    and [nstep], the function the histories are made of. *)
From Verif Require Import Base Node_Model Device_Spec Device_Spec3.
From Verif Require Rate_Spec Eeprom_Spec.
From Verif Require Import ComObj_Spec.

(** ** Installation *)
(** the bytes [l] lie in the EEPROM from address [a] on *)
Definition in_eeprom (c : conf) (d : dev) (a : Z) (l : list Z) : Prop :=
  eeStart (lay c) <= a < eeStart (lay c) + eeSize (lay c) /\ l = skipn (Z.to_nat (a - eeStart (lay c))) (eeData d).
Definition ee_byte (d : dev) (o : Z) : Z := rd (eeData d) (Z.to_nat o).
(** a BCU1 has the address table at a fixed place and one-byte pointers to the others; a BCU2 has three addresses, low byte first *)
Definition tables_at (c : conf) (d : dev) (a s t : Z) : Prop :=
  match kind c with
  | Bcu1 => a = eeStart (lay c) + 0x16 /\ s = eeStart (lay c) + ee_byte d 0x11 /\ t = eeStart (lay c) + ee_byte d 0x12 /\ ee_byte d 0x12 <> 0
  | Bcu2 => a = word16 (ee_byte d 0x379) (ee_byte d 0x378) /\ s = word16 (ee_byte d 0x37B) (ee_byte d 0x37A) /\ t = word16 (ee_byte d 0x37D) (ee_byte d 0x37C)
  end.
(** the device has the tables of [g]; [le]: byte order of the pointers in the communication object table *)
Record installed (c : conf) (le : bool) (d : dev) (g : ComObj_Model.cfg) : Prop := {
  i_kind : ComObj_Model.isBCU2 g = match kind c with Bcu1 => false | Bcu2 => true end;
  i_le : ComObj_Model.le_ptr g = le;
  i_ram : ComObj_Model.ramStart g = ramStart (lay c) /\ ComObj_Model.ramSize g = ramSize (lay c);
  i_ee : ComObj_Model.eepStart g = eeStart (lay c) /\ ComObj_Model.eepSize g = eeSize (lay c);
  i_tables : exists a s t, tables_at c d a s t /\ in_eeprom c d a (ComObj_Model.addrTab g) /\ in_eeprom c d s (ComObj_Model.assocTab g) /\ in_eeprom c d t (ComObj_Model.comTab g) }.
(** the tables are in order, and the values and flags of all objects lie in the RAM *)
Definition in_ram_area (g : ComObj_Model.cfg) (a n : Z) : Prop := ComObj_Model.ramStart g <= a /\ a + n <= ComObj_Model.ramStart g + ComObj_Model.ramSize g.
Record settled (g : ComObj_Model.cfg) : Prop := {
  s_cfg : cfg_ok g; s_layout : layout_ok g; s_assoc : assoc_ok g; s_idx : assoc_idx_ok g; s_some : (0 < num_objs g)%nat;
  s_flags : in_ram_area g (flags_base g) ((Z.of_nat (num_objs g) + 1) / 2);
  s_values : forall o, (o < num_objs g)%nat -> in_ram_area g (obj_addr g o) (Z.of_nat (obj_size g o)) }.
(** the EEPROM and the RAM have the sizes given by the layout *)
Definition sized (c : conf) : Prop := eeSize (lay c) = Z.of_nat (Eeprom_Model.esize (ecf c)) /\ 0 <= ramSize (lay c).

(** ** Nodes *)
(** the user memory *)
Definition contents (c : conf) (x : node) : ComObj_Model.mem := ComObj_Model.mkMem (firstn (Z.to_nat (ramSize (lay c))) (ramData (mem (ndev x)))) (eeData (mem (ndev x))).
(** telegrams from the bus consist of bytes *)
Definition nop_ok (o : nop) : Prop := match o with NLoop i => forall r, rx (base i) = Some r -> Forall is_byte (rxTel r) | _ => True end.
(** a node as it can be found: switched on with a flash sector in order, then used *)
Inductive node_found (c : conf) : node -> Prop :=
| node_on sec m lst junk d le t : Eeprom_Spec.sector_ok (ecf c) sec -> flash_ok m -> Forall is_byte junk -> powerUp c sec m lst junk = Some d -> node_found c (nodeUp c le d t)
| node_then x o y l : node_found c x -> nop_ok o -> nstep c x o = Some (y, l) -> node_found c y.
(** the telegrams of the application layer that are handed to the bus *)
Definition app_telegrams (l : list nout) : list (list Z) := flat_map (fun e => match e with NOut (Bus (Tx KApp t)) => [t] | _ => [] end) l.
(** does the application run? *)
Definition runs (c : conf) (x : device) : Prop :=
  runState x = 1 /\
  match kind c with
  | Bcu1 => Z.testbit (status (mem x)) 0 = false /\ Z.testbit (status (mem x)) 3 = true /\ ee_byte (mem x) 0x0D = 255
  | Bcu2 => ee_byte (mem x) 0x371 = 1 /\ ee_byte (mem x) 0x372 = 1 /\ ee_byte (mem x) 0x373 = 1
  end.
(** the rate limit allows a telegram *)
Definition rested (x : node) (t : Z) : Prop := Rate_Model.groupTelWaitMillis (nrate x) <= (t - Rate_Model.groupTelSent (nrate x)) mod 2 ^ 32.
(** the pass with the inputs [i] may send a group telegram of its own accord: it does not restart the device, no frame is being sent, sending is enabled, the application runs
    and the rate limit allows it *)
Definition may_send (c : conf) (i : ninputs) (x y : node) : Prop := running (ndev y) = true /\ sending3 (base i) = false /\ ngroup x = true /\ runs c (ndev y) /\ rested x (t1 i).

(** ** Receiving *)
Definition dest (t : list Z) : Z := word16 (rd t 3) (rd t 4).
Definition command (t : list Z) : Z := (rd t 6 * 256 + rd t 7) mod 1024 / 64 * 64.
Definition is_group (t : list Z) : Prop := dest t <> 0 /\ Z.testbit (rd t 5) 7 = true.
(** the telegram a pass takes from the bus *)
Definition heard (i : ninputs) (x : node) : option (list Z) :=
  match rx (base i) with
  | Some r => if negb (sending1 (base i)) && Z.testbit (status (mem (ndev x))) 2 then Some (rxTel r) else None
  | None => None
  end.
(** only group telegrams to well-formed addresses come in *)
Definition group_only (g : ComObj_Model.cfg) (i : ninputs) (x : node) : Prop := forall t, heard i x = Some t -> is_group t /\ no_stray g (dest t).
(** nothing of object [o] changes *)
Definition same_object (g : ComObj_Model.cfg) (m m' : ComObj_Model.mem) (o : nat) : Prop := value g m' o = value g m o /\ flags g m' o = flags g m o.
Definition same_objects (g : ComObj_Model.cfg) (m m' : ComObj_Model.mem) : Prop := forall o, (o < num_objs g)%nat -> same_object g m m' o.
(** the value in telegram [t] goes to exactly the associated objects that may be written; they are marked as updated *)
Definition takes (g : ComObj_Model.cfg) (t : list Z) (m m' : ComObj_Model.mem) : Prop :=
  (forall o, associated g (dest t) o -> write_enabled g o -> value g m' o = payload (obj_typ g o) t /\ flags g m' o = Z.lor (flags g m o) 8 /\ updated g m' o) /\
  (forall o, (o < num_objs g)%nat -> ~ (associated g (dest t) o /\ write_enabled g o) -> same_object g m m' o).
(** [ts] answers the read request [t]: one response per association with a readable object, in table order.  Only writable objects change, no request is lost *)
Definition answers (g : ComObj_Model.cfg) (t : list Z) (m m' : ComObj_Model.mem) (ts : list (list Z)) : Prop :=
  (~ knows g (dest t) /\ ts = [] /\ same_objects g m m') \/
  exists k, first_entry g (dest t) k /\ length ts = length (responders g k) /\
    (forall i o r, nth_error (responders g k) i = Some o -> nth_error ts i = Some r -> i = 0%nat \/ ~ write_enabled g o -> short_ok g m o -> carries g m o (dest t) 0x40 r) /\
    (forall q, (q < num_objs g)%nat -> request g m' q = request g m q) /\
    (forall q, (q < num_objs g)%nat -> ~ write_enabled g q -> same_object g m m' q).
(** what a pass does with the telegram it takes; [ts]: the telegrams sent in answer *)
Definition reacts (g : ComObj_Model.cfg) (h : option (list Z)) (m m' : ComObj_Model.mem) (ts : list (list Z)) : Prop :=
  match h with
  | None => ts = [] /\ same_objects g m m'
  | Some t => if command t =? 0x80 then ts = [] /\ takes g t m m'
              else if command t =? 0x40 then ts = [] /\ takes g t m m'
              else if command t =? 0 then answers g t m m' ts
              else ts = [] /\ same_objects g m m'
  end.
(** what a pass does of its own accord, beginning with object [n] (modulo the number of objects): the first object from there on that has a pending request is served *)
Definition wants (g : ComObj_Model.cfg) (m : ComObj_Model.mem) (o : nat) : Prop := sendable g o /\ pending g m o.
Definition serves_first (g : ComObj_Model.cfg) (n : Z) (m m' : ComObj_Model.mem) (ts : list (list Z)) : Prop :=
  let idx := Z.to_nat (n mod Z.of_nat (num_objs g)) in
  (exists o t, (idx <= o < num_objs g)%nat /\ wants g m o /\ (forall j, (idx <= j < o)%nat -> ~ wants g m j) /\ ts = [t] /\ serves g o m m' t) \/
  ((forall j, (idx <= j < num_objs g)%nat -> ~ wants g m j) /\ ts = [] /\ same_objects g m m').

(** ** Histories *)
(** the states of a history, the last one included *)
Fixpoint states (c : conf) (x : node) (l : list nop) : list node :=
  match l with [] => [x] | o :: r => x :: match nstep c x o with Some (y, _) => states c y r | None => [] end end.
Definition is_pass (o : nop) : Prop := match o with NLoop _ => True | _ => False end.
(** operations that leave the request of object [p] alone: passes in which nothing but group telegrams come in, calls of the application for existing objects
    (setting the value of [p] without sending it cancels a request), and the rest *)
Definition calm (g : ComObj_Model.cfg) (p : nat) (x : node) (o : nop) : Prop :=
  match o with
  | NLoop i => group_only g i x
  | NApp (ASet q _) | NApp (AUpdate q _) => (q < num_objs g)%nat /\ q <> p
  | NApp (AWrite q _) | NApp (AWritten q) | NApp (ARequestRead q) => (q < num_objs g)%nat
  | _ => True
  end.
(** the pass with the inputs [i], from [x] to [y], serves object [p]: its last telegram is the one of [p] *)
Definition served (c : conf) (g : ComObj_Model.cfg) (p : nat) (i : ninputs) (x y : node) (l : list nout) : Prop :=
  exists m ts t, reacts g (heard i x) (contents c x) m ts /\ app_telegrams l = ts ++ [t] /\ serves g p m (contents c y) t.
(** time does not run backwards *)
Fixpoint timed (now : Z) (l : list nop) : Prop :=
  match l with
  | [] => True
  | NLoop i :: r => now <= t1 i <= t2 i /\ t2 i <= t3 i /\ timed (t3 i) r
  | _ :: r => timed now r
  end.
(** the limit in force at operation [j], [l] at the beginning *)
Fixpoint limit_in (l : Z) (ops : list nop) (j : nat) : Z :=
  match ops, j with
  | o :: r, S k => limit_in (match o with NLimit x => x | _ => l end) r k
  | _, _ => l
  end.
(** nothing comes in that may be answered: at most a group telegram other than a read request *)
Definition unasked (i : ninputs) : Prop := forall r, rx (base i) = Some r -> is_group (rxTel r) /\ command (rxTel r) <> 0.
