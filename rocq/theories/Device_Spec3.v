(** What is visible of a device from outside, continued: its transport layer (C75) *)
From Verif Require Import Base Device_Model Device_Spec.
From Verif Require TL4_Spec Eeprom_Spec.

(** frames sent and telegrams handed over *)
Definition bus_events (l : list dout) : list out := flat_map (fun e => match e with Bus o => [o] | _ => [] end) l.
(** the telegrams the device takes from the bus in a history *)
Definition taken (x : device) (o : dop) : list (list Z) :=
  match o with
  | Loop i => match rx i with Some r => if running x && negb (sending1 i) && Z.testbit (status (mem x)) 2 then [rxTel r] else [] | None => [] end
  | _ => []
  end.
Fixpoint all_taken (c : conf) (x : device) (l : list dop) : list (list Z) :=
  match l with
  | [] => []
  | o :: r => taken x o ++ match dstep c x o with Some (y, _) => all_taken c y r | None => [] end
  end.
(** the telegrams a history of the transport layer receives *)
Definition received_in (ops : list op) : list (list Z) := flat_map (fun o => match o with OpRx _ t _ _ => [t] | _ => [] end) ops.
(** bytes everywhere: in the property tables, in the flash behind the memory mapper, in what comes from outside and in what the application sends *)
Definition tables_ok (c : conf) : Prop := Forall (Forall (fun p => is_byte (pid p))) (tabs c).
Definition flash_ok (m : option mapper) : Prop := match m with None => True | Some m => forall p, Forall is_byte (flash m p) end.
Definition input_ok (c : conf) (o : dop) : Prop :=
  op_ok c o /\ match o with AppSend buf _ => TL4_Spec.app_buffer buf | PowerUp _ junk => Forall is_byte junk | _ => True end.

(** a device as it can be found: switched on with a flash sector in order, then used; everything that comes from outside consists of bytes *)
Inductive found (c : conf) : device -> Prop :=
| found_on sec m lst junk x : Eeprom_Spec.sector_ok (ecf c) sec -> flash_ok m -> Forall is_byte junk -> powerUp c sec m lst junk = Some x -> found c x
| found_then x o x' l : found c x -> input_ok c o -> dstep c x o = Some (x', l) -> found c x'.

(** ** A client of the device *)
(** the public queries *)
Definition connected (x : device) : bool := directConnection (tl x).
Definition partner (x : device) : Z := connectedTo (tl x).
(** numbered requests for this device from the individual address [p] *)
Definition from_client (a p : Z) (t : list Z) : bool := TL4_Spec.addressed_to a t && TL4_Spec.numbered t && (TL4_Spec.src t =? p).
(** those the device takes from the bus in a history *)
Fixpoint asked_by (p : Z) (c : conf) (x : device) (l : list dop) : list (list Z) :=
  match l with
  | [] => []
  | o :: r => filter (from_client (own_address x) p) (taken x o) ++ match dstep c x o with Some (y, _) => asked_by p c y r | None => [] end
  end.
(** the requests of a connection that the device executes *)
Definition executed (l : list dout) : list (list Z) := flat_map (fun e => match e with Bus (Exec t) => [t] | _ => [] end) l.
(** the device stays switched on and connected, and does not send a T_DISCONNECT *)
Fixpoint stays_connected (c : conf) (x : device) (l : list dop) : Prop :=
  match l with
  | [] => True
  | o :: r => is_power_up o = false /\ forall y lo, dstep c x o = Some (y, lo) -> connected y = true /\ (forall k f, In (Bus (Tx k f)) lo -> rd f 6 <> 0x81) /\ stays_connected c y r
  end.
(** a device and what was seen of it since it was switched on for the first time *)
Inductive observed (c : conf) : device -> list (dop * list dout) -> Prop :=
| observed_on sec m lst junk x : Eeprom_Spec.sector_ok (ecf c) sec -> flash_ok m -> Forall is_byte junk -> powerUp c sec m lst junk = Some x -> observed c x []
| observed_then x tr o x' l : observed c x tr -> input_ok c o -> dstep c x o = Some (x', l) -> observed c x' (tr ++ [(o, l)]).
