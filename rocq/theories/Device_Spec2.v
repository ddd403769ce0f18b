(** What is visible of a device from outside, continued: restarts, answers *)
From Verif Require Import Base Device_Model Device_Spec.

(** ** Restarts (C74) *)
(** does the request order a restart, and is it one into the bootloader? *)
Definition restart_order (t : list Z) : option bool :=
  if service t =? 0x380 then Some false
  else if (service t =? 0x381) && (rd t 8 =? 7) && (rd t 9 =? 255) then Some true
  else if (service t =? 0x381) && (1 <=? rd t 8) && (rd t 8 <=? 7) then Some false
  else None.
(** T_DISCONNECT *)
Definition is_disconnect (f : list Z) : bool := rd f 6 =? 0x81.
(** an order: into the bootloader?, when it was given, is a T_DISCONNECT still to be sent? *)
Record order := mkOrder { o_boot : bool; o_time : Z; o_owed : bool }.
(** what an observer of the executed requests and of the frames sent notes down *)
Definition note (n : Z) (p : option order) (e : dout) : option order :=
  match e with
  | Bus (Exec t) => match restart_order t with Some b => Some (mkOrder b n true) | None => p end
  | Bus (ExecDirect t) => match restart_order t with Some b => Some (mkOrder b n false) | None => p end
  | Bus (Tx _ f) => if is_disconnect f then option_map (fun q => mkOrder (o_boot q) (o_time q) false) p else p
  | _ => p
  end.
Definition time_of (o : dop) : Z := match o with Loop i => now i | _ => 0 end.
(** the last order since power-up *)
Fixpoint pending (p : option order) (tr : list (dop * list dout)) : option order :=
  match tr with
  | [] => p
  | (o, l) :: r => pending (if is_power_up o then None else fold_left (note (time_of o)) l p) r
  end.
