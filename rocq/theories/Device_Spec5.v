(** What is visible of a device from outside, continued: its answers to connectionless requests (C77) and to broadcasts (C78) *)
From Verif Require Import Base Device_Model Device_Spec.
From Verif Require MemReq_Spec.

(** ** Frames *)
(** a standard frame as handed to the bus: priority, destination, the upper four bits of byte 5 (address type and hop count), service, data. The sender's address in bytes 1 and 2 is
    filled in by the link layer *)
Definition is_frame (f : list Z) (prio dest upper srv : Z) (data : list Z) : Prop :=
  length f = (8 + length data)%nat /\ rd f 0 = 0xB0 + 4 * prio /\ two f 3 = dest /\ rd f 5 = upper + 1 + Z.of_nat (length data) /\ two f 6 = srv /\ skipn 8 f = data.
Definition source (t : list Z) : Z := two t 1.
Definition prio_of (t : list Z) : Z := rd t 0 / 4 mod 4.
(** the telegram is a connectionless request to the device: individual destination address, transport control bits zero *)
Definition connectionless (x : device) (t : list Z) : Prop := destination t = own_address x /\ own_address x <> 0 /\ rd t 5 < 0x80 /\ rd t 6 < 4.
Definition is_broadcast (t : list Z) : Prop := destination t = 0.

(** ** Answers *)
(** services whose answer needs no memory: reading or writing memory, and properties on BCU2, are the others *)
Definition plain (c : conf) (t : list Z) : Prop :=
  ~ (0x200 <= service t < 0x240) /\ ~ (0x280 <= service t < 0x2C0) /\ (kind c = Bcu1 \/ ~ In (service t) [0x3D5; 0x3D7; 0x3D8]).
(** answer to them: service and data; None: no answer *)
Definition answer_to (c : conf) (t : list Z) : option (Z * list Z) :=
  let s := service t in
  if (0x180 <=? s) && (s <? 0x1C0) then Some (s + 0x40, [rd t 8; 0; 0]) (* value of an A/D converter channel: zero *)
  else if s =? 0x300 then Some (0x340, [maskVersion (lay c) / 256; maskVersion (lay c) mod 256]) (* device descriptor 0 *)
  else if s =? 0x381 then (* master reset: error code and process time; supported are erase code 1 and the bootloader order *)
    Some (0x3A1, if (rd t 8 =? 1) || ((rd t 8 =? 7) && (rd t 9 =? 255)) then [0; 0; 1] else [2; 0; 0])
  else if s =? 0x3D1 then Some (0x3D2, [0]) (* authorize: level 0 *)
  else None.
(** what may follow in the same pass: the LED pin, a reset, telegrams of the transport layer without data (the T_DISCONNECT of a pending restart, the repetition of such telegrams) *)
Definition closing (b : list dout) : Prop := forall e, In e b -> match e with Bus (Tx _ f) => 0x80 <= rd f 6 | Bus _ => False | _ => True end.
(** in the outputs [l] the telegram is handed over ([e]) and answered with the frame [f] only, or not at all *)
Definition answered_with (l : list dout) (e : out) (f : list Z) : Prop := exists a m k b, l = a ++ Bus e :: m ++ Bus (Tx k f) :: b /\ closing m /\ closing b.
Definition not_answered (l : list dout) (e : out) : Prop := exists a b, l = a ++ Bus e :: b /\ closing b.
(** nothing stored changes; the last EEPROM byte marks the valid flash page *)
Definition nothing_stored (c : conf) (x y : device) : Prop :=
  ramData (mem y) = ramData (mem x) /\ (forall j, (j < Eeprom_Model.esize (ecf c) - 1)%nat -> rd (eeData (mem y)) j = rd (eeData (mem x)) j) /\ own_address y = own_address x.
(** pages of a memory mapper, if there is one, do not cover EEPROM or RAM and are not added by themselves *)
Definition mapper_apart (c : conf) (x : device) : Prop :=
  forall m, memMapper (mem x) = Some m -> MemReq_Spec.mapper_ok (mapCfg (lay c)) m /\ autoAddPage (mapCfg (lay c)) = false /\
    forall a, MemReq_Spec.mapper_array m a <> None -> ~ MemReq_Spec.inside (eeStart (lay c)) (eeSize (lay c)) a /\ ~ MemReq_Spec.inside (ramStart (lay c)) (ramSize (lay c)) a.

(** ** Broadcasts *)
(** the answers of the device to a broadcast: its existence in programming mode, its serial number *)
Definition broadcast_answer (c : conf) (d : dev) (t : list Z) : option (Z * list Z) :=
  if (service t =? 0x100) && Z.testbit (status d) 0 then Some (0x140, [])
  else if (service t =? 0x3DC) && match kind c with Bcu1 => false | Bcu2 => true end && forallb (fun i => rd t (8 + i) =? rd (eeData d) (Z.to_nat 0x38A + i)) (seq 0 6)
  then Some (0x3DD, map (fun i => rd (eeData d) (Z.to_nat 0x38A + i)) (seq 0 6) ++ [0; 0; 0; 0])
  else None.
