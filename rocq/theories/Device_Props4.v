(** C77, C78: what the device answers to connectionless requests and to broadcasts *)
From Verif Require Import Base Bits Telegram_Model Device_Model Device_Spec Device_Spec3 Device_Spec5 Device_Wf Device_Steps Device_Restart Device_Answer Device_Ex Device_Props2 Device_Props3.
From Verif Require MemReq_Spec.

(** A connectionless request other than for memory or properties is answered in the same pass by exactly one frame with the specified content, to the sender, with the priority of the
    request, or not at all; and nothing stored changes *)
Theorem C77_answer c i r x y l : conf_ok c -> tables_ok c -> 0 <= maskVersion (lay c) < 65536 -> found c x -> input_ok c (Loop i) -> takes x (Loop i) r -> connectionless x (rxTel r) -> plain c (rxTel r) ->
  dstep c x (Loop i) = Some (y, l) ->
  match answer_to c (rxTel r) with
  | Some (s, data) => exists f, answered_with l (ExecDirect (rxTel r)) f /\ is_frame f (prio_of (rxTel r)) (source (rxTel r)) 0x60 s data
  | None => not_answered l (ExecDirect (rxTel r))
  end /\ nothing_stored c x y.
Proof.
  intros K T MV FO IO TK CL PL E. destruct (connectionless_pass c i r x y l K T FO IO TK CL E) as (s & conn & sb0 & ans & sb & z & H & P & _ & _ & A & N & R & Q & O).
  pose proof TK as (_ & i' & [= <-] & RX & _). destruct IO as (OK & _). destruct (OK r RX) as (F & _).
  destruct (plain_apci c _ _ _ _ _ _ _ _ _ _ _ H F PL MV P) as (D & M). rewrite M in R, Q. cbn [mem setTl] in R, Q. split; [|split; [exact R|split; [exact Q|exact O]]].
  destruct (answer_to c (rxTel r)) as [[sv data]|]; cbn [done] in D.
  - destruct D as (D1 & D2). exists (firstn (telegramSize sb) sb). auto.
  - apply N. exact D.
Qed.
Print Assumptions C77_answer.
(** the individual address of the devices is 1.2.52; the sender is 1.1.1: read the descriptor; master reset with erase code 2, priority low *)
Definition descriptorRead : list Z := [0xB0; 0x11; 0x01; 0x12; 0x34; 0x61; 0x03; 0x00; 0].
Definition resetLow : list Z := [0xBC; 0x11; 0x01; 0x12; 0x34; 0x63; 0x03; 0x81; 2; 0; 0].
Lemma there_found : found bcu1conf (there bcu1conf) /\ found bcu2conf (there bcu2conf).
Proof. split; (eapply observed_found; unfold there; seen1). Qed.
Definition rxOf (c : conf) (t : list Z) := mkRx t (Z.of_nat (length t)) [] (noEffect c).
Lemma there_takes n t : bytesb t = true -> input_ok bcu2conf (Loop (gotBusy bcu2conf n t)) /\ takes (there bcu2conf) (Loop (gotBusy bcu2conf n t)) (rxOf bcu2conf t).
Proof.
  intros B. split; [split; [apply gotBusy_ok; exact B|exact Logic.I]|]. split; [vm_compute; reflexivity|]. exists (gotBusy bcu2conf n t). split; [reflexivity|]. split; [reflexivity|]. split; [reflexivity|].
  vm_compute. reflexivity.
Qed.
Example C77_answer_example :
  let c := bcu2conf in let x := there c in
  conf_ok c /\ tables_ok c /\ 0 <= maskVersion (lay c) < 65536 /\ found c x /\
  (forall t, In t [descriptorRead; resetLow] -> input_ok c (Loop (gotBusy c 20 t)) /\ takes x (Loop (gotBusy c 20 t)) (rxOf c t) /\ connectionless x t /\ plain c t) /\
  option_map snd (dstep c x (Loop (gotBusy c 20 descriptorRead))) = Some [Bus (ExecDirect descriptorRead); Bus (Tx KDirect [0xB0; 0; 0; 0x11; 0x01; 0x63; 0x03; 0x40; 0; 0x20]); Pin true] /\
  answer_to c descriptorRead = Some (0x340, [0; 0x20]) /\
  option_map snd (dstep c x (Loop (gotBusy c 20 resetLow))) = Some [Bus (ExecDirect resetLow); Bus (Tx KDirect [0xBC; 0; 0; 0x11; 0x01; 0x64; 0x03; 0xA1; 2; 0; 0]); Pin true] /\
  answer_to c resetLow = Some (0x3A1, [2; 0; 0]).
Proof.
  cbv zeta. split; [apply confs_ok|]. split; [apply tabs_ok|]. split; [cbn; lia|]. split; [apply there_found|]. split.
  { intros t Ht. assert (B : bytesb t = true) by (cbn [In] in Ht; destruct Ht as [<-|[<-|[]]]; reflexivity). destruct (there_takes 20 t B) as (I1 & I2). split; [exact I1|]. split; [exact I2|].
    cbn [In] in Ht. destruct Ht as [<-|[<-|[]]]; (split; [vm_compute; repeat split; discriminate|split; [|split; [|right]]; intros Q; vm_compute in Q; [destruct Q as [Q1 Q2]; first [discriminate Q2|exact (Q1 eq_refl)]..|repeat (destruct Q as [Q|Q]; [discriminate Q|]); exact Q]]). }
  split; [vm_compute; reflexivity|]. split; [reflexivity|]. split; [vm_compute; reflexivity|reflexivity].
Qed.
(** Requests to read or write up to 12 bytes of memory are answered as the memory specification of C24 demands for the content the device has at that moment: the bytes read, or none if an
    address is unknown; after a write with verify flag what was stored *)
Theorem C77_memory c i r x y l : conf_ok c -> tables_ok c -> MemReq_Spec.layout_ok (lay c) -> Z.of_nat (Eeprom_Model.esize (ecf c)) = eeSize (lay c) -> mapper_apart c x ->
  found c x -> input_ok c (Loop i) -> takes x (Loop i) r -> connectionless x (rxTel r) -> MemReq_Spec.request_ok (rxTel r) -> (MemReq_Spec.q_count (rxTel r) <= 12)%nat -> dstep c x (Loop i) = Some (y, l) ->
  match fst (MemReq_Spec.ideal_request (lay c) (rxTel r) (MemReq_Spec.array (lay c) (mem x))) with
  | Some (n, a, bytes) => exists f, answered_with l (ExecDirect (rxTel r)) f /\ is_frame f (prio_of (rxTel r)) (source (rxTel r)) 0x60 (0x240 + n) (a / 256 :: a mod 256 :: bytes)
  | None => not_answered l (ExecDirect (rxTel r))
  end.
Proof.
  intros K T L EE MA FO IO TK CL RO Q12 E. destruct (connectionless_pass c i r x y l K T FO IO TK CL E) as (s & conn & sb0 & ans & sb & z & H & P & SB & W & A & N & _).
  pose proof (memory_apci c _ _ _ _ _ (setTl x s) _ _ _ _ _ K L EE MA W H RO Q12 P SB) as D. cbn [mem setTl] in D.
  destruct (fst _) as [[[n a] bs]|]; cbn [option_map done] in D.
  - destruct D as (D1 & D2). exists (firstn (telegramSize sb) sb). auto.
  - apply N. exact D.
Qed.
Print Assumptions C77_memory.
(** read four bytes at 0x116 (the address table length, the individual address, and one more byte), in a buffer of 23 bytes *)
Definition memRead : list Z := [0xB0; 0x11; 0x01; 0x12; 0x34; 0x63; 0x02; 0x04; 0x01; 0x16; 0; 0; 0; 0; 0; 0; 0; 0; 0; 0; 0; 0; 0].
Example C77_memory_example :
  let c := bcu2conf in let x := there c in
  conf_ok c /\ tables_ok c /\ MemReq_Spec.layout_ok (lay c) /\ Z.of_nat (Eeprom_Model.esize (ecf c)) = eeSize (lay c) /\ mapper_apart c x /\ found c x /\
  input_ok c (Loop (gotBusy c 20 memRead)) /\ takes x (Loop (gotBusy c 20 memRead)) (rxOf c memRead) /\ connectionless x memRead /\ MemReq_Spec.request_ok memRead /\ (MemReq_Spec.q_count memRead <= 12)%nat /\
  option_map snd (dstep c x (Loop (gotBusy c 20 memRead))) = Some [Bus (ExecDirect memRead); Bus (Tx KDirect [0xB0; 0; 0; 0x11; 0x01; 0x67; 0x02; 0x44; 0x01; 0x16; 0; 0x12; 0x34; 0]); Pin true] /\
  fst (MemReq_Spec.ideal_request (lay c) memRead (MemReq_Spec.array (lay c) (mem x))) = Some (4, 0x116, [0; 0x12; 0x34; 0]).
Proof.
  cbv zeta. split; [apply confs_ok|]. split; [apply tabs_ok|]. split; [apply devices_layout|]. split; [vm_compute; reflexivity|]. split; [intros m Hm; vm_compute in Hm; discriminate|]. split; [apply there_found|].
  destruct (there_takes 20 memRead eq_refl) as (I1 & I2). split; [exact I1|]. split; [exact I2|]. split; [vm_compute; repeat split; discriminate|].
  split; [split; [reflexivity|split; [apply bytesb_ok; reflexivity|left; reflexivity]]|]. split; [vm_compute; lia|]. split; vm_compute; reflexivity.
Qed.
(** Broadcasts: the device answers the question for devices in programming mode exactly if it is in programming mode, a BCU2 the question for its serial number exactly if the serial number is its own,
    and no other broadcast *)
Theorem C78_broadcast c i r x y l : conf_ok c -> tables_ok c -> found c x -> input_ok c (Loop i) -> takes x (Loop i) r -> is_broadcast (rxTel r) -> dstep c x (Loop i) = Some (y, l) ->
  match broadcast_answer c (mem x) (rxTel r) with
  | Some (s, data) => exists f, answered_with l (Bcast (rxTel r)) f /\ is_frame f 0 0 0xE0 s data
  | None => not_answered l (Bcast (rxTel r))
  end.
Proof. exact (broadcast_pass c i r x y l). Qed.
Print Assumptions C78_broadcast.
Definition whoHas : list Z := [0xB0; 0x11; 0x01; 0; 0; 0xE7; 0x03; 0xDC; 1; 2; 3; 4; 5; 6; 0].
Definition whoHasOther : list Z := [0xB0; 0x11; 0x01; 0; 0; 0xE7; 0x03; 0xDC; 1; 2; 3; 4; 5; 7; 0].
Definition whoIsProgramming : list Z := [0xB0; 0x11; 0x01; 0; 0; 0xE1; 0x01; 0x00; 0].
Definition programming (c : conf) : device := runTo c (addressed c ++ [SetMode true]).
Example C78_broadcast_example :
  let c := bcu2conf in let x := there c in
  conf_ok c /\ tables_ok c /\ found c x /\ found c (programming c) /\
  (forall t, In t [whoHas; whoHasOther; whoIsProgramming] -> input_ok c (Loop (gotBusy c 20 t)) /\ takes x (Loop (gotBusy c 20 t)) (rxOf c t) /\ is_broadcast t) /\
  map (fun t => option_map snd (dstep c x (Loop (gotBusy c 20 t)))) [whoHas; whoHasOther; whoIsProgramming] =
    [Some [Bus (Bcast whoHas); Bus (Tx KApp [0xB0; 0; 0; 0; 0; 0xEB; 0x03; 0xDD; 1; 2; 3; 4; 5; 6; 0; 0; 0; 0]); Pin true]; Some [Bus (Bcast whoHasOther); Pin true]; Some [Bus (Bcast whoIsProgramming); Pin true]] /\
  option_map snd (dstep c (programming c) (Loop (gotBusy c 20 whoIsProgramming))) = Some [Bus (Bcast whoIsProgramming); Bus (Tx KApp [0xB0; 0; 0; 0; 0; 0xE1; 0x01; 0x40]); Pin false].
Proof.
  cbv zeta. split; [apply confs_ok|]. split; [apply tabs_ok|]. split; [apply there_found|]. split; [eapply observed_found; unfold programming; seen1|]. split.
  { intros t Ht. assert (B : bytesb t = true /\ is_broadcast t) by (cbn [In] in Ht; destruct Ht as [<-|[<-|[<-|[]]]]; split; reflexivity). destruct B as (B & D). destruct (there_takes 20 t B) as (I1 & I2). auto. }
  split; vm_compute; reflexivity.
Qed.
