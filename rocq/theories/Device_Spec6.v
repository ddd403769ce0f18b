(** What is visible of a device from outside, continued: its answers to the requests of a connection (C95) *)
From Verif Require Import Base Device_Model Device_Spec Device_Spec2 Device_Spec3 Device_Spec5.
From Verif Require TL4_Spec MemReq_Spec.

(** ** Answers *)
Definition memory_service (t : list Z) : bool := ((0x200 <=? service t) && (service t <? 0x240)) || ((0x280 <=? service t) && (service t <? 0x2C0)).
(** service and data of the answer to a request, for the content the memory has when the request is executed; None: no answer *)
Definition reply (c : conf) (d : dev) (t : list Z) : option (Z * list Z) :=
  if memory_service t then
    option_map (fun a : MemReq_Spec.answer => let '(k, q, bs) := a in (0x240 + k, q / 256 :: q mod 256 :: bs)) (fst (MemReq_Spec.ideal_request (lay c) t (MemReq_Spec.array (lay c) d)))
  else answer_to c t.
(** the requests meant: everything but the property services of BCU2 and accesses to more than 12 bytes of memory *)
Definition covered (c : conf) (x : device) (t : list Z) : Prop := plain c t \/ (MemReq_Spec.request_ok t /\ (MemReq_Spec.q_count t <= 12)%nat /\ mapper_apart c x).
Fixpoint all_covered (c : conf) (x : device) (l : list dop) : Prop :=
  match l with
  | [] => True
  | o :: r => forall y lo, dstep c x o = Some (y, lo) -> Forall (covered c x) (executed lo) /\ all_covered c y r
  end.
(** the frame that carries an answer [a] to the request [t] as number [n] of the connection with [p]; bit 14 of bytes 6 and 7: numbered data, bits 10 to 13: the number *)
Definition numbered_answer (p n : Z) (t : list Z) (a : Z * list Z) (f : list Z) : Prop := is_frame f (prio_of t) p 0x60 (0x4000 + 1024 * n + fst a) (snd a).

(** ** The talk within a connection, as an observer notes it *)
Record talk := mkTalk {
  due : list (list Z * (Z * list Z));   (* the executed requests that have an answer, with the answer *)
  sent : list (list (list Z));          (* the response frames put on the bus; those up to the acknowledge of the partner belong together *)
  open : bool;                          (* the partner has not yet acknowledged the last of them *)
  crowd : bool;                         (* a request was executed although two answers were not yet acknowledged *)
  active : Z }.                         (* time of the last sign of life of the connection *)
Definition settled (g : talk) : nat := if open g then pred (length (sent g)) else length (sent g).
(** a response frame is put on the bus *)
Definition sends (n : Z) (g : talk) (f : list Z) : talk :=
  mkTalk (due g) (if open g then removelast (sent g) ++ [last (sent g) [] ++ [f]] else sent g ++ [[f]]) true (crowd g) n.
(** the device with address [own] takes a telegram from the bus: a request of the partner, or its acknowledge for the last response *)
Definition hears (own p n : Z) (g : talk) (t : list Z) : talk :=
  if from_client own p t then mkTalk (due g) (sent g) (open g) (crowd g) n
  else if TL4_Spec.addressed_to own t && TL4_Spec.is_ack t && (TL4_Spec.src t =? p) && open g && (TL4_Spec.seqno t =? TL4_Spec.seqno (hd [] (last (sent g) [])))
  then mkTalk (due g) (sent g) false (crowd g) n
  else g.
(** it executes a request *)
Definition executes_request (c : conf) (d : dev) (g : talk) (t : list Z) : talk :=
  mkTalk (due g ++ match reply c d t with Some a => [(t, a)] | None => [] end) (sent g) (open g) (crowd g || (2 <=? Z.of_nat (length (due g) - settled g))) (active g).
(** one operation of the device: within a pass it first sends, then looks at the telegram received *)
Definition goes_on (c : conf) (p : Z) (x : device) (o : dop) (lo : list dout) (g : talk) : talk :=
  fold_left (executes_request c (mem x)) (executed lo)
    (fold_left (hears (own_address x) p (time_of o)) (taken x o)
      (fold_left (sends (time_of o)) (TL4_Spec.responses (bus_events lo)) g)).
Fixpoint talk_after (c : conf) (p : Z) (x : device) (l : list dop) (g : talk) : talk :=
  match l with
  | [] => g
  | o :: r => match dstep c x o with Some (y, lo) => talk_after c p y r (goes_on c p x o lo g) | None => g end
  end.
(** at the time [n] the connection is opened *)
Definition opened (n : Z) : talk := mkTalk [] [] false false n.
