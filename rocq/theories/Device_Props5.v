(** C95: the answers of a device to the requests of a connection *)
From Verif Require Import Base Bits Telegram_Model Device_Model Device_Spec Device_Spec2 Device_Spec3 Device_Spec5 Device_Restart Device_Ex Device_Props2 Device_Props3 Device_Props4 Device_Spec6 Device_Talk.
From Verif Require TL4_Spec MemReq_Spec.

(** A client connects to a device and sends requests, never so fast that a request is executed while two answers are not yet acknowledged. As long as the connection lasts, the responses the device
    puts on the bus, repetitions up to the acknowledge of the client counted as one, are the specified answers to the executed requests, in the order of execution, none left out, none added:
    the response with number [k] goes to the client, has the sequence number [k mod 16], the priority of the request and the content demanded for the memory at the time of execution *)
Theorem C95_answers_partial c x o x1 l1 l x2 outs : conf_ok c -> tables_ok c -> 0 <= maskVersion (lay c) < 65536 -> MemReq_Spec.layout_ok (lay c) -> Z.of_nat (Eeprom_Model.esize (ecf c)) = eeSize (lay c) ->
  found c x -> connected x = false -> input_ok c o -> dstep c x o = Some (x1, l1) -> connected x1 = true ->
  Forall (input_ok c) l -> stays_connected c x1 l -> all_covered c x1 l -> druns c l x1 = Some (x2, outs) ->
  let g := talk_after c (partner x1) x1 l (opened (time_of o)) in crowd g = false ->
  (length (sent g) <= length (due g))%nat /\
  forall k f, (k < length (sent g))%nat -> In f (nth k (sent g) []) -> exists t a, nth_error (due g) k = Some (t, a) /\ numbered_answer (partner x1) (Z.of_nat k mod 16) t a f.
Proof.
  intros K T MV HL EE H C0 OK E C1 F ST AC D g CR. destruct (answers_of c K T MV HL EE x o x1 l1 l x2 outs H C0 OK E C1 F ST AC D CR) as (A & B & _). auto.
Qed.
Print Assumptions C95_answers_partial.
(** And the next answer is sent: when every response sent so far is acknowledged and a request is not yet answered, the next pass of the main loop within 6 seconds of the last sign of life
    sends the answer, unless a frame is still being sent *)
Theorem C95_next c x o x1 l1 l x2 outs : conf_ok c -> tables_ok c -> 0 <= maskVersion (lay c) < 65536 -> MemReq_Spec.layout_ok (lay c) -> Z.of_nat (Eeprom_Model.esize (ecf c)) = eeSize (lay c) ->
  found c x -> connected x = false -> input_ok c o -> dstep c x o = Some (x1, l1) -> connected x1 = true ->
  Forall (input_ok c) l -> stays_connected c x1 l -> all_covered c x1 l -> druns c l x1 = Some (x2, outs) ->
  let g := talk_after c (partner x1) x1 l (opened (time_of o)) in crowd g = false ->
  open g = false -> forall t a, nth_error (due g) (length (sent g)) = Some (t, a) -> txs (tl x2) = FREE -> running x2 = true ->
  forall i y lo, 0 <= now i - active g < 6000 -> dstep c x2 (Loop i) = Some (y, lo) ->
  exists f, In (Bus (Tx KResp f)) lo /\ numbered_answer (partner x1) (Z.of_nat (length (sent g)) mod 16) t a f.
Proof.
  intros K T MV HL EE H C0 OK E C1 F ST AC D g CR. destruct (answers_of c K T MV HL EE x o x1 l1 l x2 outs H C0 OK E C1 F ST AC D CR) as (_ & _ & A). exact A.
Qed.
Print Assumptions C95_next.
(** deciding [all_covered] for a device without memory mapper *)
Definition coveredb (c : conf) (x : device) (t : list Z) : bool :=
  (negb (memory_service t) && negb (existsb (Z.eqb (service t)) [0x3D5; 0x3D7; 0x3D8])) ||
  ((length t =? 23)%nat && bytesb t && ((MemReq_Spec.q_command t =? 0x200) || (MemReq_Spec.q_command t =? 0x280)) && (MemReq_Spec.q_count t <=? 12)%nat && match memMapper (mem x) with None => true | _ => false end).
Fixpoint coveredbs (c : conf) (x : device) (l : list dop) : bool :=
  match l with
  | [] => true
  | o :: r => match dstep c x o with Some (y, lo) => forallb (coveredb c x) (executed lo) && coveredbs c y r | None => true end
  end.
Lemma coveredb_ok c x t : coveredb c x t = true -> covered c x t.
Proof.
  unfold coveredb, covered. rewrite orb_true_iff, !andb_true_iff, orb_true_iff. intros [[A B]|((((A & B) & C) & D) & E)].
  - left. unfold memory_service in A. split; [lia|]. split; [lia|]. right. intros I. cbn in B, I. lia.
  - right. split; [|split].
    + split; [apply Nat.eqb_eq; exact A|]. split; [apply bytesb_ok; exact B|]. rewrite !Z.eqb_eq in C. exact C.
    + apply Nat.leb_le. exact D.
    + intros m Hm. rewrite Hm in E. discriminate.
Qed.
Lemma coveredbs_ok c l : forall x, coveredbs c x l = true -> all_covered c x l.
Proof.
  induction l as [|o l IH]; intros x; cbn [coveredbs all_covered]; [auto|]. intros H y lo E. rewrite E in H. apply andb_prop in H. destruct H as (A & B). split; [|apply IH; exact B].
  apply Forall_forall. intros t Ht. rewrite forallb_forall in A. apply coveredb_ok, A, Ht.
Qed.
(** the client reads four bytes of memory with low priority and repeats the request, because the acknowledge of the device came late; the device sends
    its answer twice, because the client acknowledges late as well; then the client asks for the descriptor *)
Definition memReadNo (n : Z) : list Z := [0xBC; 0x11; 0x01; 0x12; 0x34; 0x63; 0x42 + 4 * n; 0x04; 0x01; 0x16; 0; 0; 0; 0; 0; 0; 0; 0; 0; 0; 0; 0; 0].
Definition talking (c : conf) : list dop :=
  [Loop (gotBusy c 30 (memReadNo 0)); TxDone true; Loop (idle 40 1); TxDone true; Loop (gotBusy c 50 (memReadNo 0)); TxDone true; Loop (gotBusy c 3100 (ack 0)); TxDone true;
   Loop (gotBusy c 3110 (descriptor 1)); TxDone true].
Example C95_example :
  let c := bcu2conf in let x := runTo c (addressed c) in let o := Loop (gotBusy c 20 connect) in let x1 := runTo c (addressed c ++ [o]) in let l := talking c in
  let g := talk_after c 0x1101 x1 l (opened 20) in
  conf_ok c /\ tables_ok c /\ 0 <= maskVersion (lay c) < 65536 /\ MemReq_Spec.layout_ok (lay c) /\ Z.of_nat (Eeprom_Model.esize (ecf c)) = eeSize (lay c) /\
  found c x /\ connected x = false /\ input_ok c o /\ option_map (fun p => (connected (fst p), partner (fst p))) (dstep c x o) = Some (true, 0x1101) /\ Forall (input_ok c) l /\
  stays_connected c x1 l /\ all_covered c x1 l /\ crowd g = false /\
  due g = [(memReadNo 0, (0x244, [0x01; 0x16; 0; 0x12; 0x34; 0])); (descriptor 1, (0x340, [0; 0x20]))] /\
  sent g = [[[0xBC; 0; 0; 0x11; 0x01; 0x67; 0x42; 0x44; 0x01; 0x16; 0; 0x12; 0x34; 0]; [0xBC; 0; 0; 0x11; 0x01; 0x67; 0x42; 0x44; 0x01; 0x16; 0; 0x12; 0x34; 0]]] /\ open g = false /\ active g = 3110 /\
  option_map (fun p => (txs (tl (fst p)), running (fst p), option_map snd (dstep c (fst p) (Loop (idle 3120 1))))) (druns c l x1) =
    Some (FREE, true, Some [Bus (Tx KResp [0xB0; 0; 0; 0x11; 0x01; 0x63; 0x47; 0x40; 0; 0x20]); Pin true]).
Proof.
  cbv zeta. split; [apply confs_ok|]. split; [apply tabs_ok|]. split; [cbn; lia|]. split; [apply devices_layout|]. split; [vm_compute; reflexivity|].
  split; [apply (observed_found _ _ (seen bcu2conf (addressed bcu2conf))); seen1|]. split; [vm_compute; reflexivity|]. split; [split; [apply gotBusy_ok; reflexivity|exact Logic.I]|]. split; [vm_compute; reflexivity|]. split; [in_ok|].
  split; [apply staysb_ok; vm_compute; reflexivity|]. split; [apply coveredbs_ok; vm_compute; reflexivity|]. vm_compute. repeat split; reflexivity.
Qed.
