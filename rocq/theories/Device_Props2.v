(** C74, C75: restarts of a device, and its transport layer *)
From Verif Require Import Base Bits Telegram_Model Device_Model Device_Spec Device_Spec2 Device_Spec3 Device_Refine Device_Refine2 Device_Client Device_Restart Device_Ex.
From Verif Require TL4_Spec TL4_Props Eeprom_Spec Eeprom_Props.
Import TL4_Spec(steps).

(** ** Telegrams and devices for the examples *)
Definition connect : list Z := [0xB0; 0x11; 0x01; 0x12; 0x34; 0x60; 0x80; 0].
Definition ack (n : Z) : list Z := [0xB0; 0x11; 0x01; 0x12; 0x34; 0x60; 0xC2 + 4 * n; 0].
(** a numbered request to read the device descriptor, one to restart; a connectionless master reset with erase code 2 *)
Definition descriptor (n : Z) : list Z := [0xB0; 0x11; 0x01; 0x12; 0x34; 0x61; 0x43 + 4 * n; 0; 0].
Definition restart (n : Z) : list Z := [0xB0; 0x11; 0x01; 0x12; 0x34; 0x61; 0x43 + 4 * n; 0x80; 0].
Definition reset (code : Z) : list Z := [0xB0; 0x11; 0x01; 0x12; 0x34; 0x63; 0x03; 0x81; code; 0; 0].
Definition addressed (c : conf) : list dop := [SetMode true; Loop (got c 10 addressWrite); SetMode false].
(** a pass with a telegram in which the frame it sends is still on the bus afterwards *)
Definition gotBusy (c : conf) (n : Z) (t : list Z) : inputs := mkIn n (Some (mkRx t (Z.of_nat (length t)) [] (noEffect c))) false true true 1 [].
Lemma gotBusy_ok c n t : bytesb t = true -> op_ok c (Loop (gotBusy c n t)).
Proof. intros H r [= <-]. split; [apply bytesb_ok; exact H|apply noEffect_ok]. Qed.
Lemma runs_observed c l : forall x tr x' outs, Forall (input_ok c) l -> observed c x tr -> druns c l x = Some (x', outs) -> observed c x' (tr ++ combine l outs).
Proof.
  induction l as [|o l IH]; intros x tr x' outs F R; cbn [druns]; [intros [= <- <-]; cbn; rewrite app_nil_r; exact R|]. inversion F as [|? ? F1 F2]; subst. destruct (dstep c x o) as [[x1 out]|] eqn:E; [|discriminate].
  destruct (druns c l x1) as [[x2 outs2]|] eqn:E2; [|discriminate]. intros [= <- <-]. pose proof (IH _ _ _ _ F2 (observed_then c x tr o x1 out R F1 E) E2) as H. rewrite <- app_assoc in H. exact H.
Qed.
Definition seen (c : conf) (l : list dop) : list (dop * list dout) := combine l (match druns c l (fresh c) with Some (_, outs) => outs | None => [] end).
Lemma runTo_observed c l : conf_ok c -> Eeprom_Spec.ecfg_ok (ecf c) -> (if powerUp c blankSector None 1 [] then true else false) = true -> Forall (input_ok c) l ->
  (if druns c l (fresh c) then true else false) = true -> observed c (runTo c l) (seen c l).
Proof.
  intros K EC P F D. unfold runTo, seen. destruct (druns c l (fresh c)) as [[x o]|] eqn:E; [|discriminate]. apply (runs_observed c l (fresh c) [] x o F); [|exact E].
  unfold fresh. destruct (powerUp c blankSector None 1 []) as [y|] eqn:PU; [|discriminate]. eapply (observed_on c _ None); [apply (Eeprom_Props.erased_sector_ok _ EC)|exact Logic.I|constructor|exact PU].
Qed.
Lemma tabs_ok : tables_ok bcu1conf /\ tables_ok bcu2conf.
Proof. split; [constructor|]. unfold tables_ok. cbn. repeat (apply Forall_cons; [repeat (apply Forall_cons; [red; cbn; lia|]); apply Forall_nil|]). apply Forall_nil. Qed.
Ltac in_ok := repeat (apply Forall_cons; [split; [first [exact Logic.I|apply got_ok; reflexivity|apply gotBusy_ok; reflexivity|apply idle_ok]|exact Logic.I]|]); apply Forall_nil.
Ltac seen1 := apply runTo_observed; [apply confs_ok|apply ecfgs_ok|vm_compute; reflexivity|in_ok|vm_compute; reflexivity].

(** ** C74 *)
(** The device resets only if a restart was ordered by an executed request and not yet carried out. It then goes into the bootloader if and only if the last order said so,
    at least 250 ms after that order, and if the order came over a connection, after a T_DISCONNECT. Afterwards it does nothing before the next power-up *)
Theorem C74_only_on_order c x tr o x' l b : conf_ok c -> tables_ok c ->
  observed c x tr -> input_ok c o -> dstep c x o = Some (x', l) -> In (Reset b) l ->
  exists q, pending None (tr ++ [(o, l)]) = Some q /\ o_boot q = b /\ o_owed q = false /\ 250 <= (time_of o - o_time q) mod 2 ^ 32 /\ running x' = false.
Proof. intros K T. apply (reset_ordered c x tr o x' l b K T). Qed.
Print Assumptions C74_only_on_order.
(** a client connects, reads the descriptor, orders a restart; the device disconnects and resets *)
Definition session (c : conf) : list dop :=
  [Loop (gotBusy c 20 connect); Loop (gotBusy c 30 (descriptor 0)); TxDone true; Loop (idle 40 1); TxDone true; Loop (gotBusy c 50 (descriptor 0)); TxDone true; Loop (got c 50 (ack 0))].
Definition restarting (c : conf) : list dop := addressed c ++ session c ++ [Loop (gotBusy c 60 (restart 1)); TxDone true; Loop (idle 70 1); TxDone true].
Example C74_only_on_order_example :
  let c := bcu1conf in let l := restarting c in let o := Loop (idle 310 1) in
  conf_ok c /\ tables_ok c /\ observed c (runTo c l) (seen c l) /\ input_ok c o /\ option_map snd (dstep c (runTo c l) o) = Some [Pin true; Reset false] /\ pending None (seen c l) = Some (mkOrder false 60 false).
Proof.
  cbv zeta. split; [apply confs_ok|]. split; [apply tabs_ok|]. split; [seen1|]. split; [split; [apply idle_ok|exact Logic.I]|]. vm_compute. split; reflexivity.
Qed.
(** An order is carried out: two passes without a telegram and without a transmission, the second more than 250 ms after the order *)
Theorem C74_happens c x tr q i1 y l1 i2 z l2 : conf_ok c -> tables_ok c ->
  observed c x tr -> running x = true -> pending None tr = Some q ->
  rx i1 = None -> sending2 i1 = false -> rx i2 = None -> sending2 i2 = false -> input_ok c (Loop i1) -> input_ok c (Loop i2) ->
  dstep c x (Loop i1) = Some (y, l1) -> dstep c y (Loop i2) = Some (z, l2) ->
  251 <= (now i2 - o_time q) mod 2 ^ 32 < 2 ^ 31 + 250 -> In (Reset (o_boot q)) (l1 ++ l2).
Proof. intros K T. apply (reset_happens c x tr q i1 y l1 i2 z l2 K T). Qed.
Print Assumptions C74_happens.
Example C74_happens_example :
  let c := bcu2conf in let l := addressed c ++ [Loop (got c 20 connect); Loop (gotBusy c 30 (restart 0)); TxDone true] in
  observed c (runTo c l) (seen c l) /\ running (runTo c l) = true /\ pending None (seen c l) = Some (mkOrder false 30 true) /\
  option_map snd (druns c [Loop (idle 40 1); Loop (idle 281 1)] (runTo c l)) = Some [[Pin true; Bus (Tx KCtrl [0xB0; 0; 0; 0x11; 0x01; 0x60; 0x81])]; [Pin true; Reset false]].
Proof. cbv zeta. split; [seen1|]. split; [vm_compute; reflexivity|]. split; vm_compute; reflexivity. Qed.
(** A request that is answered with an error code restarts the device all the same *)
Theorem C74_error_restarts_refuted : exists c l x outs n t k f,
  conf_ok c /\ observed c x (combine l outs) /\ In (n, [Bus (ExecDirect t); Bus (Tx k f); Pin true]) (combine l outs) /\
  service t = 0x381 /\ service f = 0x3A1 /\ rd f 8 <> 0 /\ last outs [] = [Pin true; Reset false] /\ flat_map (fun p => executed (snd p)) (combine l outs) = [].
Proof.
  set (c := bcu1conf). set (l := addressed c ++ [Loop (got c 20 (reset 2)); TxDone true; Loop (idle 70 1); Loop (idle 400 1)]).
  exists c, l, (runTo c l), (match druns c l (fresh c) with Some (_, outs) => outs | None => [] end), (Loop (got c 20 (reset 2))), (reset 2), KDirect, [176; 0; 0; 17; 1; 100; 3; 161; 2; 0; 0].
  split; [apply confs_ok|]. split; [unfold l, c; fold (seen bcu1conf (addressed bcu1conf ++ [Loop (got bcu1conf 20 (reset 2)); TxDone true; Loop (idle 70 1); Loop (idle 400 1)])); seen1|].
  split; [vm_compute; auto 10|]. split; [reflexivity|]. split; [reflexivity|]. split; [discriminate|]. split; vm_compute; reflexivity.
Qed.
Print Assumptions C74_error_restarts_refuted.

(** ** C75 *)
(** The transport layer in the device: at every moment in a state that C01 to C09 speak of, and every history of the device is a history of the transport layer:
    the same telegrams received, the same frames sent, the same telegrams handed over *)
Theorem C75_transport_state c x : conf_ok c -> tables_ok c -> found c x -> exists a cur, TL4_Spec.reachable a (tl x) cur.
Proof. intros K T F. apply (found_good _ _ K T F). Qed.
Print Assumptions C75_transport_state.
Theorem C75_transport c l : conf_ok c -> tables_ok c -> forall x x' outs, found c x -> Forall (input_ok c) l -> Forall (fun o => is_power_up o = false) l -> druns c l x = Some (x', outs) ->
  exists ops, Forall TL4_Spec.op_ok ops /\ steps (tl x) ops = Some (tl x', bus_events (concat outs)) /\ received_in ops = all_taken c x l.
Proof.
  intros K T. induction l as [|o l IH]; intros x x' outs H F N; cbn [druns all_taken]; [intros [= <- <-]; exists []; split; [constructor|]; split; reflexivity|].
  inversion F as [|? ? F1 F2]; subst. inversion N as [|? ? N1 N2]; subst. destruct (dstep c x o) as [[y lo]|] eqn:E; [|discriminate]. destruct (druns c l y) as [[x2 outs2]|] eqn:E2; [|discriminate]. intros [= <- <-].
  destruct (found_sound _ _ K T H) as (G & S). destruct (step_does c x o y lo K T S G F1 N1 E) as (ops & (D1 & D2 & D3 & D4) & _).
  destruct (IH y x2 outs2 (found_then c x o y lo H F1 E) F2 N2 E2) as (ops2 & A1 & A2 & A3). exists (ops ++ ops2). split; [apply Forall_app; auto|]. split; [|rewrite received_app, D3, A3; reflexivity].
  cbn [concat]. rewrite bus_app. eapply steps_app; eassumption.
Qed.
Print Assumptions C75_transport.
(** A client connects to a device that is not connected and then sends requests: as long as the connection lasts, the device executes exactly the requests that come in the order
    of their numbers, each once; if the client numbers its requests from 0 and repeats each as often as it likes, the device executes each exactly once *)
Theorem C75_exactly_once c x o x1 l1 l x2 outs : conf_ok c -> tables_ok c ->
  found c x -> connected x = false -> input_ok c o -> dstep c x o = Some (x1, l1) -> connected x1 = true ->
  Forall (input_ok c) l -> stays_connected c x1 l -> druns c l x1 = Some (x2, outs) ->
  executed l1 = [] /\ executed (concat outs) = TL4_Spec.in_order 0 (asked_by (partner x1) c x1 l) /\
  forall reqs, TL4_Spec.stutter reqs (asked_by (partner x1) c x1 l) -> TL4_Spec.numbered_from 0 reqs -> executed (concat outs) = reqs.
Proof.
  intros K T H C0 OK E C1 F ST D. destruct (client_opens c x o x1 l1 K T H C0 OK E C1) as (a & g & RE & P & X1 & X2 & X3 & G).
  destruct (client_history c a l K T x1 g x2 outs G RE F ST D) as (g' & RE' & P' & R' & E'). rewrite X1, P in R'. rewrite X2 in E'. cbn [app] in R', E'. split; [exact X3|].
  destruct (TL4_Props.C01_executed_in_order _ _ _ RE') as (Q & _). rewrite <- R', <- E'. split; [exact Q|]. intros reqs S N. apply (TL4_Props.C01_client_exactly_once _ _ _ _ RE' S N).
Qed.
Print Assumptions C75_exactly_once.
Fixpoint staysb (c : conf) (x : device) (l : list dop) : bool :=
  match l with
  | [] => true
  | o :: r => negb (is_power_up o) && match dstep c x o with
      | Some (y, lo) => connected y && forallb (fun e => match e with Bus (Tx _ f) => negb (rd f 6 =? 0x81) | _ => true end) lo && staysb c y r
      | None => true
      end
  end.
Lemma staysb_ok c l : forall x, staysb c x l = true -> stays_connected c x l.
Proof.
  induction l as [|o l IH]; intros x; cbn [staysb stays_connected]; [auto|]. intros H. apply andb_prop in H. destruct H as [H1 H2]. split; [destruct (is_power_up o); [discriminate|reflexivity]|]. intros y lo E. rewrite E in H2.
  rewrite !andb_true_iff in H2. destruct H2 as ((H2 & H3) & H4). split; [exact H2|]. split; [|apply IH; exact H4]. intros k f I. rewrite forallb_forall in H3. specialize (H3 _ I). cbn in H3. destruct (Z.eqb_spec (rd f 6) 0x81); [discriminate|auto].
Qed.
(** the client asks for the descriptor twice with the same number *)
Definition asking (c : conf) : list dop := List.tl (session c) ++ [Loop (gotBusy c 60 (descriptor 1))].
Example C75_example :
  let c := bcu2conf in let x := runTo c (addressed c) in let o := Loop (gotBusy c 20 connect) in let x1 := runTo c (addressed c ++ [o]) in let l := asking c in
  found c x /\ connected x = false /\ input_ok c o /\ option_map (fun p => (connected (fst p), partner (fst p))) (dstep c x o) = Some (true, 0x1101) /\ Forall (input_ok c) l /\
  stays_connected c x1 l /\ asked_by 0x1101 c x1 l = [descriptor 0; descriptor 0; descriptor 1] /\ option_map (fun p => executed (concat (snd p))) (druns c l x1) = Some [descriptor 0; descriptor 1] /\
  TL4_Spec.stutter [descriptor 0; descriptor 1] [descriptor 0; descriptor 0; descriptor 1] /\ TL4_Spec.numbered_from 0 [descriptor 0; descriptor 1].
Proof.
  cbv zeta. split; [apply (observed_found _ _ (seen bcu2conf (addressed bcu2conf))); seen1|]. split; [vm_compute; reflexivity|]. split; [split; [apply gotBusy_ok; reflexivity|exact Logic.I]|]. split; [vm_compute; reflexivity|]. split; [in_ok|].
  split; [apply staysb_ok; vm_compute; reflexivity|]. split; [vm_compute; reflexivity|]. split; [vm_compute; reflexivity|].
  split; [apply (TL4_Spec.stutter_cons (descriptor 0) 1 [descriptor 1] [descriptor 1]); apply (TL4_Spec.stutter_cons (descriptor 1) 0 [] []); constructor|].
  intros i Hi. cbn in Hi. destruct i as [|[|i]]; [reflexivity|reflexivity|lia].
Qed.
