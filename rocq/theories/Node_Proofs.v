(** A device with communication objects: invariants *)
From Verif Require Import Base Bits Telegram_Model Device_Model Device_Spec Device_Spec3 Device_TL Device_Status Device_Proofs Device_Wf Device_Steps Device_Bytes Device_Refine Device_Refine2 Device_Client Device_Restart Device_Answer.
From Verif Require Import Node_Model Node_Spec.
From Verif Require ComObj_Model ComObj_Spec ComObj_Next ComObj_Proofs Rate_Model TL4_Spec Node_Com Eeprom_Proofs.

Definition fit (c : conf) (m : ComObj_Model.mem) : Prop :=
  length (ComObj_Model.ram m) = Z.to_nat (ramSize (lay c)) /\ length (ComObj_Model.eep m) = Eeprom_Model.esize (ecf c) /\ Forall is_byte (ComObj_Model.ram m) /\ Forall is_byte (ComObj_Model.eep m).
Definition healthy (c : conf) (x : device) : Prop := good_dev c x /\ sound (tl x).
Definition ngood (c : conf) (x : node) : Prop := healthy c (ndev x) /\ 0 <= nnext x.

(** ** Tables and memory *)
Lemma tables_sizes c le d g : tables c le d = Some g ->
  ComObj_Model.ramStart g = ramStart (lay c) /\ ComObj_Model.ramSize g = ramSize (lay c) /\ ComObj_Model.eepStart g = eeStart (lay c) /\ ComObj_Model.eepSize g = eeSize (lay c).
Proof. unfold tables. destruct (addrTableBytes c d), (assocTableBytes c d), (comTableBytes c d); try discriminate. intros [= <-]. auto. Qed.
Lemma fit_mem c g m : sized c -> ComObj_Model.ramSize g = ramSize (lay c) -> ComObj_Model.eepSize g = eeSize (lay c) -> fit c m <-> ComObj_Spec.mem_ok g m.
Proof.
  intros (S & _) A B. split.
  - intros (H1 & H2 & H3 & H4). split; auto; [now rewrite A|]. rewrite B, S, Nat2Z.id. exact H2.
  - intros [H1 H2 H3 H4]. rewrite A in H1. rewrite B, S, Nat2Z.id in H2. repeat split; assumption.
Qed.
Lemma Forall_firstn A (P : A -> Prop) n l : Forall P l -> Forall P (firstn n l).
Proof. intros H. revert n. induction H; intros [|n]; cbn [firstn]; constructor; auto. Qed.
Lemma Forall_skipn A (P : A -> Prop) n l : Forall P l -> Forall P (skipn n l).
Proof. intros H. revert n. induction H; intros [|n]; cbn [skipn]; auto. Qed.
Lemma userMem_fit c x : wf c x -> fit c (userMem c (mem x)).
Proof.
  intros ((A & B & C & D & E) & _). unfold fit, userMem. cbn [ComObj_Model.ram ComObj_Model.eep]. split; [|split; [exact A|split; [apply Forall_firstn; exact D|exact B]]].
  rewrite firstn_length, C. unfold ram_bytes. lia.
Qed.
Lemma user_stored c m d : length (ComObj_Model.ram m) = Z.to_nat (ramSize (lay c)) -> userMem c (storeMem c m d) = m.
Proof.
  intros L. unfold userMem, storeMem. cbn [ramData eeData setEe setRam]. rewrite firstn_app, L, Nat.sub_diag. cbn [firstn]. rewrite app_nil_r, firstn_all2 by lia. destruct m. reflexivity.
Qed.
Lemma store_good c m x : fit c m -> good_dev c x -> good_dev c (setMem x (storeMem c m (mem x))).
Proof.
  intros (L1 & L2 & B1 & B2) ((W & S & O) & D). split; [|exact D]. split; [|split; [exact S|exact O]]. destruct W as (A & B & C & E & F). cbn [mem setMem].
  unfold mem_wf, storeMem. cbn [eeData ramData status setEe setRam]. split; [exact L2|]. split; [exact B2|]. split; [|split; [|exact F]].
  - rewrite app_length, skipn_length, L1, C. unfold ram_bytes. lia.
  - apply Forall_app. split; [exact B1|]. apply Forall_skipn. exact E.
Qed.
Lemma store_healthy c m x : fit c m -> healthy c x -> healthy c (setMem x (storeMem c m (mem x))).
Proof. intros F (G & S). split; [apply store_good; auto|exact S]. Qed.
Lemma healthy_buf c x : healthy c x -> ComObj_Next.buf_ok (txb (tl x)).
Proof. intros (_ & S). apply (sound_txb _ S). Qed.
Lemma sendGroup_ok c m b w x y l : fit c m -> ComObj_Next.buf_ok b -> healthy c x -> sendGroup c m b w x = Some (y, l) ->
  healthy c y /\ mem y = storeMem c m (mem x) /\ own (tl y) = own (tl x) /\ kept x y /\ sector y = sector x /\
  exists a, l = a ++ [Tx KApp (firstn (telegramSize b) b)] /\ controls [] a.
Proof.
  intros F B H E. unfold sendGroup in E. set (x1 := setMem x (storeMem c m (mem x))) in *. pose proof (store_healthy c m x F H) as (G1 & S1). fold x1 in G1, S1.
  destruct (sendOwn_does _ _ _ _ _ S1 (fun _ _ => B) E) as (ops & D & M). destruct (sendOwn_frame _ _ _ _ _ E) as (O & _ & C & P). destruct (sendOwn_spec _ _ _ _ _ (sound_txb _ S1) (fun _ _ => B) E) as (a & L & A & _).
  split; [|split; [exact M|split; [exact O|split; [exact P|split; [exact C|]]]]].
  - split; [|apply (does_sound _ _ _ _ _ D S1)]. destruct G1 as (W1 & B1). unfold good_dev, wf, dev_bytes in *. rewrite O, C, M. split; [exact W1|exact B1].
  - exists a. split; [exact L|exact A].
Qed.
(** ** The functions of the communication objects *)
Section Any.
Variable c : conf.
Hypothesis SZ : sized c.
Variable g : ComObj_Model.cfg.
Hypothesis GR : ComObj_Model.ramSize g = ramSize (lay c).
Hypothesis GE : ComObj_Model.eepSize g = eeSize (lay c).
Lemma fit_bytes m : fit c m -> Node_Com.mem_bytes m.
Proof. intros (_ & _ & A & B). split; assumption. Qed.
Lemma put_fit p m i v : is_byte v -> fit c m -> fit c (ComObj_Model.putp m p i v).
Proof. intros V F. apply (fit_mem c g _ SZ GR GE). apply ComObj_Proofs.putp_ok; [apply (fit_mem c g _ SZ GR GE); exact F|exact V]. Qed.
Lemma call_fit a m : fit c m -> fit c (fst (callMem g a m)).
Proof.
  intros F.
  assert (W : forall o v f, fit c (ComObj_Model.objectWrite_ g o v f m)).
  { intros o v f. apply (Node_Com.write_keeps g (fun _ => True) (fit c)); auto; intros; apply put_fit; auto. }
  assert (S : forall o f, fit c (ComObj_Model.setObjectFlags g o f m)) by (intros o f; apply (Node_Com.set_keeps g (fit c)); auto; intros; apply put_fit; auto).
  assert (A : forall o f, fit c (ComObj_Model.addObjectFlags g o f m)) by (intros o f; apply (Node_Com.add_keeps g (fit c)); auto; intros; apply put_fit; auto).
  destruct a as [o v|o v|o v|o|o|]; cbn [callMem fst]; [apply (W o v)|apply (W o v)|apply (W o v)|apply (A o)|apply (S o)|].
  pose proof (Node_Com.next_keeps g (fit c) (fun p _ => put_fit p) m F) as N. destruct (ComObj_Model.nextUpdatedObject g m) as [n m']. exact N.
Qed.
Lemma write_fit o a r s : fit c (ComObj_Model.smem s) -> ComObj_Next.buf_ok (ComObj_Model.sendBuf s) ->
  fit c (ComObj_Model.smem (ComObj_Model.sendGroupWriteTelegram g o a r s)) /\ ComObj_Next.buf_ok (ComObj_Model.sendBuf (ComObj_Model.sendGroupWriteTelegram g o a r s)).
Proof. apply (Node_Com.send_keeps g (fun _ => True) (fit c) fit_bytes (fun _ p _ _ => put_fit p) (fun p _ => put_fit p) (fun _ _ _ => Logic.I)). Qed.
Lemma next_fit s : fit c (ComObj_Model.smem s) -> ComObj_Next.buf_ok (ComObj_Model.sendBuf s) -> 0 <= ComObj_Model.sendNext s ->
  let s' := snd (ComObj_Model.sendNextGroupTelegram g s) in fit c (ComObj_Model.smem s') /\ ComObj_Next.buf_ok (ComObj_Model.sendBuf s') /\ 0 <= ComObj_Model.sendNext s'.
Proof. apply (Node_Com.sendNext_keeps g (fun _ => True) (fit c) fit_bytes (fun _ p _ _ => put_fit p) (fun p _ => put_fit p) (fun _ _ _ => Logic.I)). Qed.
Lemma received_fit apci a tel s : Forall is_byte tel -> Z.land apci APCI_GROUP_MASK <> APCI_GROUP_VALUE_READ_PDU -> fit c (ComObj_Model.smem s) ->
  fit c (ComObj_Model.smem (ComObj_Model.processGroupAddressTelegram g apci a tel s)).
Proof. apply (Node_Com.received_keeps g (fun _ => True) (fit c) (fun _ p _ _ => put_fit p) (fun p _ => put_fit p) (fun _ _ _ => Logic.I)). Qed.
(** answers: everything but the memory and the transport layer stays *)
Definition stays (x y : device) : Prop := own (tl y) = own (tl x) /\ kept x y /\ sector y = sector x /\ status (mem y) = status (mem x) /\ eeModified (mem y) = eeModified (mem x) /\ memMapper (mem y) = memMapper (mem x).
Lemma stays_refl x : stays x x.
Proof. repeat split. Qed.
Lemma stays_trans x y z : stays x y -> stays y z -> stays x z.
Proof. intros (A1 & (A2 & A3 & A4 & A5 & A6 & A7) & A8 & A9 & A10 & A11) (B1 & (B2 & B3 & B4 & B5 & B6 & B7) & B8 & B9 & B10 & B11). unfold stays, kept. repeat split; congruence. Qed.
Lemma stays_store x m : stays x (setMem x (storeMem c m (mem x))).
Proof. repeat split. Qed.
Lemma sendGroup_stays m b w x y l : fit c m -> ComObj_Next.buf_ok b -> healthy c x -> sendGroup c m b w x = Some (y, l) -> stays x y.
Proof. intros F B H E. destruct (sendGroup_ok _ _ _ _ _ _ _ F B H E) as (_ & M & O & K & C & _). unfold stays. rewrite M. split; [exact O|]. split; [exact K|]. split; [exact C|]. auto. Qed.
Lemma answer_ok a gapos : forall l ws x y o, healthy c x -> answerLoop c g a gapos l ws x = Some (y, o) -> healthy c y /\ stays x y.
Proof.
  induction l as [|(ga, ob) r IH]; intros ws x y o H; cbn [answerLoop]. { intros [= <- _]. split; [exact H|apply stays_refl]. }
  destruct (negb _); [apply IH; auto|]. destruct (_ =? _); [|apply IH; auto]. destruct (ComObj_Model.objectValuePtr _ _); [|discriminate]. cbv zeta.
  destruct (sendGroup _ _ _ _ _) as [[z o1]|] eqn:E; [|discriminate]. destruct (answerLoop _ _ _ _ r _ z) as [[z2 o2]|] eqn:E2; [|discriminate]. intros [= <- _].
  destruct (write_fit (Z.to_nat ob) a true (comState c x 0) (userMem_fit c x (proj1 (proj1 H))) (healthy_buf c x H)) as (F & B).
  destruct (sendGroup_ok _ _ _ _ _ _ _ F B H E) as (HZ & _). pose proof (sendGroup_stays _ _ _ _ _ _ F B H E) as SZ'. destruct (IH _ _ _ _ HZ E2) as (A1 & A2). split; [exact A1|]. apply (stays_trans _ _ _ SZ' A2).
Qed.
End Any.
Section Node.
Variable c : conf.
Hypothesis K : conf_ok c.
Hypothesis T : tables_ok c.
Hypothesis SZ : sized c.
Lemma group_ok le t ws x y o : Forall is_byte t -> healthy c x -> receiveGroup c le t ws x = Some (y, o) -> healthy c y /\ stays x y.
Proof.
  intros F H. unfold receiveGroup. destruct (tables c le (mem x)) as [g|] eqn:TB; [|discriminate]. destruct (tables_sizes _ _ _ _ TB) as (_ & GR & _ & GE). cbv zeta.
  destruct (Z.eqb_spec (Z.land (apciCommand t) APCI_GROUP_MASK) APCI_GROUP_VALUE_READ_PDU) as [E|N].
  - destruct (_ <? 0); [intros [= <- _]; split; [exact H|apply stays_refl]|]. apply (answer_ok c SZ g GR GE). exact H.
  - intros [= <- _]. split; [|apply stays_store]. apply store_healthy; [|exact H]. apply (received_fit c SZ g GR GE); auto. apply userMem_fit. apply H.
Qed.
(** telegrams that are not group telegrams do not need the communication objects *)
Definition same_effect (x : device) (r : received) : received := mkRx (rxTel r) (rxLen r) (rxWaits r) (mkEffect (eeData (mem x)) (eeModified (mem x)) (ramData (mem x))).
Lemma receive_same n r x : negb (destinationAddress (rxTel r) =? 0) && negb (Z.land (rd (rxTel r) 5) 0x80 =? 0) = false -> receive c n r x = receive c n (same_effect x r) x.
Proof. unfold receive, same_effect. cbn [rxTel rxWaits rxLen rxEffect]. destruct (_ =? 0); cbn [negb andb]; [reflexivity|]. intros ->. reflexivity. Qed.
Lemma same_effect_ok x r : wf c x -> effect_ok c (rxEffect (same_effect x r)).
Proof. intros ((A & B & C & D & _) & _). cbn [same_effect rxEffect]. unfold effect_ok. cbn [efEe efRam]. auto. Qed.
Lemma any_ok le n r ws x y o : Forall is_byte (rxTel r) -> healthy c x -> receiveAny c le n r ws x = Some (y, o) -> healthy c y.
Proof.
  intros F H. unfold receiveAny. cbv zeta. destruct (_ && _) eqn:GR.
  - destruct (receiveGroup _ _ _ _ _) as [[z o1]|] eqn:E; [|discriminate]. intros [= <- _]. apply (group_ok _ _ _ _ _ _ F H E).
  - rewrite receive_same by exact GR. intros E. pose proof H as ((W & B) & S). destruct (receive_does c n (same_effect x r) x y o T S (conj W B) F E) as (ops & D & BY).
    split; [split; [|exact BY]|apply (does_sound _ _ _ _ _ D S)]. apply (wf_receive c n (same_effect x r) x y o F (same_effect_ok x r W) W E).
Qed.
Lemma parts i x y l : nodeLoop c i x = Some (y, l) ->
  exists s o1 x2 o2 x3 o3 x4 o4,
    step (tl (ndev x)) (OpLoop (now (base i))) = Some (s, o1) /\ checkReceivedAny c (nle x) i (setTl (ndev x) s) = Some (x2, o2) /\
    progButton c (u32 (now (base i))) (level (base i)) x2 = (x3, o3) /\
    (if sending2 (base i) then x4 = x3 /\ o4 = [] else checkRestart c (u32 (now (base i))) (waits (base i)) x3 = Some (x4, o4)) /\
    (if negb (running x4) || sending3 (base i) then y = setDev x x4 /\ l = map Bus o1 ++ o2 ++ o3 ++ o4
     else exists z og, groupPart c i (setDev x x4) = Some (z, og) /\ l = (map Bus o1 ++ o2 ++ o3 ++ o4) ++ map Bus og /\
          if eeModified (mem (ndev z)) && negb (directConnection (tl (ndev z))) then exists d, flushUserMemory c (ndev z) = Some d /\ y = setDev z d else y = z).
Proof.
  unfold nodeLoop, baseLoopAny. destruct (step _ _) as [[s o1]|]; [|discriminate]. destruct (checkReceivedAny _ _ _ _) as [[x2 o2]|] eqn:E2; [|discriminate].
  destruct (progButton _ _ _ _) as [x3 o3] eqn:E3.
  assert (G : forall x4 o4, (if negb (running x4) || sending3 (base i) then Some (setDev x x4, map Bus o1 ++ o2 ++ o3 ++ o4) else
     match groupPart c i (setDev x x4) with None => None | Some (z, og) => if eeModified (mem (ndev z)) && negb (directConnection (tl (ndev z))) then
     match flushUserMemory c (ndev z) with Some d2 => Some (setDev z d2, (map Bus o1 ++ o2 ++ o3 ++ o4) ++ map Bus og) | None => None end else Some (z, (map Bus o1 ++ o2 ++ o3 ++ o4) ++ map Bus og) end) = Some (y, l) ->
     if negb (running x4) || sending3 (base i) then y = setDev x x4 /\ l = map Bus o1 ++ o2 ++ o3 ++ o4
     else exists z og, groupPart c i (setDev x x4) = Some (z, og) /\ l = (map Bus o1 ++ o2 ++ o3 ++ o4) ++ map Bus og /\
          if eeModified (mem (ndev z)) && negb (directConnection (tl (ndev z))) then exists d, flushUserMemory c (ndev z) = Some d /\ y = setDev z d else y = z).
  { intros x4 o4. destruct (negb (running x4) || sending3 (base i)); [intros E; split; congruence|]. destruct (groupPart c i (setDev x x4)) as [[z og]|]; [|discriminate]. intros E. exists z, og. split; [reflexivity|].
    destruct (_ && _); [|split; congruence]. destruct (flushUserMemory c (ndev z)) as [d|]; [|discriminate]. split; [congruence|]. exists d. split; [reflexivity|congruence]. }
  destruct (sending2 (base i)) eqn:S2.
  - intros E. specialize (G x3 []). rewrite app_nil_r in G. specialize (G E). exists s, o1, x2, o2, x3, o3, x3, []. rewrite app_nil_r. auto 10.
  - destruct (checkRestart _ _ _ _) as [[x4 o4]|] eqn:E4; [|discriminate]. intros E. specialize (G x4 o4 E). exists s, o1, x2, o2, x3, o3, x4, o4. auto 10.
Qed.
Lemma sendNext_ok le next w x b n y o : healthy c x -> 0 <= next -> sendNext c le next w x = Some (b, n, y, o) -> healthy c y /\ 0 <= n /\ stays x y.
Proof.
  intros H N. unfold sendNext. destruct (tables c le (mem x)) as [g|] eqn:TB.
  2:{ destruct (kind c); [|discriminate]. intros [= _ <- <- _]. split; [exact H|split; [exact N|apply stays_refl]]. }
  destruct (tables_sizes _ _ _ _ TB) as (_ & GR & _ & GE).
  pose proof (next_fit c SZ g GR GE (comState c x next) (userMem_fit c x (proj1 (proj1 H))) (healthy_buf c x H) N) as P. cbv zeta in P.
  destruct (ComObj_Model.sendNextGroupTelegram g (comState c x next)) as [sent s]. cbn [snd] in P. destruct P as (P1 & P2 & P3). destruct sent.
  - destruct (sendGroup _ _ _ _ _) as [[z o1]|] eqn:E; [|discriminate]. intros [= _ <- <- _]. destruct (sendGroup_ok _ _ _ _ _ _ _ P1 P2 H E) as (HZ & _). split; [exact HZ|]. split; [exact P3|].
    apply (sendGroup_stays c _ _ _ _ _ _ P1 P2 H E).
  - intros [= _ <- <- _]. split; [exact H|split; [exact P3|apply stays_refl]].
Qed.
Lemma groupPart_ok i x y o : ngood c x -> groupPart c i x = Some (y, o) -> ngood c y /\ stays (ndev x) (ndev y) /\ ngroup y = ngroup x /\ nle y = nle x.
Proof.
  intros (H & N). unfold groupPart. destruct (_ && _). 2:{ intros [= <- _]. split; [split; assumption|]. split; [apply stays_refl|auto]. }
  cbv zeta. destruct (_ <=? _).
  - destruct (sendNext _ _ _ _ _) as [[[[b n] z] o1]|] eqn:E; [|discriminate]. intros [= <- _]. destruct (sendNext_ok _ _ _ _ _ _ _ _ H N E) as (A1 & A2 & A3). split; [split; assumption|]. split; [exact A3|auto].
  - intros [= <- _]. split; [split; assumption|]. split; [apply stays_refl|auto].
Qed.
Lemma loop_step_ok x n s o : healthy c x -> step (tl x) (OpLoop n) = Some (s, o) -> healthy c (setTl x s).
Proof.
  intros ((W & B) & S) E. destruct (step_hands _ _ _ _ E) as (_ & O). split; [split; [apply wf_setTl; [exact W|apply O; reflexivity]|exact B]|]. refine (sound_step _ (OpLoop n) _ _ S _ E). exact Logic.I.
Qed.
Lemma received_ok le i x y l : nop_ok (NLoop i) -> healthy c x -> checkReceivedAny c le i x = Some (y, l) -> healthy c y.
Proof.
  intros OK H. unfold checkReceivedAny. destruct (rx (base i)) as [r|] eqn:R; [|now intros [= <- _]]. destruct (_ && _); [|now intros [= <- _]].
  destruct (receiveAny _ _ _ _ _ _) as [[z o]|] eqn:E; [|discriminate]. intros [= <- _]. apply (any_ok _ _ _ _ _ _ _ (OK r R) H E).
Qed.
Lemma button_ok n lv x y l : healthy c x -> progButton c n lv x = (y, l) -> healthy c y.
Proof.
  intros ((W & B) & S) E. destruct (button_frame _ _ _ _ _ _ E) as (F1 & _ & F3 & _). split; [split; [apply (wf_button _ _ _ _ _ _ E W)|]|rewrite F1; exact S]. destruct F3 as [-> | ->]; exact B.
Qed.
Lemma restart_ok n w x y l : healthy c x -> checkRestart c n w x = Some (y, l) -> healthy c y.
Proof.
  intros ((W & B) & S) E. pose proof (wf_restart _ _ _ _ _ _ K W E) as W'. destruct (restart_case _ _ _ _ _ _ E) as [(_ & -> & _)|[(_ & _ & s' & o & Q & -> & _)|[(_ & _ & t & _ & -> & _)|(_ & _ & t & z & _ & F & -> & _)]]].
  - exact (conj (conj W B) S).
  - split; [split; [exact W'|exact B]|]. refine (sound_step _ (OpDisconnect w) _ _ S _ Q). exact Logic.I.
  - exact (conj (conj W' B) S).
  - destruct (flush_frame _ _ _ F) as (Ft & _). split; [split; [exact W'|apply (flush_bytes _ _ _ F); exact B]|]. cbn [tl stop]. rewrite Ft. exact S.
Qed.
Lemma flush_ok x y : healthy c x -> flushUserMemory c x = Some y -> healthy c y.
Proof.
  intros ((W & B) & S) F. destruct (flush_frame _ _ _ F) as (Ft & _). split; [split; [apply (flush_wf c x y K W F)|apply (flush_bytes _ _ _ F B)]|]. rewrite Ft. exact S.
Qed.
Lemma nodeLoop_ok i x y l : nop_ok (NLoop i) -> ngood c x -> nodeLoop c i x = Some (y, l) -> ngood c y.
Proof.
  intros OK (H & N) E. destruct (parts _ _ _ _ E) as (s & o1 & x2 & o2 & x3 & o3 & x4 & o4 & P1 & P2 & P3 & P4 & P5). pose proof (loop_step_ok _ _ _ _ H P1) as H1. pose proof (received_ok _ _ _ _ _ OK H1 P2) as H2.
  pose proof (button_ok _ _ _ _ _ H2 P3) as H3. assert (H4 : healthy c x4) by (destruct (sending2 (base i)); [destruct P4 as (-> & _); exact H3|apply (restart_ok _ _ _ _ _ H3 P4)]).
  destruct (_ || _). { destruct P5 as (-> & _). split; assumption. } destruct P5 as (z & og & G & _ & Y). assert (N4 : ngood c (setDev x x4)) by (split; assumption).
  destruct (groupPart_ok _ _ _ _ N4 G) as (NZ & _). destruct (_ && _); [|now subst y]. destruct Y as (d & F & ->). split; [apply (flush_ok _ _ (proj1 NZ) F)|apply NZ].
Qed.
Lemma nstep_ok x o y l : nop_ok o -> ngood c x -> nstep c x o = Some (y, l) -> ngood c y.
Proof.
  intros OK H. unfold nstep. destruct (running (ndev x)); [|now intros [= <- _]]. destruct o as [i|ok|a|lm|b].
  - destruct (nodeLoop c i x) as [[z o]|] eqn:E; [|discriminate]. intros [= <- _]. apply (nodeLoop_ok _ _ _ _ OK H E).
  - destruct (step _ _) as [[s o]|] eqn:E; [|discriminate]. intros [= <- _]. destruct H as (((W & B) & S) & N). destruct (step_hands _ _ _ _ E) as (_ & O). split; [|exact N].
    split; [split; [apply wf_setTl; [exact W|apply O; reflexivity]|exact B]|]. refine (sound_step _ (OpTxDone ok) _ _ S _ E). exact Logic.I.
  - destruct (tables c (nle x) (mem (ndev x))) as [g|] eqn:TB; [|discriminate]. destruct (tables_sizes _ _ _ _ TB) as (_ & GR & _ & GE).
    pose proof (call_fit c SZ g GR GE a _ (userMem_fit c (ndev x) (proj1 (proj1 (proj1 H))))) as F. destruct (callMem _ _ _) as [m q]. intros [= <- _]. split; [|apply H]. apply store_healthy; [exact F|apply H].
  - intros [= <- _]. exact H.
  - intros [= <- _]. exact H.
Qed.
Lemma node_good x : node_found c x -> ngood c x.
Proof.
  induction 1 as [sec m lst junk d le t S F J P|x o y l H IH OK E]; [|apply (nstep_ok _ _ _ _ OK IH E)].
  destruct (found_sound c d K T (found_on c sec m lst junk d S F J P)) as (G & SO). split; [split; assumption|]. cbn [nodeUp nnext]. lia.
Qed.
End Node.
