(** Every operation of the device is a sequence of operations on the transport layer *)
From Verif Require Import Base Bits Telegram_Model Device_Model Device_Spec Device_Spec3 Device_TL Device_Status Device_Proofs Device_Wf Device_Steps Device_Bytes Device_Refine.
From Verif Require TL4_Spec TL4_Proofs TL4_Inv TL4_Step.
Import TL4_Spec(app_buffer, steps, outputs, run).
Import TL4_Inv(Inv).
Import Eeprom_Model(esize, fsize, marked).
Import Eeprom_Spec(ecfg_ok, sector_ok).

Definition sound (s : tl4) : Prop := exists cur, Inv s cur.
Lemma sound_step s o s' l : sound s -> TL4_Spec.op_ok o -> step s o = Some (s', l) -> sound s'.
Proof. intros (cur & I) K E. eexists. apply (TL4_Step.step_inv _ _ _ _ _ I K E). Qed.
Lemma sound_txb s : sound s -> app_buffer (txb s).
Proof. intros (cur & I). apply I. Qed.
Lemma steps_app a b : forall s s1 l1 s2 l2, steps s a = Some (s1, l1) -> steps s1 b = Some (s2, l2) -> steps s (a ++ b) = Some (s2, l1 ++ l2).
Proof.
  induction a as [|o a IH]; intros s s1 l1 s2 l2; cbn [steps app]; [intros [= <- <-] E; exact E|]. destruct (step s o) as [[s' l]|]; [|discriminate]. destruct (steps s' a) as [[s'' l']|] eqn:E; [|discriminate].
  intros [= <- <-] E2. rewrite (IH _ _ _ _ _ E E2), app_assoc. reflexivity.
Qed.
Lemma steps_one s o s' l : step s o = Some (s', l) -> steps s [o] = Some (s', l).
Proof. intros E. cbn [steps]. rewrite E, app_nil_r. reflexivity. Qed.
Lemma sound_steps ops : forall s s' l, sound s -> Forall TL4_Spec.op_ok ops -> steps s ops = Some (s', l) -> sound s'.
Proof.
  induction ops as [|o r IH]; intros s s' l S F; cbn [steps]; [now intros [= <- _]|]. inversion F; subst. destruct (step s o) as [[s1 l1]|] eqn:E; [|discriminate]. destruct (steps s1 r) as [[s2 l2]|] eqn:E2; [|discriminate].
  intros [= <- _]. apply (IH s1 s2 l2); auto. apply (sound_step _ _ _ _ S H1 E).
Qed.
(** no telegram is received after the own address was set *)
Fixpoint early (ops : list op) : Prop := match ops with [] => True | o :: r => (is_set o = true -> received_in r = []) /\ early r end.
Lemma received_app a b : received_in (a ++ b) = received_in a ++ received_in b.
Proof. apply flat_map_app. Qed.
Lemma early_app a b : early a -> early b -> (received_in b = [] \/ Forall (fun o => is_set o = false) a) -> early (a ++ b).
Proof.
  induction a as [|o a IH]; cbn [early app]; intros A B H; [exact B|]. destruct A as (A1 & A2). split.
  - intros S. destruct H as [H|H]; [|inversion H; congruence]. rewrite received_app, H, (A1 S). reflexivity.
  - apply IH; auto. destruct H as [H|H]; [left; exact H|right; inversion H; assumption].
Qed.
(** what happens in the transport layer: [ops] *)
Definition does (s : tl4) (ops : list op) (s' : tl4) (l : list out) (ts : list (list Z)) : Prop :=
  Forall TL4_Spec.op_ok ops /\ steps s ops = Some (s', l) /\ received_in ops = ts /\ early ops.
Lemma does_app s a s1 l1 t1 b s2 l2 t2 : does s a s1 l1 t1 -> does s1 b s2 l2 t2 -> (t2 = [] \/ Forall (fun o => is_set o = false) a) -> does s (a ++ b) s2 (l1 ++ l2) (t1 ++ t2).
Proof.
  intros (A1 & A2 & A3 & A4) (B1 & B2 & B3 & B4) H. split; [apply Forall_app; auto|]. split; [apply (steps_app _ _ _ _ _ _ _ A2 B2)|]. split; [rewrite received_app, A3, B3; reflexivity|].
  apply early_app; auto. rewrite B3. exact H.
Qed.
Lemma does_nil s : does s [] s [] [].
Proof. split; [constructor|]. split; [reflexivity|]. split; [reflexivity|exact I]. Qed.
Lemma does_one s o s' l : TL4_Spec.op_ok o -> step s o = Some (s', l) -> (match o with OpRx _ _ _ _ => false | _ => true end = true) -> does s [o] s' l [].
Proof. intros K E N. split; [constructor; auto|]. split; [apply steps_one; exact E|]. split; [destruct o; try discriminate; reflexivity|]. split; [reflexivity|exact I]. Qed.
Lemma does_sound s ops s' l ts : does s ops s' l ts -> sound s -> sound s'.
Proof. intros (A & B & _) S. apply (sound_steps _ _ _ _ S A B). Qed.

(** ** Requests *)
Lemma apciBuffer_ok s t : sound s -> app_buffer (apciBuffer s t).
Proof.
  intros (cur & (_ & T & B1 & B2 & _)). unfold apciBuffer. destruct (_ =? 0).
  - apply TL4_Proofs.setDest_buffer, TL4_Proofs.initLpdu_buffer; auto. apply TL4_Proofs.priority_range.
  - destruct (s1 s); assumption.
Qed.
Lemma unexecuted s n t a a' w : executes s t = false -> (destinationAddress t =? 0) = false -> negb (Z.land (rd t 5) 0x80 =? 0) = false -> step s (OpRx n t a w) = step s (OpRx n t a' w).
Proof.
  intros X D G. unfold step. cbn [stepCfg]. unfold processTelegram. rewrite D, G. unfold executes in X. rewrite D in X. cbn [negb andb] in X. cbn [cS].
  destruct (Z.land (rd t 5) 0x80 =? 0); [|discriminate G]. cbn [andb] in X.
  destruct (destinationAddress t =? own s); cbn [negb andb] in *; [|reflexivity]. destruct (Z.land (Z.land (rd t 6) 0xc3) 0x80 =? 0); cbn [negb andb] in *; [|reflexivity].
  unfold processDirect. destruct (Z.land (rd t 6) 0xfc =? 0); cbn [orb] in X; [discriminate|]. unfold directConnection in X. cbn [cS].
  destruct (caddr s =? senderAddress t); cbn [negb orb andb] in *; [|reflexivity]. destruct (st s); cbn [andb] in *; try reflexivity; rewrite X; reflexivity.
Qed.
Definition blank : list Z := repeat 0 TL4_BUFFER_SIZE.
Lemma blank_ok : app_buffer blank.
Proof. split; [reflexivity|]. apply bytes_repeat. red; lia. Qed.
Lemma does_rx s n t a w s' l : Forall is_byte t -> app_buffer (snd a) -> step s (OpRx n t a w) = Some (s', l) -> does s [OpRx n t a w] s' l [t].
Proof. intros F A E. split; [constructor; [split; assumption|constructor]|]. split; [apply steps_one; exact E|]. split; [reflexivity|]. split; [discriminate|exact I]. Qed.
(** ** Broadcasts *)
Lemma sendOwn_does f w x y l : sound (tl x) -> (forall b, app_buffer b -> app_buffer (f b)) -> sendOwn f w x = Some (y, l) -> exists ops, does (tl x) ops (tl y) l [] /\ mem y = mem x.
Proof.
  intros S K E. unfold sendOwn in E. destruct (acquireSendBuffer _) as [k|] eqn:A; [|discriminate]. injection E as <- <-. exists [OpAppSend (f (txb (tl x))) w]. split; [|reflexivity].
  destruct (acquire_keeps _ _ A) as (_ & T & _). cbn [cS] in T. apply does_one; [apply K, sound_txb, S| |reflexivity]. unfold step. cbn [stepCfg]. rewrite A. cbn [TL4_Model.andThen]. rewrite T. reflexivity.
Qed.
Lemma setOwn_does c a x y : setOwnAddress c a x = Some y -> exists ops, does (tl x) ops (tl y) [] [] /\ memMapper (mem y) = memMapper (mem x).
Proof.
  intros E. unfold setOwnAddress in E. destruct (memOwnAddress _ _ _) as [d|] eqn:M; [|discriminate]. injection E as <-. exists [OpSetOwn a]. split; [|apply (memOwn_mapper _ _ _ _ M)]. apply does_one; [exact I|reflexivity|reflexivity].
Qed.
Lemma addressResponse_ok b : app_buffer b -> app_buffer (addressResponse b).
Proof.
  intros B. unfold addressResponse. cbv zeta. apply buf_cmd; [apply zero_byte|]. apply buf_wr; [red; lia|]. apply TL4_Proofs.setDest_buffer, TL4_Proofs.initLpdu_buffer; [exact B|]. unfold PRIORITY_SYSTEM; lia.
Qed.
Lemma buf_range src : Forall is_byte src -> forall b i, app_buffer b -> app_buffer (wr_range b i src).
Proof. induction 1 as [|v r V R IH]; intros b i B; cbn [wr_range]; [exact B|]. apply IH. apply buf_wr; assumption. Qed.
Lemma serialResponse_ok c d b : mem_wf (esize (ecf c)) (ram_bytes c) d -> app_buffer b -> app_buffer (serialResponse d b).
Proof.
  intros W B. unfold serialResponse. cbv zeta. do 4 (apply buf_wr; [apply zero_byte|]). apply buf_range.
  - unfold serial. apply TL4_Proofs.Forall_firstn'. apply TL4_Proofs.Forall_skipn'. apply W.
  - apply buf_cmd; [apply zero_byte|]. apply buf_wr; [red; lia|]. apply TL4_Proofs.setDest_buffer, TL4_Proofs.initLpdu_buffer; [exact B|]. unfold PRIORITY_SYSTEM; lia.
Qed.
Lemma broadcast_does c t w x y l : sound (tl x) -> wf c x -> processBroadCastTelegram c t w x = Some (y, l) -> exists ops, does (tl x) ops (tl y) l [] /\ memMapper (mem y) = memMapper (mem x).
Proof.
  intros S W.
  assert (N : forall (z : device) (k : list out), Some (x, []) = Some (z, k) -> exists ops, does (tl x) ops (tl z) k [] /\ memMapper (mem z) = memMapper (mem x)).
  { intros z k [= <- <-]. exists []. split; [apply does_nil|reflexivity]. }
  assert (O : forall a, quiet (setOwnAddress c a x) = Some (y, l) -> exists ops, does (tl x) ops (tl y) l [] /\ memMapper (mem y) = memMapper (mem x)).
  { intros a E. apply quiet_some in E. destruct E as [E ->]. apply (setOwn_does _ _ _ _ E). }
  assert (A : forall f, (forall b, app_buffer b -> app_buffer (f b)) -> sendOwn f w x = Some (y, l) -> exists ops, does (tl x) ops (tl y) l [] /\ memMapper (mem y) = memMapper (mem x)).
  { intros f K E. destruct (sendOwn_does _ _ _ _ _ S K E) as (ops & D & Q). exists ops. split; [exact D|]. now rewrite Q. }
  assert (D : broadcastDefault c t w x = Some (y, l) -> exists ops, does (tl x) ops (tl y) l [] /\ memMapper (mem y) = memMapper (mem x)).
  { unfold broadcastDefault. cbv zeta. destruct (negb _); [apply N|]. destruct (_ =? _); [apply O|]. destruct (_ =? _); [apply A; apply addressResponse_ok|apply N]. }
  unfold processBroadCastTelegram. cbv zeta. destruct (kind c); [exact D|]. destruct (_ =? _); [destruct (sameSerial _ _); [apply O|apply N]|].
  destruct (_ =? _); [|exact D]. destruct (sameSerial _ _); [|apply N]. apply A. intros b. apply (serialResponse_ok c). apply W.
Qed.
Lemma receive_does c n r x y l : tables_ok c -> sound (tl x) -> good_dev c x -> Forall is_byte (rxTel r) -> receive c n r x = Some (y, l) ->
  exists ops, does (tl x) ops (tl y) l [rxTel r] /\ dev_bytes (mem y).
Proof.
  intros T S G F E. unfold receive in E. cbv zeta in E. set (t := rxTel r) in *. pose proof G as (W & B). destruct (destinationAddress t =? 0) eqn:D0.
  { destruct (processBroadCastTelegram _ _ _ _) as [[z o]|] eqn:P; [|discriminate]. injection E as <- <-. destruct (broadcast_does _ _ _ _ _ _ S W P) as (ops & D & M). exists (OpRx n t (false, blank) [] :: ops). split.
    - apply (does_app _ [OpRx n t (false, blank) []] (tl x) [Bcast t] [t] ops _ o []); [|exact D|left; reflexivity]. apply does_rx; [exact F|apply blank_ok|]. unfold step. cbn [stepCfg]. unfold processTelegram. rewrite D0. reflexivity.
    - unfold dev_bytes in *. rewrite M. exact B. }
  destruct (negb (Z.land (rd t 5) 0x80 =? 0)) eqn:Gr.
  { injection E as <- <-. exists [OpRx n t (false, blank) []]. split; [|exact B]. apply does_rx; [exact F|apply blank_ok|]. unfold step. cbn [stepCfg]. unfold processTelegram. rewrite D0, Gr. reflexivity. }
  destruct (executes (tl x) t) eqn:X.
  - destruct (processApci _ _ _ _ _ _ _) as [[[ans sb] z]|] eqn:P; [|discriminate]. destruct (step _ _) as [[s o]|] eqn:Q; [|discriminate]. injection E as <- <-.
    destruct (apci_good _ _ _ _ _ _ _ _ _ _ T F P G (apciBuffer_ok _ _ S)) as (A1 & A2). exists [OpRx n t (ans, sb) (rxWaits r)]. split; [|exact A2]. apply does_rx; assumption.
  - destruct (step _ _) as [[s o]|] eqn:Q; [|discriminate]. injection E as <- <-. exists [OpRx n t (false, blank) (rxWaits r)]. split; [|exact B]. apply does_rx; [exact F|apply blank_ok|].
    rewrite (unexecuted _ _ _ _ (false, []) _ X D0 Gr). exact Q.
Qed.
(** ** One operation *)
Lemma flush_bytes c x y : flushUserMemory c x = Some y -> dev_bytes (mem x) -> dev_bytes (mem y).
Proof.
  unfold flushUserMemory. cbv zeta. destruct (Eeprom_Model.writeUserEeprom _ _) as [e|]; [|discriminate]. unfold dev_bytes. destruct (memMapper (mem x)) as [m|].
  - unfold option_map. destruct (doFlash _ m) as [m'|] eqn:E; [|discriminate]. intros [= <-] B. apply (flash_bytes _ _ _ E B).
  - intros [= <-] B. exact I.
Qed.
Lemma bus_map o : bus_events (map Bus o) = o.
Proof. induction o as [|a r IH]; [reflexivity|]. cbn. f_equal. exact IH. Qed.
Lemma bus_app a b : bus_events (a ++ b) = bus_events a ++ bus_events b.
Proof. apply flat_map_app. Qed.
Lemma bus_pins l : (forall b, In b l -> exists v, b = Pin v) -> bus_events l = [].
Proof. induction l as [|o l IH]; intros H; [reflexivity|]. destruct (H o (or_introl eq_refl)) as (v & ->). cbn. apply IH. intros b Hb. apply H. right. exact Hb. Qed.
Lemma loop_does c i x y l : conf_ok c -> tables_ok c -> sound (tl x) -> good_dev c x -> input_ok c (Loop i) -> running x = true -> bcuLoop c i x = Some (y, l) ->
  exists ops, does (tl x) ops (tl y) (bus_events l) (taken x (Loop i)) /\ dev_bytes (mem y).
Proof.
  intros K T S (W & B) (OK & _) R E. destruct (loop_parts _ _ _ _ _ E) as (s & o1 & x2 & o2 & x3 & o3 & x4 & o4 & P1 & P2 & P3 & P4 & -> & P6).
  assert (D1 : does (tl x) [OpLoop (now i)] s o1 []) by (apply does_one; [exact I|exact P1|reflexivity]). pose proof (does_sound _ _ _ _ _ D1 S) as S1.
  assert (W1 : wf c (setTl x s)). { destruct (step_hands _ _ _ _ P1) as (_ & O). apply wf_setTl; [exact W|apply O; reflexivity]. }
  assert (D2 : exists ops, does s ops (tl x2) (bus_events o2) (taken x (Loop i)) /\ dev_bytes (mem x2)).
  { cbn [taken]. rewrite R. destruct (received_case _ _ _ _ _ P2) as [(r & o & Rx & S0 & St & V & ->)|(H & -> & ->)].
    - rewrite Rx, S0. cbn [mem setTl] in St. rewrite St. cbn [negb andb]. rewrite bus_map. apply (receive_does c (now i) r (setTl x s) x2 o T S1 (conj W1 B)); [|exact V]. apply (OK r Rx).
    - exists []. split; [|exact B]. cbn [mem setTl] in H. destruct (rx i) as [r|]; [|apply does_nil]. destruct H as [H|[H|H]]; [discriminate|rewrite H; apply does_nil|rewrite H, andb_false_r; apply does_nil]. }
  destruct D2 as (ops2 & D2 & B2). pose proof (does_sound _ _ _ _ _ D2 S1) as S2. destruct (button_frame _ _ _ _ _ _ P3) as (F1 & _ & F3 & _ & _ & _ & _ & F8).
  assert (B3 : dev_bytes (mem x3)) by (destruct F3 as [-> | ->]; exact B2).
  assert (D4 : exists ops, does (tl x3) ops (tl x4) (bus_events o4) [] /\ dev_bytes (mem x4)).
  { destruct (sending2 i); [destruct P4 as (-> & ->); exists []; split; [apply does_nil|exact B3]|].
    destruct (restart_case _ _ _ _ _ _ P4) as [(_ & -> & ->)|[(_ & _ & s' & o & Q & -> & ->)|[(_ & _ & t & _ & -> & ->)|(_ & _ & t & z & _ & F & -> & ->)]]].
    - exists []. split; [apply does_nil|exact B3].
    - exists [OpDisconnect (waits i)]. split; [|exact B3]. rewrite bus_map. apply does_one; [exact I|exact Q|reflexivity].
    - exists []. split; [apply does_nil|exact B3].
    - exists []. destruct (flush_frame _ _ _ F) as (Ft & _). split; [|apply (flush_bytes _ _ _ F); exact B3]. cbn [tl stop]. rewrite Ft. apply does_nil. }
  destruct D4 as (ops4 & D4 & B4). exists ([OpLoop (now i)] ++ ops2 ++ ops4). split.
  - assert (Y : tl y = tl x4) by (destruct (_ || _) in P6; [now subst y|]; destruct (flush_frame _ _ _ P6) as (Ft & _); exact Ft). rewrite Y.
    rewrite !bus_app, bus_map, (bus_pins o3 F8). cbn [app]. apply (does_app _ _ _ _ [] _ _ _ (taken x (Loop i)) D1); [|right; constructor; [reflexivity|constructor]]. rewrite <- (app_nil_r (taken x (Loop i))).
    rewrite F1 in D4. apply (does_app _ _ _ _ _ _ _ _ _ D2 D4). left; reflexivity.
  - destruct (_ || _) in P6; [now subst y|]. apply (flush_bytes _ _ _ P6 B4).
Qed.
Lemma setMode_tl c b x r y l : setProgrammingMode c b x = (r, y, l) -> tl y = tl x /\ memMapper (mem y) = memMapper (mem x) /\ bus_events l = [].
Proof. unfold setProgrammingMode. destruct (progPin c); [|intros [= _ <- <-]; auto]. destruct (negb _); intros [= _ <- <-]; auto. Qed.
Lemma step_does c x o y l : conf_ok c -> tables_ok c -> sound (tl x) -> good_dev c x -> input_ok c o -> is_power_up o = false -> dstep c x o = Some (y, l) ->
  exists ops, does (tl x) ops (tl y) (bus_events l) (taken x o) /\ dev_bytes (mem y).
Proof.
  intros K T S G OK NP E. pose proof G as (W & B). unfold dstep in E. destruct (running x) eqn:R.
  2:{ assert (H : Some (x, []) = Some (y, l)) by (destruct o; [exact E|exact E|exact E|exact E|exact E|discriminate NP]). injection H as <- <-. exists []. split; [|exact B].
      unfold taken. rewrite R. destruct o; try apply does_nil. destruct (rx i); apply does_nil. }
  destruct o as [i|ok|b|g|buf w|last junk]; [apply (loop_does c i x y l K T S G OK R E)| | | | |discriminate].
  - destruct (step _ _) as [[s o]|] eqn:Q; [|discriminate]. injection E as <- <-. exists [OpTxDone ok]. split; [|exact B]. rewrite bus_map. apply does_one; [exact I|exact Q|reflexivity].
  - destruct (setProgrammingMode c b x) as [[r z] o] eqn:Q. injection E as <- <-. destruct (setMode_tl _ _ _ _ _ _ Q) as (-> & M & ->). exists []. split; [apply does_nil|]. unfold dev_bytes in *. rewrite M. exact B.
  - injection E as <- <-. exists []. split; [apply does_nil|exact B].
  - destruct (step _ _) as [[s o]|] eqn:Q; [|discriminate]. injection E as <- <-. exists [OpAppSend buf w]. split; [|exact B]. rewrite bus_map. apply does_one; [apply OK|exact Q|reflexivity].
Qed.
