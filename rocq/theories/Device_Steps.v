(** One pass of the main loop taken apart; the invariant of Device_Wf holds for every reachable device *)
From Verif Require Import Base Bits Device_Model Device_Spec Device_TL Device_Status Device_Proofs Device_Wf.
Import Eeprom_Model(esize, fsize, marked).
Import Eeprom_Spec(ecfg_ok, sector_ok).

Lemma received_case c i z y l : checkReceived c i z = Some (y, l) ->
  (exists r o, rx i = Some r /\ sending1 i = false /\ Z.testbit (status (mem z)) 2 = true /\ receive c (now i) r z = Some (y, o) /\ l = map Bus o) \/
  ((rx i = None \/ sending1 i = true \/ Z.testbit (status (mem z)) 2 = false) /\ y = z /\ l = []).
Proof.
  unfold checkReceived. destruct (rx i) as [r|]; [|intros [= <- <-]; auto 10]. unfold BCU_STATUS_TRANSPORT_LAYER. change 4 with (2 ^ 2). rewrite bit_land, negb_involutive by lia.
  destruct (sending1 i); cbn [negb andb]; [intros [= <- <-]; auto 10|]. destruct (Z.testbit (status (mem z)) 2); [|intros [= <- <-]; auto 10].
  unfold option_map. destruct (receive c (now i) r z) as [[z' o]|] eqn:RR; [|discriminate]. intros [= <- <-]. left. exists r, o. auto 10.
Qed.
(** the parts: transport layer, received telegram, button, restart, save *)
Lemma loop_parts c i x y l : bcuLoop c i x = Some (y, l) ->
  exists s o1 x2 o2 x3 o3 x4 o4,
    step (tl x) (OpLoop (now i)) = Some (s, o1) /\ checkReceived c i (setTl x s) = Some (x2, o2) /\ progButton c (u32 (now i)) (level i) x2 = (x3, o3) /\
    (if sending2 i then x4 = x3 /\ o4 = [] else checkRestart c (u32 (now i)) (waits i) x3 = Some (x4, o4)) /\ l = map Bus o1 ++ o2 ++ o3 ++ o4 /\
    (if negb (running x4) || sending3 i || negb (eeModified (mem x4)) || directConnection (tl x4) then y = x4 else flushUserMemory c x4 = Some y).
Proof.
  unfold bcuLoop, baseLoop. destruct (step _ _) as [[s o1]|]; [|discriminate]. destruct (checkReceived _ _ _) as [[x2 o2]|] eqn:E2; [|discriminate].
  destruct (progButton _ _ _ _) as [x3 o3] eqn:E3.
  assert (G : forall x4 o4, (if negb (running x4) || sending3 i then Some (x4, map Bus o1 ++ o2 ++ o3 ++ o4) else if eeModified (mem x4) && negb (directConnection (tl x4)) then
     match flushUserMemory c x4 with Some x5 => Some (x5, map Bus o1 ++ o2 ++ o3 ++ o4) | None => None end else Some (x4, map Bus o1 ++ o2 ++ o3 ++ o4)) = Some (y, l) ->
     l = map Bus o1 ++ o2 ++ o3 ++ o4 /\ (if negb (running x4) || sending3 i || negb (eeModified (mem x4)) || directConnection (tl x4) then y = x4 else flushUserMemory c x4 = Some y)).
  { intros x4 o4. destruct (negb (running x4) || sending3 i); cbn [orb]; [intros E; split; congruence|].
    destruct (eeModified (mem x4)), (directConnection (tl x4)); cbn [negb orb andb]; try (intros E; split; congruence). destruct (flushUserMemory c x4); [|discriminate]. intros E; split; congruence. }
  destruct (sending2 i) eqn:S2.
  - intros E. specialize (G x3 []). rewrite app_nil_r in G. destruct (G E) as (-> & H). exists s, o1, x2, o2, x3, o3, x3, []. rewrite app_nil_r. auto 10.
  - destruct (checkRestart _ _ _ _) as [[x4 o4]|] eqn:E4; [|discriminate]. intros E. destruct (G x4 o4 E) as (-> & H). exists s, o1, x2, o2, x3, o3, x4, o4. auto 10.
Qed.
Lemma button_frame c n lv x y l : progButton c n lv x = (y, l) -> tl y = tl x /\ sector y = sector x /\ (mem y = mem x \/ mem y = toggleProgramming (mem x)) /\
  rType y = rType x /\ rDisc y = rDisc x /\ rTime y = rTime x /\ running y = running x /\ (forall b, In b l -> exists v, b = Pin v).
Proof.
  unfold progButton. destruct (progPin c); [|intros [= <- <-]; repeat split; auto; intros b []]. destruct (Util_Model.deb_debounce _ _ _ _) as [b v].
  destruct (_ && _); intros [= <- <-]; (repeat split; [auto|]); intros q [<-|[]]; eexists; reflexivity.
Qed.
Lemma toggled_switched d : switched (status d) (status (toggleProgramming d)).
Proof.
  intros k. unfold toggleProgramming. cbn [status setStatus]. change (Z.lor BCU_STATUS_PARITY BCU_STATUS_PROGRAMMING_MODE) with (2 ^ 7 + 2 ^ 0). change (2 ^ 7 + 2 ^ 0) with (Z.lor (2 ^ 7) (2 ^ 0)).
  destruct (Z.ltb_spec k 0) as [N|N]. { rewrite !Z.testbit_neg_r by lia. destruct (Z.eqb_spec k 0), (Z.eqb_spec k 7); try lia; reflexivity. }
  rewrite Z.lxor_spec, Z.lor_spec, !Z.pow2_bits_eqb by lia. rewrite (Z.eqb_sym 7 k), (Z.eqb_sym 0 k), orb_comm. destruct ((k =? 0) || (k =? 7)); [apply xorb_true_r|apply xorb_false_r].
Qed.
Lemma switched_parity v v' : switched v v' -> parity v' = parity v.
Proof. intros H. unfold parity. cbn [map fold_right]. rewrite !H. cbn [Z.eqb orb]. destruct (Z.testbit v 0), (Z.testbit v 1), (Z.testbit v 2), (Z.testbit v 3), (Z.testbit v 4), (Z.testbit v 5), (Z.testbit v 6), (Z.testbit v 7); reflexivity. Qed.
Lemma toggle_byte v : is_byte v -> is_byte (Z.lxor v (Z.lor BCU_STATUS_PARITY BCU_STATUS_PROGRAMMING_MODE)).
Proof.
  intros H. assert (E : (fun v => (0 <=? Z.lxor v (Z.lor BCU_STATUS_PARITY BCU_STATUS_PROGRAMMING_MODE)) && (Z.lxor v (Z.lor BCU_STATUS_PARITY BCU_STATUS_PROGRAMMING_MODE) <? 256)) v = true).
  { revert v H. apply byte_forall. vm_compute. reflexivity. }
  cbv beta in E. unfold is_byte. lia.
Qed.
(** ** The invariant *)
Lemma wf_setTl c x s : wf c x -> own s = own (tl x) -> wf c (setTl x s).
Proof. intros (W & S & O) E. split; [exact W|split; [exact S|]]. cbn [tl setTl]. now rewrite E. Qed.
Lemma wf_button c n lv x y l : progButton c n lv x = (y, l) -> wf c x -> wf c y.
Proof.
  intros E (W & S & O). destruct (button_frame _ _ _ _ _ _ E) as (A & B & C & _). unfold wf. rewrite A, B. split; [|auto]. destruct C as [-> | ->]; [exact W|].
  apply wf_status; [exact W|]. apply toggle_byte. apply W.
Qed.
Lemma restart_case c n w x y l : checkRestart c n w x = Some (y, l) ->
  (rType x = RNone /\ y = x /\ l = []) \/
  (rType x <> RNone /\ rDisc x = true /\ exists s o, step (tl x) (OpDisconnect w) = Some (s, o) /\ y = setRestart (setTl x s) (rType x) false (rTime x) /\ l = map Bus o) \/
  (rType x <> RNone /\ rDisc x = false /\ exists t, Util_Model.to_expired n (rTime x) = (false, t) /\ y = setRestart x (rType x) (rDisc x) t /\ l = []) \/
  (rType x <> RNone /\ rDisc x = false /\ exists t z, Util_Model.to_expired n (rTime x) = (true, t) /\ flushUserMemory c (setRestart x (rType x) (rDisc x) t) = Some z /\ y = stop z /\
     l = [Reset (match rType x with RMasterIntoBootloader => true | _ => false end)]).
Proof.
  unfold checkRestart.
  assert (G : rType x <> RNone -> (if rDisc x then match step (tl x) (OpDisconnect w) with None => None | Some (s, o) => Some (setRestart (setTl x s) (rType x) false (rTime x), map Bus o) end
     else let '(e, t) := Util_Model.to_expired n (rTime x) in let x0 := setRestart x (rType x) (rDisc x) t in if e then softSystemReset c x0 else Some (x0, [])) = Some (y, l) ->
   (rType x <> RNone /\ rDisc x = true /\ exists s o, step (tl x) (OpDisconnect w) = Some (s, o) /\ y = setRestart (setTl x s) (rType x) false (rTime x) /\ l = map Bus o) \/
   (rType x <> RNone /\ rDisc x = false /\ exists t, Util_Model.to_expired n (rTime x) = (false, t) /\ y = setRestart x (rType x) (rDisc x) t /\ l = []) \/
   (rType x <> RNone /\ rDisc x = false /\ exists t z, Util_Model.to_expired n (rTime x) = (true, t) /\ flushUserMemory c (setRestart x (rType x) (rDisc x) t) = Some z /\ y = stop z /\
     l = [Reset (match rType x with RMasterIntoBootloader => true | _ => false end)])).
  { intros R. destruct (rDisc x) eqn:D.
    - destruct (step _ _) as [[s o]|]; [|discriminate]. intros [= <- <-]. left. split; auto. split; auto. exists s, o. auto.
    - destruct (Util_Model.to_expired n (rTime x)) as [e t]. cbv zeta. destruct e.
      + unfold softSystemReset. destruct (flushUserMemory _ _) as [z|] eqn:F; [|discriminate]. intros [= <- <-]. right; right. split; auto. split; auto. exists t, z. split; auto. split; auto. split; auto.
        destruct (flush_frame _ _ _ F) as (_ & _ & _ & _ & _ & T & _). rewrite T. reflexivity.
      + intros [= <- <-]. right; left. split; auto. split; auto. exists t. auto. }
  destruct (rType x) eqn:R; [intros [= <- <-]; auto| | |]; intros E; right; apply G; auto; discriminate.
Qed.
Lemma wf_restart c n w x y l : conf_ok c -> wf c x -> checkRestart c n w x = Some (y, l) -> wf c y.
Proof.
  intros K W E. destruct (restart_case _ _ _ _ _ _ E) as [(_ & -> & _)|[(_ & _ & s & o & S & -> & _)|[(_ & _ & t & _ & -> & _)|(_ & _ & t & z & _ & F & -> & _)]]]; auto.
  - destruct (step_hands _ _ _ _ S) as (_ & O). apply (wf_setTl c x s W). apply O. reflexivity.
  - assert (W1 : wf c (setRestart x (rType x) (rDisc x) t)) by exact W. destruct (flush_wf c _ z K W1 F) as (H & _). exact H.
Qed.
Lemma wf_setOwn c a x y : 0 <= a < 65536 -> wf c x -> setOwnAddress c a x = Some y -> wf c y.
Proof.
  intros A (W & S & O) E. pose proof (setOwn_own _ _ _ _ A E) as Q. unfold setOwnAddress in E. destruct (memOwnAddress _ _ _) as [d|] eqn:M; [|discriminate]. injection E as <-.
  split; [apply (wf_memOwn _ _ _ _ _ _ W M)|]. split; [exact S|]. rewrite Q. exact A.
Qed.
Lemma wf_broadcast c t w x y l : Forall is_byte t -> wf c x -> processBroadCastTelegram c t w x = Some (y, l) -> wf c y.
Proof.
  intros F W. assert (SO : forall f, sendOwn f w x = Some (y, l) -> wf c y).
  { intros f E. destruct (sendOwn_frame _ _ _ _ _ E) as (A & B & C & _). unfold wf. rewrite A, B, C. exact W. }
  assert (H : broadcastDefault c t w x = Some (y, l) -> wf c y).
  { unfold broadcastDefault. cbv zeta. destruct (negb _); [now intros [= <- _]|]. destruct (_ =? _).
    - intros E. destruct (quiet_some _ _ _ E) as (E' & _). rewrite two_word in E' by auto. apply (wf_setOwn _ _ _ _ (two_range t 8 F) W E').
    - destruct (_ =? _); [apply SO|now intros [= <- _]]. }
  unfold processBroadCastTelegram. cbv zeta. destruct (kind c); auto. destruct (_ =? _).
  - destruct (sameSerial _ _); [|now intros [= <- _]]. intros E. destruct (quiet_some _ _ _ E) as (E' & _). rewrite two_word in E' by auto. apply (wf_setOwn _ _ _ _ (two_range t 14 F) W E').
  - destruct (_ =? _); auto. destruct (sameSerial _ _); [apply SO|now intros [= <- _]].
Qed.
Lemma wf_apciDefault c n conn t sb x b sb' y : Forall is_byte t -> wf c x -> processApciDefault c n conn t sb x = Some (b, sb', y) -> wf c y.
Proof.
  intros F W. unfold processApciDefault. cbv zeta. destruct (_ =? _); [now intros [= _ _ <-]|]. destruct (_ || _).
  { destruct (processMemoryApci _ _ _ _) as [[[a s] d]|] eqn:E; [|discriminate]. intros [= _ _ <-]. destruct W as (W & S & O). split; [apply (wf_memory _ _ _ _ _ _ _ _ _ F W E)|auto]. }
  destruct (_ =? _). { destruct (descriptorRead _ _ _). now intros [= _ _ <-]. }
  destruct (_ =? _). { unfold masterReset. destruct (_ && _); [now intros [= _ _ <-]|]. destruct (_ || _); [now intros [= _ _ <-]|]. destruct (_ =? _); now intros [= _ _ <-]. }
  destruct (_ =? _); [now intros [= _ _ <-]|]. destruct (_ =? _); now intros [= _ _ <-].
Qed.
Lemma wf_apci c n conn t len sb x b sb' y : Forall is_byte t -> wf c x -> processApci c n conn t len sb x = Some (b, sb', y) -> wf c y.
Proof.
  intros F W. unfold processApci. destruct (kind c); [apply wf_apciDefault; auto|]. destruct (isPropertyCommand _); [|apply wf_apciDefault; auto].
  destruct (processPropertyApci _ _ _ _ _ _ _) as [[s d]|] eqn:E; [|discriminate]. intros [= _ _ <-]. destruct W as (W & S & O). split; [apply (wf_prop _ _ _ _ _ _ _ _ _ _ _ F W E)|auto].
Qed.
Lemma wf_effect c g x : effect_ok c g -> wf c x -> wf c (setMem x (applied g (mem x))).
Proof. intros (A & B & C & D) (W & S & O). split; [|auto]. exact (conj A (conj B (conj C (conj D (proj2 (proj2 (proj2 (proj2 W)))))))). Qed.
Lemma wf_receive c n r x y l : Forall is_byte (rxTel r) -> effect_ok c (rxEffect r) -> wf c x -> receive c n r x = Some (y, l) -> wf c y.
Proof.
  intros F G W. unfold receive. cbv zeta. destruct (_ =? 0).
  - destruct (processBroadCastTelegram _ _ _ _) as [[z o]|] eqn:E; [|discriminate]. intros [= <- _]. apply (wf_broadcast _ _ _ _ _ _ F W E).
  - destruct (negb _); [intros [= <- _]; apply wf_effect; auto|].
    match goal with |- context [match ?a with Some _ => _ | None => _ end = _] => destruct a as [[[b sb] z]|] eqn:A; [|discriminate] end.
    destruct (step _ _) as [[s o]|] eqn:E; [|discriminate]. intros [= <- _]. destruct (step_hands _ _ _ _ E) as (_ & O). destruct (executes _ _).
    + apply wf_setTl; [apply (wf_apci _ _ _ _ _ _ _ _ _ _ F W A)|]. rewrite (apci_tl _ _ _ _ _ _ _ _ _ _ A). apply O. reflexivity.
    + injection A as _ _ <-. apply wf_setTl; auto.
Qed.
Lemma wf_received c i x y l : op_ok c (Loop i) -> wf c x -> checkReceived c i x = Some (y, l) -> wf c y.
Proof.
  intros OK W E. destruct (received_case _ _ _ _ _ E) as [(r & o & R & _ & _ & V & _)|(_ & -> & _)]; auto. destruct (OK r R) as (F & G). apply (wf_receive _ _ _ _ _ _ F G W V).
Qed.
Lemma wf_loop c i x y l : conf_ok c -> op_ok c (Loop i) -> wf c x -> bcuLoop c i x = Some (y, l) -> wf c y.
Proof.
  intros K OK W E. destruct (loop_parts _ _ _ _ _ E) as (s & o1 & x2 & o2 & x3 & o3 & x4 & o4 & P1 & P2 & P3 & P4 & _ & P6).
  destruct (step_hands _ _ _ _ P1) as (_ & O). assert (W1 : wf c (setTl x s)) by (apply wf_setTl; auto). pose proof (wf_received _ _ _ _ _ OK W1 P2) as W2. pose proof (wf_button _ _ _ _ _ _ P3 W2) as W3.
  assert (W4 : wf c x4). { destruct (sending2 i); [destruct P4 as (-> & _); auto|apply (wf_restart _ _ _ _ _ _ K W3 P4)]. }
  destruct (_ || _) in P6; [now subst|]. apply (flush_wf c x4 y K W4 P6).
Qed.
Lemma wf_step c x o y l : conf_ok c -> op_ok c o -> wf c x -> dstep c x o = Some (y, l) -> wf c y.
Proof.
  intros K OK W. unfold dstep. destruct o as [i|ok|b|g|buf w|lst junk].
  6:{ unfold option_map. destruct (powerUp _ _ _ _ _) as [z|] eqn:E; [|discriminate]. intros [= <- _]. apply (wf_powerUp _ _ _ _ _ _ K (proj1 (proj2 W)) E). }
  all: destruct (running x); [|now intros [= <- _]].
  - apply wf_loop; auto.
  - destruct (step _ _) as [[s o]|] eqn:E; [|discriminate]. intros [= <- _]. destruct (step_hands _ _ _ _ E) as (_ & O). apply wf_setTl; auto.
  - unfold setProgrammingMode. destruct (progPin c); [|now intros [= <- _]]. destruct (negb _); [|now intros [= <- _]]. intros [= <- _]. destruct W as (W & S & O). split; [|auto].
    apply wf_status; [exact W|]. apply toggle_byte. apply W.
  - intros [= <- _]. apply wf_effect; auto.
  - destruct (step _ _) as [[s o]|] eqn:E; [|discriminate]. intros [= <- _]. destruct (step_hands _ _ _ _ E) as (_ & O). apply wf_setTl; auto.
Qed.
Lemma reachable_wf c x : conf_ok c -> reachable_device c x -> wf c x.
Proof.
  intros K. induction 1 as [sec m lst junk x S E|x o y l R IH OK E]; [apply (wf_powerUp _ _ _ _ _ _ K S E)|apply (wf_step _ _ _ _ _ K OK IH E)].
Qed.
