(** Restarts: what the device remembers of an order *)
From Verif Require Import Base Bits Telegram_Model Device_Model Device_Spec Device_Spec2 Device_Spec3 Device_TL Device_Status Device_Proofs Device_Wf Device_Steps Device_Save Device_Bytes Device_Refine Device_Refine2 Device_Client.
From Verif Require TL4_Spec TL4_Step.
Import Eeprom_Model(esize, fsize, marked).
Import Eeprom_Spec(ecfg_ok, sector_ok).

Definition into_boot (r : restartType) : bool := match r with RMasterIntoBootloader => true | _ => false end.
Definition same_restart (x y : device) : Prop := rType y = rType x /\ rDisc y = rDisc x /\ rTime y = rTime x.
Lemma same_restart_refl x : same_restart x x.
Proof. repeat split. Qed.
(** a request and the restart members *)
Lemma default_restart c n conn t sb x b sb' y : Forall is_byte t -> processApciDefault c n conn t sb x = Some (b, sb', y) ->
  match restart_order t with
  | Some bt => rType y <> RNone /\ into_boot (rType y) = bt /\ rDisc y = conn /\ rTime y = Util_Model.to_start n 250
  | None => same_restart x y
  end.
Proof.
  intros F. unfold processApciDefault, restart_order. cbv zeta. pose proof (service_range t F) as SR.
  unfold APCI_ADC_READ_PDU, APCI_MEMORY_READ_PDU, APCI_MEMORY_WRITE_PDU, APCI_DEVICEDESCRIPTOR_READ_PDU, APCI_MASTER_RESET_PDU, APCI_AUTHORIZE_REQUEST_PDU, APCI_BASIC_RESTART_PDU.
  rewrite !command_short by auto 10. rewrite !command_long by auto.
  destruct (Z.eqb_spec (service t) 0x380) as [E0|N0].
  { rewrite E0. cbn. intros [= _ _ <-]. cbn. repeat split; discriminate. }
  destruct (Z.eqb_spec (service t) 0x381) as [E1|N1].
  - rewrite E1. cbn [Z.leb Z.ltb Z.compare Pos.compare Pos.compare_cont andb orb Z.eqb Pos.eqb Z.add Pos.add]. pose proof (rd_byte t 8 F) as B8. unfold is_byte in B8. unfold masterReset.
    unfold T_MASTERRESET_FACTORY_WO_IA, BOOTLOADER_MAGIC_CHANNEL, T_MASTERRESET_CONFIRMED_RESTART.
    destruct (Z.eqb_spec (rd t 8) 7) as [E7|N7]; cbn [andb].
    + rewrite E7. destruct (rd t 9 =? 255) eqn:E9; cbn; intros [= _ _ <-]; cbn; repeat split; discriminate.
    + destruct (Z.leb_spec 1 (rd t 8)); destruct (Z.leb_spec (rd t 8) 7); cbn [andb];
        (destruct (Z.eqb_spec (rd t 8) 0); destruct (Z.ltb_spec 7 (rd t 8)); try lia; cbn [orb]; intros [= _ _ <-]; cbn; repeat split; discriminate).
  - cbn [andb]. destruct (_ && _); [intros [= _ _ <-]; apply same_restart_refl|]. destruct (_ || _).
    { destruct (processMemoryApci _ _ _ _) as [[[a s] d]|]; [|discriminate]. intros [= _ _ <-]. repeat split. }
    destruct (_ && _); [destruct (descriptorRead _ _ _); intros [= _ _ <-]; apply same_restart_refl|]. destruct (_ =? _); intros [= _ _ <-]; apply same_restart_refl.
Qed.
Lemma apci_restart c n conn t len sb x b sb' y : Forall is_byte t -> processApci c n conn t len sb x = Some (b, sb', y) ->
  match restart_order t with
  | Some bt => rType y <> RNone /\ into_boot (rType y) = bt /\ rDisc y = conn /\ rTime y = Util_Model.to_start n 250
  | None => same_restart x y
  end.
Proof.
  intros F. unfold processApci. destruct (kind c); [apply default_restart; auto|]. destruct (isPropertyCommand (apciCommand t)) eqn:P; [|apply default_restart; auto].
  destruct (processPropertyApci _ _ _ _ _ _ _) as [[s d]|]; [|discriminate]. intros [= _ _ <-]. unfold isPropertyCommand, APCI_PROPERTY_VALUE_READ_PDU, APCI_PROPERTY_VALUE_WRITE_PDU, APCI_PROPERTY_DESCRIPTION_READ_PDU in P. rewrite !command_long in P by auto. unfold restart_order.
  destruct (Z.eqb_spec (service t) 0x380) as [E|]; [rewrite E in P; discriminate|]. destruct (Z.eqb_spec (service t) 0x381) as [E|]; [rewrite E in P; discriminate|]. repeat split.
Qed.
(** ** What is noted down and what the device remembers *)
Definition agrees (p : option order) (x : device) : Prop :=
  match p with
  | None => rType x = RNone
  | Some q => rType x <> RNone /\ into_boot (rType x) = o_boot q /\ rTime x = Util_Model.to_start (u32 (o_time q)) 250 /\ (o_owed q = true -> rDisc x = true)
  end.
Lemma agrees_same p x y : same_restart x y -> agrees p x -> agrees p y.
Proof. intros (A & B & C). unfold agrees. rewrite A, B, C. auto. Qed.
(** transmissions only clear the debt of a T_DISCONNECT *)
Definition eases (p p' : option order) : Prop :=
  match p, p' with
  | None, None => True
  | Some q, Some q' => o_boot q' = o_boot q /\ o_time q' = o_time q /\ (o_owed q' = true -> o_owed q = true)
  | _, _ => False
  end.
Lemma eases_refl p : eases p p.
Proof. destruct p; cbn; auto. Qed.
Lemma eases_trans p q r : eases p q -> eases q r -> eases p r.
Proof. destruct p, q, r; cbn; auto; try tauto. intros (A & B & C) (D & E & F). split; [congruence|]. split; [congruence|auto]. Qed.
Lemma eases_agrees p p' x : eases p p' -> agrees p x -> agrees p' x.
Proof. destruct p as [q|], p' as [q'|]; cbn; auto; try contradiction. intros (A & B & C) (D & E & F & G). rewrite A, B. repeat split; auto. Qed.
Lemma note_tx n p k f : eases p (note n p (Bus (Tx k f))).
Proof. cbn. destruct (is_disconnect f); [|apply eases_refl]. destruct p as [q|]; cbn; auto. split; auto. split; auto. discriminate. Qed.
Lemma notes_tx n l : handed l = [] -> forall p, eases p (fold_left (note n) (map Bus l) p).
Proof.
  induction l as [|o l IH]; cbn [map fold_left]; intros H p; [apply eases_refl|]. unfold handed in *. cbn [filter] in H. destruct o; try discriminate. eapply eases_trans; [apply note_tx|]. apply IH. exact H.
Qed.
Lemma notes_pins n l : (forall b, In b l -> exists v, b = Pin v) -> forall p, fold_left (note n) l p = p.
Proof.
  induction l as [|o l IH]; intros H p; cbn [fold_left]; [reflexivity|]. destruct (H o (or_introl eq_refl)) as (v & ->). cbn [note]. apply IH. intros b Hb. apply H. right. exact Hb.
Qed.
(** a list with one hand-over *)
Lemma handed_one l e : handed l = [e] -> exists a b, l = a ++ e :: b /\ handed a = [] /\ handed b = [].
Proof.
  induction l as [|o l IH]; cbn; [discriminate|]. destruct o as [k0 f0| | | |]; try (intros [= <- E]; exists [], l; repeat split; exact E). intros E. destruct (IH E) as (a & b & -> & A & B). exists (Tx k0 f0 :: a), b. auto.
Qed.
Lemma notes_handed n l e p : handed l = [e] -> exists p1, eases p p1 /\ eases (note n p1 (Bus e)) (fold_left (note n) (map Bus l) p).
Proof.
  intros H. destruct (handed_one _ _ H) as (a & b & -> & A & B). exists (fold_left (note n) (map Bus a) p). split; [apply notes_tx; exact A|]. rewrite map_app, fold_left_app. cbn [map fold_left]. apply notes_tx. exact B.
Qed.
Lemma sendOwn_handed f w x y l : sendOwn f w x = Some (y, l) -> handed l = [].
Proof.
  unfold sendOwn. destruct (acquireSendBuffer _) as [k|] eqn:E; [|discriminate]. intros [= _ <-]. destruct (acquire_keeps _ _ E) as ((_ & B) & _). cbn [cO] in B.
  destruct (prepared_sends KApp (TL4_Model.upd (set_txb (f (txb (cS k)))) k)) as [_ P]. exact (eq_trans P B).
Qed.
Lemma setOwn_restart c a x y : setOwnAddress c a x = Some y -> same_restart x y.
Proof. unfold setOwnAddress. destruct (memOwnAddress _ _ _); [|discriminate]. intros [= <-]. repeat split. Qed.
Lemma broadcast_restart c t w x y l : processBroadCastTelegram c t w x = Some (y, l) -> same_restart x y /\ handed l = [].
Proof.
  assert (D : broadcastDefault c t w x = Some (y, l) -> same_restart x y /\ handed l = []).
  { unfold broadcastDefault. cbv zeta. destruct (negb _); [intros [= <- <-]; split; [apply same_restart_refl|reflexivity]|]. destruct (_ =? _).
    - intros E. apply quiet_some in E. destruct E as [E ->]. split; [apply (setOwn_restart _ _ _ _ E)|reflexivity].
    - destruct (_ =? _); [|intros [= <- <-]; split; [apply same_restart_refl|reflexivity]]. intros E. split; [|apply (sendOwn_handed _ _ _ _ _ E)]. destruct (sendOwn_frame _ _ _ _ _ E) as (_ & _ & _ & (_ & _ & A & B & C & _)). repeat split; auto. }
  unfold processBroadCastTelegram. cbv zeta. destruct (kind c); [exact D|]. destruct (_ =? _).
  - destruct (sameSerial _ _); [|intros [= <- <-]; split; [apply same_restart_refl|reflexivity]]. intros E. apply quiet_some in E. destruct E as [E ->]. split; [apply (setOwn_restart _ _ _ _ E)|reflexivity].
  - destruct (_ =? _); [|exact D]. destruct (sameSerial _ _); [|intros [= <- <-]; split; [apply same_restart_refl|reflexivity]]. intros E. split; [|apply (sendOwn_handed _ _ _ _ _ E)].
    destruct (sendOwn_frame _ _ _ _ _ E) as (_ & _ & _ & (_ & _ & A & B & C & _)). repeat split; auto.
Qed.
Lemma receive_agrees c n r x y l p : Forall is_byte (rxTel r) -> receive c n r x = Some (y, l) -> agrees p x -> agrees (fold_left (note n) (map Bus l) p) y.
Proof.
  intros F. unfold receive. cbv zeta. set (t := rxTel r) in *. destruct (destinationAddress t =? 0) eqn:D0.
  { destruct (processBroadCastTelegram _ _ _ _) as [[z o]|] eqn:E; [|discriminate]. intros [= <- <-] A. destruct (broadcast_restart _ _ _ _ _ _ E) as [S H]. cbn [map fold_left note].
    apply (eases_agrees p _ _ (notes_tx n o H p)). apply (agrees_same _ _ _ S A). }
  destruct (negb (Z.land (rd t 5) 0x80 =? 0)) eqn:G. { intros [= <- <-] A. exact A. }
  destruct (executes (tl x) t) eqn:X.
  - destruct (processApci _ _ _ _ _ _ _) as [[[ans sb] z]|] eqn:P; [|discriminate]. destruct (step _ _) as [[s o]|] eqn:S; [|discriminate]. intros [= <- <-] A.
    destruct (step_hands _ _ _ _ S) as (H & _). cbn [handover] in H. rewrite D0, G, X in H.
    destruct (notes_handed n o _ p H) as (p1 & E1 & E2). apply (eases_agrees _ _ _ E2). pose proof (eases_agrees _ _ _ E1 A) as A1. pose proof (apci_restart _ _ _ _ _ _ _ _ _ _ F P) as R.
    destruct (Z.land (rd t 6) 0xfc =? 0) eqn:Cn; cbn [note].
    + destruct (restart_order t) as [bt|]; [|apply (agrees_same _ x); [exact R|exact A1]]. destruct R as (R1 & R2 & R3 & R4). cbn. split; [exact R1|]. split; [exact R2|]. split; [exact R4|discriminate].
    + destruct (restart_order t) as [bt|]; [|apply (agrees_same _ x); [exact R|exact A1]]. destruct R as (R1 & R2 & R3 & R4). cbn. split; [exact R1|]. split; [exact R2|]. split; [exact R4|]. intros _. rewrite R3.
      unfold executes in X. rewrite Cn in X. cbn [orb] in X. rewrite !andb_true_iff in X. tauto.
  - destruct (step _ _) as [[s o]|] eqn:S; [|discriminate]. intros [= <- <-] A. destruct (step_hands _ _ _ _ S) as (H & _). cbn [handover] in H. rewrite D0, G, X in H.
    apply (eases_agrees _ _ _ (notes_tx n o H p)). exact A.
Qed.
(** ** One pass: before the restart check the notes agree *)
Definition note_op (p : option order) (o : dop) (l : list dout) : option order := if is_power_up o then None else fold_left (note (time_of o)) l p.
Lemma loop_agrees c i x y l p : conf_ok c -> tables_ok c -> sound (tl x) -> good_dev c x -> op_ok c (Loop i) -> bcuLoop c i x = Some (y, l) -> agrees p x ->
  exists x3 la x4 lb, l = la ++ lb /\ agrees (fold_left (note (now i)) la p) x3 /\ running x3 = running x /\ sound (tl x3) /\ (if sending2 i then x4 = x3 /\ lb = [] else checkRestart c (u32 (now i)) (waits i) x3 = Some (x4, lb)) /\
    (forall b, ~ In (Reset b) la) /\ same_restart x4 y /\ running y = running x4 /\ (rx i = None -> same_restart x x3 /\ handed (bus_events la) = []).
Proof.
  intros K T S (W & B) OK E A. destruct (loop_parts _ _ _ _ _ E) as (s & o1 & x2 & o2 & x3 & o3 & x4 & o4 & P1 & P2 & P3 & P4 & P5 & P6). exists x3, (map Bus o1 ++ o2 ++ o3), x4, o4.
  destruct (step_hands _ _ _ _ P1) as (H1 & O1). cbn [handover] in H1. destruct (button_frame _ _ _ _ _ _ P3) as (B0 & _ & _ & B1 & B2 & B3 & B4 & B5).
  assert (A1 : agrees (fold_left (note (now i)) (map Bus o1) p) (setTl x s)) by (apply (eases_agrees _ _ _ (notes_tx (now i) o1 H1 p)); exact A).
  assert (D1 : does (tl x) [OpLoop (now i)] s o1 []) by (apply does_one; [exact I|exact P1|reflexivity]). pose proof (does_sound _ _ _ _ _ D1 S) as S1.
  assert (W1 : wf c (setTl x s)) by (apply wf_setTl; [exact W|apply O1; reflexivity]).
  assert (A2 : agrees (fold_left (note (now i)) o2 (fold_left (note (now i)) (map Bus o1) p)) x2 /\ (forall b, ~ In (Reset b) o2) /\ sound (tl x2) /\ (rx i = None -> x2 = setTl x s /\ o2 = [])).
  { destruct (received_case _ _ _ _ _ P2) as [(r & o & R & _ & _ & V & ->)|(_ & -> & ->)]; [|split; [exact A1|]; split; [intros b []|]; split; [exact S1|auto]]. split; [|split; [|split]].
    - apply (receive_agrees _ _ _ _ _ _ _ (proj1 (OK r R)) V A1).
    - intros b I. apply in_map_iff in I. destruct I as (q & Q & _). discriminate.
    - destruct (receive_does c (now i) r (setTl x s) x2 o T S1 (conj W1 B) (proj1 (OK r R)) V) as (ops & D2 & _). apply (does_sound _ _ _ _ _ D2 S1).
    - intros Q. rewrite Q in R. discriminate. }
  destruct A2 as (A2 & N2 & S2 & Q2). destruct (received_running _ _ _ _ _ P2) as (R2 & _).
  split; [subst l; rewrite !app_assoc; reflexivity|]. split.
  - rewrite !fold_left_app. rewrite (notes_pins _ o3 B5). apply (agrees_same _ x2); [repeat split; auto|exact A2].
  - split; [rewrite B4, R2; reflexivity|]. split; [rewrite B0; exact S2|]. split; [exact P4|]. split.
    + intros b I. apply in_app_or in I. destruct I as [I|I]; [apply in_map_iff in I; destruct I as (q & Q & _); discriminate|]. apply in_app_or in I. destruct I as [I|I]; [apply (N2 b I)|]. destruct (B5 _ I) as (v & Q). discriminate.
    + assert (Y : same_restart x4 y /\ running y = running x4). { destruct (_ || _) in P6; [subst y; split; [apply same_restart_refl|reflexivity]|]. destruct (flush_frame _ _ _ P6) as (_ & _ & _ & (_ & _ & C1 & C2 & C3 & C4)). split; [repeat split; auto|exact C4]. }
      split; [apply Y|]. split; [apply Y|]. intros Q. destruct (Q2 Q) as (-> & ->). split; [repeat split; auto|]. cbn [app]. rewrite bus_app, bus_map, (bus_pins o3 B5), app_nil_r. exact H1.
Qed.
(** a T_DISCONNECT clears the debt *)
Lemma disconnect_cleared n l p : handed l = [] -> says_disconnect l -> match fold_left (note n) (map Bus l) p with Some q => o_owed q = false | None => True end.
Proof.
  intros H (k & f & I & D). apply in_split in I. destruct I as (a & b & ->). rewrite handed_app in H. apply app_eq_nil in H. destruct H as (Ha & Hb). rewrite map_app, fold_left_app. cbn [map fold_left note]. rewrite D.
  set (p1 := fold_left (note n) (map Bus a) p). assert (Q : handed b = []) by exact Hb. pose proof (notes_tx n b Q (option_map (fun q => mkOrder (o_boot q) (o_time q) false) p1)) as E.
  clearbody p1. destruct (fold_left _ _ _) as [q|]; [|exact Logic.I]. destruct p1 as [q1|]; cbn in E; [|contradiction]. destruct E as (_ & _ & E). destruct (o_owed q); [|reflexivity]. discriminate (E eq_refl).
Qed.
Lemma disconnect_notes n w s s' o p : sound s -> step s (OpDisconnect w) = Some (s', o) -> eases p (fold_left (note n) (map Bus o) p) /\ match fold_left (note n) (map Bus o) p with Some q => o_owed q = false | None => True end.
Proof.
  intros (cur & I) E. destruct (step_hands _ _ _ _ E) as (H & _). cbn [handover] in H. split; [apply notes_tx; exact H|]. apply disconnect_cleared; [exact H|].
  unfold step in E. cbn [stepCfg] in E. destruct (actionA06 _) as [k|] eqn:A; [|discriminate]. injection E as <- <-. apply (a06_closes _ _ _ _ I A).
Qed.
(** ** Time *)
Lemma elapsed_by n t : (exists e, Util_Model.to_expired (u32 n) (Util_Model.to_start (u32 t) 250) = (true, e)) -> 250 <= (n - t) mod 2 ^ 32.
Proof.
  unfold Util_Model.to_expired, Util_Model.to_start, Util_Model.to_stop, Util_Model.STOPPED. cbn [Z.eqb]. intros (e & H).
  set (q := u32 (u32 t + 250)) in *. assert (Q : exists k, q = t + 250 + k * 4294967296) by (exists (- ((t + 250) / 4294967296)); unfold q, u32; rewrite Zplus_mod_idemp_l; pose proof (Z.div_mod (t + 250) 4294967296); lia). destruct Q as (k & Q).
  assert (R : exists j, u32 n = n + j * 4294967296) by (exists (- (n / 4294967296)); unfold u32; pose proof (Z.div_mod n 4294967296); lia). destruct R as (j & R).
  change (2 ^ 32) with 4294967296. pose proof (Z.mod_pos_bound (n - t) 4294967296 ltac:(lia)) as P. pose proof (Z.div_mod (n - t) 4294967296 ltac:(lia)) as D. set (d := (n - t) mod 4294967296) in *. set (v := (n - t) / 4294967296) in *. clearbody d v.
  assert (G : forall z b, 0 <= b <= 251 -> (exists k, z = d - b + k * 4294967296) -> 0 <= s32 z -> b <= d).
  { intros z b Hb (k0 & ->) G. unfold s32 in G. cbv zeta in G. assert (M : (d - b + k0 * 4294967296) mod 4294967296 = (d - b) mod 4294967296) by apply Z_mod_plus_full. destruct (Z_lt_le_dec d b) as [L|]; [|lia]. exfalso.
    assert (M2 : (d - b) mod 4294967296 = d - b + 4294967296) by (symmetry; apply (Zmod_unique _ _ (-1)); lia). revert G. unfold u32. rewrite ?M, ?M2. destruct (_ <? _) eqn:C; lia. }
  destruct (q =? 0) eqn:Z0.
  - assert (q = 0) by lia. change (u32 (0 + 1)) with 1 in H. rewrite H0 in H. change (u32 (0 + 1)) with 1 in H. cbn [Z.eqb negb] in H. destruct (0 <=? s32 (u32 n - 1)) eqn:S; [|discriminate]. assert (251 <= d); [|lia]. apply (G (u32 n - 1)); [lia| |lia]. exists (j + v - k). lia.
  - cbn [negb] in H. rewrite Z0 in H. cbn [negb] in H. destruct (0 <=? s32 (u32 n - q)) eqn:S; [|discriminate]. apply (G (u32 n - q)); [lia| |lia]. exists (j - k + v). lia.
Qed.
Lemma elapses_by n t : 251 <= (n - t) mod 2 ^ 32 < 2 ^ 31 + 250 -> exists e, Util_Model.to_expired (u32 n) (Util_Model.to_start (u32 t) 250) = (true, e).
Proof.
  unfold Util_Model.to_expired, Util_Model.to_start, Util_Model.to_stop, Util_Model.STOPPED. cbn [Z.eqb]. change (2 ^ 32) with 4294967296. change (2 ^ 31) with 2147483648. intros H.
  set (q := u32 (u32 t + 250)) in *. assert (Q : exists k, q = t + 250 + k * 4294967296) by (exists (- ((t + 250) / 4294967296)); unfold q, u32; rewrite Zplus_mod_idemp_l; pose proof (Z.div_mod (t + 250) 4294967296); lia). destruct Q as (k & Q).
  assert (R : exists j, u32 n = n + j * 4294967296) by (exists (- (n / 4294967296)); unfold u32; pose proof (Z.div_mod n 4294967296); lia). destruct R as (j & R).
  pose proof (Z.div_mod (n - t) 4294967296 ltac:(lia)) as D. set (d := (n - t) mod 4294967296) in *. set (v := (n - t) / 4294967296) in *. clearbody d v.
  assert (G : forall z b, 250 <= b <= 251 -> (exists k, z = d - b + k * 4294967296) -> 0 <= s32 z).
  { intros z b Hb (k0 & ->). unfold s32. cbv zeta. assert (M : (d - b + k0 * 4294967296) mod 4294967296 = (d - b) mod 4294967296) by apply Z_mod_plus_full.
    assert (M2 : (d - b) mod 4294967296 = d - b) by (apply Z.mod_small; lia). unfold u32. rewrite ?M, ?M2. destruct (_ <? _) eqn:C; lia. }
  destruct (q =? 0) eqn:Z0.
  - assert (q = 0) by lia. rewrite H0. change (u32 (0 + 1)) with 1. cbn [Z.eqb negb]. assert (S : 0 <= s32 (u32 n - 1)) by (apply (G _ 251); [lia|]; exists (j + v - k); lia). apply Z.leb_le in S. rewrite S. eauto.
  - rewrite Z0. cbn [negb]. assert (S : 0 <= s32 (u32 n - q)) by (apply (G _ 250); [lia|]; exists (j - k + v); lia). apply Z.leb_le in S. rewrite S. eauto.
Qed.
(** ** The notes of a history *)
Lemma pending_app tr o l p : pending p (tr ++ [(o, l)]) = note_op (pending p tr) o l.
Proof. revert p. induction tr as [|[o1 l1] tr IH]; intros p; [reflexivity|]. cbn [app pending]. apply IH. Qed.
Lemma observed_found c x tr : observed c x tr -> found c x.
Proof. induction 1; [eapply found_on; eauto|eapply found_then; eauto]. Qed.
Lemma on_restart c sec m lst junk x : powerUp c sec m lst junk = Some x -> rType x = RNone.
Proof. unfold powerUp. cbv zeta. destruct (begin _ _) as [[a d]|]; [|discriminate]. intros [= <-]. reflexivity. Qed.
Lemma note_reset n b p : fold_left (note n) [Reset b] p = p.
Proof. reflexivity. Qed.
Lemma step_agrees c x o y l p : conf_ok c -> tables_ok c -> sound (tl x) -> good_dev c x -> input_ok c o -> dstep c x o = Some (y, l) -> running y = true -> (running x = true -> agrees p x) -> agrees (note_op p o l) y.
Proof.
  intros K T S G OK E RY A. destruct (is_power_up o) eqn:PU.
  { destruct o as [| | | | |lst junk]; try discriminate. cbn [dstep] in E. unfold option_map in E. destruct (powerUp _ _ _ _ _) as [z|] eqn:P; [|discriminate]. injection E as <- <-. cbn. apply (on_restart _ _ _ _ _ _ P). }
  unfold note_op. rewrite PU. unfold dstep in E. destruct (running x) eqn:R.
  2:{ assert (H : Some (x, []) = Some (y, l)) by (destruct o; [exact E|exact E|exact E|exact E|exact E|discriminate PU]). injection H as <- <-. congruence. }
  specialize (A eq_refl). destruct o as [i|ok|b|g|buf w|lst junk]; [| | | | |discriminate].
  - destruct (loop_agrees _ _ _ _ _ p K T S G (proj1 OK) E A) as (x3 & la & x4 & lb & -> & A3 & R3 & S3 & P4 & N & Q & RY' & _). cbn [time_of]. rewrite fold_left_app. set (p3 := fold_left _ la p) in *. clearbody p3.
    destruct (sending2 i). { destruct P4 as (-> & ->). apply (agrees_same _ _ _ Q A3). }
    destruct (restart_case _ _ _ _ _ _ P4) as [(_ & -> & ->)|[(N0 & RD & s & o & St & -> & ->)|[(_ & _ & t & Et & -> & ->)|(_ & _ & t & z & _ & F & -> & ->)]]].
    + apply (agrees_same _ _ _ Q A3).
    + destruct (disconnect_notes (now i) _ _ _ _ p3 S3 St) as (D1 & D2). apply (agrees_same _ _ _ Q). pose proof (eases_agrees _ _ _ D1 A3) as A4. destruct (fold_left _ _ _) as [q|]; [|cbn in A4; contradiction].
      destruct A4 as (H1 & H2 & H3 & H4). cbn. split; [exact H1|]. split; [exact H2|]. split; [exact H3|]. rewrite D2. discriminate.
    + assert (t = rTime x3) as -> by (unfold Util_Model.to_expired in Et; destruct (negb _); [|congruence]; destruct (_ <=? _); congruence). apply (agrees_same _ _ _ Q A3).
    + rewrite RY' in RY. discriminate.
  - destruct (step _ _) as [[s o]|] eqn:St; [|discriminate]. injection E as <- <-. destruct (step_hands _ _ _ _ St) as (H & _). cbn [handover] in H. apply (eases_agrees _ _ _ (notes_tx _ o H p)). exact A.
  - destruct (setProgrammingMode c b x) as [[r z] k] eqn:M. injection E as <- <-. unfold setProgrammingMode in M. destruct (progPin c); [|injection M as _ <- <-; exact A]. destruct (negb _); injection M as _ <- <-; exact A.
  - injection E as <- <-. exact A.
  - destruct (step _ _) as [[s o]|] eqn:St; [|discriminate]. injection E as <- <-. destruct (step_hands _ _ _ _ St) as (H & _). cbn [handover] in H. apply (eases_agrees _ _ _ (notes_tx _ o H p)). exact A.
Qed.
Lemma found_sound c x : conf_ok c -> tables_ok c -> found c x -> good_dev c x /\ sound (tl x).
Proof. intros K T F. destruct (found_good _ _ K T F) as (G & a & cur & RE). split; [exact G|]. exists cur. apply (TL4_Step.reachable_inv _ _ _ RE). Qed.
Lemma observed_agrees c x tr : conf_ok c -> tables_ok c -> observed c x tr -> running x = true -> agrees (pending None tr) x.
Proof.
  intros K T H. induction H as [sec m lst junk x S F J P|x tr o x' l H IH OK E]; intros R; [apply (on_restart _ _ _ _ _ _ P)|]. rewrite pending_app. destruct (found_sound _ _ K T (observed_found _ _ _ H)) as (G & S).
  apply (step_agrees c x o x' l _ K T S G OK E R IH).
Qed.
(** a restart was ordered, its T_DISCONNECT was sent and the time has elapsed *)
Lemma reset_ordered c x tr o x' l b : conf_ok c -> tables_ok c -> observed c x tr -> input_ok c o -> dstep c x o = Some (x', l) -> In (Reset b) l ->
  exists q, pending None (tr ++ [(o, l)]) = Some q /\ o_boot q = b /\ o_owed q = false /\ 250 <= (time_of o - o_time q) mod 2 ^ 32 /\ running x' = false.
Proof.
  intros K T H OK E I. rewrite pending_app. destruct (found_sound _ _ K T (observed_found _ _ _ H)) as (G & S). pose proof (observed_agrees _ _ _ K T H) as A. set (p := pending None tr) in *. clearbody p. unfold dstep in E. destruct (running x) eqn:R.
  2:{ assert (E' : l = [] \/ is_power_up o = true) by (destruct o; auto; left; congruence). destruct E' as [-> |E']; [destruct I|]. destruct o as [| | | | |lst junk]; try discriminate. unfold option_map in E. destruct (powerUp _ _ _ _ _); [|discriminate]. injection E as _ <-. destruct I. }
  specialize (A eq_refl). assert (NB : forall o', l = map Bus o' -> False) by (intros o' ->; apply in_map_iff in I; destruct I as (z & Z & _); discriminate).
  destruct o as [i|ok|b'|g|buf w|lst junk].
  - destruct (loop_agrees _ _ _ _ _ p K T S G (proj1 OK) E A) as (x3 & la & x4 & lb & -> & A3 & R3 & S3 & P4 & N & Q & RY' & _). unfold note_op. cbn [is_power_up time_of]. rewrite fold_left_app. set (p3 := fold_left _ la p) in *. clearbody p3.
    apply in_app_or in I. destruct I as [I|I]; [destruct (N b I)|]. destruct (sending2 i). { destruct P4 as (-> & ->). destruct I. }
    destruct (restart_case _ _ _ _ _ _ P4) as [(_ & -> & ->)|[(N0 & RD & s & o & St & -> & ->)|[(_ & _ & t & Et & -> & ->)|(N0 & RD & t & z & Et & F & -> & ->)]]].
    + destruct I.
    + apply in_map_iff in I. destruct I as (z & Z & _). discriminate.
    + destruct I.
    + destruct I as [I|[]]. injection I as I. rewrite note_reset. destruct p3 as [q|]; [|cbn in A3; contradiction]. destruct A3 as (H1 & H2 & H3 & H4). exists q. split; [reflexivity|]. split; [rewrite <- H2; exact I|].
      split; [destruct (o_owed q); [|reflexivity]; rewrite RD in H4; symmetry; apply H4; reflexivity|]. split; [|rewrite RY'; reflexivity]. apply elapsed_by. rewrite H3 in Et. eauto.
  - destruct (step _ _) as [[s o]|]; [|discriminate]. injection E as _ <-. destruct (NB o eq_refl).
  - destruct (setProgrammingMode c b' x) as [[r z] k] eqn:M. injection E as _ <-. unfold setProgrammingMode in M. destruct (progPin c); injection M as _ _ <-; [|destruct I]. destruct I as [I|[]]. discriminate.
  - injection E as _ <-. destruct I.
  - destruct (step _ _) as [[s o]|]; [|discriminate]. injection E as _ <-. destruct (NB o eq_refl).
  - unfold option_map in E. destruct (powerUp _ _ _ _ _); [|discriminate]. injection E as _ <-. destruct I.
Qed.
(** two passes in which nothing is received restart a device whose time has elapsed *)
Lemma quiet_pass c x i y l q : conf_ok c -> tables_ok c -> good_dev c x -> sound (tl x) -> running x = true -> agrees (Some q) x -> rx i = None -> sending2 i = false -> op_ok c (Loop i) -> dstep c x (Loop i) = Some (y, l) ->
  In (Reset (o_boot q)) l \/ (running y = true /\ rDisc y = false /\ (rDisc x = true \/ ~ 251 <= (now i - o_time q) mod 2 ^ 32 < 2 ^ 31 + 250) /\ same_restart (setRestart x (rType x) (rDisc y) (rTime x)) y).
Proof.
  intros K T G S R A Q S2 OK E. cbn [dstep] in E. rewrite R in E. destruct (loop_agrees _ _ _ _ _ _ K T S G OK E A) as (x3 & la & x4 & lb & -> & A3 & R3 & S3 & P4 & N & SQ & RY' & QQ). rewrite S2 in P4. destruct (QQ Q) as ((Q1 & Q2 & Q3) & _). rewrite RY'.
  destruct A as (H1 & H2 & H3 & H4). destruct SQ as (Y1 & Y2 & Y3).
  destruct (restart_case _ _ _ _ _ _ P4) as [(N0 & -> & ->)|[(N0 & RD & s & o & St & -> & ->)|[(_ & RD & t & Et & -> & ->)|(N0 & RD & t & z & Et & F & -> & ->)]]].
  - congruence.
  - right. cbn in Y1, Y2, Y3 |- *. split; [congruence|]. split; [exact Y2|]. split; [left; congruence|]. unfold same_restart. cbn. split; [congruence|]. split; congruence.
  - right. cbn in Y1, Y2, Y3 |- *. assert (t = rTime x3) as -> by (unfold Util_Model.to_expired in Et; destruct (negb _); [|congruence]; destruct (_ <=? _); congruence).
    split; [congruence|]. split; [congruence|]. split; [|unfold same_restart; cbn; split; [congruence|]; split; congruence]. right. intros C. destruct (elapses_by _ _ C) as (e & Ee). rewrite Q3, H3 in Et. congruence.
  - left. apply in_or_app. right. left. f_equal. rewrite <- H2, <- Q1. reflexivity.
Qed.
Lemma reset_happens c x tr q i1 y l1 i2 z l2 : conf_ok c -> tables_ok c -> observed c x tr -> running x = true -> pending None tr = Some q ->
  rx i1 = None -> sending2 i1 = false -> rx i2 = None -> sending2 i2 = false -> input_ok c (Loop i1) -> input_ok c (Loop i2) -> dstep c x (Loop i1) = Some (y, l1) -> dstep c y (Loop i2) = Some (z, l2) ->
  251 <= (now i2 - o_time q) mod 2 ^ 32 < 2 ^ 31 + 250 -> In (Reset (o_boot q)) (l1 ++ l2).
Proof.
  intros K T H R P Q1 S1 Q2 S2 OK1 OK2 E1 E2 C. destruct (found_sound _ _ K T (observed_found _ _ _ H)) as (G & S). pose proof (observed_agrees _ _ _ K T H R) as A. rewrite P in A. apply in_or_app.
  destruct (quiet_pass c x i1 y l1 q K T G S R A Q1 S1 (proj1 OK1) E1) as [J|(RY & RD & _ & SR)]; [left; exact J|right].
  pose proof (observed_then c x tr (Loop i1) y l1 H OK1 E1) as H'. destruct (found_sound _ _ K T (observed_found _ _ _ H')) as (G' & S').
  assert (A' : agrees (Some (mkOrder (o_boot q) (o_time q) false)) y). { destruct A as (A1 & A2 & A3 & A4). destruct SR as (B1 & B2 & B3). cbn in B1, B2, B3 |- *. rewrite B1, B3. split; [exact A1|]. split; [exact A2|]. split; [exact A3|discriminate]. }
  destruct (quiet_pass c y i2 z l2 _ K T G' S' RY A' Q2 S2 (proj1 OK2) E2) as [J|(_ & _ & [D|D] & _)]; [exact J|congruence|]. destruct (D C).
Qed.
