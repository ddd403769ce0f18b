(** A device with communication objects: what one pass of its main loop does *)
From Verif Require Import Base Bits Telegram_Model Device_Model Device_Spec Device_Spec3 Device_TL Device_Status Device_Proofs Device_Wf Device_Steps Device_Bytes Device_Refine Device_Refine2 Device_Client Device_Restart Device_Answer.
From Verif Require Import Node_Model Node_Spec Node_Proofs.
From Verif Require ComObj_Model ComObj_Spec ComObj_Next ComObj_Proofs ComObj_Values ComObj_Props Rate_Model TL4_Spec Node_Com.

(** ** Telegrams of the application layer among the outputs *)
Definition apps (l : list out) : list (list Z) := flat_map (fun e => match e with Tx KApp t => [t] | _ => [] end) l.
Definition silent (k k' : cfg) : Prop := apps (cO k') = apps (cO k).
Lemma apps_app a b : apps (a ++ b) = apps a ++ apps b.
Proof. apply flat_map_app. Qed.
Lemma silent_refl k : silent k k.
Proof. reflexivity. Qed.
Lemma silent_trans a b d : silent a b -> silent b d -> silent a d.
Proof. unfold silent. congruence. Qed.
Lemma silent_prep n k : n <> KApp -> silent k (sendPreparedTelegram n k).
Proof. intros N. unfold silent, sendPreparedTelegram. cbn [emit cO]. rewrite apps_app. cbn. destruct n; try congruence; apply app_nil_r. Qed.
Lemma silent_finished r k : silent k (finishedSendingTelegram r k).
Proof.
  unfold finishedSendingTelegram. destruct (negb _); [|reflexivity]. destruct (_ && _); [|reflexivity]. match goal with |- silent _ (sendPreparedTelegram _ ?z) => apply (silent_trans _ z) end; [reflexivity|]. apply silent_prep. discriminate.
Qed.
Lemma silent_loop w : forall s o k, acquireLoop s o w = Some k -> apps (cO k) = apps o.
Proof.
  induction w as [|r w IH]; intros s o k; cbn [acquireLoop]; destruct (txs s); try discriminate; try (now intros [= <-]).
  intros E. apply IH in E. rewrite E. apply (silent_finished r (mkCfg s w o)).
Qed.
Lemma silent_acquire k k' : acquireSendBuffer k = Some k' -> silent k k'.
Proof. apply silent_loop. Qed.
Lemma silent_con cmd a n k k' : sendConControlTelegram cmd a n k = Some k' -> silent k k'.
Proof.
  unfold sendConControlTelegram. destruct (acquireSendBuffer k) as [j|] eqn:E; cbn [TL4_Model.andThen]; [|discriminate]. intros [= <-]. apply silent_acquire in E. apply (silent_trans _ _ _ E).
  match goal with |- silent _ (sendPreparedTelegram _ ?z) => apply (silent_trans _ z) end; [reflexivity|]. apply silent_prep. discriminate.
Qed.
Lemma silent_pct k k' : sendPreparedConnectedTelegram k = Some k' -> silent k k'.
Proof.
  unfold sendPreparedConnectedTelegram. destruct (acquireSendBuffer k) as [j|] eqn:E; cbn [TL4_Model.andThen]; [|discriminate]. intros [= <-]. apply silent_acquire in E. apply (silent_trans _ _ _ E).
  match goal with |- silent _ (sendPreparedTelegram _ ?z) => apply (silent_trans _ z) end; [reflexivity|]. apply silent_prep. discriminate.
Qed.
Lemma silent_bind k0 x (f : act) k' : (x >>= f) = Some k' -> (forall k, x = Some k -> silent k0 k) -> (forall k k'', f k = Some k'' -> silent k k'') -> silent k0 k'.
Proof. destruct x; cbn [TL4_Model.andThen]; [|discriminate]. intros E H G. eapply silent_trans; [apply H; reflexivity|apply (G _ _ E)]. Qed.
Ltac sil := intros ? ? [= <-]; reflexivity.
Lemma silent_a06 k k' : actionA06 k = Some k' -> silent k k'.
Proof. unfold actionA06. intros E. apply (silent_bind _ _ _ _ E); [|sil]. intros j J. apply (silent_con _ _ _ _ _ J). Qed.
Lemma silent_a07 n k k' : actionA07 n k = Some k' -> silent k k'.
Proof. unfold actionA07. destruct (st (cS k)); [now intros [= <-]| |]; (destruct (s1 (cS k)); try (now intros [= <-]); intros E; apply (silent_bind _ _ _ _ E); [|sil]; intros j J; apply (silent_pct _ _ J)). Qed.
Lemma silent_a09 n k k' : actionA09 n k = Some k' -> silent k k'.
Proof. unfold actionA09. intros E. apply (silent_bind _ _ _ _ E); [|sil]. intros j J. apply (silent_pct _ _ J). Qed.
Lemma silent_pass n k k' : loop n k = Some k' -> silent k k'.
Proof.
  unfold loop. destruct (txs (cS k)); try (now intros [= <-]). intros E. apply (silent_bind _ _ _ _ E).
  - clear E. intros j E. apply (silent_bind _ _ _ _ E).
    + intros j' J. unfold loopTimeout in J. destruct (st (cS k)); try (injection J as <-; reflexivity); destruct (_ <=? _); try (injection J as <-; reflexivity); apply (silent_a06 _ _ J).
    + intros a b J. unfold loopSend in J. destruct (st (cS a)), (s1 (cS a)); try (injection J as <-; reflexivity). apply (silent_a07 _ _ _ J).
  - intros a b J. unfold loopRepeat in J. destruct (st (cS a)); try (injection J as <-; reflexivity). destruct (_ <=? _); [|injection J as <-; reflexivity]. destruct (_ <? _); [apply (silent_a09 _ _ _ J)|apply (silent_a06 _ _ J)].
Qed.
Definition own_op (o : op) : bool := match o with OpLoop _ | OpTxDone _ | OpDisconnect _ => true | _ => false end.
Lemma silent_step s o s' l : own_op o = true -> step s o = Some (s', l) -> apps l = [].
Proof.
  unfold step. intros N. destruct (stepCfg s o) as [k|] eqn:E; [|discriminate]. intros [= _ <-]. destruct o as [| n |ok| |w|]; try discriminate; cbn [stepCfg] in E.
  - apply (silent_pass _ _ _ E).
  - destruct (txs s); injection E as <-; try reflexivity. apply (silent_finished ok (mkCfg s [] [])).
  - apply (silent_a06 _ _ E).
Qed.
Lemma telegrams_app a b : app_telegrams (a ++ b) = app_telegrams a ++ app_telegrams b.
Proof. apply flat_map_app. Qed.
Lemma telegrams_bus o : app_telegrams (map NOut (map Bus o)) = apps o.
Proof. induction o as [|e r IH]; [reflexivity|]. cbn [map]. change (app_telegrams (NOut (Bus e) :: ?q)) with ((match e with Tx KApp t => [t] | _ => [] end) ++ app_telegrams q). rewrite IH. reflexivity. Qed.
Lemma telegrams_pin l : (forall b, In b l -> exists v, b = Pin v) -> app_telegrams (map NOut l) = [].
Proof. induction l as [|e r IH]; intros H; [reflexivity|]. destruct (H e (or_introl eq_refl)) as (v & ->). cbn. apply IH. intros b Q. apply H. right. exact Q. Qed.

(** ** Facts about sending *)
Lemma sendGroup_sent c m b w x y l : sendGroup c m b w x = Some (y, l) -> apps l = [firstn (telegramSize b) b] /\ txb (tl y) = b.
Proof.
  unfold sendGroup, sendOwn. cbn [tl setMem]. destruct (acquireSendBuffer _) as [k|] eqn:E; [|discriminate]. intros [= <- <-]. apply silent_acquire in E. unfold silent in E. cbn [cO] in E.
  unfold sendPreparedTelegram. cbn [TL4_Model.upd emit cS cO txb set_txs set_txb tl setTl]. rewrite apps_app, E. split; reflexivity.
Qed.

(** ** Receiving: the tests of the code and the words of the specification *)
Lemma land_cmd v : 0 <= v -> Z.land v 0x3c0 = v mod 1024 / 64 * 64.
Proof.
  intros H. change 0x3c0 with (Z.shiftl (Z.ones 4) 6). change 1024 with (2 ^ 10). change 64 with (2 ^ 6) at 1 2. rewrite <- Z.land_ones by lia. rewrite <- Z.shiftr_div_pow2, <- Z.shiftl_mul_pow2 by lia.
  apply Z.bits_inj'. intros n Hn. rewrite Z.land_spec, !Z.shiftl_spec by lia. destruct (Z.ltb_spec n 6). { rewrite !(Z.testbit_neg_r _ (n - 6)) by lia. apply andb_false_r. }
  rewrite Z.shiftr_spec, Z.land_spec by lia. replace (n - 6 + 6) with n by lia. f_equal. destruct (Z.ltb_spec n 10); [rewrite !Z.ones_spec_low by lia; reflexivity|rewrite !Z.ones_spec_high by lia; reflexivity].
Qed.
Lemma apci_word t : Forall is_byte t -> u16 (Z.lor (Z.shiftl (Z.land (rd t 6) 3) 8) (rd t 7)) = rd t 6 mod 4 * 256 + rd t 7.
Proof.
  intros F. pose proof (rd_byte t 6 F) as B6. pose proof (rd_byte t 7 F) as B7. change 3 with (Z.ones 2). rewrite Z.land_ones by lia. change (2 ^ 2) with 4.
  apply Telegram_Proofs.word_split; [|exact B7]. unfold is_byte. pose proof (Z.mod_pos_bound (rd t 6) 4 ltac:(lia)). lia.
Qed.
Lemma apci_cmd t : Forall is_byte t -> Z.land (apciCommand t) 0x3c0 = command t.
Proof.
  intros F. unfold apciCommand, command. rewrite (apci_word t F). cbv zeta. pose proof (rd_byte t 6 F) as B6. pose proof (rd_byte t 7 F) as B7. unfold is_byte in *.
  assert (M : (rd t 6 * 256 + rd t 7) mod 1024 = rd t 6 mod 4 * 256 + rd t 7) by (Z.div_mod_to_equations; lia).
  set (v := rd t 6 mod 4 * 256 + rd t 7) in *. assert (V : 0 <= v < 1024) by (pose proof (Z.mod_pos_bound (rd t 6) 4 ltac:(lia)); lia). rewrite M.
  assert (R : Z.land v 960 = v / 64 * 64) by (rewrite land_cmd by lia; rewrite Z.mod_small by lia; reflexivity).
  destruct (_ || _); unfold APCI_GROUP_MASK; [rewrite <- Z.land_assoc; change (Z.land 0x3c0 0x3c0) with 0x3c0|]; exact R.
Qed.
Lemma dest_is t : Forall is_byte t -> destinationAddress t = dest t.
Proof. intros F. unfold destinationAddress, dest. apply ComObj_Proofs.makeWord_word; apply rd_byte; exact F. Qed.
Lemma dest_u16 t : Forall is_byte t -> is_u16 (dest t).
Proof. intros F. pose proof (rd_byte t 3 F). pose proof (rd_byte t 4 F). unfold dest, ComObj_Spec.word16, is_u16, is_byte in *. lia. Qed.
Lemma group_test t : Forall is_byte t -> is_group t -> negb (destinationAddress t =? 0) && negb (Z.land (rd t 5) 0x80 =? 0) = true.
Proof.
  intros F (A & B). rewrite (dest_is t F). change 0x80 with (2 ^ 7). rewrite (ComObj_Next.bit_land_nz (rd t 5) 7) by lia. rewrite B, andb_true_r. destruct (Z.eqb_spec (dest t) 0); [contradiction|reflexivity].
Qed.

(** ** Installed tables *)
Lemma word_of h l : is_byte h -> is_byte l -> makeWord h l = ComObj_Spec.word16 h l.
Proof. apply ComObj_Proofs.makeWord_word. Qed.
Lemma ptr_in c a : eeStart (lay c) <= a < eeStart (lay c) + eeSize (lay c) -> userMemoryPtr (lay c) a = Some (true, Z.to_nat (a - eeStart (lay c))).
Proof. intros H. unfold userMemoryPtr, MemReq_Model.inRange1. replace (eeStart (lay c) <=? a) with true by lia. replace (a <=? eeStart (lay c) + eeSize (lay c) - 1) with true by lia. reflexivity. Qed.
Lemma installed_tables c le x g : conf_ok c -> wf c x -> installed c le (mem x) g -> ComObj_Spec.cfg_ok g -> tables c le (mem x) = Some g.
Proof.
  intros K ((_ & B & _) & _) [IK IL (IR1 & IR2) (IE1 & IE2) (a & s & t & TA & (AA & A) & (SA & S) & (TTA & TT))] OK. pose proof (ComObj_Spec.ok_eep g OK) as (E0 & E1 & E2). rewrite IE1, IE2 in *.
  assert (X : addrTableBytes c (mem x) = Some (ComObj_Model.addrTab g) /\ assocTableBytes c (mem x) = Some (ComObj_Model.assocTab g) /\ comTableBytes c (mem x) = Some (ComObj_Model.comTab g)).
  { unfold addrTableBytes, assocTableBytes, comTableBytes. unfold tables_at, ee_byte in TA. destruct (kind c).
    - destruct TA as (-> & -> & -> & NZ). rewrite A, S, TT. split; [|split].
      + do 2 f_equal. unfold addrTabSizeOffset. f_equal. lia.
      + do 2 f_equal. unfold assocTabPtrOffset. f_equal. lia.
      + cbv zeta. change (Z.to_nat commsTabPtrOffset) with (Z.to_nat 0x12). destruct (Z.eqb_spec (rd (eeData (mem x)) (Z.to_nat 18)) 0); [contradiction|].
        pose proof (rd_byte (eeData (mem x)) (Z.to_nat 0x12) B) as BB. unfold is_byte in BB. rewrite Z.add_comm. unfold u16. rewrite Z.mod_small by lia. rewrite ptr_in by lia. reflexivity.
    - assert (W : forall o, eeAddress (mem x) o = ComObj_Spec.word16 (rd (eeData (mem x)) (Z.to_nat (o + 1))) (rd (eeData (mem x)) (Z.to_nat o))) by (intros o; unfold eeAddress; apply word_of; apply rd_byte; exact B).
      rewrite !W. destruct TA as (-> & -> & ->).
      change (Prop_Model.addrTabAddrOffset + 1) with 0x379. change Prop_Model.addrTabAddrOffset with 0x378. change (Prop_Model.assocTabAddrOffset + 1) with 0x37B. change Prop_Model.assocTabAddrOffset with 0x37A.
      change (Prop_Model.commsTabAddrOffset + 1) with 0x37D. change Prop_Model.commsTabAddrOffset with 0x37C.
      rewrite !ptr_in by assumption. rewrite A, S, TT. auto. }
  destruct X as (X1 & X2 & X3). unfold tables. rewrite X1, X2, X3. f_equal. destruct g. cbn [ComObj_Model.isBCU2 ComObj_Model.le_ptr ComObj_Model.addrTab ComObj_Model.assocTab ComObj_Model.comTab ComObj_Model.ramStart ComObj_Model.ramSize ComObj_Model.eepStart ComObj_Model.eepSize] in *. subst. reflexivity.
Qed.
Lemma installed_same c le d d' g : eeData d' = eeData d -> installed c le d g -> installed c le d' g.
Proof. intros E [A B C D F]. split; auto. unfold tables_at, in_eeprom, ee_byte in *. rewrite E. exact F. Qed.

(** ** Values and flags in the RAM *)
Section Objects.
Variable g : ComObj_Model.cfg.
Hypothesis SG : settled g.
Lemma same_refl m : same_objects g m m.
Proof. intros o _. split; reflexivity. Qed.
Lemma cell_ram m m' a : ComObj_Model.ram m' = ComObj_Model.ram m -> in_ram_area g a 1 -> ComObj_Spec.cell g m' a = ComObj_Spec.cell g m a.
Proof.
  intros E (A & B). pose proof (ComObj_Spec.ok_disj g (s_cfg g SG)) as D. unfold ComObj_Spec.cell. replace (ComObj_Spec.in_eep g a) with false. { rewrite E. reflexivity. }
  symmetry. unfold ComObj_Spec.in_eep. destruct D; lia.
Qed.
Lemma ram_same m m' : ComObj_Model.ram m' = ComObj_Model.ram m -> same_objects g m m'.
Proof.
  intros E o H. split.
  - pose proof (s_values g SG o H) as (A & B). unfold ComObj_Spec.value. apply map_ext_in. intros i I. apply in_seq in I. apply (cell_ram m m'); [exact E|]. split; lia.
  - pose proof (s_flags g SG) as (A & B). unfold ComObj_Spec.flags. rewrite (cell_ram m m'); [reflexivity|exact E|]. split; [Z.div_mod_to_equations; lia|]. Z.div_mod_to_equations. lia.
Qed.
Lemma same_trans m m1 m2 : same_objects g m m1 -> same_objects g m1 m2 -> same_objects g m m2.
Proof. intros A B o H. destruct (A o H) as (A1 & A2). destruct (B o H) as (B1 & B2). split; congruence. Qed.
Lemma serves_same o m m1 m2 t : (o < ComObj_Spec.num_objs g)%nat -> same_objects g m1 m2 -> ComObj_Spec.serves g o m m1 t -> ComObj_Spec.serves g o m m2 t.
Proof.
  intros H S (a & A1 & A2 & A3 & A4 & A5 & A6 & A7). exists a. split; [exact A1|]. split; [exact A2|].
  assert (R : forall q, (q < ComObj_Spec.num_objs g)%nat -> ComObj_Spec.request g m2 q = ComObj_Spec.request g m1 q) by (intros q Q; unfold ComObj_Spec.request; destruct (S q Q) as (_ & ->); reflexivity).
  split; [rewrite R by exact H; exact A3|]. split; [destruct (S o H) as (-> & _); exact A4|]. split; [|split].
  - intros q Q N. rewrite R by exact Q. apply A5; auto.
  - intros q Q N X. destruct (S q Q) as (-> & ->). apply A6; auto.
  - intros q Q N X1 X2 X3 X4 X5. unfold ComObj_Spec.updated. destruct (S q Q) as (-> & ->). apply A7; auto.
Qed.
Lemma reacts_same h m m1 m2 ts : same_objects g m1 m2 -> reacts g h m m1 ts -> reacts g h m m2 ts.
Proof.
  intros S. unfold reacts.
  assert (TK : forall t, takes g t m m1 -> takes g t m m2).
  { intros t (A & B). split.
    - intros o O W. assert (Q : (o < ComObj_Spec.num_objs g)%nat) by (destruct O as (k & _ & P); apply (s_assoc g SG k o P)). destruct (A o O W) as (A1 & A2 & A3). unfold ComObj_Spec.updated in *. destruct (S o Q) as (-> & ->). auto.
    - intros o Q N. destruct (B o Q N) as (B1 & B2). destruct (S o Q) as (S1 & S2). split; congruence. }
  destruct h as [t|]. 2:{ intros (-> & A). split; [reflexivity|]. apply (same_trans _ _ _ A S). }
  destruct (_ =? 128). { intros (-> & A). split; auto. } destruct (_ =? 64). { intros (-> & A). split; auto. } destruct (_ =? 0). 2:{ intros (-> & A). split; [reflexivity|]. apply (same_trans _ _ _ A S). }
  intros [(A1 & A2 & A3)|(k & A1 & A2 & A3 & A4 & A5)]; [left|right].
  - split; [exact A1|]. split; [exact A2|]. apply (same_trans _ _ _ A3 S).
  - exists k. split; [exact A1|]. split; [exact A2|]. split; [exact A3|]. split.
    + intros q Q. unfold ComObj_Spec.request. destruct (S q Q) as (_ & ->). apply (A4 q Q).
    + intros q Q N. destruct (A5 q Q N) as (B1 & B2). destruct (S q Q) as (S1 & S2). split; congruence.
Qed.
(** ** The EEPROM stays *)
Variable c : conf.
Hypothesis SZ : sized c.
Hypothesis GR : ComObj_Model.ramSize g = ramSize (lay c).
Hypothesis GE : ComObj_Model.eepSize g = eeSize (lay c).
Definition based (e : list Z) (m : ComObj_Model.mem) : Prop := fit c m /\ ComObj_Model.eep m = e.
Lemma value_ram o p : (o < ComObj_Spec.num_objs g)%nat -> ComObj_Model.objectValuePtr g o = Some p -> fst p = false.
Proof.
  intros H E. destruct (ComObj_Proofs.objectValuePtr_at g o (s_cfg g SG) (proj1 (proj2 (s_layout g SG)) o H)) as (q & Q & P). rewrite E in Q. injection Q as <-.
  pose proof (s_values g SG o H) as (A & B). pose proof (ComObj_Spec.ok_disj g (s_cfg g SG)) as D. pose proof (ComObj_Proofs.obj_size_pos g o (s_cfg g SG) (proj1 (proj2 (s_layout g SG)) o H)) as N.
  unfold ComObj_Proofs.ptr_at in P. destruct (fst p); [|reflexivity]. destruct D; lia.
Qed.
Lemma flags_ram p : Node_Com.flagsAt g p -> fst p = false.
Proof.
  intros E. destruct (ComObj_Proofs.objectFlagsTable_at g (s_cfg g SG) (proj1 (s_layout g SG)) (s_some g SG)) as (q & Q & P). unfold Node_Com.flagsAt in E. rewrite E in Q. injection Q as <-.
  pose proof (s_flags g SG) as (A & B). pose proof (ComObj_Spec.ok_disj g (s_cfg g SG)) as D. pose proof (s_some g SG) as N.
  unfold ComObj_Proofs.ptr_at in P. destruct (fst p); [|reflexivity]. exfalso. assert (0 < (Z.of_nat (ComObj_Spec.num_objs g) + 1) / 2) by (Z.div_mod_to_equations; lia). destruct D; lia.
Qed.
Lemma put_based e p : fst p = false -> forall m i v, is_byte v -> based e m -> based e (ComObj_Model.putp m p i v).
Proof. intros P m i v V (F & E). split; [apply (put_fit c SZ g GR GE); auto|]. unfold ComObj_Model.putp. rewrite P. exact E. Qed.
Lemma based_bytes e m : based e m -> Node_Com.mem_bytes m.
Proof. intros (F & _). apply (fit_bytes c m F). Qed.
Definition listed (o : nat) : Prop := (o < ComObj_Spec.num_objs g)%nat.
Lemma kv e o p : listed o -> ComObj_Model.objectValuePtr g o = Some p -> forall m i v, is_byte v -> based e m -> based e (ComObj_Model.putp m p i v).
Proof. intros L P. apply put_based. apply (value_ram o p L P). Qed.
Lemma kf e p : Node_Com.flagsAt g p -> forall m i v, is_byte v -> based e m -> based e (ComObj_Model.putp m p i v).
Proof. intros P. apply put_based. apply (flags_ram p P). Qed.
Lemma ga a o : In (a, o) (ComObj_Model.assocs g) -> listed (Z.to_nat o).
Proof.
  intros I. unfold ComObj_Model.assocs in I. apply in_map_iff in I. destruct I as (i & E & J). apply in_seq in J. pose proof (f_equal fst E) as E1. pose proof (f_equal snd E) as E2. cbn [fst snd] in E1, E2. subst a o. clear E.
  pose proof (rd_byte (ComObj_Model.assocTab g) (1 + 2 * i) (ComObj_Spec.ok_assoc g (s_cfg g SG))) as B1. pose proof (rd_byte (ComObj_Model.assocTab g) (2 + 2 * i) (ComObj_Spec.ok_assoc g (s_cfg g SG))) as B2. unfold is_byte in *.
  apply (s_assoc g SG (Z.to_nat (rd (ComObj_Model.assocTab g) (1 + 2 * i)))). exists i. split; [lia|]. split; rewrite Z2Nat.id by lia; reflexivity.
Qed.
Lemma write_based e o a r s : based e (ComObj_Model.smem s) -> ComObj_Next.buf_ok (ComObj_Model.sendBuf s) ->
  based e (ComObj_Model.smem (ComObj_Model.sendGroupWriteTelegram g o a r s)) /\ ComObj_Next.buf_ok (ComObj_Model.sendBuf (ComObj_Model.sendGroupWriteTelegram g o a r s)).
Proof. apply (Node_Com.send_keeps g listed (based e) (based_bytes e) (kv e) (kf e) ga). Qed.
Lemma next_based e s : based e (ComObj_Model.smem s) -> ComObj_Next.buf_ok (ComObj_Model.sendBuf s) -> 0 <= ComObj_Model.sendNext s ->
  let s' := snd (ComObj_Model.sendNextGroupTelegram g s) in based e (ComObj_Model.smem s') /\ ComObj_Next.buf_ok (ComObj_Model.sendBuf s') /\ 0 <= ComObj_Model.sendNext s'.
Proof. apply (Node_Com.sendNext_keeps g listed (based e) (based_bytes e) (kv e) (kf e) ga). Qed.
Lemma received_based e apci a tel s : Forall is_byte tel -> Z.land apci APCI_GROUP_MASK <> APCI_GROUP_VALUE_READ_PDU -> based e (ComObj_Model.smem s) ->
  based e (ComObj_Model.smem (ComObj_Model.processGroupAddressTelegram g apci a tel s)).
Proof. apply (Node_Com.received_keeps g listed (based e) (kv e) (kf e) ga). Qed.
(** ** Read requests *)
Lemma answer_reads a gapos : forall l, (forall ga o, In (ga, o) l -> is_byte o /\ listed (Z.to_nat o)) -> forall ws x y o s, healthy c x -> answerLoop c g a gapos l ws x = Some (y, o) ->
  ComObj_Model.smem s = userMem c (mem x) -> ComObj_Model.sendBuf s = txb (tl x) ->
  let s' := ComObj_Model.readReqLoop g a gapos ComObj_Model.INVALID_OBJECT_NUMBER l s in
  ComObj_Model.smem s' = userMem c (mem y) /\ ComObj_Model.sent s' = ComObj_Model.sent s ++ apps o /\ eeData (mem y) = eeData (mem x).
Proof.
  induction l as [|(h, q) r IH]; intros G ws x y o s H; cbn [answerLoop ComObj_Model.readReqLoop].
  { intros [= <- <-] M B. cbn [apps flat_map]. rewrite app_nil_r. auto. }
  destruct (G h q (or_introl eq_refl)) as (QB & QL). assert (R : forall ga o, In (ga, o) r -> is_byte o /\ listed (Z.to_nat o)) by (intros v w I; apply (G v w); right; exact I).
  replace (q =? ComObj_Model.INVALID_OBJECT_NUMBER) with false by (unfold is_byte in QB; unfold ComObj_Model.INVALID_OBJECT_NUMBER; lia).
  destruct (negb _); [apply IH; auto|]. cbv zeta. destruct (_ =? ComObj_Model.COMCONF_READ_COMM); [|apply IH; auto]. destruct (ComObj_Model.objectValuePtr g (Z.to_nat q)) as [p|] eqn:P; [|discriminate].
  intros E M B.
  assert (EQ : let u := ComObj_Model.sendGroupWriteTelegram g (Z.to_nat q) a true (comState c x 0) in let v := ComObj_Model.sendGroupWriteTelegram g (Z.to_nat q) a true s in
     ComObj_Model.smem v = ComObj_Model.smem u /\ ComObj_Model.sendBuf v = ComObj_Model.sendBuf u /\ ComObj_Model.sent v = ComObj_Model.sent s ++ [firstn (telegramSize (ComObj_Model.sendBuf u)) (ComObj_Model.sendBuf u)]).
  { cbv zeta. unfold ComObj_Model.sendGroupWriteTelegram. rewrite P. cbv zeta. unfold ComObj_Model.sendPrepared, comState. cbn [ComObj_Model.smem ComObj_Model.sendBuf ComObj_Model.sent]. rewrite M, B. auto. }
  cbv zeta in EQ. set (u := ComObj_Model.sendGroupWriteTelegram g (Z.to_nat q) a true (comState c x 0)) in *. destruct EQ as (Q1 & Q2 & Q3).
  destruct (write_based (eeData (mem x)) (Z.to_nat q) a true (comState c x 0) (conj (userMem_fit c x (proj1 (proj1 H))) eq_refl) (healthy_buf c x H)) as ((F & EE) & BB). fold u in F, EE, BB.
  destruct (sendGroup _ _ _ _ _) as [[z o1]|] eqn:E1; [|discriminate]. destruct (answerLoop _ _ _ _ r _ z) as [[z2 o2]|] eqn:E2; [|discriminate]. injection E as <- <-.
  destruct (sendGroup_ok _ _ _ _ _ _ _ F BB H E1) as (HZ & MZ & _). destruct (sendGroup_sent _ _ _ _ _ _ _ E1) as (S1 & S2).
  assert (UZ : ComObj_Model.smem u = userMem c (mem z)) by (rewrite MZ; symmetry; apply user_stored; apply F).
  destruct (IH R (List.tl ws) z z2 o2 (ComObj_Model.sendGroupWriteTelegram g (Z.to_nat q) a true s) HZ E2 (eq_trans Q1 UZ) (eq_trans Q2 (eq_sym S2))) as (I1 & I2 & I3).
  split; [exact I1|]. split; [rewrite I2, Q3, apps_app, S1, <- app_assoc; reflexivity|]. rewrite I3, MZ. exact EE.
Qed.
End Objects.

(** ** A pass *)
Lemma bits9 v : (Z.land v 9 =? 8) = negb (Z.testbit v 0) && Z.testbit v 3.
Proof.
  destruct (Z.testbit v 0) eqn:B0; cbn [negb andb].
  - apply Z.eqb_neq. intros H. apply (f_equal (fun z => Z.testbit z 0)) in H. rewrite Z.land_spec, B0 in H. discriminate.
  - destruct (Z.testbit v 3) eqn:B3.
    + apply Z.eqb_eq. apply Z.bits_inj'. intros n Hn. rewrite Z.land_spec. destruct (Z.eq_dec n 0) as [->|]; [rewrite B0; reflexivity|]. destruct (Z.eq_dec n 3) as [->|]; [rewrite B3; reflexivity|].
      change 9 with (Z.lor (2 ^ 0) (2 ^ 3)). change 8 with (2 ^ 3). rewrite Z.lor_spec, !Z.pow2_bits_eqb by lia. destruct (Z.eqb_spec 0 n); [lia|]. destruct (Z.eqb_spec 3 n); [lia|]. apply andb_false_r.
    + apply Z.eqb_neq. intros H. apply (f_equal (fun z => Z.testbit z 3)) in H. rewrite Z.land_spec, B3 in H. discriminate.
Qed.
Lemma app_runs c x : applicationRunning c x = true <-> runs c x.
Proof.
  unfold applicationRunning, runs, ee_byte. destruct (kind c).
  - change (Z.lor BCU_STATUS_PROGRAMMING_MODE BCU_STATUS_APPLICATION_LAYER) with 9. change BCU_STATUS_APPLICATION_LAYER with 8. rewrite bits9. change (Z.to_nat runErrorOffset) with (Z.to_nat 0x0D).
    rewrite !andb_true_iff, negb_true_iff, !Z.eqb_eq. tauto.
  - unfold Prop_Model.loadState. change (Z.to_nat (Prop_Model.loadStateOffset + Prop_Model.OT_ADDR_TABLE)) with (Z.to_nat 0x371). change (Z.to_nat (Prop_Model.loadStateOffset + Prop_Model.OT_ASSOC_TABLE)) with (Z.to_nat 0x372).
    change (Z.to_nat (Prop_Model.loadStateOffset + Prop_Model.OT_APPLICATION)) with (Z.to_nat 0x373). change Prop_Model.LS_LOADED with 1. rewrite !andb_true_iff, !Z.eqb_eq. tauto.
Qed.
Definition low_same (c : conf) (x y : device) : Prop := forall i, (i + 1 < Eeprom_Model.esize (ecf c))%nat -> rd (eeData (mem y)) i = rd (eeData (mem x)) i.
Lemma runs_same c x y : conf_ok c -> runState y = runState x -> status (mem y) = status (mem x) -> low_same c x y -> runs c y <-> runs c x.
Proof.
  intros K A B C. pose proof (k_size c K) as S. unfold runs, ee_byte. rewrite A, B. destruct (kind c); rewrite !C by lia; reflexivity.
Qed.
Section Pass.
Variable c : conf.
Hypothesis K : conf_ok c.
Hypothesis T : tables_ok c.
Hypothesis SZ : sized c.
Variable g : ComObj_Model.cfg.
Hypothesis SG : settled g.
Lemma group_reacts le t ws x y o : healthy c x -> tables c le (mem x) = Some g -> Forall is_byte t -> ComObj_Spec.no_stray g (dest t) -> receiveGroup c le t ws x = Some (y, o) ->
  reacts g (Some t) (userMem c (mem x)) (userMem c (mem y)) (apps o) /\ eeData (mem y) = eeData (mem x).
Proof.
  intros H TB F NS. destruct (tables_sizes _ _ _ _ TB) as (_ & GR & _ & GE). unfold receiveGroup. rewrite TB. cbv zeta. change APCI_GROUP_MASK with 0x3c0. rewrite (apci_cmd t F), (dest_is t F).
  pose proof (userMem_fit c x (proj1 (proj1 H))) as FM. pose proof (proj1 (fit_mem c g _ SZ GR GE) FM) as MO. destruct SG as [OC OL OA OI ON OF OV]. unfold reacts.
  change APCI_GROUP_VALUE_READ_PDU with 0. destruct (Z.eqb_spec (command t) 0) as [E0|N0].
  - rewrite E0. change (0 =? 128) with false. change (0 =? 64) with false. change (0 =? 0) with true. cbv iota. pose proof (ComObj_Values.indexOfAddr_first g (dest t) OC (dest_u16 t F) NS) as IX.
    destruct IX as [(k & FK & EQ)|(NK & EQ)]; rewrite EQ.
    2:{ change (-1 <? 0) with true. cbv iota. intros [= <- <-]. split; [|reflexivity]. left. split; [exact NK|]. split; [reflexivity|]. apply same_refl. }
    replace (Z.of_nat k <? 0) with false by lia. intros E. assert (KN : ComObj_Spec.knows g (dest t)) by (destruct FK as (K1 & K2 & _); exists k; auto).
    assert (GL : forall a q, In (a, q) (ComObj_Model.assocs g) -> is_byte q /\ listed g (Z.to_nat q)).
    { intros a q I. split; [|apply (ga g SG a q I)]. unfold ComObj_Model.assocs in I. apply in_map_iff in I. destruct I as (j & J & _). apply (f_equal snd) in J. cbn [snd] in J. subst q. apply rd_byte. apply OC. }
    destruct (answer_reads g SG c SZ GR GE (dest t) (Z.of_nat k) (ComObj_Model.assocs g) GL ws x y o (comState c x 0) H E eq_refl eq_refl) as (A1 & A2 & A3). split; [|exact A3]. right. exists k. split; [exact FK|].
    destruct (ComObj_Next.readReqLoop_spec g (dest t) k OC OL OA (dest_u16 t F) (ComObj_Next.knows_no_stray g (dest t) KN) (Z.to_nat (rd (ComObj_Model.assocTab g) 0)) 0 (comState c x 0) eq_refl MO (healthy_buf c x H)) as (ts & S1 & (R1 & R2) & (R3 & R4) & _).
    change (map (fun i => (rd (ComObj_Model.assocTab g) (1 + 2 * i), rd (ComObj_Model.assocTab g) (2 + 2 * i))) (seq 0 (Z.to_nat (rd (ComObj_Model.assocTab g) 0)))) with (ComObj_Model.assocs g) in S1, R3, R4.
    rewrite A1 in R3, R4. rewrite A2 in S1. cbn [comState ComObj_Model.sent app] in S1. rewrite S1. split; [exact R1|]. split; [exact R2|]. split; [exact R3|exact R4].
  - intros E. injection E as <- <-. cbn [mem setMem apps flat_map].
    destruct (received_based g SG c SZ GR GE (eeData (mem x)) (apciCommand t) (dest t) t (comState c x 0) F) as (FF & EE); [change APCI_GROUP_MASK with 0x3c0; rewrite (apci_cmd t F); exact N0|split; [exact FM|reflexivity]|].
    rewrite user_stored by apply FF. split; [|exact EE].
    assert (TK : command t = 128 \/ command t = 64 -> takes g t (userMem c (mem x)) (ComObj_Model.smem (ComObj_Model.processGroupAddressTelegram g (apciCommand t) (dest t) t (comState c x 0)))).
    { intros Q. destruct (ComObj_Props.C18_group_write g (comState c x 0) t (dest t) (apciCommand t) OC OL OA MO F (dest_u16 t F) NS) as (P1 & P2 & _); [rewrite (apci_cmd t F); exact Q|]. split; [exact P1|exact P2]. }
    destruct (Z.eqb_spec (command t) 128) as [E8|N8]; [split; [reflexivity|]; apply TK; auto|]. destruct (Z.eqb_spec (command t) 64) as [E4|N4]; [split; [reflexivity|]; apply TK; auto|].
    split; [reflexivity|]. unfold ComObj_Model.processGroupAddressTelegram, ComObj_Model.processGroupTelegram. change APCI_GROUP_MASK with 0x3c0. rewrite (apci_cmd t F).
    change APCI_GROUP_VALUE_WRITE_PDU with 128. change APCI_GROUP_VALUE_RESPONSE_PDU with 64. change APCI_GROUP_VALUE_READ_PDU with 0.
    destruct (Z.eqb_spec (command t) 128); [contradiction|]. destruct (Z.eqb_spec (command t) 64); [contradiction|]. destruct (Z.eqb_spec (command t) 0); [contradiction|]. apply same_refl.
Qed.
Lemma received_reacts i x s x2 o2 : healthy c (setTl (ndev x) s) -> tables c (nle x) (mem (ndev x)) = Some g -> nop_ok (NLoop i) -> group_only g i x ->
  checkReceivedAny c (nle x) i (setTl (ndev x) s) = Some (x2, o2) ->
  reacts g (heard i x) (contents c x) (userMem c (mem x2)) (app_telegrams (map NOut o2)) /\ eeData (mem x2) = eeData (mem (ndev x)) /\ stays (setTl (ndev x) s) x2.
Proof.
  intros H TB OK GO. unfold checkReceivedAny, heard, group_only, heard in *. cbn [mem setTl]. change BCU_STATUS_TRANSPORT_LAYER with (2 ^ 2). rewrite (ComObj_Next.bit_land_nz (status (mem (ndev x))) 2) by lia.
  assert (Q : forall o : list dout, o = [] -> app_telegrams (map NOut o) = []) by (intros o ->; reflexivity).
  destruct (rx (base i)) as [r|] eqn:R. 2:{ intros [= <- <-]. split; [|split; [reflexivity|apply stays_refl]]. split; [reflexivity|apply same_refl]. }
  destruct (_ && _) eqn:B. 2:{ intros [= <- <-]. split; [|split; [reflexivity|apply stays_refl]]. split; [reflexivity|apply same_refl]. }
  pose proof (OK r R) as F. destruct (GO _ eq_refl) as (GG & NS). unfold receiveAny. rewrite (group_test _ F GG). destruct (receiveGroup _ _ _ _ _) as [[z o]|] eqn:E; [|discriminate]. intros [= <- <-].
  assert (TB' : tables c (nle x) (mem (setTl (ndev x) s)) = Some g) by exact TB. destruct (group_reacts _ _ _ _ _ _ H TB' F NS E) as (A & D). destruct (group_ok c SZ _ _ _ _ _ _ F H E) as (_ & ST).
  split; [|split; [exact D|exact ST]]. pose proof (telegrams_bus (Group (rxTel r) :: o)) as TE. match goal with |- reacts _ _ _ _ ?q => change q with (app_telegrams (map NOut (map Bus (Group (rxTel r) :: o)))) end. rewrite TE. exact A.
Qed.
Lemma send_does le next w x b n y o : healthy c x -> tables c le (mem x) = Some g -> 0 <= next -> sendNext c le next w x = Some (b, n, y, o) ->
  let idx := Z.to_nat (next mod Z.of_nat (ComObj_Spec.num_objs g)) in
  eeData (mem y) = eeData (mem x) /\
  ((exists q t, (idx <= q < ComObj_Spec.num_objs g)%nat /\ wants g (userMem c (mem x)) q /\ (forall j, (idx <= j < q)%nat -> ~ wants g (userMem c (mem x)) j) /\ apps o = [t] /\
      ComObj_Spec.serves g q (userMem c (mem x)) (userMem c (mem y)) t /\ n = Z.of_nat q + 1 /\ b = true) \/
   ((forall j, (idx <= j < ComObj_Spec.num_objs g)%nat -> ~ wants g (userMem c (mem x)) j) /\ o = [] /\ y = x /\ n = Z.of_nat idx + 1 /\ b = false)).
Proof.
  intros H TB N. destruct (tables_sizes _ _ _ _ TB) as (_ & GR & _ & GE). unfold sendNext. rewrite TB. pose proof (userMem_fit c x (proj1 (proj1 H))) as FM. pose proof (proj1 (fit_mem c g _ SZ GR GE) FM) as MO.
  destruct SG as [OC OL OA OI ON OF OV]. pose proof (ComObj_Next.sendNext_step g (comState c x next) OC OL OA OI MO (healthy_buf c x H) ON N) as ST.
  pose proof (next_based g SG c SZ GR GE (eeData (mem x)) (comState c x next) (conj FM eq_refl) (healthy_buf c x H) N) as NB.
  destruct (ComObj_Model.sendNextGroupTelegram g (comState c x next)) as [sent s] eqn:E. cbv zeta in *. cbn [fst snd comState ComObj_Model.sendNext ComObj_Model.smem ComObj_Model.sent app] in ST, NB.
  destruct NB as ((FF & EE) & BB & _). destruct ST as (_ & _ & [(q & t & S1 & S2 & S3 & S4 & S5 & S6 & S7 & S8)|(S1 & S2 & S3 & S4 & S5)]).
  - rewrite S5. destruct (sendGroup _ _ _ _ _) as [[z oo]|] eqn:G; [|discriminate]. intros [= <- <- <- <-]. destruct (sendGroup_ok _ _ _ _ _ _ _ FF BB H G) as (_ & MZ & _). destruct (sendGroup_sent _ _ _ _ _ _ _ G) as (AP & _).
    assert (UZ : userMem c (mem z) = ComObj_Model.smem s) by (rewrite MZ; apply user_stored; apply FF). split; [rewrite MZ; exact EE|]. left. exists q, t.
    assert (TT : firstn (telegramSize (ComObj_Model.sendBuf s)) (ComObj_Model.sendBuf s) = t).
    { assert (Z0 : forall u, ComObj_Model.sendNextGroupTelegram g (comState c x next) = (true, u) -> ComObj_Model.sent u = [firstn (telegramSize (ComObj_Model.sendBuf u)) (ComObj_Model.sendBuf u)]).
      { intros u. unfold ComObj_Model.sendNextGroupTelegram. destruct (ComObj_Model.objectFlagsTable g) as [p|]; [|discriminate]. destruct (Nat.eqb _ 0); [discriminate|]. cbv zeta. destruct (ComObj_Model.scanSend _ _ _ _ _) as [k|] eqn:SC; [|discriminate]. intros [= <-].
        unfold ComObj_Model.sendObject. cbv zeta. cbn [ComObj_Model.sent ComObj_Model.sendBuf]. destruct (negb _).
        - unfold ComObj_Model.sendGroupReadTelegram, ComObj_Model.sendPrepared. cbn [ComObj_Model.sent ComObj_Model.sendBuf comState app]. reflexivity.
        - assert (KL : (k < ComObj_Spec.num_objs g)%nat).
          { pose proof (ComObj_Next.scanSend_spec g p (ComObj_Model.smem (comState c x next)) (fun o => ComObj_Model.wantsSend g p o (ComObj_Model.smem (comState c x next)) = true) (fun o _ => iff_refl _) (ComObj_Model.objectCount g - Z.to_nat (ComObj_Model.sendNext (comState c x next) mod Z.of_nat (ComObj_Model.objectCount g))) (Z.to_nat (ComObj_Model.sendNext (comState c x next) mod Z.of_nat (ComObj_Model.objectCount g)))) as Q.
            rewrite SC in Q. change (ComObj_Model.objectCount g) with (ComObj_Spec.num_objs g) in Q. cbn [comState ComObj_Model.sendNext] in Q. pose proof (Z.mod_pos_bound next (Z.of_nat (ComObj_Spec.num_objs g)) ltac:(lia)). destruct Q as (Q & _); [lia|]. lia. }
          destruct (ComObj_Proofs.objectValuePtr_at g k OC (proj1 (proj2 OL) k KL)) as (pp & PP & _).
          unfold ComObj_Model.sendGroupWriteTelegram. rewrite PP. cbv zeta. unfold ComObj_Model.sendPrepared. cbn [ComObj_Model.sent ComObj_Model.sendBuf comState app]. reflexivity. }
      rewrite S5 in E. rewrite (Z0 s E) in S7. injection S7 as S7. exact S7. }
    split; [exact S1|]. split; [split; assumption|]. split; [exact S4|]. split; [rewrite AP, TT; reflexivity|]. rewrite UZ. split; [exact S8|]. split; [exact S6|reflexivity].
  - rewrite S2. intros [= <- <- <- <-]. split; [reflexivity|]. right. split; [exact S1|]. auto.
Qed.
End Pass.
