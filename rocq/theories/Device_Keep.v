(** The EEPROM of a device: what changes it, and that it is saved *)
From Verif Require Import Base Bits Telegram_Model Device_Model Device_Spec Device_Spec4 Device_TL Device_Status Device_EeWrite Device_Proofs Device_Wf Device_Steps Device_Save Device_Restart.
From Verif Require MemReq_Spec.
Import Eeprom_Model(esize, fsize, marked).
Import Eeprom_Spec(ecfg_ok, sector_ok).

Lemma small L : MemReq_Spec.layout_ok L -> small_layout L.
Proof. intros [A B C D]. unfold small_layout. lia. Qed.
(** ** Requests *)
(** [keeps_or P d d']: the mark stays, and the byte stays or [P] *)
Definition mono (d d' : dev) : Prop := eeModified d = true -> eeModified d' = true.
Lemma memory_ee L t sb d b sb' d' j : small_layout L -> Forall is_byte t -> processMemoryApci L t sb d = Some (b, sb', d') ->
  mono d d' /\ (rd (eeData d') j = rd (eeData d) j \/ (0x280 <= service t < 0x2C0 /\ two t 8 <= eeStart L + Z.of_nat j < two t 8 + rd t 7 mod 16 /\ rd (eeData d') j = rd t (10 + Z.to_nat (eeStart L + Z.of_nat j - two t 8)))).
Proof.
  intros R F. unfold processMemoryApci. cbv zeta. unfold APCI_MEMORY_READ_PDU, APCI_MEMORY_WRITE_PDU. rewrite !command_short by (auto; lia). rewrite two_word by auto.
  pose proof (two_range t 8 F). destruct (_ && _). { intros E. apply memoryRead_same in E. destruct E as (-> & E & _). split; [intros Q; congruence|now left]. }
  destruct ((0x280 <=? service t) && _) eqn:W; [|discriminate]. rewrite land_15. pose proof (Z.mod_pos_bound (rd t 7) 16 ltac:(lia)).
  destruct (processApciMemoryOperation _ _ _ _ _ _ _) as [[[ok s] d1]|] eqn:E; [|discriminate]. apply (op_ee _ _ _ _ _ _ _ _ _ j) in E; [|auto|lia|lia]. destruct E as (E0 & E).
  assert (Q : eeData d' = eeData d1 -> eeModified d' = eeModified d1 -> mono d d' /\ (rd (eeData d') j = rd (eeData d) j \/ (0x280 <= service t < 0x2C0 /\ two t 8 <= eeStart L + Z.of_nat j < two t 8 + rd t 7 mod 16 /\ rd (eeData d') j = rd t (10 + Z.to_nat (eeStart L + Z.of_nat j - two t 8))))).
  { intros -> Q. split; [intros M; rewrite Q; auto|]. destruct E as [E|(E1 & E2 & _)]; [now left|right]. split; [lia|]. split; auto. }
  match goal with |- context [if ?b then _ else _] => destruct b end.
  - intros M. apply memoryRead_same in M. destruct M as (M1 & M2 & _). auto.
  - intros [= _ _ <-]. auto.
Qed.
(** a write in the EEPROM *)
Lemma memory_ee_all L t sb d b sb' d' j v : small_layout L -> Forall is_byte t -> 0x280 <= service t < 0x2C0 -> eeStart L <= two t 8 -> two t 8 + rd t 7 mod 16 <= eeStart L + eeSize L ->
  match memMapper d with Some m => isMapped (mapCfg L) (two t 8) m = false | None => True end ->
  two t 8 <= eeStart L + Z.of_nat j < two t 8 + rd t 7 mod 16 -> v = rd t (10 + Z.to_nat (eeStart L + Z.of_nat j - two t 8)) ->
  processMemoryApci L t sb d = Some (b, sb', d') -> rd (eeData d') j = v /\ eeModified d' = true.
Proof.
  intros R F SV H0 H1 NM HJ ->. unfold processMemoryApci. cbv zeta. unfold APCI_MEMORY_READ_PDU, APCI_MEMORY_WRITE_PDU. rewrite !command_short by (auto; lia). rewrite two_word by auto.
  pose proof (two_range t 8 F). destruct ((0x200 <=? service t) && _) eqn:RR; [lia|]. destruct ((0x280 <=? service t) && _) eqn:W; [|discriminate]. rewrite land_15. pose proof (Z.mod_pos_bound (rd t 7) 16 ltac:(lia)).
  destruct (processApciMemoryOperation _ _ _ _ _ _ _) as [[[ok s] d1]|] eqn:E; [|discriminate].
  set (n := Z.to_nat (rd t 7 mod 16)). replace (rd t 7 mod 16) with (Z.of_nat n) in E by lia. apply op_ee_all in E; [|auto|lia|lia|lia|lia|exact NM]. destruct E as (_ & E1 & E2).
  specialize (E2 (Z.to_nat (eeStart L + Z.of_nat j - two t 8)) ltac:(lia)). replace (Z.to_nat (two t 8 - eeStart L) + Z.to_nat (eeStart L + Z.of_nat j - two t 8))%nat with j in E2 by lia.
  match goal with |- context [if ?b then _ else _] => destruct b end.
  - intros M. apply memoryRead_same in M. destruct M as (M1 & M2 & _). rewrite M1, M2. auto.
  - intros [= _ _ <-]. auto.
Qed.
Lemma load_mod L static o data n d : eeModified d = true -> eeModified (snd (loadProperty L static o data n d)) = true.
Proof.
  intros W. unfold loadProperty, handleAllocAbsTaskSegment, handleTaskCtrl1, handleTaskCtrl2. cbv zeta.
  repeat match goal with |- context [if ?b then (_, _) else _] => destruct b; [cbn; auto; fail|] end.
  repeat match goal with |- eeModified (snd (if ?b then _ else _)) = _ => destruct b; cbn; auto end.
Qed.
Lemma vput_mod v k bs d d' : vput v k bs d = Some d' -> eeModified d' = eeModified d.
Proof. unfold vput. destruct v; [destruct (zput _ _ _)|destruct (zput _ _ _)|destruct (Nat.eqb _ _)]; try discriminate; now intros [= <-]. Qed.
Lemma prop_ee L static tabs t n sb d sb' d' : Forall is_byte t -> processPropertyApci L static tabs t n sb d = Some (sb', d') -> mono d d' /\ (eeData d' = eeData d \/ service t = 0x3D7).
Proof.
  intros F. unfold processPropertyApci. cbv zeta. destruct (_ || _) eqn:C.
  - destruct (apciCommand t =? _) eqn:CR.
    + unfold option_map. destruct (propertyValueRead _ _ _ _ _ _ _) as [[f b]|]; [|discriminate]. intros [= _ <-]. split; [red; auto|now left].
    + cbn [orb] in C. unfold APCI_PROPERTY_VALUE_WRITE_PDU in C. rewrite command_long in C by auto. assert (S : service t = 0x3D7) by lia.
      intros E. split; [|right; exact S]. revert E. unfold propertyValueWrite. destruct (propertyDef _ _ _) as [[p|]|]; [|now intros [= _ <-]|discriminate]. destruct (_ =? 0); [now intros [= _ <-]|].
      destruct (valuePointer p) as [v|]; [|discriminate]. destruct (ptype p =? _).
      * pose proof (load_mod L static (rd t 8) (skipn 12 t) (n - 13) d) as Q. destruct (loadProperty _ _ _ _ _ _) as [s d1]. intros [= _ <-]. exact Q.
      * destruct (bget _ _ _) as [bs|]; [|discriminate]. destruct (vput _ _ _ _) as [d1|] eqn:V; [|discriminate]. apply vput_mod in V. destruct (vget _ _ _ _); [|discriminate].
        destruct (bput _ _ _); [|discriminate]. intros [= _ <-]. intros Q. destruct (isEepromPointer p); [reflexivity|congruence].
  - destruct (apciCommand t =? APCI_PROPERTY_DESCRIPTION_READ_PDU); [|discriminate]. unfold option_map. destruct (propertyDescRead _ _ _ _ _ _); [|discriminate]. intros [= _ <-]. split; [red; auto|now left].
Qed.
Definition write_of (c : conf) (t : list Z) (j : nat) (d d' : dev) : Prop := rd (eeData d') j = rd (eeData d) j \/ writes_byte c t j (rd (eeData d') j) \/ (kind c = Bcu2 /\ service t = 0x3D7).
Lemma default_ee c n conn t sb x b sb' y j : small_layout (lay c) -> Forall is_byte t -> processApciDefault c n conn t sb x = Some (b, sb', y) -> mono (mem x) (mem y) /\ write_of c t j (mem x) (mem y).
Proof.
  intros S F. assert (N : mono (mem x) (mem x) /\ write_of c t j (mem x) (mem x)) by (split; [red; auto|now left]). unfold processApciDefault. cbv zeta. destruct (_ =? _); [intros [= _ _ <-]; exact N|]. destruct (_ || _).
  { destruct (processMemoryApci _ _ _ _) as [[[a s] d]|] eqn:E; [|discriminate]. intros [= _ _ <-]. cbn [mem setMem]. destruct (memory_ee _ _ _ _ _ _ _ j S F E) as (A & [B|B]); (split; [exact A|]); [now left|right; left; exact B]. }
  destruct (_ =? _). { destruct (descriptorRead _ _ _). intros [= _ _ <-]; exact N. }
  destruct (_ =? _). { unfold masterReset. destruct (_ && _); [intros [= _ _ <-]; exact N|]. destruct (_ || _); [intros [= _ _ <-]; exact N|]. destruct (_ =? _); intros [= _ _ <-]; exact N. }
  destruct (_ =? _); [intros [= _ _ <-]; exact N|]. destruct (_ =? _); intros [= _ _ <-]; exact N.
Qed.
Lemma apci_ee c n conn t len sb x b sb' y j : small_layout (lay c) -> Forall is_byte t -> processApci c n conn t len sb x = Some (b, sb', y) -> mono (mem x) (mem y) /\ write_of c t j (mem x) (mem y).
Proof.
  intros S F. unfold processApci. destruct (kind c) eqn:K; [apply default_ee; auto|]. destruct (isPropertyCommand _); [|apply default_ee; auto].
  destruct (processPropertyApci _ _ _ _ _ _ _) as [[s d]|] eqn:E; [|discriminate]. intros [= _ _ <-]. cbn [mem setMem]. destruct (prop_ee _ _ _ _ _ _ _ _ _ F E) as (A & [B|B]); (split; [exact A|]); [left; now rewrite B|right; right; auto].
Qed.
Lemma command_memory t : Forall is_byte t -> 0x280 <= service t < 0x2C0 -> isPropertyCommand (apciCommand t) = false.
Proof.
  intros F S. unfold isPropertyCommand, APCI_PROPERTY_VALUE_READ_PDU, APCI_PROPERTY_VALUE_WRITE_PDU, APCI_PROPERTY_DESCRIPTION_READ_PDU. rewrite !command_long by auto. lia.
Qed.
Lemma apci_ee_all c n conn t len sb x b sb' y j v : small_layout (lay c) -> Forall is_byte t -> in_eeprom_range c x t -> writes_byte c t j v -> processApci c n conn t len sb x = Some (b, sb', y) -> rd (eeData (mem y)) j = v /\ eeModified (mem y) = true.
Proof.
  intros S F (A & B & C) (W1 & W2 & W3) E.
  assert (E' : processApciDefault c n conn t sb x = Some (b, sb', y)) by (unfold processApci in E; rewrite (command_memory t F W1) in E; destruct (kind c); exact E). clear E.
  unfold processApciDefault in E'. cbv zeta in E'. unfold APCI_ADC_READ_PDU, APCI_MEMORY_READ_PDU, APCI_MEMORY_WRITE_PDU in E'. rewrite !command_short in E' by auto 10.
  destruct ((0x180 <=? service t) && _) eqn:Q; [lia|]. destruct ((0x200 <=? service t) && _) eqn:Q1; [lia|]. destruct ((0x280 <=? service t) && _) eqn:Q2; [|lia]. cbn [orb] in E'.
  destruct (processMemoryApci _ _ _ _) as [[[a s] d]|] eqn:M; [|discriminate]. injection E' as _ _ <-. cbn [mem setMem]. apply (memory_ee_all _ _ _ _ _ _ _ _ _ S F W1 A B C W2 W3 M).
Qed.
(** ** The own address *)
Lemma store_ee a d j : rd (eeData (storeOwnAddress a d)) j = rd (eeData d) j \/ j = Z.to_nat 0x17 \/ j = Z.to_nat 0x18.
Proof.
  unfold storeOwnAddress. destruct (negb _); [|now left]. cbn [eeData touch]. destruct (Nat.eq_dec j (Z.to_nat 0x17)); [auto|]. destruct (Nat.eq_dec j (Z.to_nat 0x18)); [auto|]. left. rewrite !rd_eeByte_other by (unfold addrTabOffset; lia). reflexivity.
Qed.
Lemma store_mod a d : mono d (storeOwnAddress a d).
Proof. unfold storeOwnAddress. destruct (negb _); red; auto. Qed.
Lemma memOwn_mod c a d d' : memOwnAddress c a d = Some d' -> mono d d'.
Proof.
  unfold memOwnAddress. cbv zeta. pose proof (store_mod a d) as M. destruct (kind c); [now intros [= <-]|]. destruct (_ =? _); [|now intros [= <-]]. destruct (addrTable _ _) as [p|]; [|discriminate]. unfold option_map. destruct (pokeWord _ _ _ _) as [q|]; [|discriminate]. intros [= <-]. red. auto.
Qed.
Lemma memOwn_ee c a d d' j : not_loading (kind c) d -> memOwnAddress c a d = Some d' -> rd (eeData d') j = rd (eeData d) j \/ j = Z.to_nat 0x17 \/ j = Z.to_nat 0x18.
Proof.
  intros NL. unfold memOwnAddress. cbv zeta. destruct (kind c); [intros [= <-]; apply store_ee|]. destruct (_ =? _) eqn:LS; [|intros [= <-]; apply store_ee]. exfalso. destruct NL as [NL|NL]; [discriminate|].
  unfold loadState, loadStateOffset, OT_ADDR_TABLE, LS_LOADING in LS. change (0x370 + 1) with 0x371 in LS. destruct (store_ee a d (Z.to_nat 0x371)) as [Q|[Q|Q]]; [rewrite Q in LS; lia|discriminate|discriminate].
Qed.

Definition ordered (c : conf) (t : list Z) (j : nat) (d d' : dev) : Prop :=
  rd (eeData d') j = rd (eeData d) j \/ (exists a, address_order (kind c) d t a /\ (not_loading (kind c) d -> j = Z.to_nat 0x17 \/ j = Z.to_nat 0x18)).
Lemma setOwn_ee c a t x y j : address_order (kind c) (mem x) t a -> setOwnAddress c a x = Some y -> mono (mem x) (mem y) /\ ordered c t j (mem x) (mem y).
Proof.
  intros A. unfold setOwnAddress. destruct (memOwnAddress _ _ _) as [d|] eqn:M; [|discriminate]. intros [= <-]. cbn [mem setTl setMem]. split; [apply (memOwn_mod _ _ _ _ M)|].
  destruct (Z.eq_dec (rd (eeData d) j) (rd (eeData (mem x)) j)) as [|N]; [now left|right]. exists a. split; [exact A|]. intros NL. destruct (memOwn_ee _ _ _ _ j NL M) as [?|?]; [contradiction|assumption].
Qed.
Lemma same_ee c t j d : mono d d /\ ordered c t j d d.
Proof. split; [red; auto|now left]. Qed.
Lemma sendOwn_ee c t f w x y l j : sendOwn f w x = Some (y, l) -> mono (mem x) (mem y) /\ ordered c t j (mem x) (mem y).
Proof. intros E. destruct (sendOwn_frame _ _ _ _ _ E) as (_ & -> & _). apply same_ee. Qed.
Lemma default_order c t w x y l j : Forall is_byte t -> destination t = 0 -> broadcastDefault c t w x = Some (y, l) -> mono (mem x) (mem y) /\ ordered c t j (mem x) (mem y).
Proof.
  intros F D. unfold broadcastDefault. cbv zeta. rewrite programming_bit. destruct (Z.testbit (status (mem x)) 0) eqn:P; cbn [negb]; [|intros [= <- _]; apply same_ee].
  unfold APCI_INDIVIDUAL_ADDRESS_WRITE_PDU. rewrite command_long by auto. destruct (Z.eqb_spec (service t) 0x0C0) as [S|S].
  - intros E. destruct (quiet_some _ _ _ E) as (E' & _). revert E'. apply setOwn_ee. apply by_programming; auto. apply two_word; auto.
  - destruct (apciCommand t =? _); [apply sendOwn_ee|intros [= <- _]; apply same_ee].
Qed.
Lemma broadcast_ee c t w x y l j : Forall is_byte t -> destination t = 0 -> processBroadCastTelegram c t w x = Some (y, l) -> mono (mem x) (mem y) /\ ordered c t j (mem x) (mem y).
Proof.
  intros F D. unfold processBroadCastTelegram. cbv zeta. destruct (kind c) eqn:K; [apply default_order; auto|].
  unfold APCI_INDIVIDUALADDRESS_SERIALNUMBER_WRITE_PDU. rewrite command_long by auto. destruct (Z.eqb_spec (service t) 0x3DE) as [S|S].
  - destruct (sameSerial t (mem x)) eqn:Q; [|intros [= <- _]; apply same_ee]. intros E. destruct (quiet_some _ _ _ E) as (E' & _). revert E'. apply setOwn_ee. apply by_serial; auto; [apply serial_same; auto|apply two_word; auto].
  - destruct (apciCommand t =? _); [|apply default_order; auto]. destruct (sameSerial _ _); [apply sendOwn_ee|intros [= <- _]; apply same_ee].
Qed.
(** ** Telegrams *)
Lemma group_bit t : negb (Z.land (rd t 5) 0x80 =? 0) = Z.testbit (rd t 5) 7.
Proof. change 0x80 with (2 ^ 7). rewrite bit_land by lia. destruct (Z.testbit _ 7); reflexivity. Qed.
Definition execs_out (l : list out) (t : list Z) : Prop := In (Exec t) l \/ In (ExecDirect t) l.
Lemma handed_execs l t : execs_out l t <-> execs_out (handed l) t.
Proof. unfold execs_out, handed. rewrite !filter_In. tauto. Qed.
Lemma map_bus l o : In (Bus o) (map Bus l) <-> In o l.
Proof. rewrite in_map_iff. split; [intros (q & [= ->] & Q); exact Q|intros Q; exists o; auto]. Qed.
Lemma requested_bus l t : requested (map Bus l) t <-> execs_out l t.
Proof. unfold requested, execs_out. rewrite !map_bus. tauto. Qed.
Lemma requested_app l l' t : requested (l ++ l') t <-> requested l t \/ requested l' t.
Proof. unfold requested. rewrite !in_app_iff. tauto. Qed.
Lemma requested_pins l t : (forall b, In b l -> exists v, b = Pin v) -> ~ requested l t.
Proof. intros H [Q|Q]; destruct (H _ Q) as (v & V); discriminate. Qed.
Inductive cause (c : conf) (r : received) (l : list out) (j : nat) (d d' : dev) : Prop :=
| c_same : rd (eeData d') j = rd (eeData d) j -> cause c r l j d d'
| c_write : execs_out l (rxTel r) -> writes_byte c (rxTel r) j (rd (eeData d') j) -> cause c r l j d d'
| c_prop : execs_out l (rxTel r) -> kind c = Bcu2 -> service (rxTel r) = 0x3D7 -> cause c r l j d d'
| c_order a : address_order (kind c) d (rxTel r) a -> (not_loading (kind c) d -> j = Z.to_nat 0x17 \/ j = Z.to_nat 0x18) -> cause c r l j d d'
| c_group : group_telegram (rxTel r) -> cause c r l j d d'.
Lemma receive_ee c n r x y l j : small_layout (lay c) -> Forall is_byte (rxTel r) -> receive c n r x = Some (y, l) ->
  ((group_telegram (rxTel r) -> efModified (rxEffect r) = true) -> mono (mem x) (mem y)) /\ cause c r l j (mem x) (mem y).
Proof.
  intros S F. unfold receive. cbv zeta. destruct (destinationAddress (rxTel r) =? 0) eqn:D0.
  { rewrite dest_field in D0 by auto. destruct (processBroadCastTelegram _ _ _ _) as [[z o]|] eqn:E; [|discriminate]. intros [= <- <-].
    destruct (broadcast_ee _ _ _ _ _ _ j F ltac:(lia) E) as (A & [B|(a & B & C)]); (split; [auto|]); [now apply c_same|apply (c_order _ _ _ _ _ _ a B C)]. }
  destruct (negb (Z.land (rd (rxTel r) 5) 0x80 =? 0)) eqn:G.
  { rewrite dest_field in D0 by auto. rewrite group_bit in G. assert (GT : group_telegram (rxTel r)) by (split; [lia|exact G]). intros [= <- <-]. split; [intros M _; exact (M GT)|]. apply c_group. exact GT. }
  destruct (executes (tl x) (rxTel r)) eqn:X.
  - destruct (processApci _ _ _ _ _ _ _) as [[[ans sb] z]|] eqn:P; [|discriminate]. destruct (step _ _) as [[s o]|] eqn:E; [|discriminate]. intros [= <- <-].
    destruct (step_hands _ _ _ _ E) as (H & _). cbn [handover] in H. rewrite D0, G, X in H. assert (EX : execs_out o (rxTel r)) by (apply (proj2 (handed_execs o _)); rewrite H; unfold execs_out; destruct (Z.land (rd (rxTel r) 6) 0xfc =? 0); cbn [In]; auto).
    cbn [mem setTl]. destruct (apci_ee _ _ _ _ _ _ _ _ _ _ j S F P) as (A & [B|[B|(B1 & B2)]]); (split; [auto|]); [now apply c_same|apply c_write; auto|apply c_prop; auto].
  - destruct (step _ _) as [[s o]|] eqn:E; [|discriminate]. intros [= <- <-]. split; [intros _ M; exact M|]. now apply c_same.
Qed.
Lemma receive_exec c n r x y l t : receive c n r x = Some (y, l) -> execs_out l t ->
  t = rxTel r /\ exists sb ans sb' z s, processApci c (u32 n) (directConnection (tl x)) t (rxLen r) sb x = Some (ans, sb', z) /\ y = setTl z s.
Proof.
  unfold receive. cbv zeta. destruct (destinationAddress (rxTel r) =? 0) eqn:D0.
  { destruct (processBroadCastTelegram _ _ _ _) as [[z o]|] eqn:E; [|discriminate]. intros [= <- <-] X. destruct (broadcast_restart _ _ _ _ _ _ E) as (_ & H).
    apply handed_execs in X. unfold handed in *. cbn [filter] in X. rewrite H in X. destruct X as [[X|[]]|[X|[]]]; discriminate. }
  destruct (negb (Z.land (rd (rxTel r) 5) 0x80 =? 0)) eqn:G. { intros [= <- <-] [[X|[]]|[X|[]]]; discriminate. }
  destruct (executes (tl x) (rxTel r)) eqn:X.
  - destruct (processApci _ _ _ _ _ _ _) as [[[ans sb] z]|] eqn:P; [|discriminate]. destruct (step _ _) as [[s o]|] eqn:E; [|discriminate]. intros [= <- <-] Q.
    destruct (step_hands _ _ _ _ E) as (H & _). cbn [handover] in H. rewrite D0, G, X in H. apply handed_execs in Q. rewrite H in Q.
    assert (T : t = rxTel r) by (revert Q; unfold execs_out; destruct (Z.land (rd (rxTel r) 6) 0xfc =? 0); intros [[Q|[]]|[Q|[]]]; congruence). split; [exact T|]. subst t. do 5 eexists. split; [exact P|reflexivity].
  - destruct (step _ _) as [[s o]|] eqn:E; [|discriminate]. intros [= <- <-] Q. destruct (step_hands _ _ _ _ E) as (H & _). cbn [handover] in H. rewrite D0, G, X in H. apply handed_execs in Q. rewrite H in Q. destruct Q as [[]|[]].
Qed.
(** ** The rest of a pass *)
Definition low (c : conf) (j : nat) : Prop := (j < esize (ecf c) - 1)%nat.
(** the byte is [v] and will be saved or is *)
Definition secured (c : conf) (j : nat) (v : Z) (x : device) : Prop := rd (eeData (mem x)) j = v /\ (eeModified (mem x) = true \/ rd (read_back c (sector x)) j = v).
(** [y] comes from [x] by saving or not *)
Definition tail (c : conf) (x y : device) : Prop := (forall j, low c j -> rd (eeData (mem y)) j = rd (eeData (mem x)) j) /\ forall j v, low c j -> secured c j v x -> secured c j v y.
Lemma tail_same c x y : eeData (mem y) = eeData (mem x) -> eeModified (mem y) = eeModified (mem x) -> sector y = sector x -> tail c x y.
Proof. intros A B C. split; [intros j _; now rewrite A|]. intros j v _. unfold secured. now rewrite A, B, C. Qed.
Lemma tail_trans c x y z : tail c x y -> tail c y z -> tail c x z.
Proof. intros (A & B) (C & D). split; [intros j J; rewrite C, A by exact J; reflexivity|auto]. Qed.
Lemma tail_flush c x y : conf_ok c -> wf c x -> flushUserMemory c x = Some y -> tail c x y.
Proof.
  intros K W E. destruct (flush_wf _ _ _ K W E) as (_ & A & B & C).
  assert (L : forall j, low c j -> rd (eeData (mem y)) j = rd (eeData (mem x)) j) by (intros j J; rewrite A; unfold flushed, marked, low in *; destruct (eeModified (mem x)); [apply rd_wr_other; lia|reflexivity]).
  split; [exact L|]. intros j v J (V & M). unfold secured. rewrite (L j J). split; [exact V|right]. destruct (eeModified (mem x)) eqn:Q.
  - rewrite C, <- A. rewrite (L j J). exact V.
  - rewrite C. destruct M as [M|M]; [discriminate|exact M].
Qed.
Lemma loop_tail c i x y l : conf_ok c -> op_ok c (Loop i) -> wf c x -> bcuLoop c i x = Some (y, l) ->
  exists s x2 o2, own s = own (tl x) /\ checkReceived c i (setTl x s) = Some (x2, o2) /\ wf c x2 /\ tail c x2 y /\ (forall t, requested l t <-> requested o2 t).
Proof.
  intros K OK W E. destruct (loop_parts _ _ _ _ _ E) as (s & o1 & x2 & o2 & x3 & o3 & x4 & o4 & P1 & P2 & P3 & P4 & P5 & P6). exists s, x2, o2.
  destruct (step_hands _ _ _ _ P1) as (H1 & O). cbn [handover] in H1. assert (W1 : wf c (setTl x s)) by (apply wf_setTl; auto). pose proof (wf_received _ _ _ _ _ OK W1 P2) as W2. pose proof (wf_button _ _ _ _ _ _ P3 W2) as W3.
  destruct (button_frame _ _ _ _ _ _ P3) as (_ & SB & B & _ & _ & _ & R3 & PN). split; [apply O; reflexivity|]. split; [exact P2|]. split; [exact W2|].
  assert (T3 : tail c x2 x3) by (apply tail_same; auto; destruct B as [-> | ->]; reflexivity).
  assert (T4 : tail c x3 x4 /\ wf c x4 /\ forall t, ~ requested o4 t).
  { destruct (sending2 i). { destruct P4 as (-> & ->). split; [apply tail_same; reflexivity|]. split; [exact W3|]. intros t [[]|[]]. }
    pose proof (wf_restart _ _ _ _ _ _ K W3 P4) as W4. split; [|split; [exact W4|]].
    - destruct (restart_case _ _ _ _ _ _ P4) as [(_ & -> & _)|[(_ & _ & s' & o & S & -> & _)|[(_ & _ & t & _ & -> & _)|(_ & _ & t & z & _ & F & -> & _)]]]; try (apply tail_same; reflexivity).
      eapply tail_trans; [|apply (tail_same c z (stop z)); reflexivity]. eapply tail_trans; [apply (tail_same c x3 (setRestart x3 (rType x3) (rDisc x3) t)); reflexivity|]. apply tail_flush; [exact K|exact W3|exact F].
    - destruct (restart_case _ _ _ _ _ _ P4) as [(_ & _ & ->)|[(_ & _ & s' & o & S & _ & ->)|[(_ & _ & t & _ & _ & ->)|(_ & _ & t & z & _ & F & _ & ->)]]]; intros t0; try (intros [[]|[]]; fail).
      + rewrite requested_bus, handed_execs. destruct (step_hands _ _ _ _ S) as (-> & _). intros [[]|[]].
      + intros [[Q|[]]|[Q|[]]]; discriminate. }
  destruct T4 as (T4 & W4 & N4). split.
  - apply (tail_trans _ _ x3); [exact T3|]. apply (tail_trans _ _ x4); [exact T4|]. destruct (_ || _); [subst y; apply tail_same; reflexivity|apply tail_flush; auto].
  - intros t. subst l. rewrite !requested_app. rewrite (requested_bus o1), (handed_execs o1), H1. split; [|tauto]. intros [[[]|[]]|[Q|[Q|Q]]]; [exact Q|destruct (requested_pins _ _ PN Q)|destruct (N4 _ Q)].
Qed.
(** ** Operations *)
Lemma step_change c x o y l j : conf_ok c -> small_layout (lay c) -> op_ok c o -> wf c x -> is_power_up o = false -> low c j -> dstep c x o = Some (y, l) ->
  rd (eeData (mem y)) j = rd (eeData (mem x)) j \/ change c x o y l j.
Proof.
  intros K S OK W PU J. unfold dstep. destruct (running x) eqn:R; [|destruct o; try discriminate; intros [= <- _]; now left].
  destruct o as [i|ok|b|g|buf w|lst junk]; [|destruct (step _ _) as [[s q]|]; [|discriminate]; intros [= <- _]; now left|destruct (setProgrammingMode c b x) as [[q z] k] eqn:M; intros [= <- _]; left|
    intros [= <- <-]; right; apply (by_application _ _ _ _ _ _ g); reflexivity|destruct (step _ _) as [[s q]|]; [|discriminate]; intros [= <- _]; now left|discriminate].
  - intros E. destruct (loop_tail _ _ _ _ _ K OK W E) as (s & x2 & o2 & _ & P2 & W2 & (T & _) & RQ). rewrite (T j J).
    destruct (received_case _ _ _ _ _ P2) as [(r & k & RX & S1 & ST & V & ->)|(_ & -> & _)]; [|now left]. destruct (OK r RX) as (F & _). destruct (receive_ee _ _ _ _ _ _ j S F V) as (_ & C). cbn [mem setTl] in *.
    assert (TK : takes x (Loop i) r) by (split; [exact R|]; exists i; auto). destruct C as [C|C1 C2|C1 C2 C3|a C1 C2|C]; [now left|right..].
    + apply (by_memory_write _ _ _ _ _ _ (rxTel r)); [apply RQ; now apply requested_bus|]. rewrite (T j J). exact C2.
    + apply (by_property_write _ _ _ _ _ _ (rxTel r)); auto. apply RQ. now apply requested_bus.
    + apply (by_address_order _ _ _ _ _ _ r a); auto.
    + apply (by_group _ _ _ _ _ _ r); auto.
  - unfold setProgrammingMode in M. destruct (progPin c); injection M as _ <- _; [|reflexivity]. destruct (negb _); reflexivity.
Qed.
Lemma step_writes c x o y l t j v : conf_ok c -> small_layout (lay c) -> op_ok c o -> wf c x -> low c j -> dstep c x o = Some (y, l) -> requested l t -> in_eeprom_range c x t -> writes_byte c t j v -> secured c j v y.
Proof.
  intros K S OK W J E RQ IE WB. assert (NX : forall s op k, is_set op = false -> handover s op = [] -> forall s', step s op = Some (s', k) -> ~ requested (map Bus k) t).
  { intros s op k _ H s' E'. rewrite requested_bus, handed_execs. destruct (step_hands _ _ _ _ E') as (-> & _). rewrite H. intros [[]|[]]. }
  unfold dstep in E. destruct o as [i|ok|b|g|buf w|lst junk].
  6:{ unfold option_map in E. destruct (powerUp _ _ _ _ _); [|discriminate]. injection E as _ <-. destruct RQ as [[]|[]]. }
  all: destruct (running x) eqn:R; [|injection E as _ <-; destruct RQ as [[]|[]]].
  - destruct (loop_tail _ _ _ _ _ K OK W E) as (s & x2 & o2 & _ & P2 & W2 & (_ & T) & RQ'). apply (T j v J). apply RQ' in RQ.
    destruct (received_case _ _ _ _ _ P2) as [(r & k & RX & S1 & ST & V & ->)|(_ & _ & ->)]; [|destruct RQ as [[]|[]]]. apply requested_bus in RQ. destruct (OK r RX) as (F & _).
    destruct (receive_exec _ _ _ _ _ _ _ V RQ) as (-> & sb & ans & sb' & z & s2 & P & ->). destruct (apci_ee_all _ _ _ _ _ _ (setTl x s) _ _ _ j v S F IE WB P) as (A & B). split; [exact A|left; exact B].
  - destruct (step _ _) as [[s q]|] eqn:Q; [|discriminate]. injection E as _ <-. exfalso. refine (NX _ _ _ _ _ _ Q RQ); reflexivity.
  - unfold setProgrammingMode in E. destruct (progPin c); injection E as _ <-; [|destruct RQ as [[]|[]]]. destruct RQ as [[RQ|[]]|[RQ|[]]]; discriminate.
  - injection E as _ <-. destruct RQ as [[]|[]].
  - destruct (step _ _) as [[s q]|] eqn:Q; [|discriminate]. injection E as _ <-. exfalso. refine (NX _ _ _ _ _ _ Q RQ); reflexivity.
Qed.
Lemma step_secured c x o y l j v : conf_ok c -> small_layout (lay c) -> op_ok c o -> wf c x -> is_power_up o = false -> mark_kept x o -> low c j -> dstep c x o = Some (y, l) -> rd (eeData (mem y)) j = v -> secured c j v x -> secured c j v y.
Proof.
  intros K S OK W PU MK J E V (X & M). unfold dstep in E. destruct o as [i|ok|b|g|buf w|lst junk]; [| | | | |discriminate]; (destruct (running x) eqn:R; [|injection E as <- _; split; auto]).
  - destruct (loop_tail _ _ _ _ _ K OK W E) as (s & x2 & o2 & _ & P2 & W2 & (T0 & T) & _). apply (T j v J). rewrite (T0 j J) in V. split; [exact V|].
    destruct (received_case _ _ _ _ _ P2) as [(r & k & RX & S1 & ST & RC & _)|(_ & -> & _)]; [|exact M]. destruct (OK r RX) as (F & _). destruct (receive_ee _ _ _ _ _ _ j S F RC) as (MO & _). destruct (receive_running _ _ _ _ _ _ RC) as (_ & ->).
    destruct M as [M|M]; [left|right; exact M]. cbn in MK. apply MO; [apply (MK M r RX)|exact M].
  - destruct (step _ _) as [[s q]|] eqn:Q; [|discriminate]. injection E as <- _. split; auto.
  - unfold setProgrammingMode in E. destruct (progPin c); injection E as <- _; [|split; auto]. destruct (negb _); split; auto.
  - injection E as <- _. split; [exact V|]. destruct M as [M|M]; [left; apply (MK M)|right; exact M].
  - destruct (step _ _) as [[s q]|] eqn:Q; [|discriminate]. injection E as <- _. split; auto.
Qed.
(** ** A device that waits for its restart has saved everything *)
Lemma off_step c x o y l : conf_ok c -> op_ok c o -> wf c x -> (running x = false -> eeModified (mem x) = false) -> dstep c x o = Some (y, l) -> running y = false -> eeModified (mem y) = false.
Proof.
  intros K OK W IH. unfold dstep. destruct o as [i|ok|b|g|buf w|lst junk].
  6:{ unfold option_map. destruct (powerUp _ _ _ _ _) as [z|] eqn:P; [|discriminate]. intros [= <- _] Q. destruct (wf_powerUp _ _ _ _ _ _ K (proj1 (proj2 W)) P) as (_ & R). congruence. }
  all: destruct (running x) eqn:R; [|intros [= <- _]; auto].
  - intros E RY. destruct (loop_parts _ _ _ _ _ E) as (s & o1 & x2 & o2 & x3 & o3 & x4 & o4 & P1 & P2 & P3 & P4 & P5 & P6).
    destruct (step_hands _ _ _ _ P1) as (H1 & O). assert (W1 : wf c (setTl x s)) by (apply wf_setTl; auto). pose proof (wf_received _ _ _ _ _ OK W1 P2) as W2. pose proof (wf_button _ _ _ _ _ _ P3 W2) as W3.
    destruct (received_running _ _ _ _ _ P2) as (R2 & _). cbn [running setTl] in R2. destruct (button_frame _ _ _ _ _ _ P3) as (_ & _ & _ & _ & _ & _ & R3 & _).
    assert (Y4 : running x4 = false /\ y = x4).
    { destruct (running x4) eqn:R4; cbn [negb orb] in P6; [|auto]. exfalso. destruct (sending3 i || negb (eeModified (mem x4)) || directConnection (tl x4)); [congruence|].
      destruct (flush_frame _ _ _ P6) as (_ & _ & _ & (_ & _ & _ & _ & _ & FF)). congruence. }
    destruct Y4 as (Y4 & ->). destruct (sending2 i). { destruct P4 as (-> & _). congruence. }
    destruct (restart_case _ _ _ _ _ _ P4) as [(_ & -> & _)|[(_ & _ & s' & o & S & -> & _)|[(_ & _ & t & _ & -> & _)|(_ & _ & t & z & _ & F & -> & _)]]]; cbn [running setRestart setTl] in Y4; try congruence.
    destruct (flush_wf c (setRestart x3 (rType x3) (rDisc x3) t) z K W3 F) as (_ & _ & M & _). exact M.
  - destruct (step _ _) as [[s q]|]; [|discriminate]. intros [= <- _] Q. cbn [running setTl] in Q. congruence.
  - unfold setProgrammingMode. destruct (progPin c); intros [= <- _]; [|congruence]. destruct (negb _); cbn [running setMem]; congruence.
  - intros [= <- _]. cbn [running setMem]. congruence.
  - destruct (step _ _) as [[s q]|]; [|discriminate]. intros [= <- _] Q. cbn [running setTl] in Q. congruence.
Qed.
Lemma off_saved c x : conf_ok c -> reachable_device c x -> running x = false -> eeModified (mem x) = false.
Proof.
  intros K R. enough (wf c x /\ (running x = false -> eeModified (mem x) = false)) by tauto. induction R as [sec m lst junk x S E|x o y l R (W & IH) OK E].
  - destruct (wf_powerUp _ _ _ _ _ _ K S E) as (W & Q). split; [exact W|congruence].
  - split; [apply (wf_step _ _ _ _ _ K OK W E)|apply (off_step _ _ _ _ _ K OK W IH E)].
Qed.
(** after a pass that ends without a connection and outside a transmission the EEPROM is saved *)
Lemma pass_saves c i x y l : conf_ok c -> op_ok c (Loop i) -> reachable_device c x -> dstep c x (Loop i) = Some (y, l) -> sending3 i = false -> directConnection (tl y) = false -> eeModified (mem y) = false.
Proof.
  intros K OK RX E S3 NC. pose proof (reachable_wf c x K RX) as W. unfold dstep in E. destruct (running x) eqn:R; [|injection E as <- _; apply (off_saved c x K RX R)].
  destruct (loop_parts _ _ _ _ _ E) as (s & o1 & x2 & o2 & x3 & o3 & x4 & o4 & P1 & P2 & P3 & P4 & P5 & P6).
  destruct (step_hands _ _ _ _ P1) as (_ & O). assert (W1 : wf c (setTl x s)) by (apply wf_setTl; auto). pose proof (wf_received _ _ _ _ _ OK W1 P2) as W2.
  apply (loop_saves c i x y l s o1 x2 o2 x3 o3 x4 o4); auto.
Qed.
Lemma stays_secured c j v : conf_ok c -> small_layout (lay c) -> low c j -> forall l x y outs, reachable_device c x -> Forall (op_ok c) l -> druns c l x = Some (y, outs) -> byte_stays c j v x l -> secured c j v x ->
  reachable_device c y /\ secured c j v y.
Proof.
  intros K S J. induction l as [|o l IH]; intros x y outs R OK; cbn [druns byte_stays]. { intros [= <- _] _ Q. auto. }
  destruct (dstep c x o) as [[x1 lo]|] eqn:E; [|discriminate]. destruct (druns c l x1) as [[x2 lo2]|] eqn:D; [|discriminate]. intros [= <- _] (PU & MK & B) Q. inversion OK as [|? ? O1 O2]; subst.
  destruct (B _ _ eq_refl) as (V & BS). apply (IH x1 x2 lo2); auto; [apply (after c x o x1 lo R O1 E)|apply (step_secured c x o x1 lo); auto; apply (reachable_wf c x K R)].
Qed.
(** ** Power-up *)
Definition calm (c : conf) (i : nat) : Prop := ~ begin_fixes c i /\ i <> Z.to_nat 0x17 /\ i <> Z.to_nat 0x18.
Lemma calm_load c : calm c (Z.to_nat 0x371).
Proof. split; [|split; intros Q; apply (f_equal Z.of_nat) in Q; rewrite !Z2Nat.id in Q by lia; discriminate]. unfold begin_fixes. rewrite Z2Nat.id by lia. cbn [In]. lia. Qed.
Lemma memOwn_calm c a d d' : not_loading (kind c) d -> memOwnAddress c a d = Some d' -> (forall i, calm c i -> rd (eeData d') i = rd (eeData d) i) /\ not_loading (kind c) d'.
Proof.
  intros NL E. assert (A : forall i, calm c i -> rd (eeData d') i = rd (eeData d) i) by (intros i (_ & N1 & N2); destruct (memOwn_ee _ _ _ _ i NL E) as [Q|[Q|Q]]; [exact Q|contradiction|contradiction]).
  split; [exact A|]. destruct NL as [NL|NL]; [now left|right]. rewrite (A _ (calm_load c)). exact NL.
Qed.
Lemma begin_calm c d a d' : conf_ok c -> not_loading (kind c) d -> begin c d = Some (a, d') -> forall i, calm c i -> rd (eeData d') i = rd (eeData d) i.
Proof.
  intros K NL. unfold begin. destruct (memOwnAddress c _ d) as [d1|] eqn:E1; [|discriminate]. destruct (memOwn_calm _ _ _ _ NL E1) as (A1 & NL1).
  assert (F1 : forall i, calm c i -> rd (eeData (beginDefault c d1)) i = rd (eeData d1) i) by (intros i (C & _); apply default_other; unfold begin_fixes in C; tauto).
  assert (G : forall o a2 d2, (match kind c with Bcu1 => Some (o, beginDefault c d1) | Bcu2 => beginBcu2 c o (beginDefault c d1) end) = Some (a2, d2) -> forall i, calm c i -> rd (eeData d2) i = rd (eeData d) i).
  { intros o a2 d2 E i C. rewrite <- A1, <- F1 by exact C. clear A1 E1. destruct (kind c) eqn:KC; [injection E as _ <-; reflexivity|].
    revert E. unfold beginBcu2. cbv zeta. set (q := beginDefault c d1) in *. set (e := eeByte appTypeOffset 0 (setRam q (wr (ramData q) peiTypeOffset 0))).
    assert (D1 : forall i, Z.of_nat i <> 0x15 -> rd (eeData e) i = rd (eeData q) i) by (intros k N2; unfold e; rewrite rd_eeByte_other by (unfold appTypeOffset; lia); reflexivity).
    clearbody e. assert (LS : (loadState e OT_ADDR_TABLE =? LS_LOADING) = false).
    { unfold loadState, loadStateOffset, OT_ADDR_TABLE, LS_LOADING. change (0x370 + 1) with 0x371. rewrite D1 by (rewrite Z2Nat.id by lia; lia). rewrite F1 by apply calm_load. destruct NL1 as [NL1|NL1]; [discriminate|]. lia. }
    rewrite LS. intros [= _ <-]. destruct C as (NI & _). unfold begin_fixes in NI. rewrite KC in NI.
    assert (N2 : ~ In (Z.of_nat i) [0x15; 0x3A2; 0x3A3]) by (intros Q; apply NI; right; auto). cbn [In] in N2.
    assert (N3 : ~ (0x38A <= Z.of_nat i < 0x390)) by (intros Q; apply NI; right; auto).
    rewrite !rd_eeByte_other by (unfold orderInfoOffset; lia). cbn [eeData setEe]. transitivity (rd (eeData e) i); [|apply D1; lia].
    match goal with |- rd (wr_range (eeData ?g) _ _) _ = _ => assert (EG : rd (eeData g) i = rd (eeData e) i) end.
    { destruct (Z.eqb_spec (static c) 0) as [Q|Q]; cbn [negb andb]; [reflexivity|]. destruct (negb _); [|reflexivity]. cbn [eeData touch].
      assert (N4 : ~ In (Z.of_nat i) [0x37C; 0x37D]) by (intros QQ; apply NI; right; split; auto). cbn [In] in N4. apply rd_eeWord_other; unfold commsTabAddrOffset; lia. }
    rewrite <- EG. apply nth_wr_range_out. destruct (k_serial c K) as (-> & _). unfold serialOffset. lia. }
  destruct (match kind c with Bcu1 => _ | Bcu2 => _ end) as [[a2 d2]|] eqn:E2; [|discriminate]. pose proof (G _ _ _ E2) as A2. destruct (_ =? 0); [|intros [= _ <-]; exact A2].
  destruct (memOwnAddress c PHY_ADDR_DEFAULT d2) as [d3|] eqn:E3; [|discriminate]. intros [= _ <-] i C.
  assert (NL2 : not_loading (kind c) d2) by (destruct NL as [NL|NL]; [now left|right; rewrite (A2 _ (calm_load c)); exact NL]). destruct (memOwn_calm _ _ _ _ NL2 E3) as (A3 & _). rewrite A3, A2 by exact C. reflexivity.
Qed.
Lemma powerUp_calm c sec m lst junk x : conf_ok c -> sector_ok (ecf c) sec -> (forall d, saved c sec d -> kind c = Bcu1 \/ rd d (Z.to_nat 0x371) <> 2) -> powerUp c sec m lst junk = Some x ->
  forall i, calm c i -> rd (eeData (mem x)) i = rd (read_back c sec) i.
Proof.
  intros K S NL. unfold powerUp. cbv zeta. destruct (begin c _) as [[a d]|] eqn:B; [|discriminate]. intros [= <-]. refine (begin_calm _ _ _ _ K _ B). apply NL. apply read_content; auto.
Qed.
