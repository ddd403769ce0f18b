(** What each part of a device's operations leaves alone *)
From Verif Require Import Base Bits Device_Model Device_Spec Device_TL Device_Status.

(** ** Fields of telegrams *)
Lemma makeWord_two h l : is_byte h -> is_byte l -> makeWord h l = 256 * h + l.
Proof. unfold is_byte. intros H L. unfold makeWord. rewrite lor_shiftl_add by lia. change (2 ^ 8) with 256. rewrite u16_id; [lia|]. unfold is_u16. lia. Qed.
Lemma two_word t i : Forall is_byte t -> makeWord (rd t i) (rd t (S i)) = two t i.
Proof. intros F. apply makeWord_two; apply rd_byte; auto. Qed.
Lemma two_range t i : Forall is_byte t -> 0 <= two t i < 65536.
Proof. intros F. pose proof (rd_byte t i F). pose proof (rd_byte t (S i) F). unfold is_byte, two in *. lia. Qed.
Lemma dest_field t : Forall is_byte t -> destinationAddress t = destination t.
Proof. apply (two_word t 3). Qed.
Lemma service_range t : Forall is_byte t -> 0 <= service t < 1024.
Proof. intros F. pose proof (rd_byte t 7 F) as B. unfold is_byte, service in *. pose proof (Z.mod_pos_bound (rd t 6) 4 ltac:(lia)). lia. Qed.
Lemma service_field t : Forall is_byte t -> u16 (Z.lor (Z.shiftl (Z.land (rd t 6) 3) 8) (rd t 7)) = service t.
Proof.
  intros F. pose proof (rd_byte t 6 F) as B6. pose proof (rd_byte t 7 F) as B7. unfold service. red in B6, B7.
  change 3 with (Z.ones 2). rewrite Z.land_ones by lia. change (2 ^ 2) with 4. pose proof (Z.mod_pos_bound (rd t 6) 4 ltac:(lia)).
  rewrite lor_shiftl_add by lia. rewrite u16_id; [change (2 ^ 8) with 256; lia|]. red. change (2 ^ 8) with 256. lia.
Qed.
Lemma group_bits v : 0 <= v < 1024 -> Z.land v 0x3c0 = 64 * (v / 64).
Proof. intros H. apply Z.eqb_eq. revert v H. apply (range_forall 1024 (fun v => Z.land v 0x3c0 =? 64 * (v / 64))). vm_compute. reflexivity. Qed.
Definition short_service (s : Z) : bool := (64 * (s / 64) =? 0x180) || (64 * (s / 64) =? 0x200) || (64 * (s / 64) =? 0x280) || (64 * (s / 64) =? 0x300).
Lemma command_service t : Forall is_byte t -> apciCommand t = if short_service (service t) then 64 * (service t / 64) else service t.
Proof.
  intros F. unfold apciCommand. rewrite service_field by auto. cbv zeta. unfold APCI_GROUP_MASK. rewrite group_bits by (apply service_range; auto). reflexivity.
Qed.
(** services with a code of ten bits, and those of four bits with six bits of data *)
Lemma command_long t k : Forall is_byte t -> short_service k = false -> (apciCommand t =? k) = (service t =? k).
Proof.
  intros F N. rewrite command_service by auto. destruct (short_service (service t)) eqn:S; [|reflexivity].
  assert (service t <> k) by congruence. replace (service t =? k) with false by lia. apply Z.eqb_neq. intros E.
  assert (Q : short_service k = true); [|congruence]. unfold short_service in *. rewrite <- E. rewrite (Z.mul_comm 64 (service t / 64)), Z.div_mul by lia. exact S.
Qed.
Lemma command_short t k : Forall is_byte t -> k = 0x180 \/ k = 0x200 \/ k = 0x280 \/ k = 0x300 -> (apciCommand t =? k) = (k <=? service t) && (service t <? k + 64).
Proof.
  intros F K. rewrite command_service by auto. pose proof (service_range t F). unfold short_service. pose proof (Z.div_mod (service t) 64 ltac:(lia)). pose proof (Z.mod_pos_bound (service t) 64 ltac:(lia)).
  set (q := service t / 64) in *. clearbody q. destruct (64 * q =? 0x180) eqn:E1; [cbn [orb]; lia|]. destruct (64 * q =? 0x200) eqn:E2; [cbn [orb]; lia|]. destruct (64 * q =? 0x280) eqn:E3; [cbn [orb]; lia|].
  destruct (64 * q =? 0x300) eqn:E4; cbn [orb]; lia.
Qed.
Lemma bit_land v k : 0 <= k -> (Z.land v (2 ^ k) =? 0) = negb (Z.testbit v k).
Proof.
  intros K. destruct (Z.testbit v k) eqn:B; cbn [negb].
  - apply Z.eqb_neq. intros E. assert (Q : Z.testbit (Z.land v (2 ^ k)) k = false) by (rewrite E; apply Z.bits_0). rewrite Z.land_spec, B, Z.pow2_bits_true in Q by lia. discriminate.
  - apply Z.eqb_eq. apply Z.bits_inj'. intros j J. rewrite Z.land_spec, Z.bits_0, Z.pow2_bits_eqb by lia. destruct (Z.eqb_spec k j); [subst; now rewrite B|apply andb_false_r].
Qed.
Lemma programming_bit d : programmingMode d = Z.testbit (status d) 0.
Proof.
  unfold programmingMode, BCU_STATUS_PROGRAMMING_MODE. change 1 with (2 ^ 0) at 1. pose proof (bit_land (status d) 0 ltac:(lia)) as H.
  assert (Q : Z.land (status d) (2 ^ 0) = 0 \/ Z.land (status d) (2 ^ 0) = 1).
  { change (2 ^ 0) with (Z.ones 1). rewrite Z.land_ones by lia. change (2 ^ 1) with 2. pose proof (Z.mod_pos_bound (status d) 2 ltac:(lia)). lia. }
  destruct Q as [Q|Q]; rewrite Q in *; destruct (Z.testbit (status d) 0); cbn in *; congruence.
Qed.

(** ** Memories *)
Lemma storeOwn_status a d : status (storeOwnAddress a d) = status d.
Proof. unfold storeOwnAddress. destruct (negb _); reflexivity. Qed.
Lemma memOwn_status c a d d' : memOwnAddress c a d = Some d' -> status d' = status d.
Proof.
  unfold memOwnAddress. pose proof (storeOwn_status a d) as S. destruct (kind c). { now intros [= <-]. }
  destruct (_ =? _); [|now intros [= <-]]. destruct (addrTable _ _) as [[ee o]|]; [|discriminate]. unfold pokeWord.
  destruct ee; (destruct (bput _ _ _); [|discriminate]); intros [= <-]; exact S.
Qed.
Lemma memOwn_mapper c a d d' : memOwnAddress c a d = Some d' -> memMapper d' = memMapper d.
Proof.
  unfold memOwnAddress. assert (S : memMapper (storeOwnAddress a d) = memMapper d) by (unfold storeOwnAddress; destruct (negb _); reflexivity). destruct (kind c). { now intros [= <-]. }
  destruct (_ =? _); [|now intros [= <-]]. destruct (addrTable _ _) as [[ee o]|]; [|discriminate]. unfold pokeWord.
  destruct ee; (destruct (bput _ _ _); [|discriminate]); intros [= <-]; exact S.
Qed.
Lemma loadProperty_status L static o data n d : status (snd (loadProperty L static o data n d)) = status d.
Proof.
  unfold loadProperty, handleAllocAbsTaskSegment. cbv zeta. repeat match goal with |- context [if ?b then _ else _] => destruct b; [reflexivity|] end. repeat match goal with |- context [if ?b then _ else _] => destruct b end; reflexivity.
Qed.
Lemma vput_status v k bs d d' : vput v k bs d = Some d' -> status d' = status d.
Proof.
  unfold vput. destruct v.
  - destruct (zput _ _ _); [|discriminate]. now intros [= <-].
  - destruct (zput _ _ _); [|discriminate]. now intros [= <-].
  - destruct (Nat.eqb _ _); [|discriminate]. now intros [= <-].
Qed.
Lemma prop_status L static tabs t n sb d sb' d' : processPropertyApci L static tabs t n sb d = Some (sb', d') -> status d' = status d.
Proof.
  unfold processPropertyApci. cbv zeta. destruct (_ || _).
  - destruct (apciCommand t =? _).
    + unfold option_map. destruct (propertyValueRead _ _ _ _ _ _ _) as [[f b]|]; [|discriminate]. now intros [= _ <-].
    + unfold propertyValueWrite. destruct (propertyDef _ _ _) as [[p|]|]; [|now intros [= _ <-]|discriminate]. destruct (_ =? 0); [now intros [= _ <-]|].
      destruct (valuePointer p) as [v|]; [|discriminate]. destruct (ptype p =? _).
      * pose proof (loadProperty_status L static (rd t 8) (skipn 12 t) (n - 13) d) as S. destruct (loadProperty _ _ _ _ _ _) as [s d1]. now intros [= _ <-].
      * destruct (bget _ _ _); [|discriminate]. destruct (vput _ _ _ _) as [d1|] eqn:V; [|discriminate]. apply vput_status in V. destruct (vget _ _ _ _); [|discriminate].
        destruct (bput _ _ _); [|discriminate]. intros [= _ <-]. destruct (isEepromPointer p); exact V.
  - destruct (_ =? _); [|discriminate]. unfold option_map. destruct (propertyDescRead _ _ _ _ _ _); [|discriminate]. now intros [= _ <-].
Qed.
Lemma memoryRead_same L n a sb d b sb' d' : memoryRead L n a sb d = Some (b, sb', d') -> same_local d d'.
Proof. unfold memoryRead. destruct (processApciMemoryOperation _ _ _ _ _ _ _) as [[[ok s] d1]|] eqn:E; [|discriminate]. intros [= _ _ <-]. apply (op_read _ _ _ _ _ _ _ _ _ E). Qed.
Lemma memory_status L t sb d b sb' d' : ramStart L = 0 -> Forall is_byte t -> processMemoryApci L t sb d = Some (b, sb', d') ->
  status d' = status d \/ (0x280 <= service t < 0x2C0 /\ two t 8 <= 0x60 < two t 8 + rd t 7 mod 16 /\ status d' = rd t (10 + Z.to_nat (0x60 - two t 8))).
Proof.
  intros R F. unfold processMemoryApci. cbv zeta. unfold APCI_MEMORY_READ_PDU, APCI_MEMORY_WRITE_PDU. rewrite !command_short by (auto; lia). rewrite two_word by auto.
  pose proof (two_range t 8 F). destruct (_ && _). { intros E. left. apply (memoryRead_same _ _ _ _ _ _ _ _ E). }
  destruct ((0x280 <=? service t) && _) eqn:W; [|discriminate]. rewrite land_15. pose proof (Z.mod_pos_bound (rd t 7) 16 ltac:(lia)).
  destruct (processApciMemoryOperation _ _ _ _ _ _ _) as [[[ok s] d1]|] eqn:E; [|discriminate]. apply op_status in E; [|auto|lia|lia].
  assert (Q : status d' = status d1 -> status d' = status d \/ (0x280 <= service t < 0x2C0 /\ two t 8 <= 0x60 < two t 8 + rd t 7 mod 16 /\ status d' = rd t (10 + Z.to_nat (0x60 - two t 8)))).
  { intros ->. destruct E as [E|(E1 & E2)]; [now left|right]. split; [lia|]. split; auto. }
  match goal with |- context [if ?b then _ else _] => destruct b end.
  - intros M. apply memoryRead_same in M. destruct M as (_ & _ & _ & M). auto.
  - intros [= _ _ <-]. auto.
Qed.

(** ** Parts of the operations *)
(** everything except memories, sector and transport layer is the same *)
Definition kept (x y : device) : Prop := runState y = runState x /\ button y = button x /\ rType y = rType x /\ rDisc y = rDisc x /\ rTime y = rTime x /\ running y = running x.
Lemma flush_frame c x y : flushUserMemory c x = Some y -> tl y = tl x /\ status (mem y) = status (mem x) /\ ramData (mem y) = ramData (mem x) /\ kept x y.
Proof.
  unfold flushUserMemory. destruct (Eeprom_Model.writeUserEeprom _ _); [|discriminate]. destruct (match memMapper _ with None => _ | Some _ => _ end); [|discriminate].
  intros [= <-]. repeat split.
Qed.
Lemma reset_frame c x y l : softSystemReset c x = Some (y, l) -> tl y = tl x /\ status (mem y) = status (mem x) /\ running y = false.
Proof. unfold softSystemReset. destruct (flushUserMemory c x) as [z|] eqn:E; [|discriminate]. intros [= <- _]. destruct (flush_frame _ _ _ E) as (A & B & _). auto. Qed.
Lemma restart_frame c n w x y l : checkRestart c n w x = Some (y, l) -> own (tl y) = own (tl x) /\ status (mem y) = status (mem x).
Proof.
  unfold checkRestart. assert (H : (if rDisc x then match step (tl x) (OpDisconnect w) with None => None | Some (s, o) => Some (setRestart (setTl x s) (rType x) false (rTime x), map Bus o) end
     else let '(e, t) := Util_Model.to_expired n (rTime x) in let x0 := setRestart x (rType x) (rDisc x) t in if e then softSystemReset c x0 else Some (x0, [])) = Some (y, l) ->
     own (tl y) = own (tl x) /\ status (mem y) = status (mem x)).
  { destruct (rDisc x).
    - destruct (step _ _) as [[s o]|] eqn:E; [|discriminate]. intros [= <- _]. destruct (step_hands _ _ _ _ E) as (_ & O). split; [apply O; reflexivity|reflexivity].
    - destruct (Util_Model.to_expired n (rTime x)) as [e t]. destruct e; [|now intros [= <- _]]. intros E. destruct (reset_frame _ _ _ _ E) as (A & B & _). split; [now rewrite A|exact B]. }
  destruct (rType x); auto. now intros [= <- _].
Qed.
Lemma sendOwn_frame f w x y l : sendOwn f w x = Some (y, l) -> own (tl y) = own (tl x) /\ mem y = mem x /\ sector y = sector x /\ kept x y.
Proof.
  unfold sendOwn. destruct (acquireSendBuffer _) as [k|] eqn:E; [|discriminate]. intros [= <- _]. destruct (acquire_keeps _ _ E) as ((A & _) & _).
  destruct (prepared_sends KApp (TL4_Model.upd (set_txb (f (txb (cS k)))) k)) as [P _]. split; [|repeat split]. exact (eq_trans P A).
Qed.
Lemma apciDefault_tl c n conn t sb x b sb' y : processApciDefault c n conn t sb x = Some (b, sb', y) -> tl y = tl x.
Proof.
  unfold processApciDefault. cbv zeta. destruct (_ =? _); [now intros [= _ _ <-]|]. destruct (_ || _).
  { destruct (processMemoryApci _ _ _ _) as [[[a s] d]|]; [|discriminate]. now intros [= _ _ <-]. }
  destruct (_ =? _). { destruct (descriptorRead _ _ _). now intros [= _ _ <-]. }
  destruct (_ =? _). { unfold masterReset. destruct (_ && _); [now intros [= _ _ <-]|]. destruct (_ || _); [now intros [= _ _ <-]|]. destruct (_ =? _); now intros [= _ _ <-]. }
  destruct (_ =? _); [now intros [= _ _ <-]|]. destruct (_ =? _); now intros [= _ _ <-].
Qed.
Lemma apci_tl c n conn t len sb x b sb' y : processApci c n conn t len sb x = Some (b, sb', y) -> tl y = tl x.
Proof.
  unfold processApci. destruct (kind c); [apply apciDefault_tl|]. destruct (isPropertyCommand _); [|apply apciDefault_tl].
  destruct (processPropertyApci _ _ _ _ _ _ _) as [[s d]|]; [|discriminate]. now intros [= _ _ <-].
Qed.
Lemma apciDefault_status c n conn t sb x b sb' y : ramStart (lay c) = 0 -> Forall is_byte t -> processApciDefault c n conn t sb x = Some (b, sb', y) ->
  status (mem y) = status (mem x) \/ (0x280 <= service t < 0x2C0 /\ two t 8 <= 0x60 < two t 8 + rd t 7 mod 16 /\ status (mem y) = rd t (10 + Z.to_nat (0x60 - two t 8))).
Proof.
  intros R F. unfold processApciDefault. cbv zeta. destruct (_ =? _); [intros [= _ _ <-]; now left|]. destruct (_ || _).
  { destruct (processMemoryApci _ _ _ _) as [[[a s] d]|] eqn:E; [|discriminate]. intros [= _ _ <-]. apply (memory_status _ _ _ _ _ _ _ R F E). }
  destruct (_ =? _). { destruct (descriptorRead _ _ _). intros [= _ _ <-]. now left. }
  destruct (_ =? _). { unfold masterReset. destruct (_ && _); [intros [= _ _ <-]; now left|]. destruct (_ || _); [intros [= _ _ <-]; now left|]. destruct (_ =? _); intros [= _ _ <-]; now left. }
  destruct (_ =? _); [intros [= _ _ <-]; now left|]. destruct (_ =? _); intros [= _ _ <-]; now left.
Qed.
Lemma apci_status c n conn t len sb x b sb' y : ramStart (lay c) = 0 -> Forall is_byte t -> processApci c n conn t len sb x = Some (b, sb', y) ->
  status (mem y) = status (mem x) \/ (0x280 <= service t < 0x2C0 /\ two t 8 <= 0x60 < two t 8 + rd t 7 mod 16 /\ status (mem y) = rd t (10 + Z.to_nat (0x60 - two t 8))).
Proof.
  intros R F. unfold processApci. destruct (kind c); [apply apciDefault_status; auto|]. destruct (isPropertyCommand _); [|apply apciDefault_status; auto].
  destruct (processPropertyApci _ _ _ _ _ _ _) as [[s d]|] eqn:E; [|discriminate]. intros [= _ _ <-]. left. apply (prop_status _ _ _ _ _ _ _ _ _ E).
Qed.

(** ** The own address *)
Lemma setOwn_own c a x y : 0 <= a < 65536 -> setOwnAddress c a x = Some y -> own (tl y) = a.
Proof. intros H. unfold setOwnAddress. destruct (memOwnAddress _ _ _); [|discriminate]. intros [= <-]. apply u16_id. unfold is_u16. lia. Qed.
Lemma setOwn_status c a x y : setOwnAddress c a x = Some y -> status (mem y) = status (mem x).
Proof. unfold setOwnAddress. destruct (memOwnAddress _ _ _) eqn:E; [|discriminate]. intros [= <-]. apply (memOwn_status _ _ _ _ E). Qed.
Lemma quiet_some o y l : quiet o = Some (y, l) -> o = Some y /\ l = [].
Proof. unfold quiet. destruct o; [|discriminate]. now intros [= <- <-]. Qed.
Lemma default_own c t w x y l : Forall is_byte t -> destination t = 0 -> broadcastDefault c t w x = Some (y, l) ->
  own (tl y) = own (tl x) \/ address_order (kind c) (mem x) t (own (tl y)).
Proof.
  intros F D. unfold broadcastDefault. cbv zeta. rewrite programming_bit. destruct (Z.testbit (status (mem x)) 0) eqn:P; cbn [negb]; [|intros [= <- _]; now left].
  unfold APCI_INDIVIDUAL_ADDRESS_WRITE_PDU. rewrite command_long by auto. destruct (Z.eqb_spec (service t) 0x0C0) as [S|S].
  - intros E. destruct (quiet_some _ _ _ E) as (E' & _). right. apply by_programming; auto. rewrite two_word in E' by auto. apply (setOwn_own _ _ _ _ (two_range t 8 F) E').
  - destruct (_ =? _); [|intros [= <- _]; now left]. intros E. left. apply (sendOwn_frame _ _ _ _ _ E).
Qed.
Lemma serial_same t d : sameSerial t d = true -> forall i, (i < 6)%nat -> rd t (8 + i) = rd (eeData d) (Z.to_nat 0x38A + i).
Proof.
  unfold sameSerial, serial. destruct (list_eq_dec _ _ _) as [E|]; [|discriminate]. intros _ i Hi. transitivity (nth i (map (rd t) (seq 8 serialSize)) 0).
  - unfold serialSize. do 6 (destruct i as [|i]; [reflexivity|]). lia.
  - rewrite E. apply rd_part. exact Hi.
Qed.
Lemma broadcast_own c t w x y l : Forall is_byte t -> destination t = 0 -> processBroadCastTelegram c t w x = Some (y, l) ->
  own (tl y) = own (tl x) \/ address_order (kind c) (mem x) t (own (tl y)).
Proof.
  intros F D. unfold processBroadCastTelegram. cbv zeta. destruct (kind c) eqn:K; [rewrite <- K; apply default_own; auto|].
  unfold APCI_INDIVIDUALADDRESS_SERIALNUMBER_WRITE_PDU. rewrite command_long by auto. destruct (Z.eqb_spec (service t) 0x3DE) as [S|S].
  - destruct (sameSerial t (mem x)) eqn:Q; [|intros [= <- _]; now left]. intros E. destruct (quiet_some _ _ _ E) as (E' & _). right. apply by_serial; auto; [apply serial_same; auto|].
    rewrite two_word in E' by auto. apply (setOwn_own _ _ _ _ (two_range t 14 F) E').
  - destruct (_ =? _); [|rewrite <- K; apply default_own; auto]. destruct (sameSerial _ _); [|intros [= <- _]; now left]. intros E. left. apply (sendOwn_frame _ _ _ _ _ E).
Qed.
Lemma broadcast_status c t w x y l : processBroadCastTelegram c t w x = Some (y, l) -> status (mem y) = status (mem x).
Proof.
  assert (H : broadcastDefault c t w x = Some (y, l) -> status (mem y) = status (mem x)).
  { unfold broadcastDefault. cbv zeta. destruct (negb _); [now intros [= <- _]|]. destruct (_ =? _).
    - intros E. destruct (quiet_some _ _ _ E) as (E' & _). apply (setOwn_status _ _ _ _ E').
    - destruct (_ =? _); [|now intros [= <- _]]. intros E. destruct (sendOwn_frame _ _ _ _ _ E) as (_ & -> & _). reflexivity. }
  unfold processBroadCastTelegram. cbv zeta. destruct (kind c); auto. destruct (_ =? _).
  - destruct (sameSerial _ _); [|now intros [= <- _]]. intros E. destruct (quiet_some _ _ _ E) as (E' & _). apply (setOwn_status _ _ _ _ E').
  - destruct (_ =? _); auto. destruct (sameSerial _ _); [|now intros [= <- _]]. intros E. destruct (sendOwn_frame _ _ _ _ _ E) as (_ & -> & _). reflexivity.
Qed.
Lemma receive_own c n r x y l : Forall is_byte (rxTel r) -> receive c n r x = Some (y, l) ->
  own (tl y) = own (tl x) \/ address_order (kind c) (mem x) (rxTel r) (own (tl y)).
Proof.
  intros F. unfold receive. cbv zeta. rewrite dest_field by auto. destruct (Z.eqb_spec (destination (rxTel r)) 0) as [D|D].
  - destruct (processBroadCastTelegram _ _ _ _) as [[z o]|] eqn:E; [|discriminate]. intros [= <- _]. apply (broadcast_own _ _ _ _ _ _ F D E).
  - destruct (negb _); [intros [= <- _]; now left|].
    match goal with |- context [match ?a with Some _ => _ | None => _ end = _] => destruct a as [[[b sb] z]|] eqn:A; [|discriminate] end.
    destruct (step _ _) as [[s o]|] eqn:E; [|discriminate]. intros [= <- _]. left. destruct (step_hands _ _ _ _ E) as (_ & O). apply O. reflexivity.
Qed.
Lemma receive_status c n r x y l : ramStart (lay c) = 0 -> Forall is_byte (rxTel r) -> receive c n r x = Some (y, l) ->
  status (mem y) = status (mem x) \/ stores_status (own (tl x)) (rxTel r) (status (mem y)).
Proof.
  intros R F. unfold receive. cbv zeta. rewrite dest_field by auto. destruct (Z.eqb_spec (destination (rxTel r)) 0) as [D|D].
  - destruct (processBroadCastTelegram _ _ _ _) as [[z o]|] eqn:E; [|discriminate]. intros [= <- _]. left. apply (broadcast_status _ _ _ _ _ _ E).
  - destruct (negb _); [intros [= <- _]; now left|].
    destruct (executes (tl x) (rxTel r)) eqn:X.
    + destruct (processApci _ _ _ _ _ _ _) as [[[b sb] z]|] eqn:A; [|discriminate]. destruct (step _ _) as [[s o]|]; [|discriminate]. intros [= <- _]. cbn [mem setTl].
      destruct (apci_status _ _ _ _ _ _ _ _ _ _ R F A) as [Q|(Q1 & Q2 & Q3)]; [now left|right]. unfold executes in X. rewrite dest_field in X by auto. rewrite !andb_true_iff in X.
      destruct X as ((((X1 & X2) & X3) & _) & _). change 0x80 with (2 ^ 7) in X2. rewrite bit_land in X2 by lia. unfold stores_status. split; [lia|]. split; [lia|].
      split; [destruct (Z.testbit _ 7); [discriminate|reflexivity]|]. auto.
    + destruct (step _ _) as [[s o]|]; [|discriminate]. intros [= <- _]. now left.
Qed.
