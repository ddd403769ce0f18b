From Verif Require Import Base Bits Telegram_Model ComObj_Model ComObj_Spec ComObj_Proofs ComObj_Values ComObj_Send ComObj_Next SysBObj_Model SysBObj_Spec SysBObj_Proofs SysBObj_Send.

(** Example devices: user RAM and EEPROM of userRamSYSTEMB.h and userEepromSYSTEMB.h.
    [dev3]: three objects (1 bit, 1 byte, 2 bytes), no flags table in memory. [dev8]: eight objects of one byte, the flags are behind the values.
    [dev6]: six objects, the first two of 14 bytes, the flags are inside the second. *)
Definition dev_b (com addrs assoc : list Z) : cfg := mkCfg true false addrs assoc com 0x5FC 0x304 0x3300 3072.
Definition dev3 : cfg := dev_b [0; 3; 0x1F; 0; 0x17; 7; 0x0F; 8] [0; 2; 9; 1; 9; 2] [0; 3; 0; 1; 0; 1; 0; 2; 0; 2; 0; 1; 0; 3].
Definition dev8 : cfg := dev_b [0; 8; 0x1F; 7; 0x1F; 7; 0x1F; 7; 0x1F; 7; 0x1F; 7; 0x1F; 7; 0x1F; 7; 0x1F; 7] [0; 2; 9; 1; 9; 2] [0; 2; 0; 1; 0; 1; 0; 2; 0; 8].
Definition dev6 : cfg := dev_b [0; 6; 0x17; 14; 0x17; 14; 0x17; 0; 0x17; 0; 0x17; 0; 0x17; 0] [0; 2; 9; 1; 9; 2] [0; 2; 0; 1; 0; 1; 0; 2; 0; 2].
Definition mem0 : mem := mkMem (repeat 0 772) (repeat 0 3072).
Lemma repeat_bytes n : Forall is_byte (repeat 0 n).
Proof. apply Forall_forall. intros x H. apply repeat_spec in H. subst. unfold is_byte; lia. Qed.
Lemma mem0_ok com a b : mem_ok (dev_b com a b) mem0.
Proof. split; try (apply repeat_bytes); unfold mem0; cbn [ram eep]; rewrite repeat_length; vm_compute; reflexivity. Qed.
Definition bytes_b (l : list Z) : bool := forallb (fun v => (0 <=? v) && (v <? 256)) l.
Lemma bytes_ok l : bytes_b l = true -> Forall is_byte l.
Proof. intros H. apply Forall_forall. intros x Hx. unfold bytes_b in H. rewrite forallb_forall in H. specialize (H x Hx). unfold is_byte. lia. Qed.
Lemma dev_b_ok com a b : bytes_b com = true -> bytes_b a = true -> bytes_b b = true -> cfg_ok (dev_b com a b).
Proof. intros H1 H2 H3. split; cbn [dev_b ramStart ramSize eepStart eepSize addrTab assocTab comTab]; try lia; apply bytes_ok; auto. Qed.
Lemma sizes_ok c n : num_b c = n -> forallb (fun o => Nat.leb (size_b c o) 14) (seq 1 n) = true -> forall o, object_b c o -> (size_b c o <= 14)%nat.
Proof. intros <- H o [H1 H2]. rewrite forallb_forall in H. apply Nat.leb_le, H, in_seq. lia. Qed.
Lemma dev3_ok : device_b dev3.
Proof. split; [reflexivity|]. split; [apply dev_b_ok; reflexivity|]. split; [vm_compute; discriminate|]. apply (sizes_ok dev3 3); reflexivity. Qed.
Lemma dev8_ok : device_b dev8.
Proof. split; [reflexivity|]. split; [apply dev_b_ok; reflexivity|]. split; [vm_compute; discriminate|]. apply (sizes_ok dev8 8); reflexivity. Qed.
Lemma dev6_ok : device_b dev6.
Proof. split; [reflexivity|]. split; [apply dev_b_ok; reflexivity|]. split; [vm_compute; discriminate|]. apply (sizes_ok dev6 6); reflexivity. Qed.
Lemma dev3_clear : flags_clear dev3.
Proof. left. unfold in_area. change (flags_at dev3) with 0x31F. cbn [dev3 dev_b ramStart ramSize eepStart eepSize]. lia. Qed.
Lemma dev8_clear : flags_clear dev8.
Proof.
  right. unfold in_area. change (flags_at dev8) with 0x81F. change (flags_len dev8) with 5. change (addr_b dev8 1) with 0x5FE. change (addr_b dev8 (S (num_b dev8))) with 0x606.
  cbn [dev8 dev_b ramStart ramSize eepStart eepSize]. lia.
Qed.
Lemma pairs_check c n : pairs_b c = n -> forallb (fun i => (1 <=? pair_obj c i) && (pair_obj c i <=? Z.of_nat (num_b c))) (seq 0 n) = true -> pairs_ok c.
Proof.
  intros <- H k o (i & I1 & _ & I3). rewrite forallb_forall in H. specialize (H i ltac:(apply in_seq; lia)). unfold object_b. rewrite I3 in H. lia.
Qed.
Lemma dev3_pairs : pairs_ok dev3. Proof. apply (pairs_check dev3 3); reflexivity. Qed.
Lemma dev8_pairs : pairs_ok dev8. Proof. apply (pairs_check dev8 2); reflexivity. Qed.
Lemma dev6_pairs : pairs_ok dev6. Proof. apply (pairs_check dev6 2); reflexivity. Qed.
Lemma first_1 c addr : (1 <= addrs_b c)%nat -> entry_b c 1 = addr -> first_b c addr 1.
Proof. intros H E. split; [lia|]. split; auto. intros j Hj. lia. Qed.

(** ** C88 *)
(** A group write or response for any address: exactly the write-enabled objects associated with it take the telegram's value, nothing else in memory changes
    (apart from the flags), nothing is sent.
    Missing: a device whose flags overlap the values, see the refutation. *)
Theorem C88_group_write_partial : forall c s tel addr apci, device_b c -> flags_clear c -> pairs_ok c -> mem_ok c (smem s) -> Forall is_byte tel -> is_u16 addr ->
  Z.land apci 0x3c0 = 0x80 \/ Z.land apci 0x3c0 = 0x40 ->
  let s' := processGroupAddressTelegramB c apci addr tel s in
  (forall o, object_b c o -> assoc_b c addr o -> write_b c o -> value_b c (smem s') o = payload_b (typ_b c o) tel) /\
  (forall o, object_b c o -> ~ (assoc_b c addr o /\ write_b c o) -> value_b c (smem s') o = value_b c (smem s) o) /\
  (forall a, ~ in_flags_b c a -> (forall o, object_b c o -> assoc_b c addr o -> write_b c o -> ~ in_b c o a) -> cell c (smem s') a = cell c (smem s) a) /\
  sent s' = sent s /\ sendBuf s' = sendBuf s /\ mem_ok c (smem s').
Proof.
  intros c s tel addr apci Hd Hf Ha Hm Ht Hu Hap s'.
  assert (E : s' = mkSt (processGroupWriteB c addr tel INVALID_OBJECT_NUMBER (smem s)) (sendBuf s) (sent s) (sendNext s) (transmitting s)).
  { unfold s', processGroupAddressTelegramB, processGroupTelegramB, APCI_GROUP_MASK. destruct Hap as [-> | ->]; reflexivity. }
  rewrite E. cbn [smem sent sendBuf]. destruct (processB_wrote c addr tel INVALID_OBJECT_NUMBER (smem s) Hd Hf Ha Hm Ht Hu) as (P & (W1 & W2 & W3 & W4) & I).
  assert (I' : forall o, P o = true <-> assoc_b c addr o /\ write_b c o).
  { intros o. rewrite I. split; [intros (X & Y & _); auto|]. intros (X & Y). split; auto. split; auto. unfold INVALID_OBJECT_NUMBER. lia. }
  split; [|split; [|split; [|auto]]].
  - intros o Ho H1 H2. apply W2; auto. apply I'; auto.
  - intros o Ho N. apply W3; auto. destruct (P o) eqn:PO; auto. apply I' in PO. destruct (N PO).
  - intros a N H. apply W4; auto. intros o Ho PO. apply I' in PO. apply H; auto; apply PO.
Qed.
Print Assumptions C88_group_write_partial.
(** no two values share a byte *)
Theorem C88_values_disjoint : forall c o q a, device_b c -> object_b c o -> object_b c q -> in_b c o a -> in_b c q a -> o = q.
Proof. intros c o q a _ Ho Hq. apply in_b_unique; [apply Ho|apply Hq]. Qed.
Print Assumptions C88_values_disjoint.
(** The device finds the flags where the second count byte and the first object's configuration happen to point to, here into the second object's value:
    a write to the first object changes the second. *)
Theorem C88_other_object_refuted : exists c s tel, device_b c /\ pairs_ok c /\ mem_ok c (smem s) /\ Forall is_byte tel /\ first_b c 0x0901 1 /\ ~ assoc_b c 0x0901 2 /\ object_b c 2 /\
  value_b c (smem s) 2 = repeat 0 14 /\
  value_b c (smem (processGroupAddressTelegramB c 0x80 0x0901 tel s)) 2 = repeat 0 11 ++ [0x80] ++ repeat 0 2.
Proof.
  exists dev6, (mkSt mem0 (repeat 0 23) [] 0 0), (repeat 1 23). split; [exact dev6_ok|]. split; [exact dev6_pairs|]. split; [apply mem0_ok|]. split; [apply bytes_ok; reflexivity|].
  assert (F : first_b dev6 0x0901 1) by (apply first_1; [vm_compute; lia|reflexivity]). split; [exact F|]. split.
  - intros (k & K & (i & I1 & I2 & I3)). rewrite <- (first_b_unique dev6 0x0901 1 k F K) in I2. change (pairs_b dev6) with 2%nat in I1.
    assert (J : i = 0%nat \/ i = 1%nat) by lia. destruct J as [->| ->]; vm_compute in I2, I3; discriminate.
  - split; [unfold object_b; vm_compute; lia|]. split; vm_compute; reflexivity.
Qed.
Print Assumptions C88_other_object_refuted.
Example C88_hypotheses : device_b dev3 /\ flags_clear dev3 /\ pairs_ok dev3 /\ mem_ok dev3 mem0 /\ device_b dev8 /\ flags_clear dev8 /\ pairs_ok dev8 /\
  assoc_b dev3 0x0902 2 /\ write_b dev3 2 /\ assoc_b dev3 0x0901 3 /\ ~ write_b dev3 3 /\
  value_b dev3 (smem (processGroupAddressTelegramB dev3 0x80 0x0902 [0xBC; 0; 0; 9; 2; 0xE2; 0; 0x80; 0x5A] (mkSt mem0 (repeat 0 23) [] 0 0))) 2 = [0x5A].
Proof.
  split; [exact dev3_ok|]. split; [exact dev3_clear|]. split; [exact dev3_pairs|]. split; [apply mem0_ok|]. split; [exact dev8_ok|]. split; [exact dev8_clear|]. split; [exact dev8_pairs|].
  split; [|split; [|split; [|split]]].
  - exists 2%nat. split; [|exists 1%nat; vm_compute; auto]. split; [vm_compute; lia|]. split; [reflexivity|]. intros j Hj. replace j with 1%nat by lia. vm_compute. discriminate.
  - vm_compute. auto.
  - exists 1%nat. split; [apply first_1; [vm_compute; lia|reflexivity]|]. exists 2%nat. vm_compute. auto.
  - intros [_ H]. vm_compute in H. discriminate.
  - vm_compute. reflexivity.
Qed.

(** ** C89 *)
(** What the application stores in an object it reads back; other objects keep their values.
    Missing: overlapping flags, as for C88. *)
Theorem C89_store_and_read_partial : forall c m o v f, device_b c -> flags_clear c -> mem_ok c m -> object_b c o -> (size_b c o <= 4)%nat ->
  let m' := objectWriteB_ c o v f m in
  objectReadB c o m' = v mod 256 ^ Z.of_nat (size_b c o) /\ (forall q, object_b c q -> q <> o -> value_b c m' q = value_b c m q /\ objectReadB c q m' = objectReadB c q m) /\
  (forall a, ~ in_b c o a -> ~ in_flags_b c a -> cell c m' a = cell c m a) /\ mem_ok c m'.
Proof.
  intros c m o v f Hd Hf Hm Ho Hs m'. destruct (objectWriteB_effect c m o v f Hd Hf Hm Ho) as (A & B & C). fold m' in A, B, C.
  assert (V : forall q, object_b c q -> q <> o -> value_b c m' q = value_b c m q).
  { intros q Hq Hn. apply value_b_same. intros a Ha. apply C; [|eapply value_no_flag; eauto]. intros X. apply Hn. apply (in_b_unique c q o a); auto; [apply Hq|apply Ho]. }
  split; [|split; [|split; auto]].
  - rewrite objectReadB_num, B, writeBytes_num by auto. apply Z.mod_small. assert (P : 0 < 256 ^ Z.of_nat (size_b c o)) by (apply Z.pow_pos_nonneg; lia).
    pose proof (Z.mod_pos_bound v _ P). assert (L : 256 ^ Z.of_nat (size_b c o) <= 256 ^ 4) by (apply Z.pow_le_mono_r; lia). change (256 ^ 4) with (2 ^ 32) in L. lia.
  - intros q Hq Hn. split; [auto|]. rewrite !objectReadB_num, V by auto. reflexivity.
Qed.
Print Assumptions C89_store_and_read_partial.
Theorem C89_other_object_refuted : exists c m, device_b c /\ mem_ok c m /\ object_b c 1 /\ object_b c 2 /\
  value_b c m 2 = repeat 0 14 /\ value_b c (objectWriteB c 1 0 m) 2 = repeat 0 11 ++ [0x30] ++ repeat 0 2.
Proof.
  exists dev6, mem0. split; [exact dev6_ok|]. split; [apply mem0_ok|]. split; [unfold object_b; vm_compute; lia|]. split; [unfold object_b; vm_compute; lia|]. split; vm_compute; reflexivity.
Qed.
Print Assumptions C89_other_object_refuted.
Example C89_hypotheses : device_b dev3 /\ flags_clear dev3 /\ mem_ok dev3 mem0 /\ object_b dev3 3 /\ (size_b dev3 3 <= 4)%nat /\
  objectReadB dev3 3 (objectWriteB dev3 3 0x12345 mem0) = 0x2345 /\ objectReadB dev8 8 (objectWriteB dev8 8 0x77 mem0) = 0x77.
Proof.
  split; [exact dev3_ok|]. split; [exact dev3_clear|]. split; [apply mem0_ok|]. split; [unfold object_b; vm_compute; lia|]. split; [vm_compute; lia|]. split; vm_compute; reflexivity.
Qed.

(** ** C90 *)
(** A read request for an address of the table: one response per association with a read-enabled object, in table order; as for C66, the first one and those of
    objects that are not write-enabled carry the value the object had.  Objects that are not write-enabled keep their values. *)
Theorem C90_read_answered_partial : forall c s tel addr apci k, device_b c -> flags_clear c -> pairs_ok c -> mem_ok c (smem s) -> buf_ok (sendBuf s) -> first_b c addr k -> Z.land apci 0x3c0 = 0 ->
  let s' := processGroupAddressTelegramB c apci addr tel s in
  exists ts, sent s' = sent s ++ ts /\ length ts = length (responders_b c k) /\
    (forall i o t, nth_error (responders_b c k) i = Some o -> nth_error ts i = Some t -> i = 0%nat \/ ~ write_b c o -> short_b c (smem s) o -> carries_b c (smem s) o addr 0x40 t) /\
    (forall q, object_b c q -> ~ write_b c q -> value_b c (smem s') q = value_b c (smem s) q).
Proof.
  intros c s tel addr apci k Hd Hf Ha Hm Hb Hk Hap s'. pose proof Hd as (_ & Hc & _).
  assert (Hu : is_u16 addr).
  { destruct Hk as (_ & <- & _). unfold entry_b, word16, is_u16. pose proof (rd_byte (addrTab c) (2 * k) (ok_addr c Hc)). pose proof (rd_byte (addrTab c) (2 * k + 1) (ok_addr c Hc)). unfold is_byte in *. lia. }
  assert (E : s' = readReqLoopB c addr (Z.of_nat k) INVALID_OBJECT_NUMBER (assocsB c) s).
  { unfold s', processGroupAddressTelegramB, processGroupTelegramB, APCI_GROUP_MASK. rewrite Hap. cbv zeta.
    destruct (indexB_first c addr Hc Hu) as [(k' & K & E)|(_ & K)]; [|destruct (K k Hk)].
    rewrite (first_b_unique c addr k k' Hk K), E. change (if (0 =? APCI_GROUP_VALUE_WRITE_PDU) || (0 =? APCI_GROUP_VALUE_RESPONSE_PDU) then _ else ?x) with x.
    change (0 =? APCI_GROUP_VALUE_READ_PDU) with true. cbv iota. replace (Z.of_nat k' <? 0) with false by lia. reflexivity. }
  destruct (readReqLoopB_spec c addr k Hd Hf Ha Hu (pairs_b c) 0 s eq_refl Hm Hb) as (ts & S1 & (A1 & A2) & K1 & _).
  rewrite assocsB_pairs in E by auto. rewrite <- E in S1, K1. exists ts. split; auto.
Qed.
Print Assumptions C90_read_answered_partial.
Theorem C90_unknown_address_ignored : forall c s tel addr apci, cfg_ok c -> is_u16 addr -> (forall k, (1 <= k <= addrs_b c)%nat -> entry_b c k <> addr) ->
  processGroupAddressTelegramB c apci addr tel s = s.
Proof.
  intros c s tel addr apci Hc Hu Hk. destruct (indexB_first c addr Hc Hu) as [(k & (K1 & K2 & _) & _)|(E & _)]; [destruct (Hk k); auto|].
  unfold processGroupAddressTelegramB, processGroupTelegramB, processGroupWriteB. rewrite E. cbv zeta. change (-1 <? 0) with true. cbv iota.
  destruct (_ || _); [destruct s; reflexivity|]. destruct (_ =? _); reflexivity.
Qed.
Print Assumptions C90_unknown_address_ignored.
Example C90_hypotheses : first_b dev3 0x0901 1 /\ responders_b dev3 1 = [1; 3]%nat /\
  sent (processGroupAddressTelegramB dev3 0 0x0901 [] (mkSt (objectSetValueB dev3 3 0x1234 mem0) (repeat 0 23) [] 0 0)) =
    [[0xBC; 0; 0; 9; 1; 0xE1; 0; 0x40]; [0xBC; 0; 0; 9; 1; 0xE3; 0; 0x40; 0x12; 0x34]] /\
  (forall k, (1 <= k <= addrs_b dev3)%nat -> entry_b dev3 k <> 0x0903).
Proof.
  split; [apply first_1; [vm_compute; lia|reflexivity]|]. split; [vm_compute; reflexivity|]. split; [vm_compute; reflexivity|].
  intros k Hk. change (addrs_b dev3) with 2%nat in Hk. assert (K : k = 1%nat \/ k = 2%nat) by lia. destruct K as [->| ->]; vm_compute; discriminate.
Qed.

(** ** C91 *)
(** On a device with fewer than 256 objects nothing the application writes or requests is ever sent, whatever the state ... *)
Theorem C91_never_sent_refuted : forall c s, cfg_ok c -> (num_b c < 256)%nat -> sendNextGroupTelegramB c s = (false, s).
Proof.
  intros c s Hc H. assert (Z0 : objectCount c = 0%nat).
  { unfold objectCount, num_b, word16 in *. pose proof (com_byte c 0 Hc). pose proof (com_byte c 1 Hc). unfold is_byte in *. lia. }
  unfold sendNextGroupTelegramB. rewrite Z0. destruct (objectFlagsTable c); reflexivity.
Qed.
Print Assumptions C91_never_sent_refuted.
(** ... and no received value is ever reported to it. *)
Theorem C91_never_reported_refuted : forall c m, cfg_ok c -> (num_b c < 256)%nat -> nextUpdatedObjectB c m = (-1, m).
Proof.
  intros c m Hc H. assert (Z0 : objectCount c = 0%nat).
  { unfold objectCount, num_b, word16 in *. pose proof (com_byte c 0 Hc). pose proof (com_byte c 1 Hc). unfold is_byte in *. lia. }
  unfold nextUpdatedObjectB, nextUpdatedObject. rewrite Z0. destruct (objectFlagsTable c); reflexivity.
Qed.
Print Assumptions C91_never_reported_refuted.
Example C91_hypotheses : cfg_ok dev8 /\ (num_b dev8 < 256)%nat /\ objectReadB dev8 8 (objectWriteB dev8 8 0x77 mem0) = 0x77 /\
  fst (sendNextGroupTelegramB dev8 (mkSt (objectWriteB dev8 8 0x77 mem0) (repeat 0 23) [] 0 0)) = false /\
  fst (nextUpdatedObjectB dev8 (smem (processGroupAddressTelegramB dev8 0x80 0x0902 [0xBC; 0; 0; 9; 2; 0xE2; 0; 0x80; 0x5A] (mkSt mem0 (repeat 0 23) [] 0 0)))) = -1.
Proof. split; [apply dev8_ok|]. split; [vm_compute; lia|]. split; [vm_compute; reflexivity|]. split; vm_compute; reflexivity. Qed.
