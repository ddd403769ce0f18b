From Verif Require Import Base Bits Telegram_Model Telegram_Spec Telegram_Proofs ComObj_Model ComObj_Spec ComObj_Proofs ComObj_Values ComObj_Send.

(** ** The sending address *)
Lemma entry_u16 c k : cfg_ok c -> is_u16 (entry c k).
Proof.
  intros Hc. unfold entry, word16, is_u16. pose proof (rd_byte (addrTab c) (1 + 2 * k) (ok_addr c Hc)). pose proof (rd_byte (addrTab c) (2 + 2 * k) (ok_addr c Hc)).
  unfold is_byte in *. lia.
Qed.
Lemma addrCount_ge c : cfg_ok c -> Z.of_nat (num_addrs c) <= addrCount c.
Proof.
  intros Hc. pose proof (rd_byte (addrTab c) 0 (ok_addr c Hc)) as B0. pose proof (rd_byte (addrTab c) 1 (ok_addr c Hc)) as B1.
  unfold addrCount, num_addrs. destruct (isBCU2 c); [rewrite makeWord_word by auto|]; unfold word16, is_byte in *; lia.
Qed.
Lemma num_addrs_le c : cfg_ok c -> (num_addrs c <= 255)%nat.
Proof. intros Hc. pose proof (rd_byte (addrTab c) 0 (ok_addr c Hc)) as B0. unfold num_addrs, is_byte in *. lia. Qed.
Lemma firstLoop_spec c o (f : nat -> Z * Z) : cfg_ok c -> forall n s,
  (forall i, (s <= i < s + n)%nat -> snd (f i) = o -> 1 <= fst (f i) < Z.of_nat (num_addrs c)) ->
  (exists i, (s <= i < s + n)%nat /\ snd (f i) = o /\ (forall j, (s <= j < i)%nat -> snd (f j) <> o) /\
     firstLoop c o (map f (seq s n)) = entry c (Z.to_nat (fst (f i)))) \/
  ((forall i, (s <= i < s + n)%nat -> snd (f i) <> o) /\ firstLoop c o (map f (seq s n)) = 0).
Proof.
  intros Hc. induction n; intros s H; cbn [seq map firstLoop].
  - right. split; auto. intros; lia.
  - destruct (f s) as [g q] eqn:F. destruct (q =? o) eqn:Q; simpl negb; cbv iota.
    + assert (G : 1 <= g < Z.of_nat (num_addrs c)) by (specialize (H s ltac:(lia)); rewrite F in H; apply H; simpl; lia).
      pose proof (addrCount_ge c Hc). pose proof (num_addrs_le c Hc). unfold u16. rewrite Z.mod_small by lia.
      replace (addrCount c <? g + 1) with false by lia. left. exists s. split; [lia|]. rewrite F. simpl. split; [lia|]. split; [intros; lia|].
      rewrite word_bytes by (apply rd_byte, (ok_addr c Hc)). unfold entry, word16.
      replace (Z.to_nat (Z.shiftl g 1)) with (2 * Z.to_nat g)%nat by (rewrite Z.shiftl_mul_pow2 by lia; change (2 ^ 1) with 2; lia).
      replace (S (2 * Z.to_nat g + 1)) with (2 + 2 * Z.to_nat g)%nat by lia. reflexivity.
    + destruct (IHn (S s)) as [(i & A & B & C & D)|(A & B)].
      * intros i Hi. apply H. lia.
      * left. exists i. split; [lia|]. split; auto. split; auto. intros j Hj. destruct (Nat.eq_dec j s) as [->|]; [rewrite F; simpl; lia|apply C; lia].
      * right. split; auto. intros i Hi. destruct (Nat.eq_dec i s) as [->|]; [rewrite F; simpl; lia|apply A; lia].
Qed.
Lemma firstObjectAddr_spec c o : cfg_ok c -> assoc_idx_ok c ->
  (sending_addr c o (firstObjectAddr c o) /\ knows c (firstObjectAddr c o)) \/ ((forall a, ~ sending_addr c o a) /\ firstObjectAddr c o = 0).
Proof.
  intros Hc Ha. unfold firstObjectAddr, assocs. set (f := fun i => (rd (assocTab c) (1 + 2 * i), rd (assocTab c) (2 + 2 * i))).
  assert (K : forall i, (i < Z.to_nat (rd (assocTab c) 0))%nat -> snd (f i) = Z.of_nat o -> (1 <= Z.to_nat (fst (f i)) < num_addrs c)%nat).
  { intros i Hi Hs. apply (Ha (Z.to_nat (fst (f i))) o). exists i. split; auto. pose proof (rd_byte (assocTab c) (1 + 2 * i) (ok_assoc c Hc)) as B. unfold is_byte in B.
    split; [unfold f; cbn [fst]; rewrite Z2Nat.id by lia; reflexivity|exact Hs]. }
  destruct (firstLoop_spec c (Z.of_nat o) f Hc (Z.to_nat (rd (assocTab c) 0)) 0) as [(i & A & B & C & D)|(A & B)].
  - intros i Hi Hs. specialize (K i ltac:(lia) Hs). lia.
  - left. rewrite D. split.
    + exists i. split; [lia|]. split; [exact B|]. split; [intros j Hj; apply C; lia|reflexivity].
    + exists (Z.to_nat (fst (f i))). split; [apply K; auto; lia|reflexivity].
  - right. split; auto. intros a (i & H1 & H2 & _). apply (A i); [lia|exact H2].
Qed.
Lemma sending_addr_unique c o a b : sending_addr c o a -> sending_addr c o b -> a = b.
Proof.
  intros (i & A1 & A2 & A3 & A4) (j & B1 & B2 & B3 & B4). assert (i = j).
  { destruct (Nat.lt_trichotomy i j) as [H|[H|H]]; auto; [destruct (B3 i)|destruct (A3 j)]; auto. }
  subst j. congruence.
Qed.
Lemma knows_no_stray c a : knows c a -> no_stray c a. Proof. intros H _ _. exact H. Qed.

(** ** Which object is taken *)
Lemma bit_land_nz b k : 0 <= k -> negb (Z.land b (2 ^ k) =? 0) = Z.testbit b k.
Proof. intros H. rewrite land_bit_zero by auto. apply negb_involutive. Qed.
Lemma nib_flags_bits b (odd : bool) : is_byte b ->
  let r := if odd then Z.shiftr b 4 else b in
  (Z.land r COMFLAG_TRANSREQ =? COMFLAG_TRANSREQ) = (nib b odd mod 4 =? 3) /\ negb (Z.land r COMFLAG_DATAREQ =? 0) = Z.testbit (nib b odd) 2.
Proof.
  intros Hb. assert (F : forallb (fun b => forallb (fun odd : bool => let r := if odd then Z.shiftr b 4 else b in
    Bool.eqb (Z.land r COMFLAG_TRANSREQ =? COMFLAG_TRANSREQ) (nib b odd mod 4 =? 3) && Bool.eqb (negb (Z.land r COMFLAG_DATAREQ =? 0)) (Z.testbit (nib b odd) 2)) bools) bytes256 = true) by (vm_compute; reflexivity).
  assert (X := byte_forall _ F b Hb). cbv beta in X. assert (Y := bools_forall _ X odd). cbv beta zeta in Y. apply andb_true_iff in Y. destruct Y as [Y1 Y2].
  apply Bool.eqb_prop in Y1, Y2. cbv zeta. auto.
Qed.
Lemma rawFlags_bits c p m o : cfg_ok c -> mem_ok c m -> ptr_at c p (flags_base c) ((Z.of_nat (num_objs c) + 1) / 2) -> (o < num_objs c)%nat ->
  (Z.land (rawFlags c p o m) COMFLAG_TRANSREQ =? COMFLAG_TRANSREQ) = (flags c m o mod 4 =? 3) /\
  negb (Z.land (rawFlags c p o m) COMFLAG_DATAREQ =? 0) = wants_read c m o.
Proof.
  intros Hc Hm Hp Ho. unfold rawFlags, wants_read. rewrite (getp_at c m p _ _ _ Hc Hp (half_lt c o Ho)), flags_nib. cbv zeta. apply nib_flags_bits. apply cell_byte; auto.
Qed.
Lemma wantsSend_iff c p m o : cfg_ok c -> assoc_idx_ok c -> mem_ok c m -> ptr_at c p (flags_base c) ((Z.of_nat (num_objs c) + 1) / 2) -> (o < num_objs c)%nat ->
  wantsSend c p o m = true <-> sendable c o /\ pending c m o.
Proof.
  intros Hc Ha Hm Hp Ho. unfold wantsSend. rewrite (proj1 (rawFlags_bits c p m o Hc Hm Hp Ho)), objConfig_conf.
  unfold COMCONF_COMM, COMCONF_TRANS. change 0x04 with (2 ^ 2). change 0x40 with (2 ^ 6). rewrite !land_bit_zero by lia.
  unfold sendable, pending, trans_enabled, comm_enabled. destruct (firstObjectAddr_spec c o Hc Ha) as [[S _]|[S E]].
  - set (fa := firstObjectAddr c o) in *. split.
    + intros H. apply andb_true_iff in H. destruct H as [H1 H2]. apply negb_true_iff in H1. apply orb_false_elim in H1. destruct H1 as [H1 H3]. apply orb_false_elim in H1. destruct H1 as [H0 H1].
      apply negb_false_iff in H1, H3. split; [|apply Z.eqb_eq; auto]. split; auto. exists fa. split; auto. apply Z.eqb_neq; auto.
    + intros ((( H1 & H2) & (b & B1 & B2)) & H3). rewrite H1, H2. rewrite (sending_addr_unique c o fa b S B1). apply Z.eqb_neq in B2. rewrite B2. change (2 ^ 2) with 4. rewrite H3. reflexivity.
  - rewrite E. simpl. split; [discriminate|]. intros ((_ & (b & B & _)) & _). destruct (S b B).
Qed.
Lemma scanSend_spec c p m (W : nat -> Prop) : (forall o, (o < num_objs c)%nat -> wantsSend c p o m = true <-> W o) -> forall n o, (o + n = num_objs c)%nat ->
  match scanSend c p n o m with
  | Some q => (o <= q < num_objs c)%nat /\ W q /\ (forall j, (o <= j < q)%nat -> ~ W j)
  | None => forall j, (o <= j < num_objs c)%nat -> ~ W j
  end.
Proof.
  intros HW. induction n; intros o Ho; cbn [scanSend]; [intros; lia|]. destruct (wantsSend c p o m) eqn:E.
  - split; [lia|]. split; [apply HW; auto; lia|intros; lia].
  - assert (N : ~ W o) by (intros H; apply HW in H; [congruence|lia]). specialize (IHn (S o) ltac:(lia)). destruct (scanSend c p n (S o) m) as [q|].
    + destruct IHn as (A & B & C). split; [lia|]. split; auto. intros j Hj. destruct (Nat.eq_dec j o) as [->|]; auto. apply C; lia.
    + intros j Hj. destruct (Nat.eq_dec j o) as [->|]; auto. apply IHn; lia.
Qed.

(** ** Sending one object *)
Definition buf_ok (b : list Z) : Prop := length b = 23%nat /\ Forall is_byte b.
Lemma sendRead_effect o a s : buf_ok (sendBuf s) -> is_u16 a ->
  let s' := sendGroupReadTelegram o a s in
  smem s' = smem s /\ buf_ok (sendBuf s') /\ sendNext s' = sendNext s /\ exists t, sent s' = sent s ++ [t] /\ group_frame t a 0 0.
Proof.
  intros (Hl & Hb) Ha s'. unfold s', sendGroupReadTelegram, sendPrepared. cbn [smem sendBuf sent sendNext].
  set (b := wr (setDestinationAddress (initLpdu (sendBuf s) PRIORITY_LOW false FRAME_STANDARD) a) 5 225).
  set (t := setApciCommand b APCI_GROUP_VALUE_READ_PDU 0).
  assert (L : length b = 23%nat) by (unfold b, setDestinationAddress; rewrite !wr_length, initLpdu_length; auto).
  assert (LT : length t = 23%nat) by (unfold t, setApciCommand; cbv zeta; rewrite !wr_length; auto).
  assert (B : Forall is_byte b) by (unfold b, setDestinationAddress; do 3 (apply Forall_wr; [|first [apply HIGH_BYTE_byte|apply lowByte_byte|unfold is_byte; lia]]); apply initLpdu_bytes; auto).
  assert (R : forall j, j <> 6%nat -> j <> 7%nat -> rd t j = rd b j) by (intros; unfold t, setApciCommand; cbv zeta; rewrite !rd_wr_other by auto; reflexivity).
  assert (R6 : rd t 6 = 0) by (unfold t, setApciCommand; cbv zeta; rewrite !(rd_wr_other _ 7) by lia; rewrite rd_wr_same by lia; reflexivity).
  assert (R7 : rd t 7 = 0) by (unfold t, setApciCommand; cbv zeta; rewrite rd_wr_same by (rewrite !wr_length; lia); rewrite rd_wr_same by (rewrite wr_length; lia); reflexivity).
  assert (R5 : rd b 5 = 225) by (unfold b; apply rd_wr_same; unfold setDestinationAddress; rewrite !wr_length, initLpdu_length; lia).
  split; [reflexivity|]. split.
  { split; auto. unfold t, setApciCommand; cbv zeta. assert (X : Forall is_byte (wr (wr b 6 (HIGH_BYTE APCI_GROUP_VALUE_READ_PDU)) 7 (lowByte APCI_GROUP_VALUE_READ_PDU)))
      by (apply Forall_wr; [apply Forall_wr; [auto|apply HIGH_BYTE_byte]|apply lowByte_byte]).
    apply Forall_wr; auto. apply lor_byte; [apply rd_byte; auto|unfold is_byte; lia]. }
  split; [reflexivity|]. eexists. split; [reflexivity|].
  assert (TS : telegramSize t = 8%nat) by (unfold telegramSize; rewrite R, R5 by lia; reflexivity). rewrite TS.
  unfold group_frame. rewrite firstn_length, LT. split; [reflexivity|]. rewrite !rd_firstn by lia. rewrite R6, R7, !R, R5 by lia.
  split; [unfold b, setDestinationAddress; rewrite !rd_wr_other by lia; apply initLpdu_low; lia|]. split; [|auto].
  replace (rd b 3) with (HIGH_BYTE a). 2:{ symmetry. unfold b, setDestinationAddress. rewrite (rd_wr_other _ 5), (rd_wr_other _ 4) by lia. apply rd_wr_same. rewrite initLpdu_length; lia. }
  replace (rd b 4) with (lowByte a). 2:{ symmetry. unfold b, setDestinationAddress. rewrite (rd_wr_other _ 5) by lia. apply rd_wr_same. rewrite wr_length, initLpdu_length; lia. }
  pose proof (word_roundtrip a Ha) as W. rewrite word_split in W by (apply HIGH_BYTE_byte || apply lowByte_byte). exact W.
Qed.

(** ** Receiving what another device sent *)
Lemma typ_15 c o : cfg_ok c -> obj_ok c o -> 0 <= obj_typ c o <= 15.
Proof. intros Hc (_ & H & _). pose proof (typ_byte c o Hc) as B. unfold is_byte in B. lia. Qed.
Lemma val_bytes c m o : mem_ok c m -> Forall is_byte (value c m o).
Proof. intros Hm. apply Forall_forall. intros x Hx. apply in_map_iff in Hx. destruct Hx as (i & <- & _). apply cell_byte; auto. Qed.
Lemma short_one c o : 0 <= obj_typ c o -> (obj_typ c o <? 6) = true -> obj_size c o = 1%nat.
Proof.
  intros H0 H. unfold obj_size. assert (T : obj_typ c o = 0 \/ obj_typ c o = 1 \/ obj_typ c o = 2 \/ obj_typ c o = 3 \/ obj_typ c o = 4 \/ obj_typ c o = 5) by lia.
  destruct T as [->|[->|[->|[->|[->| ->]]]]]; reflexivity.
Qed.
Lemma carried_decode c m o a cmd t t' : cfg_ok c -> mem_ok c m -> obj_ok c o -> short_ok c m o -> is_u16 a -> cmd = 128 \/ cmd = 64 -> carries c m o a cmd t -> on_the_bus t t' ->
  Z.land (apciCommand t') APCI_GROUP_MASK = cmd /\ destinationAddress t' = a /\ payload (obj_typ c o) t' = value c m o.
Proof.
  intros Hc Hm Ho Hso Hu Hcmd ((L & F0 & F3 & F5 & F6 & F7) & D) (B & BL & S).
  assert (R : forall i, (i < length t)%nat -> i <> 1%nat -> i <> 2%nat -> rd t' i = rd t i) by auto.
  assert (V7 : 0 <= (if obj_typ c o <? 6 then hd 0 (value c m o) else 0) < 64).
  { destruct (obj_typ c o <? 6) eqn:T; [|lia]. pose proof (val_bytes c m o Hm) as VB.
    assert (ST : short_type (obj_typ c o)) by (pose proof (typ_15 c o Hc Ho); unfold short_type; lia). specialize (Hso ST).
    destruct (value c m o); simpl; [lia|]. inversion Hso; inversion VB; subst. unfold is_byte in *. lia. }
  split; [|split].
  - unfold apciCommand. rewrite !R, F6, F7 by lia. set (v := if obj_typ c o <? 6 then hd 0 (value c m o) else 0) in *.
    assert (FF : forallb (fun v => forallb (fun cmd => let apci := u16 (Z.lor (Z.shiftl (Z.land 0 3) 8) (cmd + v)) in let short := Z.land apci APCI_GROUP_MASK in
      Z.land (if (short =? APCI_ADC_READ_PDU) || (short =? APCI_MEMORY_READ_PDU) || (short =? APCI_MEMORY_WRITE_PDU) || (short =? APCI_DEVICEDESCRIPTOR_READ_PDU) then short else apci) APCI_GROUP_MASK =? cmd) [128; 64]) (range_Z 64) = true) by (vm_compute; reflexivity).
    assert (X := range_forall 64 _ FF v ltac:(change (Z.of_nat 64) with 64; lia)). cbv beta in X. rewrite forallb_forall in X.
    apply Z.eqb_eq. apply X. simpl. destruct Hcmd; auto.
  - unfold destinationAddress. rewrite !R by lia. rewrite <- F3. apply makeWord_word; rewrite <- R by lia; apply rd_byte; auto.
  - unfold payload. destruct (obj_typ c o <? 6) eqn:T.
    + rewrite R, F7 by lia. assert (SZ : obj_size c o = 1%nat) by (apply short_one; auto; apply (typ_15 c o Hc Ho)).
      assert (VL : length (value c m o) = 1%nat) by (unfold value; rewrite map_length, seq_length; auto).
      destruct (value c m o) as [|v [|w r]] eqn:EV; try discriminate. cbn [hd] in *.
      f_equal. destruct Hcmd as [->| ->]; [replace (128 + v) with (v + 2 * 64) by lia|replace (64 + v) with (v + 1 * 64) by lia]; rewrite Z.mod_add, Z.mod_small by lia; reflexivity.
    + destruct D as [D|D]; [lia|]. fold (obj_size c o). rewrite <- (rev_involutive (value c m o)), <- D.
      assert (SK : skipn 8 t = map (fun i => rd t' (8 + i)) (seq 0 (obj_size c o))).
      { replace t with (firstn (8 + obj_size c o) t) at 1 by (rewrite <- L; apply firstn_all). rewrite skipn_firstn_rd by lia. apply map_ext_in. intros i Hi. apply in_seq in Hi. symmetry. apply R; lia. }
      rewrite SK, rev_map_seq. reflexivity.
Qed.

Lemma sendWrite_effect c o a r s : cfg_ok c -> layout_ok c -> assoc_ok c -> mem_ok c (smem s) -> buf_ok (sendBuf s) -> (o < num_objs c)%nat -> is_u16 a -> no_stray c a ->
  let s' := sendGroupWriteTelegram c o a r s in
  buf_ok (sendBuf s') /\ sendNext s' = sendNext s /\
  (exists t, sent s' = sent s ++ [t] /\ (short_ok c (smem s) o -> carries c (smem s) o a (if r : bool then 64 else 128) t)) /\
  (exists P, wrote c (sendBuf s') P (smem s) (smem s') /\ (forall q, P q = true <-> associated c a q /\ write_enabled c q /\ q <> o)) /\
  (short_ok c (smem s) o -> payload (obj_typ c o) (sendBuf s') = value c (smem s) o).
Proof.
  intros Hc Hl Ha Hm (Hbl & Hbb) Ho Hu Hs s'. assert (Hok : obj_ok c o) by (apply Hl; auto).
  destruct (objectValuePtr_at c o Hc Hok) as (p & E & Hp).
  assert (EQ : sendGroupWriteTelegram c o a r s = mkSt (processGroupWrite c a (groupTelegram c o p a r (smem s) (sendBuf s)) (Z.of_nat o) (smem s))
    (groupTelegram c o p a r (smem s) (sendBuf s))
    (sent s ++ [firstn (telegramSize (groupTelegram c o p a r (smem s) (sendBuf s))) (groupTelegram c o p a r (smem s) (sendBuf s))]) (sendNext s) (Z.of_nat o))
    by (unfold sendGroupWriteTelegram; rewrite E; reflexivity).
  unfold s'. rewrite EQ. cbn [smem sendBuf sent sendNext].
  pose proof (tel_bytes c o p (smem s) (sendBuf s) Hc Hm Hok Hp Hbb Hbl a r) as TB.
  assert (TL : length (groupTelegram c o p a r (smem s) (sendBuf s)) = 23%nat) by (rewrite (groupTelegram_eq c o p (smem s) (sendBuf s)) by auto; apply tel_length; auto).
  split; [|split; [reflexivity|split; [|split]]].
  - split; auto.
  - eexists. split; [reflexivity|]. intros SO. apply (groupTelegram_carries c o p (smem s) (sendBuf s)); auto.
  - destruct (processGroupWrite_wrote c a (groupTelegram c o p a r (smem s) (sendBuf s)) (Z.of_nat o) (smem s) Hc Hl Ha Hm TB Hu Hs) as (P & W & I).
    exists P. split; auto. intros q. rewrite I. split; intros (X & Y & Z); split; auto; split; auto; lia.
  - intros SO. pose proof (groupTelegram_carries c o p (smem s) (sendBuf s) Hc Hm Hok Hp Hbl a r Hu SO) as CA.
    apply (carried_decode c (smem s) o a (if r then 64 else 128) _ _ Hc Hm Hok SO Hu ltac:(destruct r; auto) CA).
    split; auto. rewrite firstn_length. split; [lia|]. intros i Hi _ _. rewrite rd_firstn by lia. reflexivity.
Qed.

Lemma nib_sent b (o : bool) : is_byte b -> let sh := if o then 4 else 0 in
  let v := u8 (Z.lor (Z.land b (u8 (Z.lnot (Z.shiftl (Z.lor COMFLAG_TRANS_MASK COMFLAG_DATAREQ) sh)))) (Z.shiftl COMFLAG_ERROR sh)) in
  (forall q, nib v q = if Bool.eqb q o then Z.lor (Z.land (nib b q) 8) 1 else nib b q) /\ is_byte v.
Proof.
  intros Hb sh v. split; [|apply u8_byte]. intros q. unfold v, sh.
  assert (F : forallb (fun b => forallb (fun o : bool => forallb (fun q => let sh := if o then 4 else 0 in
    nib (u8 (Z.lor (Z.land b (u8 (Z.lnot (Z.shiftl (Z.lor COMFLAG_TRANS_MASK COMFLAG_DATAREQ) sh)))) (Z.shiftl COMFLAG_ERROR sh))) q =? (if Bool.eqb q o then Z.lor (Z.land (nib b q) 8) 1 else nib b q)) bools) bools) bytes256 = true) by (vm_compute; reflexivity).
  assert (X := byte_forall _ F b Hb). cbv beta in X. assert (Y := bools_forall _ X o). cbv beta in Y. assert (Z := bools_forall _ Y q). cbv beta zeta in Z. apply Z.eqb_eq in Z. exact Z.
Qed.
Lemma lor_1_mod8 x : Z.lor (Z.land x 8) 1 mod 8 = 1.
Proof.
  change 8 with (2 ^ 3) at 2. rewrite <- Z.land_ones by lia. apply Z.bits_inj'. intros n Hn. rewrite Z.land_spec, Z.lor_spec, Z.land_spec.
  destruct (Z.eq_dec n 0) as [->|]; [simpl; apply andb_true_r || (rewrite orb_true_r; reflexivity)|].
  destruct (Z.ltb_spec n 3).
  - assert (n = 1 \/ n = 2) as [->| ->] by lia; simpl; rewrite andb_false_r; reflexivity.
  - rewrite Z.ones_spec_high by lia. rewrite andb_false_r. symmetry. apply (bits_above_lt 1 1); lia.
Qed.
Lemma lor_8_mod8 x : Z.lor x 8 mod 8 = x mod 8.
Proof.
  change 8 with (2 ^ 3) at 2 3. rewrite <- !Z.land_ones by lia. apply Z.bits_inj'. intros n Hn. rewrite !Z.land_spec, Z.lor_spec.
  destruct (Z.ltb_spec n 3); [|rewrite Z.ones_spec_high by lia; rewrite !andb_false_r; reflexivity].
  assert (n = 0 \/ n = 1 \/ n = 2) as [->|[->| ->]] by lia; simpl; rewrite orb_false_r; reflexivity.
Qed.

Lemma sendObject_effect c p o s : cfg_ok c -> layout_ok c -> assoc_ok c -> assoc_idx_ok c -> mem_ok c (smem s) -> buf_ok (sendBuf s) -> (o < num_objs c)%nat ->
  ptr_at c p (flags_base c) ((Z.of_nat (num_objs c) + 1) / 2) -> sendable c o ->
  let s' := sendObject c p o s in
  mem_ok c (smem s') /\ buf_ok (sendBuf s') /\ sendNext s' = Z.of_nat o + 1 /\ exists t, sent s' = sent s ++ [t] /\ serves c o (smem s) (smem s') t.
Proof.
  intros Hc Hl Ha Hi Hm Hb Ho Hp (_ & (a & A1 & A2)) s'.
  assert (FA : firstObjectAddr c o = a /\ knows c a).
  { destruct (firstObjectAddr_spec c o Hc Hi) as [[S K]|[S _]]; [|destruct (S a A1)]. rewrite (sending_addr_unique c o a _ A1 S). auto. }
  destruct FA as [FA K]. assert (Hu : is_u16 a) by (destruct A1 as (i & _ & _ & _ & ->); apply entry_u16; auto).
  pose proof (proj2 (rawFlags_bits c p (smem s) o Hc Hm Hp Ho)) as DR.
  set (s1 := if negb (Z.land (rawFlags c p o (smem s)) COMFLAG_DATAREQ =? 0) then sendGroupReadTelegram o (firstObjectAddr c o) s else sendGroupWriteTelegram c o (firstObjectAddr c o) false s).
  assert (S1 : mem_ok c (smem s1) /\ buf_ok (sendBuf s1) /\ (exists t, sent s1 = sent s ++ [t] /\
      (if wants_read c (smem s) o then group_frame t a 0 0 else short_ok c (smem s) o -> carries c (smem s) o a 128 t)) /\
      value c (smem s1) o = value c (smem s) o /\ (forall q, (q < num_objs c)%nat -> request c (smem s1) q = request c (smem s) q) /\
      (forall q, (q < num_objs c)%nat -> q <> o -> wants_read c (smem s) o = true \/ ~ associated c a q \/ ~ write_enabled c q ->
         value c (smem s1) q = value c (smem s) q /\ flags c (smem s1) q = flags c (smem s) q) /\
      (forall q, (q < num_objs c)%nat -> q <> o -> wants_read c (smem s) o = false -> short_ok c (smem s) o -> associated c a q -> write_enabled c q -> obj_typ c q = obj_typ c o ->
         value c (smem s1) q = value c (smem s) o /\ updated c (smem s1) q)).
  { unfold s1. rewrite DR, FA. destruct (wants_read c (smem s) o) eqn:WR.
    - destruct (sendRead_effect o a s Hb Hu) as (E1 & E2 & E3 & t & E4 & E5). rewrite E1. split; auto. split; auto. split; [exists t; auto|]. split; auto. split; auto. split; auto. intros; discriminate.
    - destruct (sendWrite_effect c o a false s Hc Hl Ha Hm Hb Ho Hu (knows_no_stray c a K)) as (E1 & E2 & E3 & (P & (W1 & W2 & W3 & W4) & I) & PL).
      split; auto. split; auto. split; auto.
      assert (PO : P o = false) by (destruct (P o) eqn:PO; auto; apply I in PO; destruct PO as (_ & _ & PO); congruence).
      split; [apply W3; auto|]. split; [|split].
      + intros q Hq. unfold request. destruct (P q) eqn:PQ; [rewrite (proj2 (W2 q Hq PQ)); apply lor_8_mod8|rewrite (proj2 (W3 q Hq PQ)); reflexivity].
      + intros q Hq Hn HX. apply W3; auto. destruct (P q) eqn:PQ; auto. apply I in PQ. destruct PQ as (P1 & P2 & _). destruct HX as [HX|[HX|HX]]; [discriminate|destruct (HX P1)|destruct (HX P2)].
      + intros q Hq Hn _ SO Q1 Q2 QT. assert (PQ : P q = true) by (apply I; auto). destruct (W2 q Hq PQ) as [W5 W6]. rewrite W5, QT. split; [apply PL; auto|].
        unfold updated. rewrite W6, Z.lor_spec. change (Z.testbit 8 3) with true. apply orb_true_r. }
  destruct S1 as (M1 & B1 & (t & T1 & T2) & V1 & R1 & Q1 & Q2).
  assert (GB : is_byte (getp (smem s1) p (o / 2))) by (rewrite (getp_at c (smem s1) p _ _ _ Hc Hp (half_lt c o Ho)); apply cell_byte; auto).
  destruct (nib_sent (getp (smem s1) p (o / 2)) (Nat.odd o) GB) as [N1 N2].
  assert (FS := flag_step_byte c (smem s1) p o _ (fun x => Z.lor (Z.land x 8) 1) Hc M1 Ho Hp N2 N1).
  destruct FS as (F1 & F2 & F3). unfold s', sendObject. fold s1. cbv zeta. cbn [smem sendBuf sent sendNext].
  split; auto. split; auto. split; [reflexivity|]. exists t. split; auto. exists a. split; auto. split; auto. split.
  - unfold request. rewrite F3, Nat.eqb_refl. apply lor_1_mod8.
  - assert (VS : forall q, (q < num_objs c)%nat -> value c (putp (smem s1) p (o / 2) (u8 (Z.lor (Z.land (getp (smem s1) p (o / 2)) (u8 (Z.lnot (Z.shiftl (Z.lor COMFLAG_TRANS_MASK COMFLAG_DATAREQ) (if Nat.odd o then 4 else 0))))) (Z.shiftl COMFLAG_ERROR (if Nat.odd o then 4 else 0))))) q = value c (smem s1) q).
    { intros q Hq. apply value_same. intros x Hx. apply F2. destruct Hl as (_ & _ & D & _). apply (D q); auto. }
    assert (NE : forall q, q <> o -> Nat.eqb q o = false) by (intros; apply Nat.eqb_neq; auto).
    split; [rewrite VS by auto; auto|]. split; [|split].
    + intros q Hq Hn. unfold request. rewrite F3, NE by auto. apply R1; auto.
    + intros q Hq Hn HX. rewrite VS, F3, NE by auto. apply Q1; auto.
    + intros q Hq Hn H1 H2 H3 H4 H5. unfold updated. rewrite VS, F3, NE by auto. apply Q2; auto.
Qed.

(** ** A send opportunity *)
Lemma sendNext_step c s : cfg_ok c -> layout_ok c -> assoc_ok c -> assoc_idx_ok c -> mem_ok c (smem s) -> buf_ok (sendBuf s) -> (0 < num_objs c)%nat -> 0 <= sendNext s ->
  let idx := Z.to_nat (sendNext s mod Z.of_nat (num_objs c)) in
  let s' := snd (sendNextGroupTelegram c s) in
  mem_ok c (smem s') /\ buf_ok (sendBuf s') /\
  ((exists o t, (idx <= o < num_objs c)%nat /\ sendable c o /\ pending c (smem s) o /\ (forall j, (idx <= j < o)%nat -> ~ (sendable c j /\ pending c (smem s) j)) /\
      fst (sendNextGroupTelegram c s) = true /\ sendNext s' = Z.of_nat o + 1 /\ sent s' = sent s ++ [t] /\ serves c o (smem s) (smem s') t) \/
   ((forall j, (idx <= j < num_objs c)%nat -> ~ (sendable c j /\ pending c (smem s) j)) /\
      fst (sendNextGroupTelegram c s) = false /\ sendNext s' = Z.of_nat idx + 1 /\ sent s' = sent s /\ smem s' = smem s)).
Proof.
  intros Hc Hl Ha Hi Hm Hb Hn Hs idx s'. assert (Hf : flags_ok c) by apply Hl.
  destruct (objectFlagsTable_at c Hc Hf Hn) as (p & E & Hp).
  assert (HI : (idx < num_objs c)%nat) by (unfold idx; pose proof (Z.mod_pos_bound (sendNext s) (Z.of_nat (num_objs c)) ltac:(lia)); lia).
  assert (EQ : sendNextGroupTelegram c s = match scanSend c p (num_objs c - idx) idx (smem s) with
    | Some o => (true, sendObject c p o s) | None => (false, mkSt (smem s) (sendBuf s) (sent s) (Z.of_nat idx + 1) (transmitting s)) end).
  { unfold sendNextGroupTelegram. rewrite E. change (objectCount c) with (num_objs c). cbv zeta. fold idx.
    replace (Nat.eqb (num_objs c) 0) with false by (symmetry; apply Nat.eqb_neq; lia). reflexivity. }
  pose proof (scanSend_spec c p (smem s) (fun o => sendable c o /\ pending c (smem s) o) (fun o Ho => wantsSend_iff c p (smem s) o Hc Hi Hm Hp Ho) (num_objs c - idx) idx ltac:(lia)) as SC.
  unfold s'. rewrite EQ. destruct (scanSend c p (num_objs c - idx) idx (smem s)) as [o|]; cbn [fst snd].
  - destruct SC as (A & (B1 & B2) & C). destruct (sendObject_effect c p o s Hc Hl Ha Hi Hm Hb ltac:(lia) Hp B1) as (D1 & D2 & D3 & t & D4 & D5).
    split; auto. split; auto. left. exists o, t. auto 10.
  - cbn [smem sendBuf sent sendNext]. split; auto. split; auto. right. auto.
Qed.

(** ** Fairness *)
Definition with_mem (s : state) (m : mem) : state := mkSt m (sendBuf s) (sent s) (sendNext s) (transmitting s).
(** successive opportunities; before each one the application and the bus may have changed the memory to the next element of [ms] *)
Fixpoint opportunities (c : cfg) (ms : list mem) (s : state) : list (mem * bool * state) :=
  match ms with [] => [] | m :: r => let x := sendNextGroupTelegram c (with_mem s m) in (m, fst x, snd x) :: opportunities c r (snd x) end.
Definition delay (N idx p : nat) : nat := if Nat.leb idx p then (p - idx + 1)%nat else (N - idx + p + 1)%nat.
Lemma next_idx N o : (o < N)%nat -> Z.to_nat ((Z.of_nat o + 1) mod Z.of_nat N) = if Nat.eqb (S o) N then 0%nat else S o.
Proof.
  intros H. destruct (Nat.eqb (S o) N) eqn:E.
  - apply Nat.eqb_eq in E. replace (Z.of_nat o + 1) with (Z.of_nat N) by lia. rewrite Z.mod_same by lia. reflexivity.
  - apply Nat.eqb_neq in E. rewrite Z.mod_small by lia. lia.
Qed.
Lemma fair c p : cfg_ok c -> layout_ok c -> assoc_ok c -> assoc_idx_ok c -> (p < num_objs c)%nat -> sendable c p ->
  forall ms s, buf_ok (sendBuf s) -> 0 <= sendNext s -> Forall (fun m => mem_ok c m /\ pending c m p) ms ->
  (delay (num_objs c) (Z.to_nat (sendNext s mod Z.of_nat (num_objs c))) p <= length ms)%nat ->
  exists k m b s1 t before, (k < delay (num_objs c) (Z.to_nat (sendNext s mod Z.of_nat (num_objs c))) p)%nat /\
    nth_error (opportunities c ms s) k = Some (m, b, s1) /\ b = true /\ sent s1 = before ++ [t] /\ serves c p m (smem s1) t.
Proof.
  intros Hc Hl Ha Hi Hp Hsend. induction ms as [|m ms IH]; intros s Hb Hs Hall Hd.
  - exfalso. simpl length in Hd. unfold delay in Hd. destruct (Nat.leb _ p) in Hd; lia.
  - inversion Hall as [|? ? [Hm Hpend] Hall']; subst. set (idx := Z.to_nat (sendNext s mod Z.of_nat (num_objs c))) in *.
    assert (HI : (idx < num_objs c)%nat) by (unfold idx; pose proof (Z.mod_pos_bound (sendNext s) (Z.of_nat (num_objs c)) ltac:(lia)); lia).
    destruct (sendNext_step c (with_mem s m) Hc Hl Ha Hi Hm Hb ltac:(lia) Hs) as (M' & B' & R). cbn [with_mem smem sendNext sent] in R. fold idx in R.
    set (x := sendNextGroupTelegram c (with_mem s m)) in *.
    assert (STEP : forall q, (idx <= q < num_objs c)%nat -> (idx <= p -> q < p)%nat -> sendNext (snd x) = Z.of_nat q + 1 ->
      exists k m0 b s1 t before, (k < delay (num_objs c) idx p)%nat /\ nth_error (opportunities c (m :: ms) s) k = Some (m0, b, s1) /\ b = true /\ sent s1 = before ++ [t] /\ serves c p m0 (smem s1) t).
    { intros q Hq Hqp Hnext. assert (ID : Z.to_nat (sendNext (snd x) mod Z.of_nat (num_objs c)) = if Nat.eqb (S q) (num_objs c) then 0%nat else S q) by (rewrite Hnext; apply next_idx; lia).
      assert (DL : (delay (num_objs c) (if Nat.eqb (S q) (num_objs c) then 0%nat else S q) p < delay (num_objs c) idx p)%nat).
      { unfold delay. destruct (Nat.leb idx p) eqn:L1.
        - apply Nat.leb_le in L1. specialize (Hqp L1). replace (Nat.eqb (S q) (num_objs c)) with false by (symmetry; apply Nat.eqb_neq; lia).
          replace (Nat.leb (S q) p) with true by (symmetry; apply Nat.leb_le; lia). lia.
        - apply Nat.leb_gt in L1. destruct (Nat.eqb (S q) (num_objs c)); [change (Nat.leb 0 p) with true; cbv iota; lia|].
          replace (Nat.leb (S q) p) with false by (symmetry; apply Nat.leb_gt; lia). lia. }
      destruct (IH (snd x) B' ltac:(lia) Hall') as (k & m0 & b & s1 & t & before & K1 & K2 & K3).
      - rewrite ID. simpl length in Hd. lia.
      - exists (S k), m0, b, s1, t, before. split; [rewrite ID in K1; lia|]. split; [exact K2|exact K3]. }
    destruct R as [(o & t & R1 & R2 & R3 & R4 & R5 & R6 & R7 & R8)|(R1 & R2 & R3 & R4 & R5)].
    + destruct (Nat.eq_dec o p) as [->|NE].
      * exists 0%nat, m, (fst x), (snd x), t, (sent s). split; [unfold delay; destruct (Nat.leb idx p); lia|]. split; [reflexivity|]. auto.
      * apply (STEP o); auto. intros L. destruct (Nat.lt_trichotomy o p) as [|[|G]]; auto; [congruence|]. destruct (R4 p); auto.
    + apply (STEP idx); auto. intros L. destruct (R1 p); auto.
Qed.
Lemma delay_le N idx p : (p < N)%nat -> (idx < N)%nat -> (delay N idx p <= N)%nat.
Proof. intros. unfold delay. destruct (Nat.leb idx p) eqn:E; [lia|]. apply Nat.leb_gt in E. lia. Qed.


(** ** Answering a read request *)
Lemma read_comm_bits b : (Z.land b COMCONF_READ_COMM =? COMCONF_READ_COMM) = Z.testbit b 2 && Z.testbit b 3.
Proof.
  unfold COMCONF_READ_COMM. destruct (Z.testbit b 2 && Z.testbit b 3) eqn:E.
  - apply andb_true_iff in E. destruct E as [E1 E2]. apply Z.eqb_eq. apply Z.bits_inj'. intros n Hn. rewrite Z.land_spec.
    destruct (Z.testbit 0x0c n) eqn:T; [|apply andb_false_r]. rewrite andb_true_r.
    assert (N : n = 2 \/ n = 3). { destruct (Z.ltb_spec n 4); [|rewrite (bits_above_lt 12 4) in T by lia; discriminate].
      assert (n = 0 \/ n = 1 \/ n = 2 \/ n = 3) as [->|[->|[->| ->]]] by lia; auto; discriminate. }
    destruct N as [->| ->]; auto.
  - apply Z.eqb_neq. intros H. apply andb_false_iff in E. assert (B : forall n, Z.testbit (Z.land b 0x0c) n = Z.testbit 0x0c n) by (rewrite H; auto).
    pose proof (B 2) as B2. pose proof (B 3) as B3. rewrite Z.land_spec in B2, B3. destruct E as [E|E]; rewrite E in *; discriminate.
Qed.
Lemma carries_value c m m' o a cmd t : value c m' o = value c m o -> carries c m' o a cmd t -> carries c m o a cmd t.
Proof. unfold carries. intros ->. auto. Qed.
Lemma short_ok_value c m m' o : value c m' o = value c m o -> short_ok c m o -> short_ok c m' o.
Proof. unfold short_ok. intros ->. auto. Qed.
(** [ts] answers for the objects [os], starting from memory [m] *)
Definition answered (c : cfg) (a : Z) (m : mem) (os : list nat) (ts : list (list Z)) : Prop :=
  length ts = length os /\
  forall i o t, nth_error os i = Some o -> nth_error ts i = Some t -> i = 0%nat \/ ~ write_enabled c o -> short_ok c m o -> carries c m o a 64 t.
Definition kept (c : cfg) (m m' : mem) : Prop :=
  (forall q, (q < num_objs c)%nat -> request c m' q = request c m q) /\
  (forall q, (q < num_objs c)%nat -> ~ write_enabled c q -> value c m' q = value c m q /\ flags c m' q = flags c m q).
Lemma write_enabled_dec c q : {write_enabled c q} + {~ write_enabled c q}.
Proof.
  unfold write_enabled, comm_enabled. destruct (Z.testbit (obj_conf c q) 2); [|right; intros [H _]; discriminate].
  destruct (Z.testbit (obj_conf c q) 4); [left; auto|right; intros [_ H]; discriminate].
Qed.
Lemma readReqLoop_spec c a k : cfg_ok c -> layout_ok c -> assoc_ok c -> is_u16 a -> no_stray c a ->
  forall n i0 s, (i0 + n = Z.to_nat (rd (assocTab c) 0))%nat -> mem_ok c (smem s) -> buf_ok (sendBuf s) ->
  let os := map (fun i => Z.to_nat (rd (assocTab c) (2 + 2 * i)))
    (filter (fun i => (rd (assocTab c) (1 + 2 * i) =? Z.of_nat k) && (let conf := obj_conf c (Z.to_nat (rd (assocTab c) (2 + 2 * i))) in Z.testbit conf 2 && Z.testbit conf 3)) (seq i0 n)) in
  let s' := readReqLoop c a (Z.of_nat k) INVALID_OBJECT_NUMBER (map (fun i => (rd (assocTab c) (1 + 2 * i), rd (assocTab c) (2 + 2 * i))) (seq i0 n)) s in
  exists ts, sent s' = sent s ++ ts /\ answered c a (smem s) os ts /\ kept c (smem s) (smem s') /\ mem_ok c (smem s') /\ buf_ok (sendBuf s') /\ sendNext s' = sendNext s.
Proof.
  intros Hc Hl Ha Hu Hs. induction n; intros i0 s Hn Hm Hb; cbn [seq map filter readReqLoop].
  - exists []. rewrite app_nil_r. split; auto. split; [split; auto; intros i o t H; destruct i; discriminate|]. split; [split; auto|]. auto.
  - set (g := rd (assocTab c) (1 + 2 * i0)). set (q := rd (assocTab c) (2 + 2 * i0)).
    assert (Qb : is_byte q) by (apply rd_byte, (ok_assoc c Hc)). assert (Gb : is_byte g) by (apply rd_byte, (ok_assoc c Hc)). unfold is_byte in *.
    rewrite (Z.eqb_sym (Z.of_nat k) g). replace (q =? INVALID_OBJECT_NUMBER) with false by (unfold INVALID_OBJECT_NUMBER; lia).
    destruct (g =? Z.of_nat k) eqn:G; cbn [negb andb]; [|apply IHn; auto; lia].
    rewrite objConfig_conf, read_comm_bits. cbv zeta.
    destruct (Z.testbit (obj_conf c (Z.to_nat q)) 2 && Z.testbit (obj_conf c (Z.to_nat q)) 3); [|apply IHn; auto; lia].
    set (o := Z.to_nat q). assert (Ho : (o < num_objs c)%nat).
    { apply (Ha (Z.to_nat g) o). exists i0. split; [lia|]. fold g. fold q. unfold o. split; lia. }
    destruct (sendWrite_effect c o a true s Hc Hl Ha Hm Hb Ho Hu Hs) as (E1 & E2 & (t & T1 & T2) & (P & (W1 & W2 & W3 & W4) & I) & PL).
    set (s1 := sendGroupWriteTelegram c o a true s) in *.
    destruct (IHn (S i0) s1 ltac:(lia) W1 E1) as (ts & S1 & (A1 & A2) & (K1 & K2) & M' & B' & N').
    assert (KV : forall x, (x < num_objs c)%nat -> ~ write_enabled c x -> value c (smem s1) x = value c (smem s) x /\ flags c (smem s1) x = flags c (smem s) x).
    { intros x Hx NW. apply W3; auto. destruct (P x) eqn:PX; auto. apply I in PX. destruct PX as (_ & PX & _). destruct (NW PX). }
    exists (t :: ts). split; [rewrite S1, T1, <- app_assoc; reflexivity|]. split; [|split; [split|split; [auto|split; [auto|congruence]]]].
    + split; [cbn [map length]; rewrite A1; reflexivity|]. intros i x tx Hi Ht HX SO. destruct i as [|i].
      * cbn [map nth_error] in Hi, Ht. injection Hi as <-. injection Ht as <-. apply T2; auto.
      * cbn [map nth_error] in Hi, Ht. destruct HX as [HX|HX]; [discriminate|].
        assert (XN : (x < num_objs c)%nat).
        { apply nth_error_In in Hi. apply in_map_iff in Hi. destruct Hi as (j & <- & J). apply filter_In in J. destruct J as [J1 J2]. apply in_seq in J1. apply andb_true_iff in J2. destruct J2 as [J2 _].
          apply (Ha k). exists j. pose proof (rd_byte (assocTab c) (2 + 2 * j) (ok_assoc c Hc)) as BJ. unfold is_byte in BJ. split; [lia|]. split; [lia|]. rewrite Z2Nat.id by lia. reflexivity. }
        apply (carries_value c (smem s) (smem s1)); [apply KV; auto|]. apply (A2 i); auto. apply (short_ok_value c (smem s)); auto. apply KV; auto.
    + intros x Hx. rewrite K1 by auto. unfold request. destruct (P x) eqn:PX; [rewrite (proj2 (W2 x Hx PX)); apply lor_8_mod8|rewrite (proj2 (W3 x Hx PX)); reflexivity].
    + intros x Hx NW. destruct (K2 x Hx NW) as [X1 X2]. rewrite X1, X2. apply KV; auto.
Qed.
