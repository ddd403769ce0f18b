(** Proofs about the transport layer model: byte-level lemmas, send buffer automaton. *)
From Verif Require Import Base Bits Telegram_Model Telegram_Spec Telegram_Proofs TL4_Model TL4_Spec.

Definition frame (b : list Z) : list Z := firstn (telegramSize b) b.

(** ** Bytes *)
Ltac sweep b Hb := refine (byte_forall _ _ b Hb); vm_compute; reflexivity.

Lemma b_ctrl b : is_byte b -> negb (Z.land (Z.land b 0xc3) 0x80 =? 0) = (128 <=? b).
Proof.
  intros Hb. apply Bool.eqb_prop.
  refine (byte_forall (fun b => Bool.eqb (negb (Z.land (Z.land b 0xc3) 0x80 =? 0)) (128 <=? b)) _ b Hb).
  vm_compute; reflexivity.
Qed.
Lemma b_hi b : is_byte b -> negb (Z.land b 0x80 =? 0) = (128 <=? b).
Proof.
  intros Hb. apply Bool.eqb_prop.
  refine (byte_forall (fun b => Bool.eqb (negb (Z.land b 0x80 =? 0)) (128 <=? b)) _ b Hb).
  vm_compute; reflexivity.
Qed.
Lemma b_tpci b : is_byte b -> Z.land b 0xc3 = 64 * (b / 64) + b mod 4.
Proof.
  intros Hb. apply Z.eqb_eq.
  refine (byte_forall (fun b => Z.land b 0xc3 =? 64 * (b / 64) + b mod 4) _ b Hb).
  vm_compute; reflexivity.
Qed.
Lemma b_fc b : is_byte b -> (Z.land b 0xfc =? 0) = negb (4 <=? b).
Proof.
  intros Hb. apply Bool.eqb_prop.
  refine (byte_forall (fun b => Bool.eqb (Z.land b 0xfc =? 0) (negb (4 <=? b))) _ b Hb).
  vm_compute; reflexivity.
Qed.
Lemma b_bit0 b : is_byte b -> (Z.land (Z.land b 0xc3) 1 =? 0) = (b mod 2 =? 0).
Proof.
  intros Hb. apply Bool.eqb_prop.
  refine (byte_forall (fun b => Bool.eqb (Z.land (Z.land b 0xc3) 1 =? 0) (b mod 2 =? 0)) _ b Hb).
  vm_compute; reflexivity.
Qed.
Lemma b_ackmask b : is_byte b -> 128 <= b -> (Z.land (Z.land b 0xc3) 0xC2 =? 0) = false.
Proof.
  intros Hb H.
  assert ((negb (128 <=? b) || negb (Z.land (Z.land b 0xc3) 0xC2 =? 0))%bool = true).
  { refine (byte_forall (fun b => (negb (128 <=? b) || negb (Z.land (Z.land b 0xc3) 0xC2 =? 0))%bool) _ b Hb).
    vm_compute; reflexivity. }
  destruct (Z.land (Z.land b 195) 194 =? 0) eqn:E; auto. simpl in H0. lia.
Qed.
Lemma b_seq b : is_byte b -> Z.shiftr (Z.land b 0x3c) 2 = (b / 4) mod 16.
Proof.
  intros Hb. apply Z.eqb_eq.
  refine (byte_forall (fun b => Z.shiftr (Z.land b 0x3c) 2 =? (b / 4) mod 16) _ b Hb).
  vm_compute; reflexivity.
Qed.
Lemma sequenceNumber_seqno t : bytes t -> rd t 6 <> 255 -> sequenceNumber t = seqno t.
Proof.
  intros B H. unfold sequenceNumber, seqno. destruct (Z.eqb_spec (rd t 6) 255); try easy.
  apply b_seq, rd_byte; auto.
Qed.
Lemma seqno_range t : 0 <= seqno t < 16.
Proof. apply Z.mod_pos_bound. lia. Qed.

Lemma src_sender t : bytes t -> senderAddress t = src t.
Proof.
  intros B. unfold senderAddress, src. rewrite word_split by (apply rd_byte; auto). lia.
Qed.
Lemma dst_dest t : bytes t -> destinationAddress t = dst t.
Proof.
  intros B. unfold destinationAddress, makeWord, dst. rewrite word_split by (apply rd_byte; auto). lia.
Qed.
Lemma dst_u16 t : bytes t -> is_u16 (dst t).
Proof. intros. rewrite <- dst_dest by auto. apply destinationAddress_u16. Qed.
Lemma src_u16 t : bytes t -> is_u16 (src t).
Proof. intros. rewrite <- src_sender by auto. apply senderAddress_u16. Qed.

Lemma priority_range t : 0 <= priority t < 4.
Proof.
  unfold priority. change 3 with (Z.ones 2). rewrite Z.land_ones by lia.
  apply Z.mod_pos_bound. lia.
Qed.

(** processTelegram in terms of the specification's field names *)
Lemma processTelegram_eq now t app c : bytes t ->
  processTelegram now t app c =
  if dst t =? 0 then Some (emit (Bcast t) c)
  else if is_group t then Some (emit (Group t) c)
  else if negb (dst t =? own (cS c)) then Some c
  else if tpci_control t then processConControl now (src t) (tpci t) t c
  else processDirect now t app c.
Proof.
  intros B. unfold processTelegram. rewrite dst_dest, src_sender by auto.
  rewrite b_hi by (apply rd_byte; auto).
  unfold is_group, tpci_control, tpci. rewrite <- b_tpci by (apply rd_byte; auto).
  rewrite b_ctrl by (apply rd_byte; auto). reflexivity.
Qed.

(** ** Frames *)
Lemma telegramSize_eq b : bytes b -> telegramSize b = Z.to_nat (7 + rd b 5 mod 16).
Proof. intros. unfold telegramSize. rewrite land_15. reflexivity. Qed.
Lemma telegramSize_range b : bytes b -> (7 <= telegramSize b <= 22)%nat.
Proof.
  intros. rewrite telegramSize_eq by auto. pose proof (Z.mod_pos_bound (rd b 5) 16). lia.
Qed.
Lemma frame_length b : app_buffer b -> length (frame b) = telegramSize b.
Proof.
  intros [L B]. unfold frame. pose proof (telegramSize_range b B).
  unfold TL4_BUFFER_SIZE in L. rewrite firstn_length. lia.
Qed.
Lemma rd_firstn n l i : (i < n)%nat -> rd (firstn n l) i = rd l i.
Proof.
  unfold rd. revert l i. induction n; intros l i H; [lia|].
  destruct l; auto. destruct i; simpl; auto. apply IHn. lia.
Qed.
Lemma rd_frame b i : (i < telegramSize b)%nat -> rd (frame b) i = rd b i.
Proof. apply rd_firstn. Qed.

Lemma blit_length d s n : length d = length s -> (n <= length s)%nat -> length (blit d s n) = length d.
Proof. intros. unfold blit. rewrite app_length, firstn_length, skipn_length. lia. Qed.
Lemma rd_blit d s n i : length d = length s -> (n <= length s)%nat ->
  rd (blit d s n) i = if (i <? n)%nat then rd s i else rd d i.
Proof.
  intros L H. unfold blit, rd. destruct (Nat.ltb_spec i n).
  - rewrite app_nth1 by (rewrite firstn_length; lia). apply rd_firstn; auto.
  - rewrite app_nth2 by (rewrite firstn_length; lia). rewrite firstn_length.
    replace (Nat.min n (length s)) with n by lia.
    rewrite <- (firstn_skipn n d) at 2. rewrite app_nth2; rewrite firstn_length; [|lia].
    f_equal. lia.
Qed.
Lemma Forall_firstn' A (P : A -> Prop) n l : Forall P l -> Forall P (firstn n l).
Proof. revert l; induction n; intros [|x l] H; simpl; auto. inversion H; constructor; auto. Qed.
Lemma Forall_skipn' A (P : A -> Prop) n l : Forall P l -> Forall P (skipn n l).
Proof. revert l; induction n; intros [|x l] H; simpl; auto. inversion H; auto. Qed.
Lemma app_buffer_blit d s n : app_buffer d -> app_buffer s -> (n <= 23)%nat -> app_buffer (blit d s n).
Proof.
  intros [Ld Bd] [Ls Bs] H. unfold TL4_BUFFER_SIZE in *. split.
  - rewrite blit_length; unfold TL4_BUFFER_SIZE; lia.
  - unfold blit. apply Forall_app; split; [apply Forall_firstn'|apply Forall_skipn']; auto.
Qed.
Lemma frame_blit d s : app_buffer d -> app_buffer s -> frame (blit d s (telegramSize s)) = frame s.
Proof.
  intros [Ld Bd] [Ls Bs]. pose proof (telegramSize_range s Bs). unfold TL4_BUFFER_SIZE in *.
  assert (telegramSize (blit d s (telegramSize s)) = telegramSize s) as E.
  { unfold telegramSize at 1. rewrite rd_blit by lia.
    destruct (Nat.ltb_spec 5 (telegramSize s)); [reflexivity|lia]. }
  unfold frame. rewrite E. unfold blit. rewrite firstn_app, firstn_firstn, firstn_length.
  replace (telegramSize s - Nat.min (telegramSize s) (length s))%nat with O by lia.
  simpl. rewrite app_nil_r. f_equal. lia.
Qed.

Lemma app_buffer_telegram b : app_buffer b -> telegram_ok b.
Proof. intros [L B]. unfold TL4_BUFFER_SIZE in L. split; auto. lia. Qed.
Lemma app_buffer_wr b i x : app_buffer b -> is_byte x -> app_buffer (wr b i x).
Proof. intros [L B] H. split. rewrite wr_length; auto. apply Forall_wr; auto. Qed.

Lemma initLpdu_buffer b p r f : app_buffer b -> 0 <= p < 4 -> app_buffer (initLpdu b p r f).
Proof.
  intros A P. destruct (initLpdu_law b p r f (app_buffer_telegram _ A) P) as (_ & _ & _ & [_ F] & L & _).
  split; auto. rewrite L. apply A.
Qed.
Lemma setDest_buffer b a : app_buffer b -> app_buffer (setDestinationAddress b a).
Proof. intros. apply app_buffer_wr; [apply app_buffer_wr|]; auto using HIGH_BYTE_byte, lowByte_byte. Qed.
Lemma setSeq_buffer b n : app_buffer b -> 0 <= n < 16 -> app_buffer (setSequenceNumber b n).
Proof.
  intros A H. apply app_buffer_wr; auto.
  apply (seq_byte_facts (rd b 6) n); auto. apply rd_byte, A.
Qed.
Lemma finishResponse_buffer t b a n : app_buffer b -> 0 <= n < 16 -> app_buffer (finishResponse t b a n).
Proof.
  intros A H. apply setSeq_buffer; auto. apply setDest_buffer, initLpdu_buffer; auto. apply priority_range.
Qed.
Lemma controlTelegram_buffer b cmd a n : app_buffer b -> is_byte cmd -> 0 <= n < 16 ->
  app_buffer (controlTelegram b cmd a n).
Proof.
  intros A C H. unfold controlTelegram.
  assert (app_buffer (wr (wr (setDestinationAddress (initLpdu b PRIORITY_SYSTEM false FRAME_STANDARD) a) 5 96) 6 cmd)).
  { apply app_buffer_wr; auto. apply app_buffer_wr; [|red; lia]. apply setDest_buffer, initLpdu_buffer; auto. unfold PRIORITY_SYSTEM; lia. }
  destruct (_ =? 0); auto. apply setSeq_buffer; auto.
Qed.

Lemma dst_setDest b a : app_buffer b -> is_u16 a -> dst (setDestinationAddress b a) = a.
Proof.
  intros A H. rewrite <- dst_dest by apply setDest_buffer, A.
  apply setDestinationAddress_law; auto. apply app_buffer_telegram, A.
Qed.
Lemma rd_setDest_other b a i : i <> 3%nat -> i <> 4%nat -> rd (setDestinationAddress b a) i = rd b i.
Proof. intros. unfold setDestinationAddress. rewrite !rd_wr_other by lia. auto. Qed.
Lemma rd_initLpdu_other b p r f i : app_buffer b -> 0 <= p < 4 -> i <> 0%nat -> rd (initLpdu b p r f) i = rd b i.
Proof.
  intros A P H. destruct (initLpdu_law b p r f (app_buffer_telegram _ A) P) as (_ & _ & _ & _ & _ & O & _). auto.
Qed.
Lemma rd_setSeq_other b n i : i <> 6%nat -> rd (setSequenceNumber b n) i = rd b i.
Proof. intros. unfold setSequenceNumber. rewrite rd_wr_other by lia. auto. Qed.
Lemma rd_setSeq_6 b n : (6 < length b)%nat -> rd (setSequenceNumber b n) 6 = seq_byte (rd b 6) n.
Proof. intros. unfold setSequenceNumber. rewrite rd_wr_same by lia. auto. Qed.

Lemma seq_byte_arith b n : is_byte b -> 0 <= n < 16 ->
  (seq_byte b n / 4) mod 16 = n /\ seq_byte b n mod 4 = b mod 4 /\ seq_byte b n / 64 = 2 * (b / 128) + 1.
Proof.
  intros Hb Hn.
  assert (forall c, is_byte c -> forallb (fun n => let x := seq_byte c n in
    ((x / 4) mod 16 =? n) && (x mod 4 =? c mod 4) && (x / 64 =? 2 * (c / 128) + 1))%bool (range_Z 16) = true) as A.
  { intros. refine (byte_forall (fun c => forallb _ _) _ _ H). vm_compute. reflexivity. }
  pose proof (range_forall 16 _ (A b Hb) n ltac:(lia)) as S. cbv zeta in S.
  rewrite !andb_true_iff, !Z.eqb_eq in S. tauto.
Qed.

Lemma priority_arith t : priority t = rd t 0 / 4 mod 4.
Proof. unfold priority, controlByte. change 3 with (Z.ones 2). rewrite Z.land_ones, Z.shiftr_div_pow2 by lia. reflexivity. Qed.
Lemma initLpdu_control b p : app_buffer b -> 0 <= p < 4 -> rd (initLpdu b p false FRAME_STANDARD) 0 = 0xB0 + 4 * p.
Proof.
  intros (L & _) P. unfold TL4_BUFFER_SIZE in L. do 23 (destruct b as [|? b]; [discriminate L|]). destruct b; [|discriminate L].
  assert (Q : p = 0 \/ p = 1 \/ p = 2 \/ p = 3) by lia. destruct Q as [-> |[-> |[-> | ->]]]; reflexivity.
Qed.
Lemma carries_finish req resp a n : app_buffer resp -> is_u16 a -> 0 <= n < 16 ->
  carries a n req resp (frame (finishResponse req resp a n)).
Proof.
  intros A Ha Hn.
  pose proof (finishResponse_buffer req resp a n A Hn) as AF.
  pose proof (priority_range req) as P.
  assert (ni : forall i, i <> 0%nat -> i <> 3%nat -> i <> 4%nat -> i <> 6%nat ->
             rd (finishResponse req resp a n) i = rd resp i).
  { intros. unfold finishResponse. rewrite rd_setSeq_other, rd_setDest_other, rd_initLpdu_other; auto. }
  assert (E5 : rd (finishResponse req resp a n) 5 = rd resp 5) by (apply ni; lia).
  assert (L : telegramSize (finishResponse req resp a n) = Z.to_nat (7 + rd resp 5 mod 16)).
  { rewrite telegramSize_eq by apply AF. rewrite E5. auto. }
  pose proof (telegramSize_range _ (proj2 AF)) as R.
  assert (E6 : rd (finishResponse req resp a n) 6 = seq_byte (rd resp 6) n).
  { unfold finishResponse. rewrite rd_setSeq_6.
    - rewrite rd_setDest_other, rd_initLpdu_other; auto.
    - pose proof (setDest_buffer _ a (initLpdu_buffer resp (priority req) false FRAME_STANDARD A P)) as [X _].
      rewrite X. unfold TL4_BUFFER_SIZE; lia. }
  destruct (seq_byte_arith (rd resp 6) n) as (S1 & S2 & S3); auto. { apply rd_byte, A. }
  unfold carries. repeat split.
  - rewrite frame_length; auto.
  - unfold dst. rewrite !rd_frame by lia. fold (dst (finishResponse req resp a n)).
    unfold finishResponse. transitivity (dst (setDestinationAddress (initLpdu resp (priority req) false FRAME_STANDARD) a)).
    + unfold dst. rewrite !rd_setSeq_other by lia. auto.
    + apply dst_setDest; auto. apply initLpdu_buffer; auto.
  - unfold seqno. rewrite rd_frame, E6 by lia. auto.
  - rewrite rd_frame by lia. unfold finishResponse. rewrite rd_setSeq_other, rd_setDest_other by lia. rewrite <- priority_arith. apply initLpdu_control; auto.
  - rewrite rd_frame by lia. auto.
  - rewrite rd_frame, E6 by lia. auto.
  - rewrite rd_frame, E6 by lia. auto.
  - intros i Hi. rewrite frame_length in Hi by auto. rewrite rd_frame by lia. apply ni; lia.
Qed.

Lemma control_frame b cmd a n : app_buffer b -> is_u16 a -> 0 <= n < 16 ->
  ((cmd = T_ACK_PDU \/ cmd = T_NACK_PDU) \/ (cmd = T_DISCONNECT_PDU /\ n = 0)) ->
  is_control_frame cmd a n (frame (controlTelegram b cmd a n)).
Proof.
  intros A Ha Hn HC.
  assert (is_byte cmd) as Hcmd.
  { unfold T_ACK_PDU, T_NACK_PDU, T_DISCONNECT_PDU in HC. red. lia. }
  pose proof (controlTelegram_buffer b cmd a n A Hcmd Hn) as AF.
  assert (P : 0 <= PRIORITY_SYSTEM < 4) by (unfold PRIORITY_SYSTEM; lia).
  pose proof (setDest_buffer _ a (initLpdu_buffer b PRIORITY_SYSTEM false FRAME_STANDARD A P)) as A1.
  set (t1 := setDestinationAddress (initLpdu b PRIORITY_SYSTEM false FRAME_STANDARD) a) in *.
  assert (ni : forall i, i <> 5%nat -> i <> 6%nat -> rd (controlTelegram b cmd a n) i = rd t1 i).
  { intros. unfold controlTelegram. fold t1. destruct (_ =? 0).
    - rewrite !rd_wr_other by lia. auto.
    - rewrite rd_setSeq_other by lia. rewrite !rd_wr_other by lia. auto. }
  assert (E5 : rd (controlTelegram b cmd a n) 5 = 0x60).
  { unfold controlTelegram. fold t1. destruct A1 as [L _]. unfold TL4_BUFFER_SIZE in L. destruct (_ =? 0).
    - rewrite rd_wr_other by lia. rewrite rd_wr_same by lia. auto.
    - rewrite rd_setSeq_other by lia. rewrite rd_wr_other by lia. rewrite rd_wr_same by lia. auto. }
  assert (L : telegramSize (controlTelegram b cmd a n) = 7%nat).
  { unfold telegramSize. rewrite E5. reflexivity. }
  unfold is_control_frame. split. { rewrite frame_length; auto. }
  rewrite !rd_frame by lia. split.
  { rewrite ni by lia. unfold t1. rewrite rd_setDest_other by lia.
    unfold initLpdu, setFrameType, setPriority, setRepeated, controlByte.
    destruct A as [LA _]. unfold TL4_BUFFER_SIZE in LA.
    repeat (rewrite rd_wr_same by (rewrite ?wr_length; lia)). reflexivity. }
  split. { unfold dst. rewrite !rd_frame by lia. rewrite !ni by lia.
           apply (dst_setDest (initLpdu b PRIORITY_SYSTEM false FRAME_STANDARD) a); auto. apply initLpdu_buffer; auto. }
  split; auto.
  unfold controlTelegram. fold t1. destruct A1 as [L1 _]. unfold TL4_BUFFER_SIZE in L1.
  destruct HC as [HC|[-> ->]].
  - assert (Z.land cmd T_SEQUENCED_COMMAND =? 0 = false) as -> by (destruct HC as [-> | ->]; reflexivity).
    rewrite rd_setSeq_6 by (rewrite !wr_length; lia). rewrite rd_wr_same by (rewrite wr_length; lia).
    assert (forallb (fun n => seq_byte cmd n =? cmd + 4 * n) (range_Z 16) = true) as S.
    { destruct HC as [-> | ->]; vm_compute; reflexivity. }
    pose proof (range_forall 16 _ S n ltac:(lia)) as E. cbv beta in E. lia.
  - change (Z.land T_DISCONNECT_PDU T_SEQUENCED_COMMAND =? 0) with true. cbv iota.
    rewrite rd_wr_same by (rewrite wr_length; lia). reflexivity.
Qed.

(** ** Send buffer automaton *)
Definition is_ctl (b : list Z) : Prop := Z.land (rd b 6) 0x80 <> 0.
Definition WFtx (s : tl4) : Prop :=
  txs s <> ACQUIRED /\ 0 <= ccRep s <= 3 /\
  (txs s = FREE -> ccRep s = 0) /\ (txs s = SENDING -> ~ is_ctl (txb s) -> ccRep s = 0).

Lemma finished_cases r s w o : 
  finishedSendingTelegram r (mkCfg s w o) =
  if negb (Z.land (rd (txb s) 6) 0x80 =? 0) then
    if negb r && (ccRep s <? 3) then mkCfg (set_txs SENDING (set_ccRep (ccRep s + 1) s)) w (o ++ [Tx KRetry (frame (txb s))])
    else mkCfg (set_ccRep 0 (set_txs FREE s)) w o
  else mkCfg (set_txs FREE s) w o.
Proof. reflexivity. Qed.

Lemma acquire_spec w : forall s o c, WFtx s -> acquireLoop s o w = Some c ->
  exists j, (Z.of_nat j + ccRep s <= 3) /\ (j <> 0%nat -> txs s = SENDING /\ is_ctl (txb s)) /\
    cS c = set_txs ACQUIRED (set_ccRep 0 s) /\
    cO c = o ++ repeat (Tx KRetry (frame (txb s))) j.
Proof.
  induction w as [|r w IH]; intros s o c (W1 & W2 & W3 & W4) H; unfold acquireLoop in H; fold acquireLoop in H.
  - destruct (txs s) eqn:E; try discriminate. inversion H; subst; clear H. exists 0%nat.
    specialize (W3 eq_refl). rewrite W3. simpl. rewrite app_nil_r. repeat split; try lia; try congruence.
    destruct s; simpl in *. subst. reflexivity.
  - destruct (txs s) eqn:E; try discriminate.
    + inversion H; subst; clear H. exists 0%nat.
      specialize (W3 eq_refl). rewrite W3. simpl. rewrite app_nil_r. repeat split; try lia; try congruence.
      destruct s; simpl in *. subst. reflexivity.
    + rewrite finished_cases in H.
      destruct (Z.land (rd (txb s) 6) 128 =? 0) eqn:C; simpl in H.
      * (* not a control telegram: free afterwards *)
        assert (ccRep s = 0) as Z0. { apply W4; auto. unfold is_ctl. lia. }
        apply IH in H.
        -- destruct H as (j & J1 & J2 & J3 & J4). simpl in *.
           assert (j = 0%nat) by (destruct j; auto; destruct J2 as [X _]; [lia|discriminate]). subst j.
           exists 0%nat. repeat split; try lia; try congruence. 
           rewrite J3. destruct s; simpl in *; subst; reflexivity.
        -- unfold WFtx. simpl. repeat split; try lia; try congruence.
      * destruct (negb r && (ccRep s <? 3)) eqn:R; simpl in H.
        -- apply IH in H.
           ++ destruct H as (j & J1 & J2 & J3 & J4). simpl in *. exists (S j).
              split; [lia|]. split; [intros _; split; [auto|unfold is_ctl; lia]|]. split.
              ** rewrite J3. destruct s; reflexivity.
              ** rewrite J4. rewrite <- app_assoc. reflexivity.
           ++ unfold WFtx. simpl. repeat split; try lia; try congruence. unfold is_ctl. lia.
        -- apply IH in H.
           ++ destruct H as (j & J1 & J2 & J3 & J4). simpl in *.
              assert (j = 0%nat) by (destruct j; auto; destruct J2 as [X _]; [lia|discriminate]). subst j.
              exists 0%nat. repeat split; try lia; try congruence.
              rewrite J3. destruct s; simpl in *; subst; reflexivity.
           ++ unfold WFtx. simpl. repeat split; try lia; try congruence.
Qed.

(** Waiting ends: any four completions are enough. *)
Lemma acquire_ends w : forall s o, WFtx s ->
  (txs s = SENDING -> (4 - ccRep s <= Z.of_nat (length w)) /\ (0 < length w)%nat) ->
  acquireLoop s o w <> None.
Proof.
  induction w as [|r w IH]; intros s o (W1 & W2 & W3 & W4) H; unfold acquireLoop; fold acquireLoop.
  - destruct (txs s) eqn:E; try congruence. destruct (H eq_refl) as [_ X]. simpl in X. lia.
  - destruct (txs s) eqn:E; try congruence. rewrite finished_cases.
    specialize (H eq_refl). destruct H as [H _]. cbn [length] in H.
    destruct (negb (Z.land (rd (txb s) 6) 128 =? 0)) eqn:C.
    + destruct (negb r && (ccRep s <? 3)) eqn:R; cbn [cS cO].
      * apply IH.
        -- unfold WFtx. simpl. repeat split; try lia; try congruence. unfold is_ctl. lia.
        -- cbn. intros _. apply andb_prop in R as [_ R]. split; lia.
      * apply IH.
        -- unfold WFtx. simpl. repeat split; try lia; try congruence.
        -- simpl. congruence.
    + cbn [cS cO]. apply IH.
      * unfold WFtx. simpl. assert (ccRep s = 0) by (apply W4; auto; unfold is_ctl; lia).
        repeat split; try lia; try congruence.
      * simpl. congruence.
Qed.

Definition retries (s : tl4) (j : nat) : list out := repeat (Tx KRetry (frame (txb s))) j.
Definition okretries (s : tl4) (j : nat) : Prop :=
  Z.of_nat j + ccRep s <= 3 /\ (j <> 0%nat -> txs s = SENDING /\ is_ctl (txb s)).
(** state after a transmission of [b] was started *)
Definition sentS (b : list Z) (s : tl4) : tl4 := set_txs SENDING (set_txb b (set_ccRep 0 s)).

Lemma sendCon_spec cmd a n c c' : WFtx (cS c) -> sendConControlTelegram cmd a n c = Some c' ->
  exists j, okretries (cS c) j /\
    cS c' = sentS (controlTelegram (txb (cS c)) cmd a n) (cS c) /\
    cO c' = cO c ++ retries (cS c) j ++ [Tx KCtrl (frame (controlTelegram (txb (cS c)) cmd a n))].
Proof.
  intros W H. unfold sendConControlTelegram, acquireSendBuffer in H.
  destruct (acquireLoop (cS c) (cO c) (cW c)) as [c1|] eqn:E; [|discriminate].
  apply acquire_spec in E; auto. destruct E as (j & J1 & J2 & J3 & J4).
  exists j. split; [split; auto|]. simpl in H. inversion H; subst; clear H. simpl. rewrite J3, J4.
  split.
  - destruct c as [[] ? ?]; reflexivity.
  - rewrite <- app_assoc. reflexivity.
Qed.

Lemma sendPCT_spec c c' : WFtx (cS c) -> app_buffer (b1 (cS c)) -> app_buffer (txb (cS c)) ->
  sendPreparedConnectedTelegram c = Some c' ->
  exists j, okretries (cS c) j /\
    cS c' = sentS (blit (txb (cS c)) (b1 (cS c)) (telegramSize (b1 (cS c)))) (cS c) /\
    cO c' = cO c ++ retries (cS c) j ++ [Tx KResp (frame (b1 (cS c)))].
Proof.
  intros W B1 B2 H. unfold sendPreparedConnectedTelegram, acquireSendBuffer in H.
  destruct (acquireLoop (cS c) (cO c) (cW c)) as [c1|] eqn:E; [|discriminate].
  apply acquire_spec in E; auto. destruct E as (j & J1 & J2 & J3 & J4).
  exists j. split; [split; auto|]. simpl in H. inversion H; subst; clear H. simpl. rewrite J3, J4.
  split.
  - destruct c as [[] ? ?]; reflexivity.
  - rewrite <- app_assoc. f_equal. unfold retries. f_equal. f_equal. f_equal.
    rewrite <- (frame_blit (txb (cS c)) (b1 (cS c))) by auto. destruct c as [[] ? ?]; reflexivity.
Qed.
