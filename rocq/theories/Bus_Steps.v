(** Every step of the link layer keeps the invariant. *)
From Verif Require Import Base Bits Bus_Model Bus_Spec Bus_Frame Bus_Inv Bus_Recv Bus_Handle Bus_Handle2 Bus_Send.

Lemma nextLow_time n c m t : t <= snd (nextLow n c m t) <= t + 104 * Z.of_nat n.
Proof.
  revert m t. induction n as [|n IH]; intros m t; cbn [nextLow]; [cbn; lia|]. destruct (_ && _); [|cbn; lia].
  specialize (IH (2 * m) (t + BIT_TIME)). change BIT_TIME with 104 in *. lia.
Qed.
Lemma due_see v v' : job v' = job v -> full v' = full v -> due v' = due v.
Proof. unfold due. now intros -> ->. Qed.
(** the bytes sent are bytes *)
Lemma repeated_bytes t : Forall is_byte t -> Forall is_byte (repeated t).
Proof.
  destruct t as [|c r]; cbn; auto. intros H. inversion H; subst. constructor; auto. unfold unflagged, Z.clearbit. rewrite Z.ldiff_land. apply land_byte_l. auto.
Qed.
Lemma wire_bytes own t : is_u16 own -> Forall is_byte t -> Forall is_byte (wire own t).
Proof.
  intros U B. unfold wire. apply Forall_app. split; [now apply body_bytes|]. constructor; [|constructor]. apply lxor_byte; [unfold is_byte; lia|]. now apply xor_all_byte, body_bytes.
Qed.
Lemma job_bytes L v b x f : core L v b x -> sendCur b = Some f -> length f = largest /\ Forall is_byte (firstn (S (size f)) f).
Proof.
  intros (_ & _ & _ & _ & (_ & J) & _) S. rewrite S in J. destruct (job v) as [[own t]|]; [|contradiction]. destruct J as ([T1 T2] & U & P & _).
  destruct P as [(P1 & P2 & P3)|[(P1 & P2 & P3) _]]; split; auto; rewrite P2, P3; apply wire_bytes; auto. now apply repeated_bytes.
Qed.

(** somebody else sends a low bit *)
Lemma takeOver_good L o i v b x :
  core L v b x -> waitAck b = false -> ((x = O /\ ackTx v b [SB_BUS_ACK]) \/ exists n, x = 1%nat /\ frameTx L v b (S n)) ->
  0 <= iCapture i -> iCapture i + 4 <= mTime b -> mTime b <= 1300 -> good L o v (collided i b).
Proof.
  intros C W T Hc Hm Hm2. unfold collided.
  assert (E : exists b1 p, takeOver (encounteredCollision b) = Some (b1, p) /\ core L (see v (RxBegin p)) b1 0 /\ receiving (see v (RxBegin p)) b1 /\ mTime b1 = mTime b).
  { destruct T as [(-> & A & N & On) | (n & -> & A & N & Co & f & Sc & Sl & Sn & On & Du & Fu)].
    - unfold encounteredCollision, takeOver. rewrite A. change (SB_BUS_ACK =? 0) with false. fields. rewrite A. change (negb (SB_BUS_ACK =? 0)) with true. cbv iota.
      eexists _, _. split; [reflexivity|]. split; [|split; [|reflexivity]].
      + eapply core_same; [exact C|fields; try reflexivity..]. intros (X & _). discriminate X.
      + unfold receiving. fields. rewrite N. repeat split; auto.
    - assert (Sx : sendCur b <> None) by congruence. pose proof (collision_core L v b C A Co Sx) as C1.
      assert (F : sendAck (encounteredCollision b) = 0 /\ sendCur (encounteredCollision b) = Some f /\ nextByteIndex (encounteredCollision b) = S n /\ rxTel (encounteredCollision b) = rxTel b /\ mTime (encounteredCollision b) = mTime b)
        by (unfold encounteredCollision; rewrite A; cbn [Z.eqb]; fields; auto 10).
      destruct F as (F1 & F2 & F3 & F4 & F5). unfold takeOver. fields. rewrite F1, F2, F3. cbn [Z.eqb negb].
      destruct (job_bytes L v b 1 f C Sc) as [Lf Bf]. pose proof (size_range f) as Rf.
      assert (Lp : length (firstn n f) = n) by (rewrite firstn_length, Lf; unfold largest; lia).
      assert (Lr : length (rxTel b) = largest) by apply C.
      eexists _, _. split; [reflexivity|]. split; [|split; [|exact F5]].
      + pose proof C1 as (E1 & E2 & E3 & E4 & (J0 & J) & H). unfold core, job_ok, held_ok in *. fields. rewrite wr_range_length. do 4 (split; [assumption|]). split; [|assumption]. split; [assumption|].
        destruct (job v) as [[own t]|]; destruct (sendCur (encounteredCollision b)); auto. destruct J as (D1 & D2 & D3 & D4 & D5 & D6 & D7 & D8 & D9 & D10). do 9 (split; [assumption|]). intros (X & _). discriminate X.
      + unfold receiving. fields. rewrite Lp. rewrite (firstn_all2 (n := largest)) by (rewrite Lp; unfold largest; lia).
        assert (N1 : (n <= largest)%nat) by (unfold largest; lia). rewrite Nat.min_l by exact N1.
        split; [reflexivity|]. split; [exact F1|]. split; [reflexivity|]. split.
        * rewrite F4. rewrite <- Lp at 1. apply firstn_wr_range. rewrite Lp, Lr. exact N1.
        * split; [apply xorBytes_acc|]. split; [reflexivity|]. split; [reflexivity|]. replace n with (Nat.min n (S (size f))) by lia. rewrite <- firstn_firstn. now apply Forall_firstn. }
  destruct E as (b1 & p & -> & C1 & R1 & M1). rewrite M1. change (BIT_OFFSET_MAX - BIT_PULSE_TIME) with (-2). change BIT_TIME with 104.
  assert (U : u32 (mTime b - iCapture i + -2) = mTime b - iCapture i - 2) by (rewrite u32_id; [lia|unfold is_u32; lia]). rewrite U.
  destruct (32 <=? (mTime b - iCapture i - 2) / 104 + 1) eqn:Q.
  { apply Z.leb_le in Q. assert ((mTime b - iCapture i - 2) / 104 < 31) by (apply Z.div_lt_upper_bound; lia). lia. }
  destruct (sentBits _ _ _ _ _) as [ms par]. cbv zeta. apply good_also; [exact (conj I I)|]. apply recvBits_good; [| |reflexivity].
  - eapply core_same; [exact C1|fields; try reflexivity..]. auto.
  - unfold receiving in *. fieldsin. exact R1.
Qed.
Lemma abort_good L v b x o :
  core L v b x -> waitAck b = false -> ((x = O /\ ackTx v b [SB_BUS_ACK]) \/ exists n, x = 1%nat /\ frameTx L v b (S n)) -> good L o v (Some (initState (encounteredCollision b), [])).
Proof.
  intros C W T. unfold good. split; [exact I|]. exists O. destruct T as [(-> & A & N & On) | (n & -> & A & N & Co & f & Sc & _)].
  - unfold encounteredCollision. rewrite A. change (SB_BUS_ACK =? 0) with false. cbv iota. split; [eapply core_same; [exact C|fields; try reflexivity..]; auto|]. unfold phase, initState. fields. auto.
  - assert (Sx : sendCur b <> None) by congruence. pose proof (collision_core L v b C A Co Sx) as C1. split; [eapply core_same; [exact C1|unfold initState; fields; try reflexivity..]; auto|].
    unfold phase, initState, encounteredCollision. rewrite A. cbn [Z.eqb]. fields. auto.
Qed.
Lemma sendNextBit_good L o v b x :
  core L v b x -> waitAck b = false -> state b = SEND_BITS_OF_BYTE -> ((x = O /\ ackTx v b [SB_BUS_ACK]) \/ exists n, x = 1%nat /\ frameTx L v b (S n)) -> good L o v (Some (sendNextBit b, [])).
Proof.
  intros C W S T. unfold good. split; [exact I|]. exists x. unfold sendNextBit. destruct (bitMask b <=? 0x200).
  - pose proof (nextLow_time 9 (currentByte b) (bitMask b) BIT_TIME) as R. destruct (nextLow 9 (currentByte b) (bitMask b) BIT_TIME) as [m tm]. cbn [snd] in R. change BIT_TIME with 104 in R. cbv zeta.
    split; [eapply core_same; [exact C|fields; try reflexivity..]; auto|].
    unfold phase. fields. rewrite S. split; [exact W|]. split; [unfold timing; fields; rewrite S; change BIT_PULSE_TIME with 35; destruct (512 <? _); split; try lia; split; try lia; discriminate|].
    unfold ackTx, frameTx in *. fields. exact T.
  - unfold sendEndOfByte. destruct T as [(-> & A & N & On) | (n & -> & A & N & Co & f & Sc & Sl & Sn & On & Du & Fu)].
    + rewrite A. change (SB_BUS_ACK =? 0) with false. rewrite andb_false_r. split; [eapply core_same; [exact C|fields; try reflexivity..]; auto|].
      unfold phase. fields. split; [exact W|]. left. unfold ackTx. fields. auto.
    + rewrite A. cbn [Z.eqb]. rewrite andb_true_r. rewrite N, Sl. destruct (Nat.ltb_spec (Datatypes.S n) (Datatypes.S (size f))) as [Q|Q].
      * split; [eapply core_same; [exact C|fields; try reflexivity..]; auto|]. unfold phase. fields. split; [exact W|]. split; [unfold timing; fields; vm_compute; repeat split; discriminate|].
        right. exists (Datatypes.S n). split; [reflexivity|]. unfold frameTx. fields. split; [|lia]. do 3 (split; [assumption|]). exists f. auto 10.
      * split; [eapply core_same; [exact C|fields; try reflexivity..]; auto|]. unfold phase. fields. split; [exact W|]. right. split; [reflexivity|].
        unfold frameTx. fields. assert (En : n = size f) by lia. subst n. rewrite Sl. do 3 (split; [assumption|]). exists f. auto 10.
Qed.
Lemma sendBits_good L o i v b x :
  core L v b x -> waitAck b = false -> timing b -> state b = SEND_BITS_OF_BYTE -> ((x = O /\ ackTx v b [SB_BUS_ACK]) \/ exists n, x = 1%nat /\ frameTx L v b (S n)) ->
  0 <= iCapture i -> (iMatch i = false -> iCapture i <= iTimer i <= mTime b /\ (iCapture i < mPwm b -> iCapture i + 4 <= iTimer i)) -> good L o v (sendBits i b).
Proof.
  intros C W T S Tx Hc Hm. unfold sendBits. destruct (iMatch i) eqn:M; cbn [negb].
  - eapply sendNextBit_good; eauto.
  - destruct (Hm eq_refl) as [H1 H2]. destruct T as (T1 & T2 & _).
    assert (G : good L o v (Some (b, []))).
    { unfold good. split; [exact I|]. exists x. split; [exact C|]. unfold phase. rewrite S. split; [exact W|]. split; [|exact Tx]. split; [exact T1|]. split; [exact T2|]. rewrite S. discriminate. }
    destruct (_ <? REFLECTION_IGNORE_DELAY); [exact G|]. destruct (_ mod _ <? _); [eapply abort_good; eauto|].
    destruct (Z.ltb_spec (iCapture i) (u32 (mPwm b - BIT_OFFSET_MIN))) as [Q|Q]; [|exact G].
    change BIT_OFFSET_MIN with 7 in Q. rewrite u32_id in Q by (unfold is_u32; lia). assert (X : iCapture i < mPwm b) by lia. specialize (H2 X). eapply takeOver_good; eauto; lia.
Qed.
Lemma sendBit0_good L o i v b x :
  core L v b x -> waitAck b = false -> 0 <= mTime b <= 1300 -> 7 <= mPwm b <= 65535 -> ((x = O /\ ackTx v b []) \/ exists n, x = out n /\ frameTx L v b n /\ (n < sendTelegramLen b)%nat) ->
  0 <= iCapture i -> (iMatch i = false -> iCapture i <= iTimer i <= mTime b /\ (iCapture i < mPwm b -> iCapture i + 4 <= iTimer i)) -> good L o v (sendBit0 i b).
Proof.
  intros C W T1 T2 Tx Hc Hm. unfold sendBit0. destruct Tx as [(-> & A & N & On) | (n & Ex & (A & N & Co & f & Sc & Sl & Sn & On & Du & Fu) & Ln)].
  - rewrite A. change (negb (SB_BUS_ACK =? 0)) with true. cbv iota beta. apply good_also; [cbn; rewrite On; auto|]. cbn [sees fold_left see]. rewrite On.
    eapply sendBits_good with (x := O); [|exact W| |reflexivity| |exact Hc|exact Hm].
    + eapply core_same; [exact C|fields; try reflexivity..]. auto.
    + unfold timing. fields. split; [assumption|]. split; [assumption|]. discriminate.
    + left. unfold ackTx. fields. auto.
  - rewrite A. cbn [Z.eqb negb]. rewrite Sc. cbv iota beta. destruct (job_bytes L v b x f C Sc) as [Lf Bf]. pose proof (size_range f) as Rf.
    assert (Hn : (n < S (size f))%nat) by lia. assert (Lp : length (firstn n f) = n) by (rewrite firstn_length, Lf; unfold largest; lia).
    assert (Nth : rd f n = nth n (firstn (S (size f)) f) 0).
    { unfold rd. rewrite <- (firstn_skipn (S (size f)) f) at 1. apply app_nth1. rewrite firstn_length, Lf. unfold largest. lia. }
    assert (Fs : firstn n f ++ [rd f n] = firstn (S n) f).
    { rewrite <- (firstn_skipn n f) at 3. clear - Lf Hn Rf. revert Hn. unfold rd. assert (Hl : (n < length f)%nat -> firstn n f ++ [nth n f 0] = firstn (S n) f).
      { revert f Lf Rf. clear. intros f _ _. revert n. induction f as [|a f IH]; intros [|n] H; cbn in *; try lia; [reflexivity|]. f_equal. apply IH. lia. }
      intros. rewrite firstn_skipn. apply Hl. rewrite Lf. unfold largest. lia. }
    apply good_also.
    + cbn [permitted allowed]. rewrite On. split; [|exact I]. exists (firstn (S (size f)) f). split; [exact Du|]. rewrite Lp, N. split; [rewrite firstn_length, Lf; unfold largest; lia|exact Nth].
    + cbn [sees fold_left see]. rewrite On, N, Fs. eapply sendBits_good with (x := 1%nat); [|exact W| |reflexivity| |exact Hc|exact Hm].
      * pose proof C as (E1 & E2 & E3 & E4 & (J0 & J) & H). unfold core, job_ok, held_ok in *. fields. do 4 (split; [assumption|]). split; [|assumption]. split; [assumption|].
        destruct (job v) as [[own t]|]; destruct (sendCur b); auto. destruct J as (D1 & D2 & D3 & D4 & D5 & D6 & D7 & D8 & D9 & D10). do 8 (split; [assumption|]). split; [|exact D10].
        rewrite D9, Ex. destruct n as [|n]; cbn [firstn out]; [lia|]. destruct f; [discriminate|]. cbn [firstn]. lia.
      * unfold timing. fields. split; [assumption|]. split; [assumption|]. discriminate.
      * right. exists n. split; [reflexivity|]. unfold frameTx. fields. split; [assumption|]. split; [reflexivity|]. split; [assumption|]. exists f. do 2 (split; [assumption|]). split; [lia|]. split; [reflexivity|]. split; [exact Du|exact Fu].
Qed.
Lemma startBit_good L e o i v b x :
  core L v b x -> phase L v b x -> state b = SEND_START_BIT -> iCap i || iMatch i = true -> 0 <= iCapture i ->
  (iMatch i = false -> iCapture i <= iTimer i <= mTime b /\ (iCapture i < mPwm b -> iCapture i + 4 <= iTimer i)) -> good L o v (sendStartBit L e i b).
Proof.
  intros C P S Ic Hc Hm. unfold phase in P. rewrite S in P. destruct P as (W & (T1 & T2 & T3) & Tx). specialize (T3 S). unfold sendStartBit. destruct (iMatch i) eqn:M; cbn [negb].
  - eapply sendBit0_good with (x := x); fields; auto; try congruence.
    pose proof C as (E1 & E2 & E3 & E4 & E5). unfold core, job_ok, held_ok in *. fields. do 2 (split; [assumption|]). split; [apply err_bit; [assumption|reflexivity]|]. split; [assumption|exact E5].
  - rewrite orb_false_r in Ic. destruct (Hm eq_refl) as [H1 H2]. change STARTBIT_OFFSET_MIN with 30. rewrite u32_id by (unfold is_u32; lia).
    destruct (Z.ltb_spec (iCapture i) (mPwm b - 30)) as [Q|Q].
    + destruct Tx as [(-> & A & N & On) | (n & Ex & (A & N & Co & f & Sc & Sl & Sn & On & Du & Fu) & Ln)].
      * rewrite N. cbn [Nat.eqb]. apply initRx_good; auto.
      * rewrite N. destruct n as [|n]; cbn [Nat.eqb out] in *; subst x; (apply initRx_good; [|exact Ic]).
        -- exact C.
        -- assert (Sx : sendCur b <> None) by congruence. pose proof (collision_core L v b C A Co Sx) as C1. eapply core_same; [exact C1|fields; try reflexivity..]. auto.
    + set (b1 := if iCapture i <? mPwm b then _ else b). unfold good. split; [exact I|]. exists x.
      assert (F : core L v b1 x /\ waitAck b1 = false /\ 0 <= mTime b1 <= 1300 /\ 7 <= mPwm b1 <= 65535 /\ ((x = O /\ ackTx v b1 []) \/ exists n, x = out n /\ frameTx L v b1 n /\ (n < sendTelegramLen b1)%nat)).
      { unfold b1. destruct (Z.ltb_spec (iCapture i) (mPwm b)) as [Q1|Q1]; [|auto]. change (BIT_PULSE_TIME - 1) with 34. split; [eapply core_same; [exact C|fields; try reflexivity..]; auto|].
        fields. split; [exact W|]. split; [lia|]. split; [lia|]. exact Tx. }
      destruct F as (F1 & F2 & F3 & F4 & F5). split; [eapply core_same; [exact F1|fields; try reflexivity..]; auto|].
      unfold phase. fields. split; [exact F2|]. split; [unfold timing; fields; split; [lia|]; split; [lia|discriminate]|]. exact F5.
Qed.
Lemma endOfTx_good L o v b x : core L v b x -> phase L v b x -> state b = SEND_END_OF_TX -> good L o v (Some (sendEndOfTx b)).
Proof.
  intros C P S. unfold phase in P. rewrite S in P. destruct P as (W & Tx). unfold sendEndOfTx. destruct Tx as [(-> & A & N & On) | (-> & A & N & Co & f & Sc & Sl & Sn & On & Du & Fu)].
  - rewrite A. change (negb (SB_BUS_ACK =? 0)) with true. cbv iota. unfold good. split; [cbn; auto|]. exists O. split; [eapply core_same; [exact C|fields; try reflexivity..]; auto|].
    unfold phase. fields. auto.
  - rewrite A. cbn [Z.eqb negb]. cbv zeta. unfold good. split.
    + cbn [permitted allowed]. split; [|exact I]. exists (firstn (Datatypes.S (size f)) f). split; [exact Du|]. rewrite On, Sl. reflexivity.
    + exists O. set (b1 := if repeatTel _ then _ else _).
      assert (F : rxTel b1 = rxTel b /\ telegram b1 = telegram b /\ txError b1 = txError b /\ waitAck b1 = true /\ collisions b1 = collisions b /\ sendCur b1 = sendCur b /\ repeatTel b1 = repeatTel b /\ telegramLen b1 = telegramLen b /\
                  state b1 = SEND_WAIT_FOR_RX_ACK_WINDOW /\ sendAck b1 = 0 /\ sendRetries b <= sendRetries b1 /\ sendBusyRetries b <= sendBusyRetries b1 /\
                  sendRetries b1 + sendBusyRetries b1 = sendRetries b + sendBusyRetries b + (if repeatTel b then 1 else 0)).
      { unfold b1. fields. destruct (repeatTel b) eqn:Rp; [destruct (busyWait b) eqn:Bw|]; fields; repeat (split; [first [reflexivity|assumption|lia]|]); lia. }
      destruct F as (F1 & F2 & F3 & F4 & F5 & F6 & F7 & F8 & F9 & F10 & F11 & F12 & F13). split.
      * pose proof C as (E1 & E2 & E3 & E4 & (J0 & J) & H). unfold core, job_ok, held_ok in *. fields. rewrite F1, F2, F3, F4, F5, F6, F7, F8.
        do 3 (split; [assumption|]). split; [reflexivity|]. split; [|assumption]. split; [assumption|]. rewrite Sc in *. destruct (job v) as [[own t]|]; [|contradiction].
        destruct J as (D1 & D2 & D3 & D4 & D5 & D6 & D7 & D8 & D9 & D10). do 2 (split; [assumption|]). split; [destruct D3 as [D3|[D3 _]]; [auto|right; split; auto]|].
        split; [lia|]. split; [lia|]. split; [discriminate|]. split; [|split; [|split; [lia|exact D10]]].
        -- intros _. split; [|auto]. rewrite F13. destruct (Nat.eq_dec (full v) 0) as [Z0|Z0].
           ++ destruct (D6 Z0) as (-> & _ & -> & ->). rewrite Z0. reflexivity.
           ++ destruct (D7 Z0) as (X & [-> | Y]); [lia|congruence].
        -- destruct Fu as [Fu|Fu]; lia.
      * unfold phase. fields. rewrite F9. auto.
Qed.

Lemma handler_good L e i v b :
  limits_ok L -> legal b (Irq e i) -> inv L v b -> good L (Some e) v (timerInterruptHandler L e i b).
Proof.
  intros LO (Ic & Hc & E & Hm) (x & C & P). unfold timerInterruptHandler.
  destruct (iCap i && (iCapture i <? mPwm b) && iSpike i); [unfold good; split; [exact I|]; exists x; auto|].
  pose proof P as P0. unfold phase in P. destruct (state b) eqn:S.
  - (* INIT *) destruct P as (-> & W & A). unfold initCase. destruct (iMatch i); cbn [negb]; [|unfold good; split; [exact I|]; exists O; auto].
    assert (C1 : core L v (set_state WAIT_50BT (set_mTime (BIT_TIMES_DELAY 2 + WAIT_50BIT_FOR_IDLE - PRE_SEND_TIME) b)) 0) by (eapply core_same; [exact C|fields; try reflexivity..]; auto).
    destruct (iCap i); [apply wait50_good; auto|]. unfold good. split; [exact I|]. exists O. split; [exact C1|]. unfold phase. fields. auto.
  - (* IDLE *) destruct P as (-> & W & A). destruct (iCap i) eqn:Q; [apply initRx_good; auto|]. unfold good. split; [exact I|]. exists O. auto.
  - (* RECV_WAIT *) destruct P as (-> & R & HL). unfold recvWait. destruct (iCap i) eqn:Q; cbn [negb]; [|apply handle_good; auto].
    unfold good. split; [exact I|]. exists O. split; [eapply core_same; [exact C|fields; try reflexivity..]; auto|]. unfold phase, receiving in *. fields. auto.
  - (* RECV_BITS *) destruct P as (-> & R). apply recvBits_good; auto.
  - (* ACK_TX_START *) destruct P as (-> & P). apply ackStart_good; auto.
  - (* WAIT_50BT *) destruct P as (-> & W & A). apply wait50_good; auto.
  - eapply startBit_good; eauto.
  - (* BIT_0 *) destruct P as (W & (T1 & T2 & _) & Tx). eapply sendBit0_good; eauto.
  - (* BITS *) destruct P as (W & T & Tx). eapply sendBits_good; eauto.
  - eapply endOfTx_good; eauto.
  - (* window *) destruct P as (-> & W & A). unfold good. split; [exact I|]. exists O. split; [eapply core_same; [exact C|fields; try reflexivity..]; auto|]. unfold phase. fields. auto.
  - (* RX_ACK *) destruct P as (-> & W & A). unfold waitForAck. destruct (iCap i) eqn:Q; [apply initRx_good; auto|]. unfold good. split; [exact (conj I I)|]. exists O. split.
    + pose proof C as (E1 & E2 & E3 & E4 & (J0 & J) & H). unfold core, job_ok, held_ok in *. fields. do 2 (split; [assumption|]). split; [apply err_bit; [assumption|reflexivity]|]. split; [reflexivity|]. split; [|assumption]. split; [assumption|].
      destruct (job v) as [[own t]|]; destruct (sendCur b); auto; [|destruct J as (_ & X & _); congruence].
      destruct J as (D1 & D2 & D3 & D4 & D5 & D6 & D7 & D8 & D9 & D10). do 5 (split; [assumption|]). split; [intros F; destruct (D6 F) as (_ & X & _); congruence|].
      split; [intros F; destruct (D7 F); auto|]. auto.
    + unfold phase. fields. auto.
Qed.
Lemma step_good L v b o : limits_ok L -> legal b o -> inv L v b -> good L (op_env o) v (bstep L b o).
Proof.
  intros LO Lg I0. destruct o as [e i|own t n| | |w| ]; cbn [bstep op_env].
  - now apply handler_good.
  - destruct Lg as (U & T & ->). destruct (sendCur b) eqn:Sc; [unfold good; split; [exact I|exact I0]|].
    destruct I0 as (x & C & P). pose proof C as (E1 & E2 & E3 & E4 & (J0 & J) & H). rewrite Sc in J. destruct (job v) as [[own1 t1]|] eqn:Jv; [contradiction|].
    destruct J as (K1 & K2 & K3 & K4 & K5). unfold good. split; [cbn; auto|].
    assert (Ns : phase L v b x -> sendAck b = 0 -> state b <> SEND_START_BIT /\ state b <> SEND_BIT_0 /\ state b <> SEND_BITS_OF_BYTE /\ state b <> SEND_END_OF_TX).
    { clear - Sc. unfold phase. intros P A. repeat split; intro S; rewrite S in P; unfold ackTx, frameTx in P;
        destruct P as (_ & P); try destruct P as (_ & P); destruct P as [(_ & X & _)|P]; try (rewrite A in X; discriminate X).
      - destruct P as (n & _ & (_ & _ & _ & f & X & _) & _). congruence.
      - destruct P as (n & _ & (_ & _ & _ & f & X & _) & _). congruence.
      - destruct P as (n & _ & (_ & _ & _ & f & X & _)). congruence.
      - destruct P as (_ & (_ & _ & _ & f & X & _)). congruence. }
    assert (X0 : x = O).
    { clear - P Sc. unfold phase in P. destruct (state b); try apply P; unfold frameTx in P.
      - destruct P as (_ & _ & [[X _]|(n & X & (_ & _ & _ & f & Y & _) & _)]); congruence.
      - destruct P as (_ & _ & [[X _]|(n & X & (_ & _ & _ & f & Y & _) & _)]); congruence.
      - destruct P as (_ & _ & [[X _]|(n & X & (_ & _ & _ & f & Y & _))]); congruence.
      - destruct P as (_ & [[X _]|(X & (_ & _ & _ & f & Y & _))]); congruence. }
    subst x. exists O. split.
    + unfold core, job_ok, held_ok in *. fields. do 4 (split; [assumption|]). split; [|assumption]. split; [assumption|]. rewrite K4, K5, K3.
      split; [exact T|]. split; [exact U|]. split; [left; apply prepare_ok; auto|]. split; [lia|]. split; [lia|]. split; [auto|]. split; [congruence|]. split; [lia|]. split; [reflexivity|].
      intros (X & _). discriminate X.
    + clear Ns. unfold phase, receiving, timing, ackTx, frameTx in *. fields. destruct (state b); auto;
        repeat match goal with H : _ /\ _ |- _ => destruct H end; repeat (split; [assumption|]); 
        repeat match goal with H : _ \/ _ |- _ => destruct H | H : exists _, _ |- _ => destruct H | H : _ /\ _ |- _ => destruct H end; try congruence; auto 10.
  - unfold good. split; [exact I|]. cbn [sees fold_left]. destruct (state b) eqn:S; auto. destruct I0 as (x & C & P). exists x. unfold startSendingImmediately. split; [eapply core_same; [exact C|fields; try reflexivity..]; auto|].
    unfold phase in *. rewrite S in P. fields. auto.
  - unfold good. split; [exact (conj I I)|]. destruct I0 as (x & C & P). exists x. split.
    + pose proof C as (E1 & E2 & E3 & E4 & (J0 & J) & H1 & H2 & H3). unfold core, job_ok, held_ok in *. fields. do 4 (split; [assumption|]). split; [split; assumption|]. split; [reflexivity|]. split; [discriminate|exact H3].
    + exact P.
  - unfold good. split; [exact I|]. cbn [sees fold_left]. destruct (canPause w b) eqn:Q; auto. destruct I0 as (x & C & P). exists x. split; [eapply core_same; [exact C|fields; try reflexivity..]; auto|].
    unfold canPause in Q. unfold phase in *. fields. destruct (state b); try discriminate; exact P.
  - cbn [legal] in Lg. unfold good. split; [exact I|]. destruct I0 as (x & C & P). exists x. split; [eapply core_same; [exact C|unfold initState; fields; try reflexivity..]; auto|].
    unfold phase, initState in *. rewrite Lg in P. fields. destruct P as (-> & W & _). auto.
Qed.
