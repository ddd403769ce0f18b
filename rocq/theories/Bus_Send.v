(** Sending keeps the invariant. *)
From Verif Require Import Base Bits Bus_Model Bus_Spec Bus_Frame Bus_Inv Bus_Recv Bus_Handle Bus_Handle2.

(** bus.cpp:891-949: the second half of WAIT_50BT *)
Definition startOrIdle (L : limits) (i : irq) (b : bus) : result :=
  match sendCur b with
  | None => Some (idleState b, [])
  | Some t =>
      let n := S (telegramSize t) in
      let t := markRepeated (repeatTel b) n t in
      let time := startTime L b t (iMillis i) in
      let b := set_sendCur (Some t) (set_sendTelegramLen n b) in
      let b := set_mTime (time + (BIT_PULSE_TIME - 1)) (set_mPwm time b) in
      Some (set_state SEND_START_BIT (set_txError TX_OK (set_nextByteIndex 0 b)), [TxBegin false])
  end.
Lemma wait50_form L e i b : iCap i = false -> wait50 L e i b =
  let '(b1, o) := if giveUp L b then finishSendingTelegram e (set_txError (Z.lor (txError b) TX_RETRY_ERROR) b) else (b, []) in also o (startOrIdle L i b1).
Proof.
  intros H. unfold wait50. rewrite H. destruct (if giveUp L b then _ else _) as [b1 o]. unfold startOrIdle. destruct (sendCur b1); cbn [also option_map fst snd]; [reflexivity|].
  now rewrite app_nil_r.
Qed.
Lemma startTime_range L b t m : 104 <= startTime L b t m <= 104 + 313 + 312.
Proof.
  unfold startTime. cbv zeta. change PRE_SEND_TIME with 104. change (BIT_TIMES_DELAY 3) with 313. change RANDOMIZE_MODULUS with 313.
  pose proof (Z.mod_pos_bound (u32 (m * RANDOMIZE_FACTOR)) 313 ltac:(lia)). repeat match goal with |- context [if ?c then _ else _] => destruct c end; lia.
Qed.
Lemma start_good L i o v b :
  limits_ok L -> core L v b 0 -> waitAck b = false -> sendAck b = 0 -> (repeatTel b = true -> sendRetries b < sendRetriesMax L /\ sendBusyRetries b < sendBusyRetriesMax L) -> collisions b <= 3 ->
  good L o v (startOrIdle L i b).
Proof.
  intros [L1 L2] C W A Rp Co. pose proof C as (Lr & Lt & Er & As & (J0 & J) & H). unfold startOrIdle. destruct (sendCur b) as [f|] eqn:SC.
  2:{ unfold good, idleState. fields. split; [exact I|]. exists O. split; [eapply core_same; [exact C|fields; try reflexivity..]; auto|]. unfold phase. fields. auto. }
  destruct (job v) as [[own t]|] eqn:Jv; [|contradiction]. destruct J as (D1 & D2 & D3 & D4 & D5 & D6 & D7 & D8 & D9 & D10).
  rewrite size_eq. set (f1 := markRepeated (repeatTel b) (S (size f)) f). cbv zeta.
  assert (P : exists w, prepared f1 w (size t) /\ due v = Some w /\ (w = wire own t \/ w = wire own (repeated t) /\ full v <> O) /\ size f = size t).
  { unfold due. rewrite Jv. unfold f1. destruct (Nat.eqb_spec (full v) 0) as [F|F].
    - destruct (D6 F) as (-> & _). destruct D3 as [D3|[_ D3]]; [|congruence]. exists (wire own t). pose proof D3 as (_ & Sf & _). auto.
    - destruct (D7 F) as (_ & [-> | X]); [|congruence]. exists (wire own (repeated t)). destruct D3 as [D3|[D3 _]].
      + pose proof D3 as (_ & Sf & _). split; [apply mark_ok; [apply D1|exact D3]|]. auto.
      + pose proof D3 as (_ & Sf & _). split; [now rewrite (mark_again own t)|]. auto. }
  destruct P as (w & P & Dw & Pw & Sf). pose proof (startTime_range L b f1 (iMillis i)) as TR. set (tm := startTime L b f1 (iMillis i)) in *.
  unfold good. split.
  - cbn [permitted allowed]. rewrite Jv. split; [|exact I]. split; [discriminate|]. split; [congruence|]. split; [lia|].
    destruct (Nat.eq_dec (full v) 0) as [F|F]; [auto|]. right. destruct (D7 F) as (F1 & F2). destruct F2 as [F2|F2]; [|congruence]. destruct (Rp F2). lia.
  - exists O. split.
    + unfold core, job_ok, held_ok in *. fields. do 2 (split; [assumption|]). split; [reflexivity|]. split; [assumption|]. split; [|assumption]. split; [assumption|]. rewrite Jv.
      do 2 (split; [assumption|]). split; [destruct Pw as [-> | [-> Hf]]; auto|]. do 6 (split; [assumption|]). intros (X & _). discriminate X.
    + unfold phase. fields. change (BIT_PULSE_TIME - 1) with 34. split; [assumption|]. split; [unfold timing; fields; clear - TR; lia|]. right. exists O. split; [reflexivity|].
      unfold frameTx. fields. split; [|lia]. split; [assumption|]. split; [reflexivity|]. split; [assumption|]. exists f1. destruct P as (P1 & P2 & P3).
      split; [reflexivity|]. split; [congruence|]. split; [lia|]. split; [reflexivity|]. split; [unfold due in *; fields; now rewrite P2, P3|].
      destruct (Nat.eq_dec (full v) 0) as [F|F]; [auto|]. right. destruct (D7 F) as (F1 & F2). destruct F2 as [F2|F2]; [|congruence]. destruct (Rp F2). lia.
Qed.
Lemma wait50_good L e i v b :
  limits_ok L -> env_ok e -> core L v b 0 -> waitAck b = false -> sendAck b = 0 -> good L (Some e) v (wait50 L e i b).
Proof.
  intros LO E C W A. destruct (iCap i) eqn:Ic; [unfold wait50; rewrite Ic; now apply initRx_good|]. rewrite wait50_form by auto.
  pose proof C as (Lr & Lt & Er & As & (J0 & J) & H). destruct (giveUp L b) eqn:G.
  - set (b0 := set_txError (Z.lor (txError b) TX_RETRY_ERROR) b).
    assert (J1 : sendCur b0 = None <-> job v = None). { unfold b0. fields. destruct (job v) as [[own t]|]; destruct (sendCur b); try contradiction; split; congruence. }
    assert (K : sendCur b0 <> None -> (Z.land (txError b0) TX_RETRY_ERROR = 0 <-> acked v)).
    { unfold b0. fields. intros X. split; intro Y; [now apply err_set in Y|]. exfalso. destruct (job v) as [[own t]|]; destruct (sendCur b); try contradiction. tauto. }
    destruct (finish_good L e v b0 Lr Lt ltac:(congruence) H J1 E K) as (s & os & -> & P & C1 & _ & _ & Aq).
    apply good_also; [exact P|]. apply start_good; auto; unfold prepareForSending, b0; fields; auto; [discriminate|lia].
  - apply good_also; [exact I|]. unfold giveUp in G. apply orb_false_iff in G. destruct G as [G1 G2]. apply Z.ltb_ge in G2. apply start_good; auto.
    intros X. rewrite X in G1. cbn [andb] in G1. apply orb_false_iff in G1. destruct G1 as [G3 G4]. apply Z.leb_gt in G3. apply Z.leb_gt in G4. auto.
Qed.
Lemma ackStart_good L e o i v b : core L v b 0 -> phase L v b 0 -> state b = RECV_WAIT_FOR_ACK_TX_START -> good L o v (recvAckStart L e i b).
Proof.
  intros C P S. unfold phase in P. rewrite S in P. destruct P as (_ & W & A & O & Ac & Ht). unfold recvAckStart. destruct (iCap i) eqn:Ic.
  - apply initRx_good; auto.
  - unfold good. split; [cbn; auto|]. exists 0%nat. split.
    + pose proof C as (Lr & Lt & Er & As & (J0 & J) & H). unfold core, job_ok, held_ok in *. fields. do 2 (split; [assumption|]). split; [reflexivity|]. split; [assumption|]. split; [|assumption]. split; [assumption|].
      destruct (job v) as [[own t]|]; destruct (sendCur b); auto. destruct J as (D1 & D2 & D3 & D4 & D5 & D6 & D7 & D8 & D9 & D10). repeat (split; [assumption|]). intros (X & _). discriminate X.
    + unfold phase. fields. split; [assumption|]. split; [unfold timing; fields; vm_compute; repeat split; discriminate|]. left. split; [reflexivity|]. unfold ackTx. fields. auto.
Qed.

(** a collision *)
Lemma collision_core L v b : core L v b 1 -> sendAck b = 0 -> collisions b <= 3 -> sendCur b <> None -> core L v (encounteredCollision b) 0.
Proof.
  intros C A Co Sn. pose proof C as (Lr & Lt & Er & As & (J0 & J) & H). unfold encounteredCollision. rewrite A. cbn [Z.eqb]. unfold core, job_ok, held_ok in *. fields.
  rewrite u8_id by (unfold is_byte; lia). do 2 (split; [assumption|]). split; [apply err_bit; [assumption|reflexivity]|]. split; [assumption|]. split; [|assumption]. split; [lia|].
  destruct (job v) as [[own t]|]; destruct (sendCur b); auto.
  - destruct J as (D1 & D2 & D3 & D4 & D5 & D6 & D7 & D8 & D9 & D10). do 8 (split; [assumption|]). split; [|assumption]. rewrite D9. rewrite Z2Nat.inj_add by lia. change (Z.to_nat 1) with 1%nat. lia.
  - congruence.
Qed.
