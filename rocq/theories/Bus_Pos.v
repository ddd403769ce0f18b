(** What the link layer does when a frame is over. *)
From Verif Require Import Base Bits Bus_Model Bus_Spec Bus_Frame Bus_Inv Bus_Recv Bus_Handle Bus_Handle2 Bus_Send Bus_Steps Bus_Hist.

Lemma silent_step L e i b : silence b i -> bstep L b (Irq e i) = Some (handleTelegram L e (valid b && (checksum b =? 0)) b).
Proof. intros [S I]. cbn [bstep]. unfold timerInterruptHandler, recvWait. now rewrite I, S. Qed.
Lemma silent_receiving L v b i : inv L v b -> silence b i -> core L v b 0 /\ receiving v b /\ exists l, heard v = l ++ [currentByte b] /\ (l = [] -> sound v = parity b).
Proof. intros (x & C & P) [S _]. unfold phase in P. rewrite S in P. destruct P as (-> & R & H). auto. Qed.
Lemma zero_not_already b v : receiving v b -> (8 <= nextByteIndex b)%nat -> Z.land (rd (rxTel b) 0) 0xD3 = 0x90 -> telegram b = repeat 0 maxTelegramSize -> alreadyReceived (nextByteIndex b) (rxTel b) (telegram b) = false.
Proof.
  intros R N A T. unfold alreadyReceived. rewrite T. change (rd (repeat 0 maxTelegramSize) 0) with 0. rewrite Z.ldiff_0_l. destruct (Z.eqb_spec (Z.ldiff (rd (rxTel b) 0) SB_TEL_REPEAT_FLAG) 0) as [E|E]; [|now rewrite andb_false_r].
  exfalso. assert (X : Z.testbit (Z.ldiff (rd (rxTel b) 0) SB_TEL_REPEAT_FLAG) 7 = false) by now rewrite E, Z.bits_0.
  rewrite Z.ldiff_spec in X. change (Z.testbit SB_TEL_REPEAT_FLAG 7) with false in X. rewrite andb_true_r in X.
  assert (Y : Z.testbit (Z.land (rd (rxTel b) 0) 0xD3) 7 = true) by now rewrite A. rewrite Z.land_spec, X in Y. discriminate.
Qed.
(** two frames that agree in byte 5 and are as long as they say are equally long *)
Lemma sized_eq f g : wellSized f -> wellSized g -> nth 5 f 0 = nth 5 g 0 -> length f = length g.
Proof. unfold wellSized, size. intros -> -> ->. reflexivity. Qed.
Lemma already_iff L v b i : inv L v b -> silence b i -> acceptable (heard v) (sound v) -> wellSized (heard v) -> (forall t, latest v = Some t -> wellSized t) ->
  alreadyReceived (nextByteIndex b) (rxTel b) (telegram b) = true <-> exists t, latest v = Some t /\ repeats (heard v) t.
Proof.
  intros I S A W Wl. destruct (silent_receiving L v b i I S) as (C & R & _). pose proof C as (Lr & Lt & _ & _ & _ & (H1 & H2 & H3)). pose proof A as (A1 & A2 & A3 & A4).
  assert (Ll : (length (heard v) <= largest)%nat) by (rewrite W; pose proof (size_range (heard v)); unfold largest; lia).
  assert (Nn : nextByteIndex b = length (heard v)) by (destruct R as (_ & _ & R3 & _); unfold largest in *; lia).
  assert (Fr : firstn (nextByteIndex b) (rxTel b) = heard v) by (destruct R as (_ & _ & _ & R4 & _); rewrite R4; now apply firstn_all2).
  assert (N8 : (8 <= nextByteIndex b)%nat) by lia.
  split.
  - intros Al. destruct (latest v) as [t|] eqn:Lv.
    + exists t. split; [reflexivity|]. destruct H3 as [Lt8 Ht]. specialize (Wl t eq_refl).
      assert (E5 : nth 5 (heard v) 0 = nth 5 t 0).
      { pose proof Al as X. unfold alreadyReceived in X. rewrite !andb_true_iff in X. destruct X as (_ & X). unfold sameBytes in X. rewrite forallb_forall in X.
        assert (In5 : In 5%nat (seq 1 (nextByteIndex b - 2))) by (apply in_seq; lia). apply X in In5. apply Z.eqb_eq in In5.
        rewrite <- (proj1 (rx_nth v b R 5 ltac:(lia))), In5. unfold rd. rewrite <- (firstn_skipn (length t) (telegram b)) at 1. rewrite app_nth1; [now rewrite Ht|]. rewrite firstn_length, Lt. unfold largest in *. lia. }
      pose proof (sized_eq _ _ W Wl E5) as El. pose proof (already_repeats v b R t Lr N8 Ht ltac:(congruence) Al) as Rp. now rewrite Fr in Rp.
    + exfalso. rewrite (zero_not_already b v R N8) in Al; [discriminate| |exact H3]. now rewrite (proj1 (rx_nth v b R 0 ltac:(lia))).
  - intros (t & Lv & Rp). rewrite Lv in H3. destruct H3 as [Lt8 Ht]. apply (repeats_already v b R t Lr N8 Ht). now rewrite Fr.
Qed.

(** a complete frame for us *)
Lemma frame_end L e i v b : inv L v b -> silence b i -> acceptable (heard v) (sound v) -> (length (heard v) <= largest)%nat -> forUs e (heard v) ->
  exists b1, bstep L b (Irq e i) = Some (b1, RxEnd :: (if (0 <? telegramLen b)%nat || alreadyReceived (nextByteIndex b) (rxTel b) (telegram b) then [] else [Deliver (heard v)])) /\
    state b1 = (if (0 <? telegramLen b)%nat || negb (Z.testbit (statusByte e) 1) then WAIT_50BT else RECV_WAIT_FOR_ACK_TX_START) /\ sendAck b1 = (if (0 <? telegramLen b)%nat || negb (Z.testbit (statusByte e) 1) then 0 else SB_BUS_ACK).
Proof.
  intros I S A Ll U. destruct (silent_receiving L v b i I S) as (C & R & _). pose proof (acceptable_valid v b R A) as V. destruct (valid_acceptable v b R V) as [_ N8].
  assert (Fr : firstn (nextByteIndex b) (rxTel b) = heard v) by (destruct R as (_ & _ & _ & R4 & _); rewrite R4; now apply firstn_all2).
  assert (P : processTel e (rxTel b) = true) by (apply (process_forUs v b R e N8); now rewrite Fr).
  assert (D : (Z.land (rd (rxTel b) 0) SB_TEL_DATA_FRAME_FLAG =? 0) = true).
  { rewrite (proj1 (rx_nth v b R 0 ltac:(lia))). change SB_TEL_DATA_FRAME_FLAG with (2 ^ 6). rewrite land_bit by lia. destruct A as (_ & _ & _ & A4).
    assert (X : Z.testbit (Z.land (nth 0 (heard v) 0) 0xD3) 6 = false) by now rewrite A4. rewrite Z.land_spec in X. change (Z.testbit 0xD3 6) with true in X. rewrite andb_true_r in X. now rewrite X. }
  rewrite (silent_step L e i b S). unfold handleTelegram. cbv zeta. change (validFrame ?k (set_state WAIT_50BT (set_sendAck 0 b))) with (validFrame k b). fields. rewrite V, P.
  unfold frameForUs. fields. cbv zeta. change LINK_LAYER_BIT with (2 ^ 1). rewrite land_bit by lia. destruct (0 <? telegramLen b)%nat; cbn [orb].
  - fields. rewrite D. cbn [negb]. rewrite orb_false_r. destruct (negb _); fields; cbn [Z.eqb]; fields; destruct (waitAck b); eexists; (split; [reflexivity|]); fields; auto.
  - destruct (alreadyReceived _ _ _); fields; rewrite D, ?Fr; cbn [negb]; rewrite orb_false_r; destruct (negb (Z.testbit _ _)); fields; cbn [Z.eqb SB_BUS_ACK]; fields; destruct (waitAck b); eexists; (split; [reflexivity|]); fields; auto.
Qed.
Lemma ack_start L e i b : state b = RECV_WAIT_FOR_ACK_TX_START -> iCap i = false -> exists b1, bstep L b (Irq e i) = Some (b1, [TxBegin true]) /\ state b1 = SEND_START_BIT /\ sendAck b1 = sendAck b.
Proof. intros S I. cbn [bstep]. unfold timerInterruptHandler, recvAckStart. rewrite I, S. cbn [andb]. eexists. split; [reflexivity|]. fields. auto. Qed.
Lemma tick_bits L e i b : state b = SEND_BITS_OF_BYTE -> iCap i = false -> iMatch i = true -> timerInterruptHandler L e i b = Some (sendNextBit b, []).
Proof. intros S C M. unfold timerInterruptHandler, sendBits. now rewrite C, S, M. Qed.
Definition ackBit (m : Z) (b : bus) : Prop := state b = SEND_BITS_OF_BYTE /\ sendAck b = SB_BUS_ACK /\ bitMask b = m /\ currentByte b = 204.
Definition nextMask (m : Z) : Z := 2 * fst (nextLow 9 204 m 104).
Lemma next_bit b m : ackBit m b -> m <= 0x200 -> ackBit (nextMask m) (sendNextBit b).
Proof.
  intros (S & A & B & C) H. unfold sendNextBit, nextMask. rewrite B, C. destruct (Z.leb_spec m 0x200); [|lia]. change BIT_TIME with 104. destruct (nextLow 9 204 m 104) as [k t]. cbn [fst]. cbv zeta. unfold ackBit. fields. auto.
Qed.
Lemma last_bit b m : ackBit m b -> 0x200 < m -> state (sendNextBit b) = SEND_END_OF_TX /\ sendAck (sendNextBit b) = SB_BUS_ACK.
Proof. intros (S & A & B & C) H. unfold sendNextBit, sendEndOfByte. rewrite B, A. destruct (Z.leb_spec m 0x200); [lia|]. cbn [Z.eqb SB_BUS_ACK]. rewrite andb_false_r. fields. auto. Qed.
Lemma tick_step L e i m b : iCap i = false -> iMatch i = true -> ackBit m b -> bstep L b (Irq e i) = Some (sendNextBit b, []).
Proof. intros C M (S & _). cbn [bstep]. now apply tick_bits. Qed.
Lemma ack_sent L l b : state b = SEND_START_BIT -> sendAck b = SB_BUS_ACK -> Forall tick l -> length l = 8%nat -> exists b1, bruns L l b = Some (b1, [TxByte 0xCC; TxEnd true]).
Proof.
  intros S A T N. do 8 (destruct l as [|? l]; [discriminate|]). destruct l; [|discriminate]. clear N.
  repeat match goal with H : Forall tick (_ :: _) |- _ => let e := fresh "e" in let i := fresh "i" in let c := fresh "c" in let m := fresh "m" in inversion H as [|? ? (e & i & -> & c & m) ?]; subst; clear H end.
  cbn [bruns].
  assert (E : exists b1, bstep L b (Irq e i) = Some (b1, [TxByte 0xCC]) /\ ackBit (nextMask 1) b1).
  { cbn [bstep]. unfold timerInterruptHandler. rewrite c, S. cbn [andb]. unfold sendStartBit. rewrite m. cbn [negb]. unfold sendBit0. fields. rewrite A. cbn [Z.eqb SB_BUS_ACK negb]. unfold sendBits. rewrite m. cbn [negb also option_map fst snd].
    eexists. split; [reflexivity|]. eapply (next_bit _ 1); [unfold ackBit; fields; auto|discriminate]. }
  destruct E as (b1 & -> & F1). 
  change (nextMask 1) with 2 in F1. erewrite tick_step; [|assumption|assumption|exact F1]. apply next_bit in F1; [|discriminate]. match type of F1 with ackBit ?k _ => let q := eval vm_compute in k in change k with q in F1 end.
  erewrite tick_step; [|assumption|assumption|exact F1]. apply next_bit in F1; [|discriminate]. match type of F1 with ackBit ?k _ => let q := eval vm_compute in k in change k with q in F1 end.
  erewrite tick_step; [|assumption|assumption|exact F1]. apply next_bit in F1; [|discriminate]. match type of F1 with ackBit ?k _ => let q := eval vm_compute in k in change k with q in F1 end.
  erewrite tick_step; [|assumption|assumption|exact F1]. apply next_bit in F1; [|discriminate]. match type of F1 with ackBit ?k _ => let q := eval vm_compute in k in change k with q in F1 end.
  erewrite tick_step; [|assumption|assumption|exact F1]. apply next_bit in F1; [|discriminate]. match type of F1 with ackBit ?k _ => let q := eval vm_compute in k in change k with q in F1 end.
  erewrite tick_step; [|assumption|assumption|exact F1]. apply last_bit in F1; [|reflexivity]. destruct F1 as [F1 F2].
  match goal with |- context [bstep L ?x (Irq ?e ?i)] => assert (E : exists b2, bstep L x (Irq e i) = Some (b2, [TxEnd true])) end.
  { cbn [bstep]. unfold timerInterruptHandler. rewrite F1, c6. cbn [andb]. unfold sendEndOfTx. rewrite F2. cbn [Z.eqb SB_BUS_ACK negb]. eauto. }
  destruct E as (b2 & ->). exists b2. reflexivity.
Qed.
(** the answer to our telegram is an acknowledge *)
Lemma acked_reported L e i v b : inv L v b -> silence b i -> asked v = true -> heard v = [0xCC] -> sound v = true ->
  exists b1 os, bstep L b (Irq e i) = Some (b1, RxEnd :: Report true :: os).
Proof.
  intros I S As H Sd. destruct (silent_receiving L v b i I S) as (C & R & l & Hl & Hs). rewrite (silent_step L e i b S).
  assert (l = [] /\ currentByte b = 0xCC) as [-> Cb]. { rewrite H in Hl. destruct l as [|? l]; cbn in Hl; [split; congruence|]. injection Hl as _ Hl. destruct l; discriminate. }
  specialize (Hs eq_refl). pose proof C as (_ & _ & Er & Aw & (_ & J) & _). rewrite As in Aw. symmetry in Aw.
  assert (N : nextByteIndex b = 1%nat) by (destruct R as (_ & _ & -> & _); now rewrite H).
  assert (Jb : exists f, sendCur b = Some f). { destruct (job v) as [[own t]|]; destruct (sendCur b); try contradiction; eauto. destruct J as (_ & X & _). congruence. }
  destruct Jb as (f & Jb). unfold handleTelegram. cbv zeta. change (validFrame ?k (set_state WAIT_50BT (set_sendAck 0 b))) with (validFrame k b). fields.
  unfold validFrame. rewrite N. cbn [Nat.leb andb Nat.eqb]. rewrite Aw. unfold acknowledgeReceived. fields. cbv zeta. rewrite <- Hs, Sd, Cb. cbn [Z.eqb andb orb SB_BUS_ACK Pos.eqb].
  unfold finishSendingTelegram. fields. rewrite Jb, Er. cbn [Z.eqb]. cbv zeta. destruct (sendsAgain e true); eexists _, _; reflexivity.
Qed.
