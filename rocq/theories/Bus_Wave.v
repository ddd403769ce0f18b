(** The low pulses of a byte sent. *)
From Verif Require Import Base Bits Bus_Model Bus_Spec Bus_Frame Bus_Inv Bus_Recv Bus_Handle Bus_Handle2 Bus_Send Bus_Steps Bus_Hist Bus_Pos Bus_BitSpec Bus_Bits.

(** pulses computed from the byte with parity, the mask and the time only *)
Fixpoint wave (n : nat) (cur m t : Z) : list Z :=
  match n with
  | O => []
  | S k => if m <=? 0x200 then
             let p := nextLow 9 cur m BIT_TIME in
             (if 0x200 <? 2 * fst p then [] else [t + (snd p - BIT_PULSE_TIME)]) ++ wave k cur (2 * fst p) (t + snd p)
           else []
  end.
Lemma wave_shift cur a : forall n m t, wave n cur m (a + t) = map (Z.add a) (wave n cur m t).
Proof.
  induction n as [|n IH]; intros m t; cbn [wave]; [reflexivity|]. destruct (m <=? 0x200); [|reflexivity]. cbv zeta. rewrite map_app, <- IH. f_equal.
  - destruct (0x200 <? _); cbn [map]; [reflexivity|]. f_equal. lia.
  - f_equal. lia.
Qed.
Lemma sendNextBit_end b : 0x200 < bitMask b -> state (sendNextBit b) <> SEND_BITS_OF_BYTE.
Proof. intros H. unfold sendNextBit, sendEndOfByte. destruct (Z.leb_spec (bitMask b) 0x200); [lia|]. destruct (_ && _); fields; discriminate. Qed.
Lemma pulses_wave L : forall ops t z, Forall tick ops -> state z = SEND_BITS_OF_BYTE -> pulses L ops t (sendNextBit z) = wave (length ops) (currentByte z) (bitMask z) t.
Proof.
  induction ops as [|o ops IH]; intros t z F S; cbn [pulses length wave]; [reflexivity|]. inversion F as [|? ? (e & i & -> & C & M) F2]; subst. destruct (Z.leb_spec (bitMask z) 0x200) as [Hm|Hm].
  - pose proof (nextLow_time 9 (currentByte z) (bitMask z) BIT_TIME) as T. change BIT_TIME with 104 in *.
    destruct (nextLow 9 (currentByte z) (bitMask z) 104) as [m time] eqn:N. cbn [fst snd] in *. cbv zeta.
    assert (E : sendNextBit z = set_mTime (time - 1) (set_mPwm (if 0x200 <? 2 * m then 0xffff else time - BIT_PULSE_TIME) (set_bitMask (2 * m) z))).
    { unfold sendNextBit. destruct (Z.leb_spec (bitMask z) 0x200); [|lia]. change BIT_TIME with 104. rewrite N. reflexivity. }
    assert (S1 : state (sendNextBit z) = SEND_BITS_OF_BYTE) by (rewrite E; exact S). rewrite S1. cbn [bstep]. rewrite (tick_bits L e i _ S1 C M), IH by assumption. rewrite E. fields. f_equal.
    + change BIT_PULSE_TIME with 35. destruct (0x200 <? 2 * m); destruct (Z.leb_spec 0xffff (time - 1)); destruct (Z.leb_spec (time - 35) (time - 1)); try lia; reflexivity.
    + f_equal. lia.
  - pose proof (sendNextBit_end z Hm) as Q. destruct (state (sendNextBit z)) eqn:X; congruence || reflexivity.
Qed.
Lemma wave_byte c : is_byte c -> wave 10 (withParity c) 1 BIT_PULSE_TIME = map nominal (zeros (word c)).
Proof.
  intros H. assert (X : forall c, is_byte c -> (if list_eq_dec Z.eq_dec (wave 10 (withParity c) 1 BIT_PULSE_TIME) (map nominal (zeros (word c))) then true else false) = true) by (apply byte_forall; vm_compute; reflexivity).
  specialize (X c H). destruct (list_eq_dec _ _ _); [assumption|discriminate].
Qed.
Lemma tick_bit0 i b b1 c : iMatch i = true -> sendBit0 i b = Some (b1, [TxByte c]) -> exists z, b1 = sendNextBit z /\ state z = SEND_BITS_OF_BYTE /\ currentByte z = withParity c /\ bitMask z = 1.
Proof.
  intros M. unfold sendBit0, sendBits. rewrite M. cbn [negb]. destruct (negb (sendAck b =? 0)).
  - cbn [also option_map fst snd app]. intros H. assert (Hc : sendAck b = c) by congruence.
    match type of H with Some (sendNextBit ?z, _) = _ => exists z; assert (E : sendNextBit z = b1) by congruence end. split; [symmetry; exact E|]. fields. split; [reflexivity|]. split; [congruence|reflexivity].
  - destruct (sendCur b) as [t|]; [|discriminate]. cbn [also option_map fst snd app]. intros H. assert (Hc : rd t (nextByteIndex b) = c) by congruence.
    match type of H with Some (sendNextBit ?z, _) = _ => exists z; assert (E : sendNextBit z = b1) by congruence end. split; [symmetry; exact E|]. fields. split; [reflexivity|]. split; [congruence|reflexivity].
Qed.
Lemma tick_sent L e i b b1 c ops origin : state b = SEND_START_BIT \/ state b = SEND_BIT_0 -> iCap i = false -> iMatch i = true -> bstep L b (Irq e i) = Some (b1, [TxByte c]) -> is_byte c ->
  mTime b + 1 = origin + BIT_PULSE_TIME -> Forall tick ops -> length ops = 10%nat -> pulses L ops (mTime b + 1) b1 = map (fun k => origin + nominal k) (zeros (word c)).
Proof.
  intros S C M E B O F N. cbn [bstep] in E. unfold timerInterruptHandler in E. rewrite C in E. cbn [andb] in E.
  assert (X : exists z, b1 = sendNextBit z /\ state z = SEND_BITS_OF_BYTE /\ currentByte z = withParity c /\ bitMask z = 1).
  { destruct S as [S|S]; rewrite S in E; [unfold sendStartBit in E; rewrite M in E; cbn [negb] in E|]; eapply tick_bit0; eauto. }
  destruct X as (z & -> & Z1 & Z2 & Z3). rewrite pulses_wave by assumption. rewrite Z2, Z3, N, O, wave_shift, wave_byte by exact B. rewrite map_map. reflexivity.
Qed.
(** a byte waiting for its start bit: the pulse begins 34 us before the timer runs out *)
Definition startOk (b : bus) : Prop := state b = SEND_START_BIT -> mTime b = mPwm b + 34.
Lemma startOk_other b : state b <> SEND_START_BIT -> startOk b.
Proof. intros H X. contradiction. Qed.
Definition startsOk (r : result) : Prop := forall b os, r = Some (b, os) -> startOk b.
Lemma some_ok b os : startOk b -> startsOk (Some (b, os)).
Proof. intros H b1 o1 E. assert (b = b1) by congruence. subst. exact H. Qed.
Lemma also_ok l r : startsOk r -> startsOk (also l r).
Proof. intros H b os E. destruct r as [[b1 o1]|]; cbn [also option_map fst snd] in E; [|discriminate]. assert (b1 = b) by congruence. subst. apply (H b o1). reflexivity. Qed.
Ltac nostart := apply startOk_other; fields; discriminate.
Lemma finish_state e b : state (fst (finishSendingTelegram e b)) = state b.
Proof. unfold finishSendingTelegram. destruct (sendCur b); [destruct (sendsAgain e _)|]; reflexivity. Qed.
Lemma handle_state L e ok b : state (fst (handleTelegram L e ok b)) <> SEND_START_BIT.
Proof.
  unfold handleTelegram. cbv zeta. set (b0 := set_state WAIT_50BT (set_sendAck 0 b)). assert (H0 : state b0 <> SEND_START_BIT) by (unfold b0; fields; discriminate). clearbody b0.
  assert (H : forall r, state (fst (fst r)) <> SEND_START_BIT -> state (fst (let '(b, time, o) := r : bus * Z * list bout in (set_mTime (time - 1) (if waitAck b then set_waitAck false (set_repeatTel true b) else b), RxEnd :: o))) <> SEND_START_BIT).
  { intros [[b1 t1] o1]. cbn [fst]. destruct (waitAck b1); fields; auto. }
  apply H. clear H. destruct (validFrame ok b0); [destruct (processTel e (rxTel b0)); [|exact H0]|destruct (_ && _); [|exact H0]].
  - unfold frameForUs. cbv zeta. destruct (0 <? telegramLen b0)%nat; [|destruct (alreadyReceived _ _ _)]; fields; repeat match goal with |- context [if ?c then _ else _] => destruct c end; cbn [fst]; fields; try exact H0; discriminate.
  - unfold acknowledgeReceived. cbv zeta. destruct (_ || _ || _).
    + match goal with |- context [finishSendingTelegram e ?z] => pose proof (finish_state e z) as F; destruct (finishSendingTelegram e z) as [b1 o1] end. cbn [fst] in *. rewrite F. destruct (_ && _); fields; exact H0.
    + destruct (_ && _); cbn [fst]; fields; exact H0.
Qed.
Lemma recvWait_ok L e i b : startsOk (recvWait L e i b).
Proof. unfold recvWait. destruct (negb (iCap i)); [|apply some_ok; nostart]. pose proof (handle_state L e (valid b && (checksum b =? 0)) b) as H. destruct (handleTelegram _ _ _ _) as [b1 o1]. apply some_ok. apply startOk_other. exact H. Qed.
Lemma initRx_ok L e i b : startsOk (initRx L e i b).
Proof. unfold initRx. apply also_ok, recvWait_ok. Qed.
Lemma recvBits_ok i b : state b = RECV_BITS_OF_BYTE -> startsOk (Some (recvBits i b)).
Proof.
  intros S. unfold recvBits. cbv zeta. set (t := if iMatch i then mTime b + 1 else iCapture i). destruct (findBit_form t b) as (m & t0 & pr & c & ->). destruct (iMatch i); [|apply some_ok; apply startOk_other; fields; rewrite S; discriminate].
  unfold endOfByte. cbv zeta. apply some_ok. nostart.
Qed.
Lemma nextBit_ok b : state b = SEND_BITS_OF_BYTE -> startOk (sendNextBit b).
Proof.
  intros S. unfold sendNextBit. destruct (bitMask b <=? 0x200).
  - destruct (nextLow _ _ _ _) as [m t]. apply startOk_other. fields. rewrite S. discriminate.
  - unfold sendEndOfByte. destruct (_ && _); [|nostart]. intros _. fields. reflexivity.
Qed.
Lemma init_other b : state (initState b) <> SEND_START_BIT.
Proof. unfold initState. fields. discriminate. Qed.
Lemma sendBits_ok i b : state b = SEND_BITS_OF_BYTE -> startsOk (sendBits i b).
Proof.
  intros S. unfold sendBits. destruct (negb (iMatch i)); [|apply some_ok, nextBit_ok; exact S].
  assert (N : startOk b) by (apply startOk_other; rewrite S; discriminate).
  destruct (_ <? _); [apply some_ok; exact N|]. destruct (_ <? _); [apply some_ok, startOk_other, init_other|]. destruct (_ <? _); [|apply some_ok; exact N].
  unfold collided. destruct (takeOver _) as [[b1 p]|]; [|intros ? ? X; discriminate]. cbv zeta. destruct (32 <=? _); [intros ? ? X; discriminate|]. destruct (sentBits _ _ _ _ _) as [ms pr]. apply also_ok, recvBits_ok. fields. reflexivity.
Qed.
Lemma sendBit0_ok i b : startsOk (sendBit0 i b).
Proof.
  unfold sendBit0. destruct (negb (sendAck b =? 0)); [|destruct (sendCur b); [|intros ? ? X; discriminate]]; apply also_ok, sendBits_ok; fields; reflexivity.
Qed.
Lemma wait50_ok L e i b : startsOk (wait50 L e i b).
Proof.
  unfold wait50. destruct (iCap i); [apply initRx_ok|]. destruct (if giveUp L b then _ else _) as [b1 o1]. destruct (sendCur b1) as [t|]; apply some_ok; [|unfold idleState; nostart].
  cbv zeta. intros _. fields. change BIT_PULSE_TIME with 35. lia.
Qed.
Lemma step_startOk L b o b1 os : startOk b -> bstep L b o = Some (b1, os) -> startOk b1.
Proof.
  intros H. cut (startsOk (bstep L b o)); [intros X E; exact (X b1 os E)|]. destruct o as [e i|own t n| | |w|]; cbn [bstep].
  - unfold timerInterruptHandler. destruct (_ && _ && _); [apply some_ok; exact H|]. destruct (state b) eqn:S.
    + unfold initCase. destruct (negb (iMatch i)); [apply some_ok; exact H|]. destruct (iCap i); [apply wait50_ok|apply some_ok; nostart].
    + destruct (iCap i); [apply initRx_ok|apply some_ok; exact H].
    + apply recvWait_ok.
    + apply recvBits_ok; exact S.
    + unfold recvAckStart. destruct (iCap i); [apply initRx_ok|]. apply some_ok. intros _. reflexivity.
    + apply wait50_ok.
    + unfold sendStartBit. destruct (negb (iMatch i)); [|apply sendBit0_ok]. destruct (_ <? _); [apply initRx_ok|]. apply some_ok. nostart.
    + apply sendBit0_ok.
    + apply sendBits_ok; exact S.
    + unfold sendEndOfTx. destruct (negb _); apply some_ok; [nostart|]. cbv zeta. fields. destruct (repeatTel b); [destruct (busyWait b)|]; nostart.
    + apply some_ok. nostart.
    + unfold waitForAck. destruct (iCap i); [apply initRx_ok|]. apply some_ok. nostart.
  - destruct (sendCur b); apply some_ok; [exact H|]. intros X. fields. apply H. exact X.
  - destruct (state b); apply some_ok; try exact H. unfold startSendingImmediately. nostart.
  - apply some_ok. intros X. fields. apply H. exact X.
  - destruct (canPause w b); apply some_ok; [nostart|exact H].
  - apply some_ok, startOk_other, init_other.
Qed.
Lemma bruns_startOk L : forall l b b1 os, startOk b -> bruns L l b = Some (b1, os) -> startOk b1.
Proof.
  induction l as [|o l IH]; intros b b1 os H R; cbn [bruns] in R; [assert (b = b1) by congruence; subst; exact H|]. destruct (bstep L b o) as [[b2 o2]|] eqn:E; [|discriminate].
  destruct (bruns L l b2) as [[b3 o3]|] eqn:R3; cbn [also option_map fst snd] in R; [|discriminate]. assert (b3 = b1) by congruence. subst. eapply IH; [|exact R3]. eapply step_startOk; eauto.
Qed.
Lemma after_startOk L junk l b v : after L junk l b v -> startOk b.
Proof. intros (_ & os & R & _). eapply bruns_startOk; [|exact R]. apply startOk_other. unfold begin. apply init_other. Qed.
