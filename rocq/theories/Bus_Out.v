(** A telegram is sent undisturbed. *)
From Verif Require Import Base Bits Bus_Model Bus_Spec Bus_Frame Bus_Inv Bus_Recv Bus_Handle Bus_Handle2 Bus_Send Bus_Steps Bus_Hist Bus_Pos Bus_Live Bus_Props Bus_BitSpec Bus_Bits Bus_Wave Bus_BitProps Bus_ArbSpec Bus_Arb Bus_ArbProps.

Lemma tick_legal b o : quiet o -> legal b o.
Proof. intros (e & i & -> & E & M & C & Mt). cbn [legal]. rewrite C, Mt. split; [reflexivity|]. split; [exact M|]. split; [exact E|]. intros _ X. discriminate. Qed.
Lemma ticks_legal L ts : forall b, Forall quiet ts -> legal_run L ts b.
Proof. induction ts as [|o ts IH]; intros b F; cbn [legal_run]; [exact Logic.I|]. inversion F; subst. split; [apply tick_legal; assumption|]. intros. apply IH. assumption. Qed.
Lemma quiet_tick o : quiet o -> tick o.
Proof. intros (e & i & -> & _ & _ & C & M). exists e, i. auto. Qed.
Lemma quiet_ticks ts : Forall quiet ts -> Forall tick ts.
Proof. apply Forall_impl. exact quiet_tick. Qed.
(** only the own pulses *)
Lemma shared_ticks zs : forall a ts, Forall tick ts -> length ts = length zs -> shared a zs ts.
Proof.
  induction zs as [|z zs IH]; intros a ts F E; cbn [shared]; [destruct ts; [reflexivity|discriminate]|]. destruct ts as [|o ts]; [discriminate|]. inversion F; subst. exists [], o, ts. split; [reflexivity|]. split; [constructor|]. split; [assumption|]. apply IH; auto.
Qed.
(** how long a byte takes, in interrupts *)
Definition ticksOf (c : Z) : nat := 2 + length (zeros (word c)).
Definition ticksOfAll (l : list Z) : nat := fold_right (fun c n => (ticksOf c + n)%nat) O l.
Lemma byte_out L v b p g ts : limits_ok L -> inv L v b -> state b = SEND_START_BIT -> on v = Some (false, p) -> due v = Some g -> (length p < length g)%nat -> Forall quiet ts -> length ts = ticksOf (nth (length p) g 0) ->
  exists b1, bruns L ts b = Some (b1, [TxByte (nth (length p) g 0)]) /\ state b1 = (if (S (length p) <? length g)%nat then SEND_START_BIT else SEND_END_OF_TX).
Proof.
  intros LO I Sb On Du Lp F E. destruct ts as [|o ts]; [discriminate|]. inversion F as [|? ? Fo Ft]; subst. destruct (tick_next L v b o LO I (or_introl Sb) (quiet_tick o Fo)) as (b1 & c & m & E1 & B & N & Sd).
  assert (Ec : c = nth (length p) g 0). { destruct N as [(X & _)|(l & f & X1 & X2 & _ & ->)]; [congruence|]. rewrite On in X1. rewrite Du in X2. congruence. }
  rewrite <- Ec in *. clear Ec. unfold ticksOf in E. cbn [length Nat.add] in E. assert (Hl : exists t1 x, ts = t1 ++ [x] /\ length t1 = length (zeros (word c))).
  { assert (Hn : ts <> []) by (intros ->; discriminate). destruct (exists_last Hn) as (t1 & x & ->). exists t1, x. split; [reflexivity|]. rewrite app_length in E. cbn [length] in E. lia. }
  destruct Hl as (t1 & x & -> & Hl). apply Forall_app in Ft. destruct Ft as [F1 Fx]. inversion Fx as [|? ? Fx1 _]; subst.
  destruct (shared_run L (word c) 9 0 0 m b1 t1 ltac:(lia) (le_n _) ltac:(intros j Hj; lia) Sd) as (b2 & m2 & p2 & R & Sd2 & P2 & O2 & _ & _).
  { apply shared_ticks; [apply quiet_ticks; exact F1|exact Hl]. }
  assert (R1 : bruns L (o :: t1) b = Some (b2, [TxByte c])) by (cbn [bruns]; rewrite E1, R; reflexivity).
  assert (m2 = 9%nat). { destruct Sd2 as (_ & (M1 & M2 & M3) & _). destruct (Nat.eq_dec m2 9) as [|X]; [assumption|]. exfalso. assert (Z.testbit (word c) (Z.of_nat m2) = true) by (apply O2; lia). rewrite M3 in H by lia. discriminate. }
  subst m2. destruct (bruns_inv L (o :: t1) v b LO I) as (b3 & os3 & R3 & I3); [apply ticks_legal; constructor; assumption|]. assert (b3 = b2 /\ os3 = [TxByte c]) as [-> ->] by (rewrite R1 in R3; split; congruence).
  destruct Sd2 as (S2 & _ & _ & M2 & _ & _). exists (sendNextBit b2). destruct Fx1 as (e & i & -> & _ & _ & Ci & Mi).
  rewrite app_comm_cons, (bruns_app L (o :: t1) _ b b2 _ R1). cbn [bruns bstep]. rewrite (tick_bits L e i b2 S2 Ci Mi). split; [reflexivity|].
  unfold sendNextBit. rewrite M2. change (pw 10 <=? 0x200) with false. cbv iota. unfold sendEndOfByte.
  destruct I3 as (x & Co & P). unfold phase in P. rewrite S2 in P. destruct P as (_ & _ & P). assert (On3 : on (sees v [TxByte c]) = Some (false, p ++ [c])) by (unfold sees; cbn [fold_left see]; rewrite On; reflexivity).
  assert (Du3 : due (sees v [TxByte c]) = Some g) by (rewrite <- Du; unfold due, sees; cbn [fold_left see]; rewrite On; reflexivity).
  destruct P as [(_ & _ & _ & A3)|(n & _ & (A1 & A2 & A3 & f & F1a & F2 & F3 & F4 & F5 & _))]; [congruence|]. rewrite F4 in On3. rewrite F5 in Du3. destruct (job_bytes L _ b2 x f Co F1a) as [Lf _]. pose proof (size_range f) as Rf.
  assert (Lg : length g = S (size f)). { assert (X : firstn (S (size f)) f = g) by congruence. apply (f_equal (@length Z)) in X. rewrite firstn_length, Lf in X. unfold largest in X. lia. }
  assert (Ln : S n = S (length p)). { assert (X : firstn (S n) f = p ++ [c]) by congruence. apply (f_equal (@length Z)) in X. rewrite firstn_length, Lf, app_length in X. cbn [length] in X. unfold largest in X. lia. }
  rewrite A2, F2, A1, Lg, Ln, Z.eqb_refl, andb_true_r. destruct (S (length p) <? S (size f))%nat; fields; reflexivity.
Qed.
Lemma frame_out L : forall r v b p g ts, limits_ok L -> inv L v b -> state b = SEND_START_BIT -> on v = Some (false, p) -> due v = Some g -> g = p ++ r -> r <> [] -> Forall quiet ts -> length ts = S (ticksOfAll r) ->
  exists b1, bruns L ts b = Some (b1, map TxByte r ++ [TxEnd false]) /\ state b1 = SEND_WAIT_FOR_RX_ACK_WINDOW.
Proof.
  induction r as [|c r IH]; intros v b p g ts LO I Sb On Du Eg Nr F E; [congruence|]. cbn [ticksOfAll fold_right] in E. fold (ticksOfAll r) in E.
  assert (Lp : (length p < length g)%nat) by (rewrite Eg, app_length; cbn [length]; lia). assert (Ec : nth (length p) g 0 = c) by (rewrite Eg, app_nth2, Nat.sub_diag by lia; reflexivity).
  rewrite <- (firstn_skipn (ticksOf c) ts) in *. set (t1 := firstn (ticksOf c) ts) in *. set (t2 := skipn (ticksOf c) ts) in *.
  assert (L1 : length t1 = ticksOf c) by (unfold t1; rewrite firstn_length; rewrite app_length in E; unfold t1, t2 in E; rewrite firstn_length, skipn_length in E; lia).
  rewrite app_length in E. clearbody t1 t2. apply Forall_app in F. destruct F as [F1 F2].
  destruct (byte_out L v b p g t1 LO I Sb On Du Lp F1 ltac:(rewrite Ec; exact L1)) as (b1 & R1 & S1). rewrite Ec in R1.
  destruct (bruns_inv L t1 v b LO I (ticks_legal L t1 b F1)) as (b3 & os3 & R3 & I3). assert (b3 = b1 /\ os3 = [TxByte c]) as [-> ->] by (rewrite R1 in R3; split; congruence).
  rewrite (bruns_app L t1 t2 b b1 _ R1). assert (Lg : length g = (length p + S (length r))%nat) by (rewrite Eg, app_length; reflexivity). destruct r as [|c2 r].
  - rewrite Lg in S1. cbn [length] in S1. destruct (Nat.ltb_spec (S (length p)) (length p + 1)) as [X|X]; [lia|]. destruct t2 as [|o [|? ?]]; cbn [ticksOfAll fold_right length] in E; try lia. inversion F2 as [|? ? (e & i & -> & _ & _ & Ci & Mi) _]; subst.
    cbn [bruns bstep]. unfold timerInterruptHandler. rewrite Ci, S1. cbn [andb]. unfold sendEndOfTx. destruct I3 as (x & Co & P). unfold phase in P. rewrite S1 in P. destruct P as (_ & P).
    assert (On3 : on (sees v [TxByte c]) = Some (false, p ++ [c])) by (unfold sees; cbn [fold_left see]; rewrite On; reflexivity).
    assert (A0 : sendAck b1 = 0). { destruct P as [(_ & (_ & _ & A3))|(_ & (A1 & _))]; [congruence|exact A1]. }
    rewrite A0. cbn [Z.eqb negb]. cbv zeta. cbn [also option_map fst snd map app]. eexists. split; [reflexivity|]. fields. destruct (repeatTel b1); [destruct (busyWait b1)|]; fields; reflexivity.
  - rewrite Lg in S1. cbn [length] in S1. destruct (Nat.ltb_spec (S (length p)) (length p + S (S (length r)))) as [X|X]; [|lia].
    destruct (IH (sees v [TxByte c]) b1 (p ++ [c]) g t2 LO I3 S1) as (b2 & R2 & S2); auto.
    + unfold sees. cbn [fold_left see]. rewrite On. reflexivity.
    + rewrite <- Du. unfold due, sees. cbn [fold_left see]. rewrite On. reflexivity.
    + rewrite Eg, <- app_assoc. reflexivity.
    + discriminate.
    + lia.
    + exists b2. rewrite R2. split; [reflexivity|exact S2].
Qed.

(** ** No telegram, no remote busy *)
Definition noBusy (b : bus) : Prop := sendCur b = None -> busyWait b = false.
Definition noBusys (r : result) : Prop := forall b os, r = Some (b, os) -> noBusy b.
Lemma nb_same b b1 : sendCur b1 = sendCur b -> busyWait b1 = busyWait b -> noBusy b -> noBusy b1.
Proof. intros E1 E2 H X. rewrite E2. apply H. congruence. Qed.
Lemma nb_some b os : noBusy b -> noBusys (Some (b, os)).
Proof. intros H b1 o1 E. assert (b = b1) by congruence. subst. exact H. Qed.
Lemma nb_also l r : noBusys r -> noBusys (also l r).
Proof. intros H b os E. destruct r as [[b1 o1]|]; cbn [also option_map fst snd] in E; [|discriminate]. assert (b1 = b) by congruence. subst. apply (H b o1). reflexivity. Qed.
Ltac nb := match goal with H : noBusy ?b |- noBusy _ => apply (nb_same b); [fields; reflexivity|fields; reflexivity|exact H] end.
Lemma nb_finish e b : noBusy (fst (finishSendingTelegram e b)).
Proof. unfold finishSendingTelegram. destruct (sendCur b); [destruct (sendsAgain e _)|]; intros _; reflexivity. Qed.
Lemma nb_handle L e ok b : noBusy b -> (waitAck b = true -> sendCur b <> None) -> noBusy (fst (handleTelegram L e ok b)).
Proof.
  intros H W. unfold handleTelegram. cbv zeta. set (b0 := set_state WAIT_50BT (set_sendAck 0 b)). assert (H0 : noBusy b0) by (apply (nb_same b); auto). assert (W0 : waitAck b0 = true -> sendCur b0 <> None) by exact W. clearbody b0. clear H W b.
  assert (G : forall r, noBusy (fst (fst r)) -> noBusy (fst (let '(b, time, o) := r : bus * Z * list bout in (set_mTime (time - 1) (if waitAck b then set_waitAck false (set_repeatTel true b) else b), RxEnd :: o)))).
  { intros [[b1 t1] o1]. cbn [fst]. intros X. apply (nb_same b1); [| |exact X]; destruct (waitAck b1); reflexivity. }
  apply G. clear G. destruct (validFrame ok b0); [destruct (processTel e (rxTel b0)); [|exact H0]|destruct (_ && _) eqn:Wa; [|exact H0]].
  - apply (nb_same b0); [| |exact H0]; unfold frameForUs; cbv zeta; (destruct (0 <? telegramLen b0)%nat; [|destruct (alreadyReceived _ _ _)]); fields; repeat match goal with |- context [if ?c then _ else _] => destruct c end; reflexivity.
  - apply andb_true_iff in Wa. destruct Wa as [_ Wa]. specialize (W0 Wa). unfold acknowledgeReceived. cbv zeta. destruct (_ || _ || _).
    + match goal with |- context [finishSendingTelegram e ?z] => pose proof (nb_finish e z) as F; destruct (finishSendingTelegram e z) as [b1 o1] end. exact F.
    + destruct (_ && _); cbn [fst]; intros X; fields; contradiction.
Qed.
Lemma nb_recvWait L e i b : noBusy b -> (waitAck b = true -> sendCur b <> None) -> noBusys (recvWait L e i b).
Proof.
  intros H W. unfold recvWait. destruct (negb (iCap i)); [|apply nb_some; nb]. pose proof (nb_handle L e (valid b && (checksum b =? 0)) b H W) as X. destruct (handleTelegram _ _ _ _) as [b1 o1]. apply nb_some. exact X.
Qed.
Lemma nb_initRx L e i b : noBusy b -> (waitAck b = true -> sendCur b <> None) -> noBusys (initRx L e i b).
Proof. intros H W. unfold initRx. apply nb_also, nb_recvWait; [nb|exact W]. Qed.
Lemma nb_recvBits i b : noBusy b -> noBusys (Some (recvBits i b)).
Proof.
  intros H. unfold recvBits. cbv zeta. destruct (findBit_form (if iMatch i then mTime b + 1 else iCapture i) b) as (m & t0 & pr & c & ->). destruct (iMatch i); [|apply nb_some; nb]. unfold endOfByte. cbv zeta. apply nb_some. destruct (_ <? _)%nat; nb.
Qed.
Lemma nb_coll b : noBusy b -> noBusy (encounteredCollision b).
Proof. intros H. unfold encounteredCollision. destruct (sendAck b =? 0); nb. Qed.
Lemma nb_collided i b : noBusy b -> noBusys (collided i b).
Proof.
  intros H. unfold collided. pose proof (nb_coll b H) as H1. set (z := encounteredCollision b) in *. clearbody z. destruct (takeOver z) as [[b1 p]|] eqn:T; [|intros ? ? X; discriminate]. 
  assert (H2 : noBusy b1). { unfold takeOver in T. cbv zeta in T. fields. cbn [sendAck set_parity set_valid set_checksum] in T. destruct (negb (sendAck z =? 0)).
    - assert (E : b1 = set_sendAck 0 (set_parity true (set_valid true (set_checksum 255 z)))) by congruence. rewrite E. nb.
    - cbn [sendCur nextByteIndex set_parity set_valid set_checksum] in T. destruct (sendCur z) as [t|] eqn:Sz; [|discriminate]. destruct (nextByteIndex z) as [|n]; [discriminate|]. apply (f_equal (option_map fst)) in T. cbn [option_map fst] in T.
      assert (E : sendCur b1 = Some t) by (match type of T with Some ?a = Some b1 => replace b1 with a by congruence end; fields; exact Sz). intros X. congruence. }
  cbv zeta. destruct (32 <=? _); [intros ? ? X; discriminate|]. destruct (sentBits _ _ _ _ _) as [ms pr]. apply nb_also, nb_recvBits. nb.
Qed.
Lemma nb_nextBit b : noBusy b -> noBusy (sendNextBit b).
Proof. intros H. unfold sendNextBit. destruct (bitMask b <=? 0x200); [destruct (nextLow _ _ _ _); nb|]. unfold sendEndOfByte. destruct (_ && _); nb. Qed.
Lemma nb_init b : noBusy b -> noBusy (initState b).
Proof. intros H. unfold initState. nb. Qed.
Lemma nb_sendBits i b : noBusy b -> noBusys (sendBits i b).
Proof.
  intros H. unfold sendBits. destruct (negb (iMatch i)); [|apply nb_some, nb_nextBit; exact H]. destruct (_ <? _); [apply nb_some; exact H|]. destruct (_ <? _); [apply nb_some, nb_init, nb_coll; exact H|]. destruct (_ <? _); [apply nb_collided; exact H|apply nb_some; exact H].
Qed.
Lemma nb_sendBit0 i b : noBusy b -> noBusys (sendBit0 i b).
Proof.
  intros H. unfold sendBit0. destruct (negb (sendAck b =? 0)); [|destruct (sendCur b); [|intros ? ? X; discriminate]]; apply nb_also, nb_sendBits; nb.
Qed.
Lemma nb_wait50 L e i b : noBusy b -> (waitAck b = true -> sendCur b <> None) -> noBusys (wait50 L e i b).
Proof.
  intros H W. unfold wait50. destruct (iCap i); [apply nb_initRx; assumption|].
  assert (X : noBusy (fst (if giveUp L b then finishSendingTelegram e (set_txError (Z.lor (txError b) TX_RETRY_ERROR) b) else (b, [])))) by (destruct (giveUp L b); [apply nb_finish|exact H]).
  destruct (if giveUp L b then _ else _) as [b1 o1]. cbn [fst] in X. destruct (sendCur b1) as [t|] eqn:E; apply nb_some; [|unfold idleState; nb]. cbv zeta. intros Y. fields. discriminate Y.
Qed.
Lemma step_noBusy L v b o b1 os : inv L v b -> noBusy b -> bstep L b o = Some (b1, os) -> noBusy b1.
Proof.
  intros I H.
  assert (W : waitAck b = true -> sendCur b <> None).
  { intros Wt Sc. destruct I as (x & (_ & _ & _ & _ & (_ & J) & _) & _). rewrite Sc in J. destruct (job v) as [[? ?]|]; [contradiction|]. destruct J as (_ & J & _). congruence. }
  cut (noBusys (bstep L b o)); [intros X E; exact (X b1 os E)|]. destruct o as [e i|own t n| | |w|]; cbn [bstep].
  - unfold timerInterruptHandler. destruct (_ && _ && _); [apply nb_some; exact H|]. destruct (state b) eqn:S.
    + unfold initCase. destruct (negb (iMatch i)); [apply nb_some; exact H|]. destruct (iCap i); [apply nb_wait50; [nb|exact W]|apply nb_some; nb].
    + destruct (iCap i); [apply nb_initRx; assumption|apply nb_some; exact H].
    + apply nb_recvWait; assumption.
    + apply nb_recvBits; exact H.
    + unfold recvAckStart. destruct (iCap i); [apply nb_initRx; [nb|exact W]|]. apply nb_some. nb.
    + apply nb_wait50; assumption.
    + unfold sendStartBit. destruct (negb (iMatch i)); [|apply nb_sendBit0; nb]. destruct (_ <? _).
      * cbv zeta. destruct (nextByteIndex b =? 0)%nat.
        -- apply nb_initRx; [nb|exact W].
        -- pose proof (nb_coll b H) as H1. assert (W1 : waitAck (encounteredCollision b) = true -> sendCur (encounteredCollision b) <> None) by (unfold encounteredCollision; destruct (sendAck b =? 0); exact W).
           set (z := encounteredCollision b) in *. clearbody z. apply nb_initRx; [apply (nb_same z); [reflexivity|reflexivity|exact H1]|exact W1].
      * apply nb_some. destruct (_ <? _); nb.
    + apply nb_sendBit0; exact H.
    + apply nb_sendBits; exact H.
    + unfold sendEndOfTx. destruct (negb _); apply nb_some; [nb|]. cbv zeta. fields. destruct (repeatTel b); [destruct (busyWait b) eqn:Bw|]; nb.
    + apply nb_some. nb.
    + unfold waitForAck. destruct (iCap i); [apply nb_initRx; assumption|]. apply nb_some. nb.
  - destruct (sendCur b) eqn:E; apply nb_some; [exact H|]. intros X. fields. discriminate X.
  - destruct (state b); apply nb_some; exact H.
  - apply nb_some. nb.
  - destruct (canPause w b); apply nb_some; [nb|exact H].
  - apply nb_some, nb_init. exact H.
Qed.
Lemma after_noBusy L junk l b v : limits_ok L -> after L junk l b v -> noBusy b.
Proof.
  intros LO (Lr & os & R & _). assert (X : forall l v b b1 os, inv L v b -> noBusy b -> legal_run L l b -> bruns L l b = Some (b1, os) -> noBusy b1).
  { clear - LO. induction l as [|o l IH]; intros v b b1 os I H Lr R; cbn [bruns] in R; [assert (b = b1) by congruence; subst; exact H|]. destruct Lr as [Lo Lr]. destruct (bstep L b o) as [[b2 o2]|] eqn:E; [|discriminate].
    destruct (bruns L l b2) as [[b3 o3]|] eqn:R3; cbn [also option_map fst snd] in R; [|discriminate]. assert (b3 = b1) by congruence. subst. pose proof (step_good L v b o LO Lo I) as G. rewrite E in G. destruct G as [_ I2].
    exact (IH _ b2 b1 o3 I2 (step_noBusy L v b o b2 o2 I H E) (Lr b2 o2 eq_refl) R3). }
  refine (X l view0 (begin junk) b os (begin_inv L junk) _ Lr R). intros _. reflexivity.
Qed.
