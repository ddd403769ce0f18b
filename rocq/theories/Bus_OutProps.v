(** C93: a telegram on an undisturbed bus: sent once and acknowledged, or repeated as often as allowed and reported as failed. *)
From Verif Require Import Base Bits Bus_Model Bus_Spec Bus_Frame Bus_Inv Bus_Recv Bus_Handle Bus_Handle2 Bus_Send Bus_Steps Bus_Hist Bus_Pos Bus_Live Bus_Props Bus_BitSpec Bus_Bits Bus_Wave Bus_BitProps Bus_Ex Bus_ArbSpec Bus_Arb Bus_ArbProps Bus_Out Bus_OutSpec.

(** the states passed through when nothing is heard *)
Definition alone (b : bus) : Prop :=
  busyWait b = false /\ sendBusyRetries b = 0 /\
  match state b with WAIT_50BT | IDLE | SEND_START_BIT | SEND_BIT_0 | SEND_BITS_OF_BYTE | SEND_END_OF_TX | SEND_WAIT_FOR_RX_ACK_WINDOW | SEND_WAIT_FOR_RX_ACK => True | _ => False end.
Lemma alone_bits i b b1 os : busyWait b = false -> sendBusyRetries b = 0 -> state b = SEND_BITS_OF_BYTE -> iMatch i = true -> sendBits i b = Some (b1, os) -> alone b1.
Proof.
  intros A B S M E. unfold sendBits in E. rewrite M in E. cbn [negb] in E. assert (b1 = sendNextBit b) as -> by congruence. unfold sendNextBit, sendEndOfByte, alone.
  destruct (bitMask b <=? 0x200); [destruct (nextLow _ _ _ _)|destruct (_ && _)]; fields; rewrite ?S; auto.
Qed.
Lemma alone_bit0 i b b1 os : busyWait b = false -> sendBusyRetries b = 0 -> iMatch i = true -> sendBit0 i b = Some (b1, os) -> alone b1.
Proof.
  intros A B M E. unfold sendBit0 in E. destruct (negb (sendAck b =? 0)); [|destruct (sendCur b); [|discriminate]]; cbv zeta in E;
    match type of E with also _ (sendBits i ?z) = _ => destruct (sendBits i z) as [[b2 o2]|] eqn:X; cbn [also option_map fst snd] in E; [|discriminate]; assert (b2 = b1) by congruence; subst b2; exact (alone_bits i z b1 o2 A B eq_refl M X) end.
Qed.
Lemma alone_tick L b o b1 os : tick o -> alone b -> bstep L b o = Some (b1, os) -> alone b1.
Proof.
  intros (e & i & -> & C & M) (A & B & S) E. cbn [bstep] in E. unfold timerInterruptHandler in E. rewrite C in E. cbn [andb] in E. destruct (state b) eqn:Sb; try contradiction.
  - assert (b = b1) by congruence. subst. unfold alone. rewrite Sb. auto.
  - rewrite (wait50_form L e i b C) in E. cbv zeta in E. assert (X : forall z o, busyWait z = false -> sendBusyRetries z = 0 -> also o (startOrIdle L i z) = Some (b1, os) -> alone b1).
    { intros z o Bz Sz Ez. unfold startOrIdle in Ez. destruct (sendCur z); cbn [also option_map fst snd] in Ez; [|assert (b1 = idleState z) as -> by congruence; unfold alone, idleState; fields; auto]. cbv zeta in Ez.
      match type of Ez with Some (?q, _) = _ => assert (b1 = q) as -> by congruence end. unfold alone. fields. auto. }
    destruct (giveUp L b).
    + unfold finishSendingTelegram in E. fields. destruct (sendCur _); [destruct (sendsAgain _ _)|]; eapply X; try exact E; reflexivity.
    + eapply X; [| |exact E]; assumption.
  - unfold sendStartBit in E. rewrite M in E. cbn [negb] in E. match type of E with sendBit0 i ?z = _ => exact (alone_bit0 i z b1 os A B M E) end.
  - exact (alone_bit0 i b b1 os A B M E).
  - exact (alone_bits i b b1 os A B Sb M E).
  - unfold sendEndOfTx in E. destruct (negb _).
    + match type of E with Some (?q, _) = _ => assert (b1 = q) as -> by congruence end. unfold alone. fields. auto.
    + cbv zeta in E. match type of E with Some (?q, _) = _ => assert (b1 = q) as -> by congruence end. unfold alone. fields. rewrite A. destruct (repeatTel b); fields; auto.
  - match type of E with Some (?q, _) = _ => assert (b1 = q) as -> by congruence end. unfold alone. fields. auto.
  - unfold waitForAck in E. rewrite C in E. match type of E with Some (?q, _) = _ => assert (b1 = q) as -> by congruence end. unfold alone. fields. auto.
Qed.
Lemma alone_ticks L ts : forall b b1 os, Forall tick ts -> alone b -> bruns L ts b = Some (b1, os) -> alone b1.
Proof.
  induction ts as [|o ts IH]; intros b b1 os F A R; cbn [bruns] in R; [assert (b = b1) by congruence; subst; exact A|]. inversion F; subst. destruct (bstep L b o) as [[b2 o2]|] eqn:E; [|discriminate].
  destruct (bruns L ts b2) as [[b3 o3]|] eqn:R3; cbn [also option_map fst snd] in R; [|discriminate]. assert (b3 = b1) by congruence. subst. eapply (IH b2); eauto. eapply alone_tick; eauto.
Qed.

(** ** One transmission *)
Definition ticksOfFrame (f : list Z) : nat := 2 + ticksOfAll f.
Lemma start_tick L v b own t o : limits_ok L -> inv L v b -> state b = WAIT_50BT -> job v = Some (own, t) -> giveUp L b = false -> tick o ->
  exists b1, bstep L b o = Some (b1, [TxBegin false]) /\ state b1 = SEND_START_BIT.
Proof.
  intros LO I Sb J G (e & i & -> & C & M). cbn [bstep]. unfold timerInterruptHandler. rewrite C, Sb. cbn [andb]. rewrite (wait50_form L e i b C), G. cbv zeta. cbn [also option_map fst snd]. unfold startOrIdle.
  destruct I as (x & (_ & _ & _ & _ & (_ & Jo) & _) & _). rewrite J in Jo. destruct (sendCur b); [|contradiction]. cbv zeta. cbn [also option_map fst snd app]. eexists. split; [reflexivity|]. fields. reflexivity.
Qed.
Lemma transmits L v b own t ts : limits_ok L -> inv L v b -> state b = WAIT_50BT -> job v = Some (own, t) -> giveUp L b = false -> Forall quiet ts ->
  length ts = ticksOfFrame (wire own (if (full v =? 0)%nat then t else repeated t)) ->
  exists b1, bruns L ts b = Some (b1, transmission (wire own (if (full v =? 0)%nat then t else repeated t))) /\ state b1 = SEND_WAIT_FOR_RX_ACK_WINDOW.
Proof.
  intros LO I Sb J G F E. destruct ts as [|o ts]; [discriminate|]. inversion F as [|? ? Fo Ft]; subst. destruct (start_tick L v b own t o LO I Sb J G (quiet_tick o Fo)) as (b1 & E1 & S1).
  pose proof (step_good L v b o LO (tick_legal b o Fo) I) as Gd. rewrite E1 in Gd. destruct Gd as [_ I1]. set (g := wire own _) in *.
  destruct (frame_out L g (sees v [TxBegin false]) b1 [] g ts LO I1 S1) as (b2 & R2 & S2); [reflexivity| |reflexivity| |exact Ft| |].
  - unfold due, sees. cbn [fold_left see job full]. rewrite J. reflexivity.
  - unfold g, wire. intros X. apply app_eq_nil in X. destruct X as [_ X]. discriminate X.
  - unfold ticksOfFrame in E. cbn [length] in E. lia.
  - exists b2. cbn [bruns]. rewrite E1, R2. cbn [also option_map fst snd]. split; [reflexivity|exact S2].
Qed.
Lemma two_ticks L b ts : state b = SEND_WAIT_FOR_RX_ACK_WINDOW -> Forall tick ts -> length ts = 2%nat -> exists b1, bruns L ts b = Some (b1, [NoAnswer]) /\ state b1 = WAIT_50BT.
Proof.
  intros Sb F E. destruct ts as [|o1 [|o2 [|? ?]]]; try discriminate. inversion F as [|? ? (e1 & i1 & -> & C1 & M1) F1]; subst. inversion F1 as [|? ? (e2 & i2 & -> & C2 & M2) _]; subst.
  cbn [bruns bstep]. unfold timerInterruptHandler at 1. rewrite C1, Sb. cbn [andb]. unfold timerInterruptHandler. rewrite C2. fields. cbn [andb]. unfold waitForAck. rewrite C2. cbn [also option_map fst snd app]. eexists. split; [reflexivity|]. fields. reflexivity.
Qed.
Lemma sees_bytes g : forall v a l, on v = Some (a, l) -> job (sees v (map TxByte g)) = job v /\ full (sees v (map TxByte g)) = full v /\ asked (sees v (map TxByte g)) = asked v /\
  tried (sees v (map TxByte g)) = (tried v + match a, l, g with false, [], _ :: _ => 1 | _, _, _ => 0 end)%nat.
Proof.
  induction g as [|c g IH]; intros v a l On; cbn [map]; [unfold sees; cbn [fold_left]; destruct a, l; auto|]. change (sees v (TxByte c :: map TxByte g)) with (sees (see v (TxByte c)) (map TxByte g)).
  destruct (IH (see v (TxByte c)) a (l ++ [c])) as (A & B & C & D); [cbn [see]; rewrite On; reflexivity|]. rewrite A, B, C, D. cbn [see]. rewrite On. cbn [job full asked tried]. destruct a, l as [|z l]; cbn [app]; repeat split; lia.
Qed.
Lemma sees_transmission v g : g <> [] -> let w := sees v (transmission g) in job w = job v /\ full w = S (full v) /\ tried w = S (tried v) /\ asked w = true.
Proof.
  intros N w. unfold transmission in w. change (TxBegin false :: map TxByte g ++ [TxEnd false]) with ([TxBegin false] ++ map TxByte g ++ [TxEnd false]) in w. subst w. rewrite !sees_app.
  destruct (sees_bytes g (sees v [TxBegin false]) false [] eq_refl) as (A & B & _ & D). set (z := sees _ (map TxByte g)) in *. clearbody z. unfold sees in *. cbn [fold_left see job full tried asked] in *. rewrite A, B, D. destruct g; [congruence|]. repeat split; lia.
Qed.
Lemma wire_some own t : wire own t <> [].
Proof. unfold wire. intros X. apply app_eq_nil in X. destruct X as [_ X]. discriminate X. Qed.
(** what the counters say *)
Lemma giveUp_iff L v b own t : inv L v b -> alone b -> state b = WAIT_50BT -> job v = Some (own, t) -> tried v = full v -> limits_ok L ->
  giveUp L b = negb (full v =? 0)%nat && ((repetitions L <? full v)%nat).
Proof.
  intros (x & Co & P) (_ & Al & _) Sb J T LO. unfold phase in P. rewrite Sb in P. destruct P as (-> & Wa & _). destruct Co as (_ & _ & _ & _ & (Cl & Jo) & _). rewrite J in Jo. destruct (sendCur b) as [f|]; [|contradiction].
  destruct Jo as (_ & _ & _ & R0 & _ & Z0 & Z1 & _ & Tr & _). unfold giveUp. assert (Ec : collisions b = 0) by lia. rewrite Ec. change (COLLISION_RETRY_MAX <? 0) with false. rewrite orb_false_r. destruct (Nat.eqb_spec (full v) 0) as [E|E]; cbn [negb andb].
  - destruct (Z0 E) as [-> _]. reflexivity.
  - destruct (Z1 E) as (Ef & [Rt|Rt]); [|congruence]. rewrite Rt. cbn [andb]. rewrite Al. unfold repetitions. destruct LO as [L1 L2]. rewrite Al in Ef. destruct (Z.eqb_spec (sendBusyRetriesMax L) 0) as [Eb|Eb].
    + rewrite Eb. rewrite orb_true_r. symmetry. apply Nat.ltb_lt. lia.
    + destruct (Z.leb_spec (sendBusyRetriesMax L) 0); [lia|]. rewrite orb_false_r. destruct (Z.leb_spec (sendRetriesMax L) (sendRetries b)); destruct (Nat.ltb_spec (Z.to_nat (sendRetriesMax L)) (full v)); lia.
Qed.
Lemma attempt L v b own t ts : limits_ok L -> inv L v b -> alone b -> state b = WAIT_50BT -> job v = Some (own, t) -> tried v = full v -> (full v <= repetitions L)%nat -> Forall quiet ts ->
  let g := wire own (if (full v =? 0)%nat then t else repeated t) in length ts = (ticksOfFrame g + 2)%nat ->
  exists b1, bruns L ts b = Some (b1, ignored g) /\ state b1 = WAIT_50BT /\ alone b1 /\ inv L (sees v (ignored g)) b1.
Proof.
  intros LO I Al Sb J T Fm F g E. assert (G : giveUp L b = false) by (rewrite (giveUp_iff L v b own t) by assumption; destruct (Nat.ltb_spec (repetitions L) (full v)); [lia|apply andb_false_r]).
  rewrite <- (firstn_skipn (ticksOfFrame g) ts) in *. set (t1 := firstn _ ts) in *. set (t2 := skipn _ ts) in *. assert (L1 : length t1 = ticksOfFrame g) by (unfold t1, t2 in *; rewrite app_length, firstn_length, skipn_length in E; rewrite firstn_length; lia).
  rewrite app_length in E. clearbody t1 t2. pose proof F as F0. apply Forall_app in F. destruct F as [F1 F2]. destruct (transmits L v b own t t1 LO I Sb J G F1 L1) as (b1 & R1 & S1). fold g in R1.
  destruct (two_ticks L b1 t2 S1 (quiet_ticks t2 F2) ltac:(lia)) as (b2 & R2 & S2). exists b2. assert (R : bruns L (t1 ++ t2) b = Some (b2, ignored g)) by (rewrite (bruns_app L t1 t2 b b1 _ R1), R2; reflexivity).
  split; [exact R|]. split; [exact S2|]. split; [eapply alone_ticks; [apply quiet_ticks; exact F0|exact Al|exact R]|]. destruct (bruns_inv L (t1 ++ t2) v b LO I (ticks_legal L _ b F0)) as (b3 & os3 & R3 & I3).
  assert (b3 = b2 /\ os3 = ignored g) as [-> ->] by (rewrite R in R3; split; congruence). exact I3.
Qed.
Lemma sees_ignored v g : g <> [] -> let w := sees v (ignored g) in job w = job v /\ full w = S (full v) /\ tried w = S (tried v).
Proof. intros N w. unfold ignored in w. subst w. rewrite sees_app. destruct (sees_transmission v g N) as (A & B & C & _). set (z := sees v (transmission g)) in *. clearbody z. unfold sees. cbn [fold_left see job full tried]. auto. Qed.
(** the repetitions *)
Lemma attempts L own t : forall k v b ts, limits_ok L -> inv L v b -> alone b -> state b = WAIT_50BT -> job v = Some (own, t) -> tried v = full v -> full v <> O -> (full v + k = S (repetitions L))%nat -> Forall quiet ts ->
  length ts = (k * (ticksOfFrame (wire own (repeated t)) + 2) + 1)%nat ->
  exists b1 os, bruns L ts b = Some (b1, concat (repeat (ignored (wire own (repeated t))) k) ++ Report false :: os).
Proof.
  induction k as [|k IH]; intros v b ts LO I Al Sb J T Nf Fk F E.
  - destruct ts as [|o [|? ?]]; cbn [length Nat.mul] in E; try lia. inversion F as [|? ? Fo _]; subst. assert (G : giveUp L b = true) by (rewrite (giveUp_iff L v b own t) by assumption; destruct (Nat.eqb_spec (full v) 0); [lia|]; destruct (Nat.ltb_spec (repetitions L) (full v)); [reflexivity|lia]).
    destruct Fo as (e & i & -> & Ee & _ & C & M). cbn [bruns bstep] in *. unfold timerInterruptHandler in *. rewrite C, Sb in *. cbn [andb] in *. rewrite (wait50_form L e i b C), G in *. 
    destruct I as (x & (_ & _ & Tx & _ & (_ & Jo) & _) & _). rewrite J in Jo. unfold finishSendingTelegram in *. fields. destruct (sendCur b) as [f|]; [|contradiction]. cbv zeta in *.
    assert (Ok : (Z.land (Z.lor (txError b) TX_RETRY_ERROR) TX_RETRY_ERROR =? 0) = false). { rewrite Z.land_lor_distr_l, Tx, Z.lor_0_l. reflexivity. }
    cbn [txError set_txError] in *. rewrite Ok in *. destruct (sendsAgain e false); unfold startOrIdle; (match goal with |- context [match sendCur ?z with _ => _ end] => destruct (sendCur z) end); cbv zeta; cbn [also option_map fst snd repeat concat app]; eauto.
  - cbn [Nat.mul] in E. set (g := wire own (repeated t)) in *. rewrite <- (firstn_skipn (ticksOfFrame g + 2) ts) in *. set (t1 := firstn _ ts) in *. set (t2 := skipn _ ts) in *.
    assert (L1 : length t1 = (ticksOfFrame g + 2)%nat) by (unfold t1, t2 in *; rewrite app_length, firstn_length, skipn_length in E; rewrite firstn_length; lia). rewrite app_length in E. clearbody t1 t2. apply Forall_app in F. destruct F as [F1 F2].
    assert (Ef : (full v =? 0)%nat = false) by (apply Nat.eqb_neq; exact Nf). destruct (attempt L v b own t t1 LO I Al Sb J T ltac:(lia) F1) as (b1 & R1 & S1 & A1 & I1); [rewrite Ef; exact L1|]. rewrite Ef in R1, I1. fold g in R1, I1.
    destruct (sees_ignored v g (wire_some _ _)) as (Jg & Fg & Tg). destruct (IH (sees v (ignored g)) b1 t2 LO I1 A1 S1) as (b2 & os & R2); auto; try lia; try congruence.
    exists b2, os. rewrite (bruns_app L t1 t2 b b1 _ R1), R2. cbn [also option_map fst snd repeat concat]. rewrite <- app_assoc. reflexivity.
Qed.

(** ** The call *)
Lemma called L junk l b v own t : limits_ok L -> after L junk l b v -> state b = IDLE -> job v = None -> is_u16 own -> tel_buffer t ->
  exists b1, bruns L [Send own t (size t); Kick] b = Some (b1, [Taken own t]) /\ legal_run L [Send own t (size t); Kick] b /\ state b1 = WAIT_50BT /\ alone b1 /\ inv L (sees v [Taken own t]) b1.
Proof.
  intros LO A Sb J U T. pose proof (after_inv L junk l b v LO A) as I. pose proof (after_noBusy L junk l b v LO A) as NB.
  assert (Sc : sendCur b = None /\ sendBusyRetries b = 0). { destruct I as (x & (_ & _ & _ & _ & (_ & Jo) & _) & _). rewrite J in Jo. destruct (sendCur b); [contradiction|]. split; [reflexivity|apply Jo]. }
  destruct Sc as [Sc Sr]. assert (Lr : legal_run L [Send own t (size t); Kick] b) by (cbn [legal_run legal]; split; [auto|]; intros; split; auto).
  destruct (bruns_inv L _ v b LO I Lr) as (b1 & os & R & I1). pose proof R as R0. cbn [bruns bstep] in R. rewrite Sc in R. fieldsin. rewrite Sb in R. cbn [also option_map fst snd app] in R. 
  match type of R with Some (?q, _) = _ => assert (q = b1) as <- by congruence end. assert (os = [Taken own t]) as -> by congruence. eexists. split; [exact R0|]. split; [exact Lr|]. split; [reflexivity|]. split; [|exact I1].
  unfold alone, startSendingImmediately. fields. auto.
Qed.
(** Nobody answers: the telegram is sent, repeated exactly as often as allowed with the repeat flag, then the failure is reported. *)
Theorem C93_unanswered L junk l b v own t : limits_ok L -> after L junk l b v -> state b = IDLE -> job v = None -> is_u16 own -> tel_buffer t ->
  exists n, forall ts, Forall quiet ts -> length ts = n -> exists b1 os, bruns L (Send own t (size t) :: Kick :: ts) b = Some (b1, Taken own t :: allIgnored L own t ++ Report false :: os).
Proof.
  intros LO A Sb J U T. destruct (called L junk l b v own t LO A Sb J U T) as (b1 & R1 & _ & S1 & A1 & I1). set (v1 := sees v [Taken own t]) in *. assert (V : job v1 = Some (own, t) /\ full v1 = O /\ tried v1 = O) by (unfold v1, sees; cbn [fold_left see job full tried]; auto).
  clearbody v1. destruct V as (Vj & Vf & Vt). set (n1 := (ticksOfFrame (wire own t) + 2)%nat). exists (n1 + (repetitions L * (ticksOfFrame (wire own (repeated t)) + 2) + 1))%nat. intros ts F E.
  rewrite <- (firstn_skipn n1 ts) in *. set (t1 := firstn _ ts) in *. set (t2 := skipn _ ts) in *. assert (L1 : length t1 = n1) by (unfold t1, t2 in *; rewrite app_length, firstn_length, skipn_length in E; rewrite firstn_length; lia).
  rewrite app_length in E. clearbody t1 t2. apply Forall_app in F. destruct F as [F1 F2]. destruct (attempt L v1 b1 own t t1 LO I1 A1 S1 Vj ltac:(congruence) ltac:(lia) F1) as (b2 & R2 & S2 & A2 & I2); [rewrite Vf; exact L1|].
  rewrite Vf in R2, I2. cbn [Nat.eqb] in R2, I2. destruct (sees_ignored v1 (wire own t) (wire_some _ _)) as (Jg & Fg & Tg).
  destruct (attempts L own t (repetitions L) (sees v1 (ignored (wire own t))) b2 t2 LO I2 A2 S2) as (b3 & os & R3); auto; try lia; try congruence.
  exists b3, os. change (Send own t (size t) :: Kick :: t1 ++ t2) with ([Send own t (size t); Kick] ++ (t1 ++ t2)). rewrite (bruns_app L _ _ b b1 _ R1), (bruns_app L t1 t2 b1 b2 _ R2), R3. unfold allIgnored. cbn [also option_map fst snd app]. rewrite <- app_assoc. reflexivity.
Qed.
Print Assumptions C93_unanswered.
(** Somebody acknowledges the first transmission: it is the only one and success is reported. *)
Theorem C93_acknowledged L junk l b v own t : limits_ok L -> after L junk l b v -> state b = IDLE -> job v = None -> is_u16 own -> tel_buffer t ->
  exists n, forall ts ack e i, Forall quiet ts -> length ts = n -> bytesOps [0xCC] ack -> iCap i = false ->
    exists b1 os, bruns L (Send own t (size t) :: Kick :: ts ++ ack ++ [Irq e i]) b = Some (b1, Taken own t :: transmission (wire own t) ++ RxBegin [] :: RxByte 0xCC true :: RxEnd :: Report true :: os).
Proof.
  intros LO A Sb J U T. destruct (called L junk l b v own t LO A Sb J U T) as (b1 & R1 & Lr1 & S1 & A1 & I1). pose proof (after_app L junk l _ b v b1 _ A Lr1 R1) as Af1. set (v1 := sees v [Taken own t]) in *.
  assert (V : job v1 = Some (own, t) /\ full v1 = O /\ tried v1 = O) by (unfold v1, sees; cbn [fold_left see job full tried]; auto).
  clearbody v1. destruct V as (Vj & Vf & Vt). exists (ticksOfFrame (wire own t) + 1)%nat. intros ts ack e i F E Ak Ci.
  destruct (exists_last (l := ts)) as (t1 & x & ->); [intros ->; cbn [length] in E; unfold ticksOfFrame in E; lia|]. rewrite app_length in E. cbn [length] in E. pose proof F as F0. apply Forall_app in F. destruct F as [F1 Fx]. inversion Fx as [|? ? Qx _]; subst.
  assert (G : giveUp L b1 = false) by (rewrite (giveUp_iff L v1 b1 own t) by (assumption || congruence); rewrite Vf; reflexivity).
  destruct (transmits L v1 b1 own t t1 LO I1 S1 Vj G F1) as (b2 & R2 & S2); [rewrite Vf; cbn [Nat.eqb]; lia|]. rewrite Vf in R2. cbn [Nat.eqb] in R2.
  assert (X : exists b3, bstep L b2 x = Some (b3, []) /\ state b3 = SEND_WAIT_FOR_RX_ACK). { destruct Qx as (e1 & i1 & -> & _ & _ & C1 & M1). cbn [bstep]. unfold timerInterruptHandler. rewrite C1, S2. cbn [andb]. eexists. split; [reflexivity|]. fields. reflexivity. }
  destruct X as (b3 & E3 & S3). assert (R3 : bruns L (t1 ++ [x]) b1 = Some (b3, transmission (wire own t))) by (rewrite (bruns_app L t1 [x] b1 b2 _ R2); cbn [bruns]; rewrite E3; cbn [also option_map fst snd app]; rewrite app_nil_r; reflexivity).
  pose proof (after_app L junk _ _ b1 v1 b3 _ Af1 (ticks_legal L _ b1 F0) R3) as Af3. destruct (sees_transmission v1 (wire own t) (wire_some _ _)) as (_ & _ & _ & As). set (v3 := sees v1 (transmission (wire own t))) in *. clearbody v3.
  assert (By : Forall is_byte [0xCC]) by (constructor; [unfold is_byte; lia|constructor]). destruct (words_of_bytes [0xCC] By) as [W Ew]. destruct (words_first L (word 0xCC) [] ack b3 W Ak) as (Lg & b4 & R4 & S4); [unfold listening; tauto|].
  change [word 0xCC] with (map word [0xCC]) in R4. rewrite Ew in R4. cbn [map] in R4. pose proof (after_app L junk _ ack b3 v3 b4 _ Af3 Lg R4) as Af4.
  destruct (C15_acknowledged L junk _ b4 _ e i LO Af4) as (b5 & os & E5); [split; assumption|exact As|reflexivity|reflexivity|].
  exists b5, os. change (Send own t (size t) :: Kick :: (t1 ++ [x]) ++ ack ++ [Irq e i]) with ([Send own t (size t); Kick] ++ ((t1 ++ [x]) ++ (ack ++ [Irq e i]))).
  rewrite (bruns_app L _ _ b b1 _ R1), (bruns_app L (t1 ++ [x]) _ b1 b3 _ R3), (bruns_app L ack _ b3 b4 _ R4). cbn [bruns]. rewrite E5. cbn [also option_map fst snd app]. rewrite app_nil_r. reflexivity.
Qed.
Print Assumptions C93_acknowledged.
(** The receiver of what is sent. *)
Lemma wire_acceptable own t : is_u16 own -> tel_buffer t -> Z.land (nth 0 t 0) 0xD3 = 0x90 -> Forall is_byte (wire own t) /\ acceptable (wire own t) true /\ wellSized (wire own t).
Proof.
  intros U [Tl Tb] C. pose proof (size_range t) as R. pose proof (wire_length own t Tl) as W. split; [apply wire_bytes; assumption|]. split.
  - split; [rewrite W; lia|]. split; [reflexivity|]. split; [rewrite firstn_all2 by (rewrite W; unfold largest; lia); apply wire_xor|]. rewrite nth0_wire. exact C.
  - unfold wellSized. rewrite W. unfold size at 2. rewrite nth_wire by (assumption || lia). reflexivity.
Qed.
(** Two devices, byte by byte: the sender's frame is delivered once to the addressee, who acknowledges it; the acknowledge ends the sending with success. *)
Theorem C93_exchange L1 junk1 l1 b1 v1 own t L2 junk2 l2 b2 v2 e2 :
  limits_ok L1 -> after L1 junk1 l1 b1 v1 -> state b1 = IDLE -> job v1 = None -> is_u16 own -> tel_buffer t -> Z.land (nth 0 t 0) 0xD3 = 0x90 ->
  limits_ok L2 -> after L2 junk2 l2 b2 v2 -> listening b2 -> held v2 = None -> (forall t0, latest v2 = Some t0 -> wellSized t0 /\ ~ repeats (wire own t) t0) -> forUs e2 (wire own t) -> Z.testbit (statusByte e2) 1 = true ->
  exists sent acked : list Z,
    sent = wire own t /\ acked = [0xCC] /\
    (exists n, forall ts ack e i, Forall quiet ts -> length ts = n -> bytesOps acked ack -> iCap i = false ->
       exists c os, bruns L1 (Send own t (size t) :: Kick :: ts ++ ack ++ [Irq e i]) b1 = Some (c, Taken own t :: transmission sent ++ RxBegin [] :: map (fun c => RxByte c true) acked ++ RxEnd :: Report true :: os)) /\
    (forall ops i ts, bytesOps sent ops -> iCap i = false -> Forall tick ts -> length ts = 9%nat ->
       exists c, bruns L2 (ops ++ Irq e2 i :: ts) b2 = Some (c, RxBegin [] :: map (fun c => RxByte c true) sent ++ RxEnd :: Deliver sent :: TxBegin true :: map TxByte acked ++ [TxEnd true])).
Proof.
  intros LO1 A1 S1 J1 U T C LO2 A2 Ls Hd Lt Fu St. exists (wire own t), [0xCC]. split; [reflexivity|]. split; [reflexivity|]. split; [exact (C93_acknowledged L1 junk1 l1 b1 v1 own t LO1 A1 S1 J1 U T)|].
  intros ops i ts O Ci Ft Nt. destruct (wire_acceptable own t U T C) as (B & Ac & Ws). destruct (C73_delivered L2 junk2 l2 b2 v2 (wire own t) ops e2 i LO2 A2 Ls B Ac Ws Fu O Ci Hd Lt St) as (c & R & Tk). destruct (Tk ts Ft Nt) as (c2 & R2).
  exists c2. change (ops ++ Irq e2 i :: ts) with (ops ++ [Irq e2 i] ++ ts). rewrite app_assoc, (bruns_app L2 _ ts b2 c _ R), R2. cbn [also option_map fst snd map]. f_equal. f_equal. rewrite <- app_comm_cons, <- app_assoc. reflexivity.
Qed.
Print Assumptions C93_exchange.

(** ** Examples *)
Example C93_sender_ex : limits_ok limits1 /\ after limits1 junk1 start (state_of start) (view_of start) /\ state (state_of start) = IDLE /\ job (view_of start) = None /\ is_u16 0x1109 /\ tel_buffer toSend /\ Z.land (nth 0 toSend 0) 0xD3 = 0x90 /\ repetitions limits1 = 3%nat.
Proof.
  split; [unfold limits_ok, limits1; cbn; lia|]. split; [unfold start; reach|]. repeat split; try (vm_compute; reflexivity); unfold is_u16; try lia. repeat constructor; unfold is_byte; lia.
Qed.
Definition ackOps : list bop := lateByte 20 (word 0xCC).
(** one transmission and three repetitions of 9 bytes *)
Example C93_unanswered_ex : events (start ++ [Send 0x1109 toSend 8; Kick] ++ waits (ticksOfFrame (wire 0x1109 toSend) + 2 + 3 * (ticksOfFrame (wire 0x1109 (repeated toSend)) + 2) + 1)) = Some (Taken 0x1109 toSend :: allIgnored limits1 0x1109 toSend ++ [Report false]).
Proof. vm_compute. reflexivity. Qed.
Example C93_acknowledged_ex : bytesOps [0xCC] ackOps /\ events (start ++ [Send 0x1109 toSend 8; Kick] ++ waits (ticksOfFrame (wire 0x1109 toSend) + 1) ++ ackOps ++ waits 1) =
  Some (Taken 0x1109 toSend :: transmission (wire 0x1109 toSend) ++ [RxBegin []; RxByte 0xCC true; RxEnd; Report true]).
Proof. split; [|vm_compute; reflexivity]. unfold bytesOps, wordsOps. exists [ackOps]. split; [constructor; [apply lateByte_ok; vm_compute; intuition discriminate|constructor]|]. symmetry. apply app_nil_r. Qed.
Example C93_exchange_ex : forUs env1 (wire 0x1109 toSend) /\ held (view_of start) = None /\ latest (view_of start) = None /\ listening (state_of start) /\ Z.testbit (statusByte env1) 1 = true /\ wire 0x1109 toSend = sum [0xBC; 0x11; 0x09; 0x0A; 0x03; 0xE1; 0x00; 0x80].
Proof. split; [left; vm_compute; auto|]. split; [reflexivity|]. split; [reflexivity|]. split; [left; reflexivity|]. split; reflexivity. Qed.
