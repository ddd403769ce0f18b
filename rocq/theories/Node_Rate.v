(** A device with communication objects: the rate limit *)
From Verif Require Import Base Bits Telegram_Model Device_Model Device_Spec Device_Spec3 Device_TL Device_Status Device_Proofs Device_Wf Device_Steps Device_Bytes Device_Refine Device_Refine2 Device_Client Device_Restart Device_Answer.
From Verif Require Import Node_Model Node_Spec Node_Proofs Node_Pass Node_Pass2.
From Verif Require ComObj_Model ComObj_Spec Rate_Model Rate_Spec Rate_Props.

Section Rate.
Variable c : conf.
Lemma restart_quiet n w x y l : checkRestart c n w x = Some (y, l) -> app_telegrams (map NOut l) = [].
Proof.
  intros E. destruct (restart_case _ _ _ _ _ _ E) as [(_ & -> & ->)|[(_ & _ & s' & o & Q & -> & ->)|[(_ & _ & t & _ & -> & ->)|(_ & _ & t & z & _ & F & -> & ->)]]]; try reflexivity.
  rewrite telegrams_bus. apply (silent_step _ (OpDisconnect w) _ _ eq_refl Q).
Qed.
Lemma received_quiet le i x y l : nop_ok (NLoop i) -> unasked i -> checkReceivedAny c le i x = Some (y, l) -> app_telegrams (map NOut l) = [].
Proof.
  intros OK U. unfold checkReceivedAny. destruct (rx (base i)) as [r|] eqn:R; [|intros [= <- <-]; reflexivity]. destruct (negb _ && _); [|intros [= <- <-]; reflexivity].
  specialize (OK r R). destruct (U r R) as (GR & CM). unfold receiveAny. rewrite (group_test _ OK GR). unfold receiveGroup. destruct (tables c le (mem x)) as [g|]; [|discriminate].
  cbv zeta. replace (Z.land (apciCommand (rxTel r)) APCI_GROUP_MASK =? APCI_GROUP_VALUE_READ_PDU) with false.
  - cbn [option_map fst snd]. intros [= <- <-]. reflexivity.
  - symmetry. apply Z.eqb_neq. pose proof (apci_cmd _ OK) as Q. unfold APCI_GROUP_MASK, APCI_GROUP_VALUE_READ_PDU. congruence.
Qed.
Lemma next_sends le n w x b n' y o : sendNext c le n w x = Some (b, n', y, o) -> (b = true -> length (apps o) = 1%nat) /\ (b = false -> o = []).
Proof.
  unfold sendNext. destruct (tables c le (mem x)) as [g|].
  - destruct (ComObj_Model.sendNextGroupTelegram g _) as [q s]. destruct q; [|intros [= <- <- <- <-]; split; [discriminate|reflexivity]].
    destruct (sendGroup _ _ _ _ _) as [[z l]|] eqn:E; [|discriminate]. intros [= <- <- <- <-]. split; [|discriminate]. intros _. rewrite (proj1 (sendGroup_sent _ _ _ _ _ _ _ E)). reflexivity.
  - destruct (kind c); [|discriminate]. intros [= <- <- <- <-]. split; [discriminate|reflexivity].
Qed.
(** one pass *)
Lemma pass_rate i x y l : nodeLoop c i x = Some (y, l) ->
  exists q, (nrate y = snd (Rate_Model.loop (t1 i) (t2 i) (t3 i) q (nrate x)) \/ nrate y = nrate x /\ q = false) /\
    (nop_ok (NLoop i) -> unasked i -> (length (app_telegrams (map NOut l)) <= 1)%nat /\ (app_telegrams (map NOut l) <> [] -> q = true /\ fst (Rate_Model.loop (t1 i) (t2 i) (t3 i) true (nrate x)) = true)).
Proof.
  intros E. destruct (parts _ _ _ _ _ E) as (s & o1 & x2 & o2 & x3 & o3 & x4 & o4 & P1 & P2 & P3 & P4 & P5).
  pose proof (silent_step _ (OpLoop (now (base i))) _ _ eq_refl P1) as Q1. destruct (button_rest _ _ _ _ _ _ P3) as (Q3 & _).
  assert (Q4 : app_telegrams (map NOut o4) = []) by (destruct (sending2 (base i)); [destruct P4 as (-> & ->); reflexivity|apply (restart_quiet _ _ _ _ _ P4)]).
  assert (TEL : nop_ok (NLoop i) -> unasked i -> app_telegrams (map NOut (map Bus o1 ++ o2 ++ o3 ++ o4)) = []).
  { intros OK U. rewrite !map_app, !telegrams_app, telegrams_bus, Q1, Q3, Q4, (received_quiet _ _ _ _ _ OK U P2). reflexivity. }
  destruct (negb (running x4) || sending3 (base i)).
  { destruct P5 as (-> & ->). exists false. split; [right; split; reflexivity|]. intros OK U. rewrite (TEL OK U). cbn [length]. split; [lia|]. intros Q. destruct (Q eq_refl). }
  destruct P5 as (z & og & GP & -> & Y). assert (NY : nrate y = nrate z) by (destruct (_ && _); [destruct Y as (d & _ & ->); reflexivity|subst; reflexivity]). rewrite NY.
  assert (TL2 : nop_ok (NLoop i) -> unasked i -> app_telegrams (map NOut ((map Bus o1 ++ o2 ++ o3 ++ o4) ++ map Bus og)) = apps og).
  { intros OK U. rewrite map_app, telegrams_app, (TEL OK U), telegrams_bus. reflexivity. }
  unfold groupPart in GP. cbn [ngroup nrate nle nnext ndev setDev] in GP. destruct (ngroup x && applicationRunning c x4).
  - destruct (_ <=? _) eqn:RT.
    + destruct (sendNext _ _ _ _ _) as [[[[b n] d] o]|] eqn:SN; [|discriminate]. injection GP as <- <-. exists b. split; [left; reflexivity|]. intros OK U. rewrite (TL2 OK U). destruct (next_sends _ _ _ _ _ _ _ _ SN) as (N1 & N2).
      destruct b; [rewrite N1 by reflexivity; split; [lia|]; intros _; split; [reflexivity|]; unfold Rate_Model.loop; cbn [fst]; rewrite RT; reflexivity|]. rewrite N2 by reflexivity. cbn [apps flat_map length]. split; [lia|]. intros Q. destruct (Q eq_refl).
    + injection GP as <- <-. exists false. split; [left; reflexivity|]. intros OK U. rewrite (TL2 OK U). cbn [apps flat_map length]. split; [lia|]. intros Q. destruct (Q eq_refl).
  - injection GP as <- <-. exists false. split; [right; split; reflexivity|]. intros OK U. rewrite (TL2 OK U). cbn [apps flat_map length]. split; [lia|]. intros Q. destruct (Q eq_refl).
Qed.
Lemma dead : forall ops x y outs j out, running (ndev x) = false -> nruns c ops x = Some (y, outs) -> nth_error outs j = Some out -> out = [].
Proof.
  induction ops as [|o r IH]; intros x y outs j out R E N; cbn [nruns] in E; [injection E as <- <-; destruct j; discriminate|]. unfold nstep in E. rewrite R in E.
  destruct (nruns c r x) as [[x2 ls]|] eqn:S2; [|discriminate]. injection E as <- <-. destruct j as [|j]; [injection N as <-; reflexivity|]. apply (IH x x2 ls j out R S2 N).
Qed.
(** what an operation does to the rate: [g] the true time of the last telegram *)
Lemma rate_step x o y l g now lim : running (ndev x) = true -> nstep c x o = Some (y, l) -> timed now [o] -> Rate_Props.stands (nrate x) g -> g <= now -> Rate_Model.groupTelWaitMillis (nrate x) = Rate_Spec.spacing lim ->
  exists g', Rate_Props.stands (nrate y) g' /\ g <= g' /\ g' <= (match o with NLoop i => t3 i | _ => now end) /\ Rate_Model.groupTelWaitMillis (nrate y) = Rate_Spec.spacing (match o with NLimit v => v | _ => lim end) /\
    (forall i, o = NLoop i -> nop_ok o -> unasked i -> app_telegrams l <> [] -> g + Rate_Spec.spacing lim <= t1 i /\ t2 i <= g').
Proof.
  intros R E TM ST GN W. unfold nstep in E. rewrite R in E. destruct o as [i|ok|a|v|b].
  - destruct (nodeLoop c i x) as [[z o]|] eqn:NL; [|discriminate]. injection E as <- <-. destruct TM as (T1 & T2 & _). destruct (pass_rate _ _ _ _ NL) as (q & RT & LN). cbn [fst snd].
    destruct RT as [RT|(RT & ->)].
    + destruct (Rate_Props.loop_step (t1 i) (t2 i) (t3 i) q (nrate x) g ST ltac:(lia) ltac:(lia) T2) as (g' & S' & G' & W' & X). rewrite <- RT in S', W'. exists g'. split; [exact S'|]. split; [lia|]. split; [lia|]. split; [congruence|].
      intros j Q OK U NE. injection Q as <-. destruct (LN OK U) as (_ & LN2). destruct (LN2 NE) as (-> & LN3). rewrite <- W. apply X. exact LN3.
    + exists g. rewrite RT. split; [exact ST|]. split; [lia|]. split; [lia|]. split; [exact W|]. intros j Q OK U NE. injection Q as <-. destruct (LN OK U) as (_ & LN2). destruct (LN2 NE). discriminate.
  - destruct (step (tl (ndev x)) (OpTxDone ok)) as [[s o]|]; [|discriminate]. injection E as <- <-. exists g. cbn [nrate setDev]. split; [exact ST|]. split; [lia|]. split; [lia|]. split; [exact W|]. discriminate.
  - destruct (tables c (nle x) (mem (ndev x))) as [t|]; [|discriminate]. destruct (callMem t a _) as [m r]. injection E as <- <-. exists g. cbn [nrate setDev]. split; [exact ST|]. split; [lia|]. split; [lia|]. split; [exact W|]. discriminate.
  - injection E as <- <-. exists g. cbn [nrate]. split; [exact ST|]. split; [lia|]. split; [lia|]. split; [apply Rate_Props.set_spacing|]. discriminate.
  - injection E as <- <-. exists g. cbn [nrate]. split; [exact ST|]. split; [lia|]. split; [lia|]. split; [exact W|]. discriminate.
Qed.
Lemma timed_one o r now : timed now (o :: r) -> timed now [o] /\ timed (match o with NLoop i => t3 i | _ => now end) r.
Proof. destruct o; cbn [timed]; tauto. Qed.
Lemma not_early : forall ops x y outs g now lim j i out, timed now ops -> Rate_Props.stands (nrate x) g -> g <= now -> Rate_Model.groupTelWaitMillis (nrate x) = Rate_Spec.spacing lim -> Forall nop_ok ops ->
  nruns c ops x = Some (y, outs) -> nth_error ops j = Some (NLoop i) -> nth_error outs j = Some out -> unasked i -> app_telegrams out <> [] -> g + Rate_Spec.spacing (limit_in lim ops j) <= t1 i.
Proof.
  induction ops as [|o r IH]; intros x y outs g now lim j i out TM ST GN W OK E N1 N2 U NE; [destruct j; discriminate|].
  destruct (running (ndev x)) eqn:R. 2:{ rewrite (dead _ _ _ _ _ _ R E N2) in NE. destruct (NE eq_refl). }
  cbn [nruns] in E. destruct (nstep c x o) as [[x1 l]|] eqn:S1; [|discriminate]. destruct (nruns c r x1) as [[x2 ls]|] eqn:S2; [|discriminate]. injection E as <- <-. inversion OK as [|? ? OK1 OK2]; subst.
  destruct (timed_one _ _ _ TM) as (TM1 & TM2). destruct (rate_step _ _ _ _ _ _ _ R S1 TM1 ST GN W) as (g' & ST' & G1 & G2 & W' & X). destruct j as [|j]; cbn [nth_error limit_in] in *.
  - injection N1 as ->. injection N2 as ->. apply (X i eq_refl OK1 U NE).
  - specialize (IH x1 x2 ls g' _ _ j i out TM2 ST' G2 W' OK2 S2 N1 N2 U NE). lia.
Qed.
Lemma apart_sends : forall ops x y outs g now lim j k i1 i2 out1 out2, timed now ops -> Rate_Props.stands (nrate x) g -> g <= now -> Rate_Model.groupTelWaitMillis (nrate x) = Rate_Spec.spacing lim -> Forall nop_ok ops ->
  nruns c ops x = Some (y, outs) -> (j < k)%nat -> nth_error ops j = Some (NLoop i1) -> nth_error outs j = Some out1 -> unasked i1 -> app_telegrams out1 <> [] ->
  nth_error ops k = Some (NLoop i2) -> nth_error outs k = Some out2 -> unasked i2 -> app_telegrams out2 <> [] -> t2 i1 + Rate_Spec.spacing (limit_in lim ops k) <= t1 i2.
Proof.
  induction ops as [|o r IH]; intros x y outs g now lim j k i1 i2 out1 out2 TM ST GN W OK E LT N1 M1 U1 X1 N2 M2 U2 X2; [destruct j; discriminate|].
  destruct (running (ndev x)) eqn:R. 2:{ rewrite (dead _ _ _ _ _ _ R E M2) in X2. destruct (X2 eq_refl). }
  cbn [nruns] in E. destruct (nstep c x o) as [[x1 l]|] eqn:S1; [|discriminate]. destruct (nruns c r x1) as [[x2 ls]|] eqn:S2; [|discriminate]. injection E as <- <-. inversion OK as [|? ? OK1 OK2]; subst.
  destruct (timed_one _ _ _ TM) as (TM1 & TM2). destruct (rate_step _ _ _ _ _ _ _ R S1 TM1 ST GN W) as (g' & ST' & G1 & G2 & W' & X). destruct k as [|k]; [lia|]. destruct j as [|j]; cbn [nth_error limit_in] in *.
  - injection N1 as ->. injection M1 as ->. destruct (X i1 eq_refl OK1 U1 X1) as (_ & X3). pose proof (not_early _ _ _ _ _ _ _ _ _ _ TM2 ST' G2 W' OK2 S2 N2 M2 U2 X2). lia.
  - apply (IH x1 x2 ls g' _ _ j k i1 i2 out1 out2 TM2 ST' G2 W' OK2 S2 ltac:(lia) N1 M1 U1 X1 N2 M2 U2 X2).
Qed.
Lemma one_each : forall ops x y outs j i out, Forall nop_ok ops -> nruns c ops x = Some (y, outs) -> nth_error ops j = Some (NLoop i) -> nth_error outs j = Some out -> unasked i -> (length (app_telegrams out) <= 1)%nat.
Proof.
  induction ops as [|o r IH]; intros x y outs j i out OK E N1 N2 U; [destruct j; discriminate|].
  destruct (running (ndev x)) eqn:R. 2:{ rewrite (dead _ _ _ _ _ _ R E N2). cbn. lia. }
  cbn [nruns] in E. destruct (nstep c x o) as [[x1 l]|] eqn:S1; [|discriminate]. destruct (nruns c r x1) as [[x2 ls]|] eqn:S2; [|discriminate]. injection E as <- <-. inversion OK as [|? ? OK1 OK2]; subst.
  destruct j as [|j]; cbn [nth_error] in *; [|apply (IH x1 x2 ls j i out); assumption]. injection N1 as ->. injection N2 as <-. unfold nstep in S1. rewrite R in S1. destruct (nodeLoop c i x) as [[z q]|] eqn:NL; [|discriminate]. injection S1 as <- <-.
  destruct (pass_rate _ _ _ _ NL) as (b & _ & LN). apply (LN OK1 U).
Qed.
End Rate.
