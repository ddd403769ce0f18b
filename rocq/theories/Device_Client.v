(** One operation of the device as the partner of a connection sees it *)
From Verif Require Import Base Bits Telegram_Model Device_Model Device_Spec Device_Spec2 Device_Spec3 Device_TL Device_Status Device_Proofs Device_Wf Device_Steps Device_Bytes Device_Refine Device_Refine2.
From Verif Require TL4_Spec TL4_Proofs TL4_Inv TL4_Step TL4_Loop.
Import TL4_Spec(app_buffer, steps, outputs, run, peer, exec, observe, execs, responses).
Import TL4_Inv(Inv).

(** ** Connections open and close *)
Definition is_rx (o : op) : bool := match o with OpRx _ _ _ _ => true | _ => false end.
Definition says_disconnect (l : list out) : Prop := exists k f, In (Tx k f) l /\ is_disconnect f = true.
Lemma a06_closes s cur w c : Inv s cur -> actionA06 (mkCfg s w []) = Some c -> directConnection (cS c) = false /\ says_disconnect (cO c).
Proof.
  intros I E. destruct (TL4_Step.A06_inv s w c cur 0 (OpDisconnect w) I E) as (_ & j & _ & O & S). split; [rewrite S; reflexivity|]. rewrite O. eexists _, _. split; [apply in_or_app; right; left; reflexivity|].
  destruct I as (_ & I2 & _ & _ & _ & I6 & _). destruct (TL4_Proofs.control_frame (txb s) T_DISCONNECT_PDU (caddr s) 0 I2 I6 ltac:(lia) (or_intror (conj eq_refl eq_refl))) as (_ & _ & _ & _ & F).
  unfold is_disconnect. rewrite F. reflexivity.
Qed.
Lemma finished_st r c : st (cS (finishedSendingTelegram r c)) = st (cS c).
Proof. unfold finishedSendingTelegram. destruct (negb _); [|reflexivity]. destruct (_ && _); reflexivity. Qed.
Lemma pct_st c c' : sendPreparedConnectedTelegram c = Some c' -> st (cS c') = st (cS c).
Proof.
  unfold sendPreparedConnectedTelegram. destruct (acquireSendBuffer c) as [k|] eqn:E; cbn [TL4_Model.andThen]; [|discriminate]. intros [= <-]. destruct (acquire_keeps _ _ E) as (_ & _ & S & _). exact S.
Qed.
Lemma step_opens s o s' l : is_rx o = false -> directConnection s = false -> step s o = Some (s', l) -> directConnection s' = false.
Proof.
  intros R D E. unfold step in E. destruct (stepCfg s o) as [c|] eqn:C; [|discriminate]. injection E as <- <-. assert (St : st s = CLOSED) by (unfold directConnection in D; destruct (st s); auto; discriminate).
  unfold directConnection. destruct o; try discriminate; cbn [stepCfg] in C.
  - unfold loop, loopTimeout, loopSend, loopRepeat in C. cbn [cS] in C. destruct (txs s); try (injection C as <-; cbn [cS]; rewrite St; reflexivity).
    rewrite St in C. cbn [TL4_Model.andThen cS] in C. rewrite St in C. cbn [TL4_Model.andThen cS] in C. rewrite St in C. injection C as <-. cbn [cS]. rewrite St. reflexivity.
  - destruct (txs s); injection C as <-; cbn [cS]; rewrite ?finished_st; cbn [cS]; rewrite St; reflexivity.
  - destruct (acquireSendBuffer _) as [k|] eqn:K; cbn [TL4_Model.andThen] in C; [|discriminate]. injection C as <-. destruct (acquire_keeps _ _ K) as (_ & _ & S & _). cbn in S |- *. rewrite S, St. reflexivity.
  - unfold actionA06 in C. destruct (sendConControlTelegram _ _ _ _) as [k|] eqn:K; cbn [TL4_Model.andThen] in C; [|discriminate]. injection C as <-. destruct (con_sends _ _ _ _ _ K) as (_ & S & _). cbn in S |- *. rewrite S. reflexivity.
  - injection C as <-. cbn. rewrite St. reflexivity.
Qed.
Lemma step_closes s cur o s' l : Inv s cur -> is_rx o = false -> directConnection s = true -> step s o = Some (s', l) -> directConnection s' = false -> says_disconnect l.
Proof.
  intros I R D E D'. unfold step in E. destruct (stepCfg s o) as [c|] eqn:C; [|discriminate]. injection E as <- <-.
  destruct o; try discriminate; cbn [stepCfg] in C.
  - unfold loop in C. cbn [cS] in C. destruct (txs s) eqn:T; try (injection C as <-; cbn [cS] in D'; congruence).
    destruct (loopTimeout (u32 now) (mkCfg s [] [])) as [c1|] eqn:C1; cbn [TL4_Model.andThen] in C; [|discriminate].
    assert (H : (actionA06 (mkCfg s [] []) = Some c1) \/ c1 = mkCfg s [] []).
    { unfold loopTimeout in C1. cbn [cS] in C1. destruct (st s); [right; congruence| |]; (destruct (_ <=? _); [left; exact C1|right; congruence]). }
    destruct H as [H| ->].
    { destruct (a06_closes _ _ _ _ I H) as (A1 & A2). assert (Q : st (cS c1) = CLOSED) by (unfold directConnection in A1; destruct (st (cS c1)); auto; discriminate).
      unfold loopSend in C. rewrite Q in C. cbn [TL4_Model.andThen] in C. unfold loopRepeat in C. rewrite Q in C. injection C as <-. exact A2. }
    destruct (loopSend (u32 now) (mkCfg s [] [])) as [c2|] eqn:C2; cbn [TL4_Model.andThen] in C; [|discriminate].
    assert (H : c2 = mkCfg s [] [] \/ (st (cS c2) = OPEN_WAIT /\ stime (cS c2) = u32 now)).
    { unfold loopSend in C2. cbn [cS] in C2. destruct (st s) eqn:Ss; try (left; congruence). destruct (s1 s) eqn:S1; try (left; congruence). right. unfold actionA07 in C2. cbn [cS] in C2. rewrite Ss, S1 in C2.
      destruct (sendPreparedConnectedTelegram _) as [k|] eqn:K; cbn [TL4_Model.andThen] in C2; [|discriminate]. injection C2 as <-. pose proof (pct_st _ _ K) as P. cbn in P |- *. auto. }
    unfold loopRepeat in C. destruct H as [-> |(H & Hs)].
    + cbn [cS] in C. destruct (st s) eqn:Ss; try (injection C as <-; cbn [cS] in D'; congruence). destruct (_ <=? _); [|injection C as <-; cbn [cS] in D'; congruence].
      destruct (_ <? _); [|apply (a06_closes _ _ _ _ I C)]. unfold actionA09 in C. destruct (sendPreparedConnectedTelegram _) as [k|] eqn:K; cbn [TL4_Model.andThen] in C; [|discriminate]. injection C as <-.
      pose proof (pct_st _ _ K) as P. cbn in P. unfold directConnection in D'. cbn in D'. rewrite P, Ss in D'. discriminate.
    + rewrite H, Hs in C. unfold elapsed in C. rewrite Z.sub_diag in C. cbn [Z.leb Z.compare TL4_T_ACK_TIMEOUT_MS] in C. change (TL4_T_ACK_TIMEOUT_MS <=? u32 0) with false in C. injection C as <-.
      unfold directConnection in D'. rewrite H in D'. discriminate.
  - destruct (txs s); injection C as <-; unfold directConnection in *; cbn [cS] in D'; rewrite ?finished_st in D'; cbn [cS] in D'; destruct (st s); discriminate.
  - destruct (acquireSendBuffer _) as [k|] eqn:K; cbn [TL4_Model.andThen] in C; [|discriminate]. injection C as <-. destruct (acquire_keeps _ _ K) as (_ & _ & S & _). unfold directConnection in *. cbn in S, D'. rewrite S in D'. destruct (st s); discriminate.
  - apply (a06_closes _ _ _ _ I C).
  - injection C as <-. unfold directConnection in *. cbn in D'. destruct (st s); discriminate.
Qed.

(** ** The session *)
Definition asked (own p : Z) (t : list Z) : bool := TL4_Spec.addressed_to own t && TL4_Spec.numbered t && (TL4_Spec.src t =? p).
Lemma execs_handed l : execs l = execs (handed l).
Proof. induction l as [|o l IH]; [reflexivity|]. unfold handed, execs in *. destruct o; cbn [filter flat_map app]; rewrite IH; reflexivity. Qed.
Lemma no_execs s o s' l : is_rx o = false -> step s o = Some (s', l) -> execs l = [].
Proof. intros R E. destruct (step_hands _ _ _ _ E) as (H & _). rewrite execs_handed, H. destruct o; try discriminate; reflexivity. Qed.
Lemma responses_keep n l : forall g, let g' := TL4_Spec.note_responses g n l in peer g' = peer g /\ TL4_Spec.rx g' = TL4_Spec.rx g /\ exec g' = exec g.
Proof. unfold TL4_Spec.note_responses. induction l as [|f l IH]; intros g; cbn [fold_left]; [auto|]. destruct (IH (TL4_Spec.mkSession (peer g) (TL4_Spec.rx g) (exec g) (TL4_Spec.made g) (TL4_Spec.add_copy (TL4_Spec.groups g) (TL4_Spec.waiting g) f) true n n (TL4_Spec.crowded g))) as (A & B & C). auto. Qed.
Lemma execs_keep app l : forall g, let g' := fold_left (fun g t => TL4_Spec.note_exec g app t) l g in peer g' = peer g /\ TL4_Spec.rx g' = TL4_Spec.rx g /\ exec g' = exec g ++ l.
Proof.
  induction l as [|f l IH]; intros g; cbn [fold_left]; [rewrite app_nil_r; auto|]. destruct (IH (TL4_Spec.note_exec g app f)) as (A & B & C). cbv zeta in *. split; [exact A|]. split; [exact B|]. rewrite C. cbn [exec TL4_Spec.note_exec]. rewrite <- app_assoc. reflexivity.
Qed.
Lemma extend_keeps s g o s' l : step s o = Some (s', l) -> let g' := TL4_Spec.extend g (own s) o l in
  peer g' = peer g /\ TL4_Spec.rx g' = TL4_Spec.rx g ++ filter (asked (own s) (peer g)) (received_in [o]) /\ exec g' = exec g ++ execs l.
Proof.
  intros E. unfold TL4_Spec.extend. set (g1 := match o with OpRx _ _ _ _ => _ | _ => _ end). pose proof (responses_keep (TL4_Spec.op_time o) (responses l) g1) as (A & B & C). cbv zeta in *. rewrite A, B, C. clear A B C.
  destruct (is_rx o) eqn:R.
  - destruct o as [now telegram ap w| | | | |]; try discriminate. cbn [received_in flat_map app filter]. unfold g1. destruct (execs_keep ap (execs l) (TL4_Spec.note_rx g (own s) now telegram)) as (A & B & C). cbv zeta in *. rewrite A, B, C.
    unfold TL4_Spec.note_rx, asked. destruct (_ && (TL4_Spec.src telegram =? _)); [auto|]. rewrite app_nil_r. destruct (TL4_Spec.matching_ack _ _ _); auto.
  - rewrite (no_execs _ _ _ _ R E). assert (G : g1 = g) by (destruct o; try discriminate; reflexivity). assert (N : received_in [o] = []) by (destruct o; try discriminate; reflexivity). rewrite G, N. cbn [filter]. rewrite !app_nil_r. auto.
Qed.
Lemma stays_closed ops : forall s s' l, received_in ops = [] -> directConnection s = false -> steps s ops = Some (s', l) -> directConnection s' = false.
Proof.
  induction ops as [|o r IH]; intros s s' l; cbn [steps]; [now intros _ D [= <- _]|]. intros R D. destruct (step s o) as [[s1 l1]|] eqn:E; [|discriminate]. destruct (steps s1 r) as [[s2 l2]|] eqn:E2; [|discriminate].
  intros [= <- _]. assert (X : is_rx o = false) by (destruct o; try reflexivity; discriminate R). apply (IH s1 s2 l2); auto; [destruct o; try exact R; discriminate R|]. apply (step_opens _ _ _ _ X D E).
Qed.
Lemma reach_step a s cur o s' l : TL4_Spec.reachable a s cur -> TL4_Spec.op_ok o -> step s o = Some (s', l) -> TL4_Spec.reachable a s' (observe cur (own s) o l (directConnection s') (connectedTo s')).
Proof. intros (ops & F & R) K E. exists (ops ++ [o]). split; [apply Forall_app; auto|]. rewrite TL4_Loop.run_app, R. cbn [run]. rewrite E. reflexivity. Qed.
Lemma reach_run a ops : forall s cur s' cur', TL4_Spec.reachable a s cur -> Forall TL4_Spec.op_ok ops -> run s cur ops = Some (s', cur') -> TL4_Spec.reachable a s' cur'.
Proof. intros s cur s' cur' (p & F & R) K E. exists (p ++ ops). split; [apply Forall_app; auto|]. rewrite TL4_Loop.run_app, R. exact E. Qed.
Lemma steps_run ops : forall s cur s' l, steps s ops = Some (s', l) -> exists cur', run s cur ops = Some (s', cur').
Proof.
  induction ops as [|o r IH]; intros s cur s' l; cbn [steps run]; [intros [= <- _]; eauto|]. destruct (step s o) as [[s1 l1]|]; [|discriminate]. destruct (steps s1 r) as [[s2 l2]|] eqn:E2; [|discriminate]. intros [= <- _].
  apply (IH _ _ _ _ E2).
Qed.
Lemma ops_connected ops : forall a s g s' l, TL4_Spec.reachable a s (Some g) -> Forall TL4_Spec.op_ok ops -> steps s ops = Some (s', l) -> early ops -> (length (received_in ops) <= 1)%nat ->
  directConnection s' = true -> ~ says_disconnect l ->
  exists g', run s (Some g) ops = Some (s', Some g') /\ peer g' = peer g /\ TL4_Spec.rx g' = TL4_Spec.rx g ++ filter (asked (own s) (peer g)) (received_in ops) /\ exec g' = exec g ++ execs l.
Proof.
  induction ops as [|o r IH]; intros a s g s' l RE F; cbn [steps run early].
  { intros [= <- <-] _ _ _ _. exists g. cbn. rewrite !app_nil_r. auto. }
  inversion F as [|? ? F1 F2]; subst. destruct (step s o) as [[s1 l1]|] eqn:E; [|discriminate]. destruct (steps s1 r) as [[s2 l2]|] eqn:E2; [|discriminate]. intros [= <- <-] (EA & EB) LN D ND.
  pose proof (TL4_Step.reachable_inv _ _ _ RE) as I. assert (D0 : directConnection s = true) by apply (TL4_Step.directConnection_cur _ _ I).
  change (received_in (o :: r)) with (received_in ([o] ++ r)) in *. rewrite received_app in *. rewrite app_length in LN.
  destruct (directConnection s1) eqn:D1.
  - pose proof (reach_step _ _ _ _ _ _ RE F1 E) as RE1. rewrite D1 in RE1. cbn [observe] in RE1.
    destruct (IH a s1 (TL4_Spec.extend g (own s) o l1) s2 l2 RE1 F2 E2 EB ltac:(lia) D) as (g' & G1 & G2 & G3 & G4). { intros (k & f & Hin & Hf). apply ND. exists k, f. split; [apply in_or_app; right; exact Hin|exact Hf]. }
    exists g'. cbn [observe]. destruct (extend_keeps s g o s1 l1 E) as (X1 & X2 & X3). cbv zeta in *. split; [exact G1|]. split; [congruence|]. split.
    + rewrite G3, X1, X2, filter_app, app_assoc. f_equal. destruct (is_set o) eqn:SO; [rewrite (EA eq_refl); reflexivity|]. destruct (step_hands _ _ _ _ E) as (_ & O). rewrite (O SO). reflexivity.
    + rewrite G4, X3, TL4_Step.execs_app, app_assoc. reflexivity.
  - exfalso. destruct (is_rx o) eqn:R.
    + assert (N : received_in r = []). { destruct o; try discriminate. cbn in LN. destruct (received_in r); [reflexivity|cbn in LN; lia]. }
      rewrite (stays_closed _ _ _ _ N D1 E2) in D. discriminate.
    + destruct (step_closes _ _ _ _ _ I R D0 E D1) as (k & f & Hin & Hf). apply ND. exists k, f. split; [apply in_or_app; left; exact Hin|exact Hf].
Qed.
(** a connection is opened *)
Lemma ops_open ops : forall a s s' l, TL4_Spec.reachable a s None -> Forall TL4_Spec.op_ok ops -> steps s ops = Some (s', l) -> early ops -> (length (received_in ops) <= 1)%nat -> directConnection s' = true ->
  exists g', run s None ops = Some (s', Some g') /\ TL4_Spec.rx g' = [] /\ exec g' = [] /\ execs l = [].
Proof.
  induction ops as [|o r IH]; intros a s s' l RE F; cbn [steps run early].
  { intros [= <- <-] _ _ D. pose proof (TL4_Step.reachable_inv _ _ _ RE) as I. rewrite (TL4_Step.directConnection_cur _ _ I) in D. discriminate. }
  inversion F as [|? ? F1 F2]; subst. destruct (step s o) as [[s1 l1]|] eqn:E; [|discriminate]. destruct (steps s1 r) as [[s2 l2]|] eqn:E2; [|discriminate]. intros [= <- <-] (EA & EB) LN D.
  pose proof (TL4_Step.reachable_inv _ _ _ RE) as I. pose proof (TL4_Step.directConnection_cur _ _ I) as D0. cbv iota in D0.
  change (received_in (o :: r)) with (received_in ([o] ++ r)) in *. rewrite received_app, app_length in LN.
  pose proof (TL4_Loop.only_in_connection _ _ _ _ _ _ RE F1 E (or_introl D0)) as (X1 & X2). rewrite TL4_Step.execs_app, X1. cbn [app].
  pose proof (reach_step _ _ _ _ _ _ RE F1 E) as RE1. destruct (directConnection s1) eqn:D1; cbn [observe] in *; [|apply (IH a s1 s2 l2 RE1 F2 E2 EB ltac:(lia) D)].
  assert (R : is_rx o = true) by (destruct (is_rx o) eqn:R; [reflexivity|]; rewrite (step_opens _ _ _ _ R D0 E) in D1; discriminate).
  assert (N : received_in r = []). { destruct o; try discriminate. cbn in LN. destruct (received_in r); [reflexivity|cbn in LN; lia]. }
  assert (Z : forall q s1 s2 l2 g, TL4_Spec.reachable a s1 (Some g) -> Forall TL4_Spec.op_ok q -> steps s1 q = Some (s2, l2) -> received_in q = [] -> directConnection s2 = true ->
     exists g', run s1 (Some g) q = Some (s2, Some g') /\ TL4_Spec.rx g' = TL4_Spec.rx g /\ exec g' = exec g /\ execs l2 = []).
  { clear. induction q as [|o q IH]; intros s1 s2 l2 g RE F; cbn [steps run]; [intros [= <- <-] _ _; exists g; auto|]. inversion F as [|? ? F1 F2]; subst. destruct (step s1 o) as [[s3 l3]|] eqn:E; [|discriminate].
    destruct (steps s3 q) as [[s4 l4]|] eqn:E2; [|discriminate]. intros [= <- <-] N D. assert (R : is_rx o = false) by (destruct o; try reflexivity; discriminate N). assert (Nq : received_in q = []) by (destruct o; try exact N; discriminate N).
    assert (D3 : directConnection s3 = true). { destruct (directConnection s3) eqn:D3; [reflexivity|]. rewrite (stays_closed _ _ _ _ Nq D3 E2) in D. discriminate. }
    pose proof (reach_step _ _ _ _ _ _ RE F1 E) as RE1. rewrite D3 in *. cbn [observe] in *. destruct (IH _ _ _ _ RE1 F2 E2 Nq D) as (g' & G1 & G2 & G3 & G4). destruct (extend_keeps s1 g o s3 l3 E) as (X1 & X2 & X3). cbv zeta in *.
    exists g'. split; [exact G1|]. rewrite TL4_Step.execs_app, (no_execs _ _ _ _ R E), G4. rewrite (no_execs _ _ _ _ R E), app_nil_r in X3. assert (No : received_in [o] = []) by (destruct o; try reflexivity; discriminate R). rewrite No in X2. cbn in X2. rewrite app_nil_r in X2.
    split; [congruence|]. split; [congruence|reflexivity]. }
  destruct (Z r s1 s2 l2 _ RE1 F2 E2 N D) as (g' & G1 & G2 & G3 & G4). exists g'. split; [exact G1|]. split; [exact G2|]. split; [exact G3|exact G4].
Qed.

(** ** Histories of the device *)
Import Eeprom_Model(esize, fsize, marked).
Import Eeprom_Spec(ecfg_ok, sector_ok).
Lemma beginBcu2_map c o d a d' : beginBcu2 c o d = Some (a, d') -> memMapper d' = memMapper d.
Proof.
  unfold beginBcu2. cbv zeta. set (d0 := eeByte _ _ _). assert (M0 : memMapper d0 = memMapper d) by reflexivity. clearbody d0.
  match goal with |- match ?e with Some _ => _ | None => _ end = _ -> _ => destruct e as [[b g]|] eqn:E; [|discriminate] end.
  assert (M1 : memMapper g = memMapper d). { rewrite <- M0. destruct (_ =? LS_LOADING); [|congruence]. destruct (addrTable _ _); [|discriminate]. destruct (peekWord _ _); [|discriminate]. destruct (memOwnAddress _ _ _) as [q|] eqn:Q; [|discriminate]. injection E as _ <-. apply (memOwn_mapper _ _ _ _ Q). }
  destruct (_ && _); intros [= _ <-]; exact M1.
Qed.
Lemma begin_map c d a d' : begin c d = Some (a, d') -> memMapper d' = memMapper d.
Proof.
  unfold begin. destruct (memOwnAddress c _ d) as [d1|] eqn:E1; [|discriminate]. apply memOwn_mapper in E1.
  match goal with |- match ?e with Some _ => _ | None => _ end = _ -> _ => destruct e as [[b d2]|] eqn:E2; [|discriminate] end.
  assert (M2 : memMapper d2 = memMapper d). { destruct (kind c); [|apply beginBcu2_map in E2; rewrite E2; exact E1]. injection E2 as _ <-. exact E1. }
  destruct (b =? 0); [|now intros [= _ <-]]. destruct (memOwnAddress _ _ d2) as [d3|] eqn:E3; [|discriminate]. intros [= _ <-]. apply memOwn_mapper in E3. congruence.
Qed.
Lemma on_good c sec m lst junk x : conf_ok c -> sector_ok (ecf c) sec -> flash_ok m -> Forall is_byte junk -> powerUp c sec m lst junk = Some x -> good_dev c x /\ exists a, tl x = init a.
Proof.
  intros K S F J P. split; [split; [apply (wf_powerUp _ _ _ _ _ _ K S P)|]|]; unfold powerUp in P; cbv zeta in P; destruct (begin c _) as [[a d]|] eqn:B; try discriminate; injection P as <-; [|exists a; reflexivity].
  unfold dev_bytes. cbn [mem]. rewrite (begin_map _ _ _ _ B). cbn [memMapper]. destruct m as [m|]; cbn [option_map]; [|exact I]. unfold newMapper. cbv zeta. destruct (corrupted _); (split; [exact F|split; [|exact J]]); cbn [allocTable]; [apply bytes_repeat; red; lia|apply F].
Qed.
Lemma init_reach a : TL4_Spec.reachable a (init a) None.
Proof. exists []. split; [constructor|reflexivity]. Qed.
Lemma dev_flash d : dev_bytes d -> flash_ok (memMapper d).
Proof. unfold dev_bytes, flash_ok. destruct (memMapper d) as [m|]; [|auto]. intros (F & _). exact F. Qed.
Lemma found_good c x : conf_ok c -> tables_ok c -> found c x -> good_dev c x /\ exists a cur, TL4_Spec.reachable a (tl x) cur.
Proof.
  intros K T H. induction H as [sec m lst junk x S F J P|x o x' l H IH OK E].
  - destruct (on_good _ _ _ _ _ _ K S F J P) as (G & a & ->). split; [exact G|]. exists a, None. apply init_reach.
  - destruct IH as ((W & B) & a & cur & RE). pose proof (wf_step c x o x' l K (proj1 OK) W E) as W'. destruct (is_power_up o) eqn:PU.
    + destruct o as [| | | | |lst junk]; try discriminate. cbn [dstep] in E. unfold option_map in E. destruct (powerUp _ _ _ _ _) as [y|] eqn:P; [|discriminate]. injection E as <- _.
      destruct (on_good _ _ _ _ _ _ K (proj1 (proj2 W)) (dev_flash _ B) (proj2 OK) P) as (G & b & ->). split; [exact G|]. exists b, None. apply init_reach.
    + assert (S : sound (tl x)) by (exists cur; apply (TL4_Step.reachable_inv _ _ _ RE)). destruct (step_does c x o x' l K T S (conj W B) OK PU E) as (ops & (D1 & D2 & D3 & D4) & B').
      split; [split; [exact W'|exact B']|]. destruct (steps_run ops (tl x) cur _ _ D2) as (cur' & R). exists a, cur'. apply (reach_run _ _ _ _ _ _ RE D1 R).
Qed.
Lemma taken_one x o : (length (taken x o) <= 1)%nat.
Proof. unfold taken. destruct o; cbn; try lia. destruct (rx i); [|cbn; lia]. destruct (_ && _); cbn; lia. Qed.
Lemma executed_bus l : executed l = execs (bus_events l).
Proof. induction l as [|e l IH]; [reflexivity|]. unfold executed, execs, bus_events in *. destruct e as [o| |]; cbn [flat_map app]; try exact IH. destruct o; cbn [flat_map app]; rewrite IH; reflexivity. Qed.
Lemma no_disconnect lo : (forall k f, In (Bus (Tx k f)) lo -> rd f 6 <> 0x81) -> ~ says_disconnect (bus_events lo).
Proof.
  intros H (k & f & I & D). unfold bus_events in I. apply in_flat_map in I. destruct I as (e & I1 & I2). destruct e; cbn in I2; try contradiction. destruct I2 as [-> |[]]. apply (H k f I1). unfold is_disconnect in D. lia.
Qed.
Lemma client_history c a l : conf_ok c -> tables_ok c -> forall x g x' outs, good_dev c x -> TL4_Spec.reachable a (tl x) (Some g) -> Forall (input_ok c) l -> stays_connected c x l -> druns c l x = Some (x', outs) ->
  exists g', TL4_Spec.reachable a (tl x') (Some g') /\ peer g' = peer g /\ TL4_Spec.rx g' = TL4_Spec.rx g ++ asked_by (peer g) c x l /\ exec g' = exec g ++ executed (concat outs).
Proof.
  intros K T. induction l as [|o l IH]; intros x g x' outs G RE F ST; cbn [druns asked_by]; [intros [= <- <-]; exists g; rewrite !app_nil_r; auto|].
  inversion F as [|? ? F1 F2]; subst. destruct (dstep c x o) as [[y lo]|] eqn:E; [|discriminate]. destruct (druns c l y) as [[x2 outs2]|] eqn:E2; [|discriminate]. intros [= <- <-].
  cbn [stays_connected] in ST. destruct ST as (PU & ST). destruct (ST y lo E) as (C & ND & ST'). assert (S : sound (tl x)) by (exists (Some g); apply (TL4_Step.reachable_inv _ _ _ RE)).
  destruct (step_does c x o y lo K T S G F1 PU E) as (ops & (D1 & D2 & D3 & D4) & B'). pose proof (taken_one x o) as LN. rewrite <- D3 in LN.
  destruct (ops_connected ops a (tl x) g (tl y) (bus_events lo) RE D1 D2 D4 LN C (no_disconnect _ ND)) as (g1 & R1 & P1 & X1 & E1).
  pose proof (reach_run _ _ _ _ _ _ RE D1 R1) as RE1. pose proof (wf_step c x o y lo K (proj1 F1) (proj1 G) E) as W'.
  destruct (IH y g1 x2 outs2 (conj W' B') RE1 F2 ST' E2) as (g' & H1 & H2 & H3 & H4). exists g'. split; [exact H1|]. split; [congruence|]. cbn [concat].
  split; [rewrite H3, X1, P1, D3, app_assoc; reflexivity|]. rewrite H4, E1. unfold executed. rewrite flat_map_app. fold (executed lo) (executed (concat outs2)). rewrite (executed_bus lo), app_assoc. reflexivity.
Qed.
Lemma client_opens c x o y lo : conf_ok c -> tables_ok c -> found c x -> connected x = false -> input_ok c o -> dstep c x o = Some (y, lo) -> connected y = true ->
  exists a g, TL4_Spec.reachable a (tl y) (Some g) /\ peer g = partner y /\ TL4_Spec.rx g = [] /\ exec g = [] /\ executed lo = [] /\ good_dev c y.
Proof.
  intros K T H C0 OK E C1. destruct (found_good _ _ K T H) as (G & a & cur & RE). pose proof (TL4_Step.reachable_inv _ _ _ RE) as I. unfold connected in *.
  assert (cur = None) as -> by (rewrite (TL4_Step.directConnection_cur _ _ I) in C0; destruct cur; [discriminate|reflexivity]).
  assert (PU : is_power_up o = false).
  { destruct o as [| | | | |lst junk]; try reflexivity. cbn [dstep] in E. unfold option_map in E. destruct (powerUp _ _ _ _ _) as [z|] eqn:P; [|discriminate]. injection E as <- _.
    destruct (on_good _ _ _ _ _ _ K (proj1 (proj2 (proj1 G))) (dev_flash _ (proj2 G)) (proj2 OK) P) as (_ & b & Q). rewrite Q in C1. discriminate. }
  assert (S : sound (tl x)) by (exists None; exact I). destruct (step_does c x o y lo K T S G OK PU E) as (ops & (D1 & D2 & D3 & D4) & B'). pose proof (taken_one x o) as LN. rewrite <- D3 in LN.
  destruct (ops_open ops a (tl x) (tl y) _ RE D1 D2 D4 LN C1) as (g & R & X1 & X2 & X3). pose proof (reach_run _ _ _ _ _ _ RE D1 R) as RE1. exists a, g. split; [exact RE1|].
  pose proof (TL4_Step.reachable_inv _ _ _ RE1) as (_ & _ & _ & _ & _ & _ & I7). split.
  - unfold partner, connectedTo. rewrite C1. symmetry. apply (TL4_Inv.i_peer _ _ _ _ _ _ _ _ _ _ _ _ I7).
  - split; [exact X1|]. split; [exact X2|]. split; [rewrite executed_bus; exact X3|]. split; [apply (wf_step c x o y lo K (proj1 OK) (proj1 G) E)|exact B'].
Qed.
