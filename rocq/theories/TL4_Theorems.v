(** Theorems about single steps of the transport layer, and the retry bound. *)
From Verif Require Import Base Bits Telegram_Model Telegram_Spec Telegram_Proofs TL4_Model TL4_Spec TL4_Proofs TL4_Inv TL4_Step.

Lemma step_cfg s o s' outs : step s o = Some (s', outs) -> exists c, stepCfg s o = Some c /\ s' = cS c /\ outs = cO c.
Proof.
  unfold step. destruct (stepCfg s o) as [c|]; intros H; inversion H; subst. eauto.
Qed.

Definition noTx (l : list out) : Prop := forall k f, ~ In (Tx k f) l.
Definition noRetry (l : list out) : Prop := forall f, ~ In (Tx KRetry f) l.

(** Shape of the bus output of an operation. *)
Inductive TxShape (s : tl4) : list out -> tl4 -> Prop :=
| Sh_none outs s' : noTx outs -> txs s' = txs s -> txb s' = txb s -> ccRep s' = ccRep s -> TxShape s outs s'
| Sh_wait j l s' : okretries s j -> noTx l -> txs s' = FREE -> TxShape s (retries s j ++ l) s'
| Sh_send j l1 k l2 s' : okretries s j -> noTx l1 -> noTx l2 -> k <> KRetry -> (k = KCtrl -> is_ctl (txb s')) ->
    txs s' = SENDING -> ccRep s' = 0 ->
    TxShape s (retries s j ++ l1 ++ Tx k (frame (txb s')) :: l2) s'
| Sh_retry s' : okretries s 1 -> txs s' = SENDING -> ccRep s' = ccRep s + 1 -> txb s' = txb s ->
    TxShape s [Tx KRetry (frame (txb s))] s'
| Sh_done s' : txs s' = FREE -> TxShape s [] s'.

Lemma noTx_nil : noTx []. Proof. intros k f []. Qed.
Lemma noTx_one o : (forall k f, o <> Tx k f) -> noTx [o].
Proof. intros H k f [X|[]]. apply (H k f). auto. Qed.
#[export] Hint Resolve noTx_nil : core.

Lemma is_ctl_bit b : Z.testbit (rd b 6) 7 = true -> is_ctl b.
Proof.
  intros H E. assert (Z.testbit (Z.land (rd b 6) 0x80) 7 = false) by (rewrite E; apply Z.bits_0).
  rewrite Z.land_spec, H in H0. discriminate.
Qed.
Lemma ctl_is_ctl b cmd a n : length b = 23%nat -> Z.testbit cmd 7 = true -> is_ctl (controlTelegram b cmd a n).
Proof.
  intros L H. apply is_ctl_bit. unfold controlTelegram.
  set (t1 := setDestinationAddress _ _). assert (L1 : length t1 = 23%nat).
  { unfold t1, setDestinationAddress, initLpdu, setFrameType, setPriority, setRepeated, controlByte. rewrite !wr_length. auto. }
  destruct (_ =? 0).
  - rewrite rd_wr_same by (rewrite wr_length; lia). auto.
  - rewrite rd_setSeq_6 by (rewrite !wr_length; lia). rewrite rd_wr_same by (rewrite wr_length; lia).
    unfold seq_byte. rewrite !Z.lor_spec, Z.land_spec, H. reflexivity.
Qed.

Lemma sh_sendCon cmd a n s w c : length (txb s) = 23%nat -> Z.testbit cmd 7 = true -> WFtx s -> sendConControlTelegram cmd a n (mkCfg s w []) = Some c ->
  TxShape s (cO c) (cS c).
Proof.
  intros TL TB W H. apply sendCon_spec in H; auto. destruct H as (j & J & E1 & E2). simpl in E1, E2.
  rewrite E2, E1.
  apply (Sh_send s j [] KCtrl [] (sentS (controlTelegram (txb s) cmd a n) s)); auto; try congruence.
  intros _. apply ctl_is_ctl; auto.
Qed.

Lemma sh_same_tx s o s1' s2' : TxShape s o s1' -> txs s2' = txs s1' -> txb s2' = txb s1' -> ccRep s2' = ccRep s1' ->
  TxShape s o s2'.
Proof.
  intros H E1 E2 E3. inversion H; subst.
  - apply Sh_none; auto; congruence.
  - apply Sh_wait; auto; congruence.
  - rewrite <- E2. apply Sh_send; auto; try congruence. rewrite E2; auto.
  - apply Sh_retry; auto; congruence.
  - apply Sh_done. congruence.
Qed.

Lemma sh_sendPCT s w c : WFtx s -> app_buffer (txb s) -> app_buffer (b1 s) ->
  sendPreparedConnectedTelegram (mkCfg s w []) = Some c -> TxShape s (cO c) (cS c).
Proof.
  intros W A1 A2 H. apply sendPCT_spec in H; auto. destruct H as (j & J & E1 & E2). simpl in E1, E2.
  rewrite E2, E1. rewrite <- (frame_blit (txb s) (b1 s)) by auto.
  apply (Sh_send s j [] KResp [] (sentS (blit (txb s) (b1 s) (telegramSize (b1 s))) s)); auto; congruence.
Qed.

Lemma sh_A06 s w c : length (txb s) = 23%nat -> WFtx s -> actionA06 (mkCfg s w []) = Some c -> TxShape s (cO c) (cS c).
Proof.
  intros TL W H. unfold actionA06 in H. destruct (sendConControlTelegram _ _ _ _) as [c1|] eqn:E; [|discriminate].
  simpl in H. inversion H; subst; clear H.
  apply (sh_sendCon _ _ _ (set_st CLOSED s)) in E; auto.
  cbn [cO cS upd].
  assert (TxShape s (cO c1) (cS c1)).
  { inversion E; subst.
    - apply Sh_none; auto.
    - apply (Sh_wait s j l); auto.
    - apply (Sh_send s j l1 k l2); auto.
    - apply (Sh_retry s); auto.
    - apply Sh_done; auto. }
  eapply sh_same_tx; eauto.
Qed.

Lemma sh_A09 s w now c : WFtx s -> app_buffer (txb s) -> app_buffer (b1 s) ->
  actionA09 now (mkCfg s w []) = Some c -> TxShape s (cO c) (cS c).
Proof.
  intros W A1 A2 H. unfold actionA09 in H.
  destruct (sendPreparedConnectedTelegram _) as [c1|] eqn:E; [|discriminate].
  simpl in H. inversion H; subst; clear H. apply sh_sendPCT in E; auto.
  cbn [cO cS upd]. eapply sh_same_tx; eauto.
Qed.

Lemma step_shape s cur o s' outs : Inv s cur -> op_ok o -> step s o = Some (s', outs) -> TxShape s outs s'.
Proof.
  intros I OK H. apply step_cfg in H. destruct H as (c & H & -> & ->).
  destruct I as (I1 & I2 & I3 & I4 & I5 & I6 & I7).
  assert (TL : length (txb s) = 23%nat) by apply I2.
  assert (REFL : forall w, TxShape s (cO (mkCfg s w [])) (cS (mkCfg s w []))) by (intros; apply Sh_none; auto).
  destruct o as [now t app w|now|ok|buf w|w|a]; simpl in H, OK.
  - destruct OK as [B AB]. rewrite processTelegram_eq in H by auto. cbn [cS] in H.
    destruct (dst t =? 0). { inversion H; subst. apply Sh_none; auto. apply noTx_one; congruence. }
    destruct (is_group t). { inversion H; subst. apply Sh_none; auto. apply noTx_one; congruence. }
    destruct (negb _). { inversion H; subst. auto. }
    destruct (tpci_control t).
    + unfold processConControl in H. destruct (_ =? _) in H.
      { unfold processConnect in H. cbn [cS] in H. destruct (st s).
        - inversion H; subst. apply Sh_none; auto.
        - destruct (_ =? _) in H. inversion H; subst; auto. unfold actionA10 in H. apply sh_sendCon in H; auto.
        - destruct (_ =? _) in H. inversion H; subst; auto. unfold actionA10 in H. apply sh_sendCon in H; auto. }
      destruct (_ =? _) in H.
      { unfold processDisconnect in H. cbn [cS] in H. destruct (st s).
        - inversion H; subst; auto.
        - destruct (_ =? _) in H; inversion H; subst; auto. apply Sh_none; auto.
        - destruct (_ =? _) in H; inversion H; subst; auto. apply Sh_none; auto. }
      unfold processAcknowledge in H. destruct (_ =? _) in H. { inversion H; subst; auto. }
      cbn [cS] in H. destruct (_ =? _) in H.
      * destruct (st s); try (inversion H; subst; auto; fail).
        destruct (negb _) in H. { inversion H; subst; auto. }
        destruct (negb _) in H. { eapply sh_A06; eauto. }
        inversion H; subst. apply Sh_none; auto; simpl; unfold actionA08; simpl; destruct (s2 s); auto.
      * destruct (_ || _)%bool in H. { inversion H; subst; auto. }
        destruct (_ && _)%bool in H. eapply sh_A09; eauto. eapply sh_A06; eauto.
    + unfold processDirect in H. destruct (_ =? 0) in H.
      { destruct (acquireSendBuffer _) as [c1|] eqn:E in H; [|discriminate].
        unfold acquireSendBuffer in E. apply acquire_spec in E; auto. destruct E as (j & J1 & J2 & E1 & E2). simpl in E1, E2, J1, J2.
        fold (retries s j) in E2. destruct c1 as [cs1 cw1 co1]. simpl in E1, E2. subst.
        destruct app as [[|] resp]; simpl in H; inversion H; subst; clear H; simpl.
        - rewrite <- app_assoc. match goal with |- TxShape _ _ ?x => apply (Sh_send s j [ExecDirect t] KDirect [] x) end; auto; try congruence.
          split; auto. apply noTx_one; congruence.
        - apply Sh_wait; auto. split; auto. apply noTx_one; congruence. }
      cbn [cS] in H. destruct (_ || _)%bool in H. { inversion H; subst; auto. }
      assert (FIN : forall cmd, Z.testbit cmd 7 = true -> (sendConControlTelegram cmd (caddr s) (sequenceNumber t) (mkCfg s w []) >>= (fun c0 => Some (upd (set_ctime (u32 now)) c0))) = Some c ->
        TxShape s (cO c) (cS c)).
      { intros cmd TB X. destruct (sendConControlTelegram _ _ _ _) as [c1|] eqn:E in X; [|discriminate].
        simpl in X. inversion X; subst. apply sh_sendCon in E; auto. cbn [cO cS upd]. eapply sh_same_tx; eauto. }
      destruct (_ =? _) in H.
      { unfold actionA02 in H. cbn [cS] in H. destruct (sendConControlTelegram _ _ _ _) as [c1|] eqn:E in H; [|discriminate].
        apply sendCon_spec in E; auto. destruct E as (j & J & E1 & E2). simpl in E1, E2, J.
        destruct c1 as [cs1 cw1 co1]. simpl in E1, E2. subst.
        assert (X : forall s2', txs s2' = SENDING -> ccRep s2' = 0 -> txb s2' = controlTelegram (txb s) T_ACK_PDU (caddr s) (sequenceNumber t) ->
          TxShape s ((retries s j ++ [Tx KCtrl (frame (controlTelegram (txb s) T_ACK_PDU (caddr s) (sequenceNumber t)))]) ++ [Exec t]) s2').
        { intros s2' X1 X2 X3. rewrite <- X3, <- app_assoc. apply (Sh_send s j [] KCtrl [Exec t]); auto; try congruence.
          apply noTx_one; congruence. intros _. rewrite X3. apply ctl_is_ctl; auto. }
        destruct app as [[|] resp]; simpl in H; destruct (s1 s); simpl in H; inversion H; subst; clear H; simpl; apply X; auto. }
      destruct (_ =? _) in H; [apply (FIN T_ACK_PDU)|apply (FIN T_NACK_PDU)]; auto.
  - unfold loop in H. cbn [cS] in H. destruct (txs s) eqn:TX; try (inversion H; subst; auto; fail).
    unfold loopTimeout in H. cbn [cS] in H.
    assert (REP : forall c, loopRepeat (u32 now) (mkCfg s [] []) = Some c -> TxShape s (cO c) (cS c)).
    { clear c H. intros c H. unfold loopRepeat in H. cbn [cS] in H. destruct (st s); try (inversion H; subst; auto; fail).
      destruct (_ <=? _) in H; [|inversion H; subst; auto; fail].
      destruct (_ <? _) in H. eapply sh_A09; eauto. eapply sh_A06; eauto. }
    assert (CL : forall c1, actionA06 (mkCfg s [] []) = Some c1 -> (loopSend (u32 now) c1 >>= loopRepeat (u32 now)) = Some c -> TxShape s (cO c) (cS c)).
    { intros c1 E X. assert (STc : st (cS c1) = CLOSED).
      { unfold actionA06 in E. destruct (sendConControlTelegram _ _ _ _) as [c2|] eqn:E2 in E; [|discriminate].
        simpl in E. inversion E; subst. simpl. apply sendCon_spec in E2; auto. destruct E2 as (j & J & F1 & F2). rewrite F1. reflexivity. }
      unfold loopSend, loopRepeat in X. rewrite STc in X. simpl in X. rewrite STc in X. inversion X; subst. eapply sh_A06; eauto. }
    destruct (st s) eqn:ST.
    + simpl in H. unfold loopSend in H. cbn [cS] in H. rewrite ST in H. simpl in H. apply REP; auto.
    + destruct (_ <=? _) in H.
      * destruct (actionA06 _) as [c1|] eqn:E in H; [|discriminate]. simpl in H. eapply CL; eauto.
      * simpl in H. unfold loopSend in H. cbn [cS] in H. rewrite ST in H.
        destruct (s1 s) eqn:S1; simpl in H; try (apply REP; auto; fail).
        destruct (actionA07 _ _) as [c1|] eqn:E in H; [|discriminate]. simpl in H.
        apply A07_spec in E; auto. destruct E as (j & J & E1 & E2).
        assert (c = c1) as ->.
        { unfold loopRepeat in H. rewrite E1 in H. simpl (st _) in H. simpl (stime _) in H. cbv iota in H.
          rewrite elapsed_self in H. change (TL4_T_ACK_TIMEOUT_MS <=? 0) with false in H. cbv iota in H. congruence. }
        rewrite E2, E1. rewrite <- (frame_blit (txb s) (b1 s)) by auto.
        eapply sh_same_tx with (s1' := sentS (blit (txb s) (b1 s) (telegramSize (b1 s))) s); auto.
        apply (Sh_send s j [] KResp [] (sentS (blit (txb s) (b1 s) (telegramSize (b1 s))) s)); auto; congruence.
    + destruct (_ <=? _) in H.
      * destruct (actionA06 _) as [c1|] eqn:E in H; [|discriminate]. simpl in H. eapply CL; eauto.
      * simpl in H. unfold loopSend in H. cbn [cS] in H. rewrite ST in H. simpl in H. apply REP; auto.
  - destruct (txs s) eqn:TX; try (inversion H; subst; auto; fail).
    rewrite finished_cases in H. destruct (negb _) eqn:C1 in H; [destruct (_ && _) eqn:C2 in H|].
    + inversion H; subst. simpl. apply Sh_retry; auto. split. { apply andb_prop in C2 as [_ C2]. lia. }
      intros _. split; auto. unfold is_ctl. lia.
    + inversion H; subst. apply Sh_done. auto.
    + inversion H; subst. apply Sh_done. auto.
  - destruct (acquireSendBuffer _) as [c1|] eqn:E in H; [|discriminate].
    unfold acquireSendBuffer in E. apply acquire_spec in E; auto. destruct E as (j & J1 & J2 & E1 & E2). simpl in E1, E2, J1, J2.
    fold (retries s j) in E2. destruct c1 as [cs1 cw1 co1]. simpl in E1, E2. subst.
    simpl in H. inversion H; subst; clear H. simpl.
    match goal with |- TxShape _ _ ?x => apply (Sh_send s j [] KApp [] x) end; auto; try congruence. split; auto.
  - eapply sh_A06; eauto.
  - inversion H; subst. apply Sh_none; auto.
Qed.

(** Retry bound over whole histories *)
Fixpoint tx_after (prev : list Z) (n : nat) (l : list out) : list Z * nat :=
  match l with
  | [] => (prev, n)
  | Tx KRetry f :: r => tx_after prev (S n) r
  | Tx _ f :: r => tx_after f 0 r
  | _ :: r => tx_after prev n r
  end.
Lemma retries_bounded_app l1 : forall prev n l2,
  retries_bounded prev n (l1 ++ l2) <-> retries_bounded prev n l1 /\ retries_bounded (fst (tx_after prev n l1)) (snd (tx_after prev n l1)) l2.
Proof.
  induction l1 as [|o l1 IH]; intros prev n l2; simpl. { tauto. }
  destruct o as [[]| | | |]; simpl; rewrite ?IH; tauto.
Qed.
Lemma tx_after_app l1 : forall prev n l2, tx_after prev n (l1 ++ l2) = tx_after (fst (tx_after prev n l1)) (snd (tx_after prev n l1)) l2.
Proof. induction l1 as [|o l1 IH]; intros prev n l2; simpl; auto. destruct o as [[]| | | |]; auto. Qed.
Lemma noTx_after l : forall prev n, noTx l -> tx_after prev n l = (prev, n) /\ retries_bounded prev n l.
Proof.
  induction l as [|o l IH]; intros prev n H; simpl; auto.
  assert (noTx l) by (intros k f X; apply (H k f); right; auto).
  destruct o; auto. exfalso. apply (H k bytes). left; auto.
Qed.
Lemma retries_after s : forall j n prev, app_buffer (txb s) -> (j <> 0%nat -> prev = frame (txb s) /\ is_ctl (txb s)) -> (n + j <= 3)%nat ->
  tx_after prev n (retries s j) = (prev, (n + j)%nat) /\ retries_bounded prev n (retries s j).
Proof.
  induction j; intros n prev A P L; simpl.
  - rewrite Nat.add_0_r. auto.
  - destruct (P ltac:(lia)) as [P1 P2]. destruct (IHj (S n) prev A ltac:(auto) ltac:(lia)) as [X1 X2].
    split. { fold (retries s j). rewrite X1. f_equal. lia. }
    split; auto. split; [|split; [lia|auto]].
    unfold is_ctl in P2. pose proof (telegramSize_range _ (proj2 A)). rewrite rd_frame by lia.
    pose proof (b_hi _ (rd_byte (txb s) 6 (proj2 A))). lia.
Qed.

Definition Jtx (s : tl4) (prev : list Z) (n : nat) : Prop :=
  txs s = SENDING -> prev = frame (txb s) /\ Z.of_nat n = ccRep s.

Lemma shape_retries s cur outs s' prev n : Inv s cur -> TxShape s outs s' -> Jtx s prev n ->
  retries_bounded prev n outs /\ Jtx s' (fst (tx_after prev n outs)) (snd (tx_after prev n outs)).
Proof.
  intros I SH J. destruct I as (I1 & I2 & _).
  assert (RT : forall j, okretries s j -> 
    exists n', tx_after prev n (retries s j) = (prev, n') /\ retries_bounded prev n (retries s j)).
  { intros j [J1 J2]. destruct j.
    - exists n. simpl. auto.
    - destruct (J2 ltac:(lia)) as [X1 X2]. destruct (J X1) as [P1 P2].
      destruct (retries_after s (S j) n prev I2) as [Y1 Y2]; auto. lia. eauto. }
  inversion SH; subst.
  - destruct (noTx_after outs prev n H) as [X1 X2]. rewrite X1. split; auto. unfold Jtx. simpl. rewrite H0, H1, H2. apply J.
  - destruct (RT j H) as (n' & R1 & R2). destruct (noTx_after l prev n' H0) as [X1 X2].
    rewrite retries_bounded_app, tx_after_app, R1. simpl. rewrite X1. split; auto. unfold Jtx. congruence.
  - destruct (RT j H) as (n' & R1 & R2). destruct (noTx_after l1 prev n' H0) as [X1 X2].
    destruct (noTx_after l2 (frame (txb s')) 0 H1) as [Y1 Y2].
    rewrite !retries_bounded_app, !tx_after_app, R1. simpl. rewrite X1. simpl.
    destruct k; try congruence; simpl; rewrite Y1; simpl; (split; [auto|]); unfold Jtx; intros _; rewrite H5; auto.
  - simpl. destruct H as [X1 X2]. destruct (X2 ltac:(lia)) as [X3 X4]. destruct (J X3) as [P1 P2]. split.
    + split; auto. split; [|split; [lia|auto]].
      unfold is_ctl in X4. pose proof (telegramSize_range _ (proj2 I2)). rewrite rd_frame by lia.
      pose proof (b_hi _ (rd_byte (txb s) 6 (proj2 I2))). lia.
    + unfold Jtx. rewrite H2, H1. intros _. split; auto. lia.
  - simpl. split; auto. unfold Jtx. congruence.
Qed.

Lemma outputs_retries ops : forall s cur l prev n, Inv s cur -> Forall op_ok ops -> outputs s ops = Some l ->
  Jtx s prev n -> retries_bounded prev n l.
Proof.
  induction ops as [|o ops IH]; intros s cur l prev n I F H J; simpl in H.
  - inversion H; subst. exact Logic.I.
  - inversion F; subst. destruct (step s o) as [[s' outs]|] eqn:E; [|discriminate].
    destruct (outputs s' ops) as [l'|] eqn:E2; [|discriminate]. inversion H; subst; clear H.
    pose proof (step_inv _ _ _ _ _ I H2 E) as I'. pose proof (step_shape _ _ _ _ _ I H2 E) as SH.
    destruct (shape_retries _ _ _ _ _ _ I SH J) as [R1 R2].
    rewrite retries_bounded_app. split; auto. eapply IH; eauto.
Qed.

Theorem retries_all a ops l : Forall op_ok ops -> outputs (init a) ops = Some l -> retries_bounded [] 0 l.
Proof. intros F H. eapply outputs_retries; eauto. apply init_inv. intros X. discriminate. Qed.

(** ** An operation never spins forever *)
Lemma sendCon_ends cmd a n s w : WFtx s -> (4 <= length w)%nat \/ txs s = FREE -> sendConControlTelegram cmd a n (mkCfg s w []) <> None.
Proof.
  intros W L. unfold sendConControlTelegram, acquireSendBuffer. cbn [cS cO cW].
  pose proof (acquire_ends w s [] W) as E. destruct (acquireLoop s [] w) eqn:X; [discriminate|].
  exfalso. apply E; auto. intros. destruct W as (W1 & W2 & _). destruct L as [L|L]; [split; lia|congruence].
Qed.
Lemma sendPCT_ends s w : WFtx s -> (4 <= length w)%nat \/ txs s = FREE -> sendPreparedConnectedTelegram (mkCfg s w []) <> None.
Proof.
  intros W L. unfold sendPreparedConnectedTelegram, acquireSendBuffer. cbn [cS cO cW].
  pose proof (acquire_ends w s [] W) as E. destruct (acquireLoop s [] w) eqn:X; [discriminate|].
  exfalso. apply E; auto. intros. destruct W as (W1 & W2 & _). destruct L as [L|L]; [split; lia|congruence].
Qed.
Lemma A06_ends s w : WFtx s -> (4 <= length w)%nat \/ txs s = FREE -> actionA06 (mkCfg s w []) <> None.
Proof.
  intros W L. unfold actionA06. cbn [upd cS cW cO].
  pose proof (sendCon_ends T_DISCONNECT_PDU (caddr (set_st CLOSED s)) 0 (set_st CLOSED s) w W L) as E.
  destruct (sendConControlTelegram _ _ _ _); [discriminate|congruence].
Qed.
Lemma A09_ends s w now : WFtx s -> (4 <= length w)%nat \/ txs s = FREE -> actionA09 now (mkCfg s w []) <> None.
Proof.
  intros W L. unfold actionA09. pose proof (sendPCT_ends s w W L) as E.
  destruct (sendPreparedConnectedTelegram _); [discriminate|congruence].
Qed.

Theorem step_ends s cur o : Inv s cur -> op_ok o -> (4 <= length (op_waits o))%nat \/ bus_free s \/ (exists now, o = OpLoop now) ->
  step s o <> None.
Proof.
  intros I OK L. destruct I as (I1 & I2 & I3 & I4 & I5 & I6 & I7). unfold step.
  assert (G : stepCfg s o <> None); [|destruct (stepCfg s o); [discriminate|congruence]].
  assert (AC : forall w, (4 <= length w)%nat \/ txs s = FREE -> acquireLoop s [] w <> None).
  { intros w X. apply acquire_ends; auto. intros. destruct I1 as (W1 & W2 & _). destruct X as [X|X]; [split; lia|congruence]. }
  destruct o as [now t app w|now|ok|buf w|w|a]; simpl in L, OK; simpl.
  - assert (L' : (4 <= length w)%nat \/ txs s = FREE). { destruct L as [L|[L|[n L]]]; auto. discriminate. } clear L. rename L' into L.
    destruct OK as [B AB]. rewrite processTelegram_eq by auto. cbn [cS].
    destruct (dst t =? 0); [discriminate|]. destruct (is_group t); [discriminate|]. destruct (negb _); [discriminate|].
    destruct (tpci_control t).
    + unfold processConControl. destruct (_ =? _).
      { unfold processConnect. cbn [cS]. destruct (st s); [discriminate| |]; (destruct (_ =? _); [discriminate|]); unfold actionA10; apply sendCon_ends; auto. }
      destruct (_ =? _).
      { unfold processDisconnect. cbn [cS]. destruct (st s); [discriminate| |]; (destruct (_ =? _); discriminate). }
      unfold processAcknowledge. destruct (_ =? _); [discriminate|]. cbn [cS]. destruct (_ =? _).
      * destruct (st s); try discriminate. destruct (negb _); [discriminate|]. destruct (negb _); [apply A06_ends; auto|discriminate].
      * destruct (_ || _)%bool; [discriminate|]. destruct (_ && _)%bool; [apply A09_ends|apply A06_ends]; auto.
    + unfold processDirect. destruct (_ =? 0).
      { unfold acquireSendBuffer. cbn [cS cO cW]. specialize (AC w L). destruct (acquireLoop s [] w); [|congruence].
        simpl. destruct (fst app); discriminate. }
      cbn [cS]. destruct (_ || _)%bool; [discriminate|].
      destruct (_ =? _).
      { unfold actionA02. cbn [cS]. pose proof (sendCon_ends T_ACK_PDU (caddr s) (sequenceNumber t) s w I1 L).
        destruct (sendConControlTelegram _ _ _ _); [|congruence]. simpl. destruct app as [[|] r]; discriminate. }
      destruct (_ =? _); unfold actionA03, actionA04; cbn [cS].
      * pose proof (sendCon_ends T_ACK_PDU (caddr s) (sequenceNumber t) s w I1 L).
        destruct (sendConControlTelegram _ _ _ _); [discriminate|congruence].
      * pose proof (sendCon_ends T_NACK_PDU (caddr s) (sequenceNumber t) s w I1 L).
        destruct (sendConControlTelegram _ _ _ _); [discriminate|congruence].
  - unfold loop. cbn [cS]. destruct (txs s) eqn:TX; try discriminate.
    unfold loopTimeout. cbn [cS].
    assert (REP : loopRepeat (u32 now) (mkCfg s [] []) <> None).
    { unfold loopRepeat. cbn [cS]. destruct (st s); try discriminate. destruct (_ <=? _); [|discriminate].
      destruct (_ <? _); [apply A09_ends|apply A06_ends]; auto. }
    assert (CL : (actionA06 (mkCfg s [] []) >>= loopSend (u32 now) >>= loopRepeat (u32 now)) <> None).
    { pose proof (A06_ends s [] I1 (or_intror TX)) as E.
      destruct (actionA06 _) as [c1|] eqn:E1; [|congruence]. simpl.
      assert (STc : st (cS c1) = CLOSED).
      { unfold actionA06 in E1. destruct (sendConControlTelegram _ _ _ _) as [c2|] eqn:E2 in E1; [|discriminate].
        simpl in E1. inversion E1; subst. simpl. apply sendCon_spec in E2; auto. destruct E2 as (j & J & F1 & F2). rewrite F1. reflexivity. }
      unfold loopSend, loopRepeat. rewrite STc. simpl. rewrite STc. discriminate. }
    destruct (st s) eqn:ST.
    + simpl. unfold loopSend. cbn [cS]. rewrite ST. simpl. auto.
    + destruct (_ <=? _); auto. simpl. unfold loopSend. cbn [cS]. rewrite ST. destruct (s1 s) eqn:S1; simpl; auto.
      destruct (actionA07 _ _) as [c1|] eqn:E.
      * simpl. apply A07_spec in E; auto. destruct E as (j & J & E1 & E2).
        unfold loopRepeat. rewrite E1. simpl (st _). simpl (stime _). cbv iota.
        rewrite elapsed_self. change (TL4_T_ACK_TIMEOUT_MS <=? 0) with false. discriminate.
      * exfalso. unfold actionA07 in E. cbn [cS] in E. rewrite ST, S1 in E. cbn [upd cS cW cO] in E.
        pose proof (sendPCT_ends (set_s1 SENDING (set_st OPEN_WAIT s)) [] I1 (or_intror TX)).
        destruct (sendPreparedConnectedTelegram _); [discriminate|congruence].
    + destruct (_ <=? _); auto. simpl. unfold loopSend. cbn [cS]. rewrite ST. simpl. auto.
  - destruct (txs s); discriminate.
  - assert (L' : (4 <= length w)%nat \/ txs s = FREE). { destruct L as [L|[L|[n L]]]; auto. discriminate. }
    unfold acquireSendBuffer. cbn [cS cO cW]. specialize (AC w L'). destruct (acquireLoop s [] w); [discriminate|congruence].
  - apply A06_ends; auto. destruct L as [L|[L|[n L]]]; auto. discriminate.
  - discriminate.
Qed.
