(** What single operations do in reachable states (used by TL4_Props). *)
From Verif Require Import Base Bits Telegram_Model Telegram_Spec Telegram_Proofs TL4_Model TL4_Spec TL4_Proofs TL4_Inv TL4_Step TL4_Theorems.

Lemma conn_sent b s : connection (sentS b s) = connection s. Proof. reflexivity. Qed.

Lemma ctl_frame s cmd a n : app_buffer (txb s) -> is_u16 a -> 0 <= n < 16 ->
  (cmd = T_ACK_PDU \/ cmd = T_NACK_PDU) \/ (cmd = T_DISCONNECT_PDU /\ n = 0) ->
  is_control_frame cmd a n (frame (controlTelegram (txb s) cmd a n)).
Proof. intros. apply control_frame; auto. Qed.

(** ** Telegrams that are not from the partner *)
Lemma stranger_step s g now t app w s' outs : Inv s (Some g) -> bytes t ->
  (addressed_to (own s) t = false \/ src t <> peer g) -> step s (OpRx now t app w) = Some (s', outs) ->
  connection s' = connection s /\ execs outs = [] /\ responses outs = [] /\
  (if addressed_to (own s) t && is_connect t
   then exists f, controls outs = [f] /\ is_control_frame T_DISCONNECT_PDU (src t) 0 f
   else controls outs = []).
Proof.
  intros I B N H. apply step_cfg in H. destruct H as (c & H & -> & ->).
  destruct I as (I1 & I2 & I3 & I4 & I5 & I6 & I7). simpl in H. rewrite processTelegram_eq in H by auto. cbn [cS] in H.
  pose proof (i_peer _ _ _ _ _ _ _ _ _ _ _ _ I7) as PE. pose proof (i_open _ _ _ _ _ _ _ _ _ _ _ _ I7) as OP.
  pose proof (rd_byte t 6 B) as B6.
  destruct (dst t =? 0) eqn:D0.
  { rewrite not_addressed by auto. inversion H; subst. repeat split; reflexivity. }
  destruct (is_group t) eqn:G.
  { rewrite not_addressed by auto. inversion H; subst. repeat split; reflexivity. }
  destruct (dst t =? own s) eqn:DO; cbn [negb] in H.
  2:{ rewrite not_addressed by auto. inversion H; subst. repeat split; reflexivity. }
  pose proof (addressed_own _ _ D0 G DO) as AD. rewrite AD in *. destruct N as [N|N]; [discriminate|].
  cbn [andb].
  destruct (tpci_control t) eqn:TC.
  - unfold processConControl in H. unfold is_connect. change 0x80 with T_CONNECT_PDU.
    destruct (tpci t =? T_CONNECT_PDU) eqn:CN.
    + unfold processConnect in H. cbn [cS] in H.
      assert (H' : actionA10 (src t) (mkCfg s w []) = Some c).
      { destruct (st s); try congruence; (destruct (Z.eqb_spec (caddr s) (src t)); [congruence|exact H]). }
      unfold actionA10 in H'. apply sendCon_spec in H'; auto. destruct H' as (j & J & E1 & E2). simpl in E1, E2.
      rewrite E1, E2, execs_app, responses_app, controls_app, execs_retries, responses_retries, controls_retries. simpl.
      rewrite conn_sent. split; auto. split; auto. split; auto. eexists. split; [reflexivity|].
      apply ctl_frame; auto; try lia. apply src_u16; auto.
    + assert (X : c = mkCfg s w []); [|subst; repeat split; reflexivity].
      destruct (tpci t =? T_DISCONNECT_PDU).
      * unfold processDisconnect in H. cbn [cS] in H. destruct (st s); try congruence;
          (destruct (Z.eqb_spec (src t) (caddr s)); [congruence|]); inversion H; auto.
      * unfold processAcknowledge in H. cbn [cS] in H. destruct (_ =? 0) in H. congruence.
        destruct (_ =? 0) in H.
        -- destruct (st s); try congruence. destruct (Z.eqb_spec (caddr s) (src t)); [congruence|]. cbn [negb] in H. congruence.
        -- destruct (Z.eqb_spec (caddr s) (src t)); [congruence|]. cbn [negb] in H. rewrite orb_true_r in H. congruence.
  - assert (is_connect t = false) as ->.
    { unfold is_connect, tpci. unfold tpci_control in TC. destruct B6. 
      assert (rd t 6 / 64 <= 1) by (apply Z.lt_succ_r, Z.div_lt_upper_bound; lia).
      pose proof (Z.mod_pos_bound (rd t 6) 4). lia. }
    unfold processDirect in H. rewrite src_sender in H by auto. destruct (_ =? 0) in H.
    + destruct (acquireSendBuffer _) as [c1|] eqn:E in H; [|discriminate].
      unfold acquireSendBuffer in E. apply acquire_spec in E; auto. destruct E as (j & J1 & J2 & E1 & E2). simpl in E1, E2.
      fold (retries s j) in E2. destruct c1 as [cs1 cw1 co1]. simpl in E1, E2. subst.
      destruct app as [[|] resp]; simpl in H; inversion H; subst; clear H; simpl;
        rewrite !execs_app, !responses_app, !controls_app, execs_retries, responses_retries, controls_retries; repeat split; reflexivity.
    + cbn [cS] in H. destruct (Z.eqb_spec (caddr s) (src t)); [congruence|]. simpl in H. inversion H; subst. repeat split; reflexivity.
Qed.

(** ** Numbered requests of the partner *)
Lemma mod16_pred n : Z.land (mod16 n - 1) 15 = (Z.of_nat n - 1) mod 16.
Proof. unfold mod16. rewrite land_15. rewrite Zminus_mod_idemp_l. reflexivity. Qed.

Lemma request_step s g now t app w s' outs : Inv s (Some g) -> bytes t -> 
  addressed_to (own s) t = true -> numbered t = true -> src t = peer g -> step s (OpRx now t app w) = Some (s', outs) ->
  directConnection s' = true /\ connectedTo s' = peer g /\ responses outs = [] /\ exists f, controls outs = [f] /\
  (if seqno t =? Z.of_nat (length (exec g)) mod 16
   then execs outs = [t] /\ is_control_frame T_ACK_PDU (peer g) (seqno t) f
   else if seqno t =? (Z.of_nat (length (exec g)) - 1) mod 16
   then execs outs = [] /\ is_control_frame T_ACK_PDU (peer g) (seqno t) f
   else execs outs = [] /\ is_control_frame T_NACK_PDU (peer g) (seqno t) f).
Proof.
  intros I B AD NB SP H. apply step_cfg in H. destruct H as (c & H & -> & ->).
  destruct I as (I1 & I2 & I3 & I4 & I5 & I6 & I7). simpl in H. rewrite processTelegram_eq in H by auto. cbn [cS] in H.
  pose proof (i_peer _ _ _ _ _ _ _ _ _ _ _ _ I7) as PE. pose proof (i_open _ _ _ _ _ _ _ _ _ _ _ _ I7) as OP.
  pose proof (i_seqR _ _ _ _ _ _ _ _ _ _ _ _ I7) as SR. fold (mod16 (length (exec g))).
  pose proof (rd_byte t 6 B) as B6.
  unfold addressed_to in AD. apply andb_prop in AD as [AD AD3]. apply andb_prop in AD as [AD1 AD2].
  destruct (dst t =? 0); [discriminate|]. destruct (is_group t); [discriminate|]. rewrite AD2 in H. cbn [negb] in H.
  unfold numbered in NB. apply andb_prop in NB as [TC N4]. apply negb_true_iff in TC. rewrite TC in H.
  unfold processDirect in H. rewrite src_sender, b_fc in H by auto. rewrite N4 in H. cbn [negb cS] in H.
  assert (S6 : sequenceNumber t = seqno t).
  { apply sequenceNumber_seqno; auto. unfold tpci_control in TC. lia. }
  rewrite S6 in H.
  assert (negb (caddr s =? src t) || match st s with CLOSED => true | _ => false end = false)%bool as C.
  { rewrite SP, PE, Z.eqb_refl. destruct (st s); auto; congruence. }
  rewrite C in H. clear C. pose proof (seqno_range t) as SN.
  assert (DCS : forall x, st x = st s -> caddr x = caddr s -> directConnection x = true /\ connectedTo x = peer g).
  { intros x E1 E2. unfold connectedTo, directConnection. rewrite E1, E2. destruct (st s); auto; congruence. }
  rewrite SR in H.
  destruct (seqno t =? mod16 (length (exec g))) eqn:C1.
  - unfold actionA02 in H. cbn [cS] in H. destruct (sendConControlTelegram _ _ _ _) as [c1|] eqn:E in H; [|discriminate].
    apply sendCon_spec in E; auto. destruct E as (j & J & E1 & E2). simpl in E1, E2.
    destruct c1 as [cs1 cw1 co1]. simpl in E1, E2. subst.
    assert (X : cO c = (retries s j ++ [Tx KCtrl (frame (controlTelegram (txb s) T_ACK_PDU (caddr s) (seqno t)))]) ++ [Exec t]).
    { destruct app as [[|] resp]; simpl in H; destruct (s1 s); simpl in H; inversion H; auto. }
    assert (Y : st (cS c) = st s /\ caddr (cS c) = caddr s).
    { destruct app as [[|] resp]; simpl in H; destruct (s1 s); simpl in H; inversion H; auto. }
    destruct (DCS (cS c)) as [Y1 Y2]; try apply Y. split; auto. split; auto.
    rewrite X, !execs_app, !responses_app, !controls_app, execs_retries, responses_retries, controls_retries. simpl.
    split; auto. eexists. split; [reflexivity|]. split; auto. rewrite PE. apply ctl_frame; auto. congruence.
  - rewrite mod16_pred in H.
    assert (FIN : forall cmd, cmd = T_ACK_PDU \/ cmd = T_NACK_PDU ->
       (sendConControlTelegram cmd (caddr s) (seqno t) (mkCfg s w []) >>= (fun c0 => Some (upd (set_ctime (u32 now)) c0))) = Some c ->
       directConnection (cS c) = true /\ connectedTo (cS c) = peer g /\ responses (cO c) = [] /\ exists f, controls (cO c) = [f] /\
       execs (cO c) = [] /\ is_control_frame cmd (peer g) (seqno t) f).
    { clear H. intros cmd CMD H. destruct (sendConControlTelegram _ _ _ _) as [c1|] eqn:E in H; [|discriminate].
      apply sendCon_spec in E; auto. destruct E as (j & J & E1 & E2). simpl in E1, E2.
      destruct c1 as [cs1 cw1 co1]. simpl in E1, E2. subst. simpl in H. inversion H; subst. clear H. simpl.
      destruct (DCS (set_ctime (u32 now) (sentS (controlTelegram (txb s) cmd (caddr s) (seqno t)) s))) as [Y1 Y2]; auto.
      split; auto. split; auto. rewrite !execs_app, !responses_app, !controls_app, execs_retries, responses_retries, controls_retries. simpl.
      split; auto. eexists. split; [reflexivity|]. split; auto. rewrite PE. apply ctl_frame; auto. congruence. }
    destruct (seqno t =? (Z.of_nat (length (exec g)) - 1) mod 16) eqn:C2.
    + unfold actionA03 in H. cbn [cS] in H. apply FIN in H; auto.
    + unfold actionA04 in H. cbn [cS] in H. apply FIN in H; auto.
Qed.

(** ** The closed state *)
Lemma closed_numbered s now t app w s' outs : Inv s None -> bytes t -> addressed_to (own s) t = true -> numbered t = true ->
  step s (OpRx now t app w) = Some (s', outs) -> s' = s /\ outs = [].
Proof.
  intros I B AD NB H. apply step_cfg in H. destruct H as (c & H & -> & ->).
  destruct I as (I1 & I2 & I3 & I4 & I5 & I6 & I7 & _). simpl in H. rewrite processTelegram_eq in H by auto. cbn [cS] in H.
  unfold addressed_to in AD. apply andb_prop in AD as [AD AD3]. apply andb_prop in AD as [AD1 AD2].
  destruct (dst t =? 0); [discriminate|]. destruct (is_group t); [discriminate|]. rewrite AD2 in H. cbn [negb] in H.
  unfold numbered in NB. apply andb_prop in NB as [TC N4]. apply negb_true_iff in TC. rewrite TC in H.
  unfold processDirect in H. rewrite src_sender, b_fc in H by (auto; apply rd_byte; auto). rewrite N4 in H. cbn [negb cS] in H.
  rewrite I7, orb_true_r in H. inversion H; auto.
Qed.

(** A connection only opens by a T_CONNECT for the own address; requests run and responses leave only while a
    connection is open before and after the operation. *)
Lemma opens_only_by_connect s o s' outs : Inv s None -> op_ok o -> step s o = Some (s', outs) ->
  execs outs = [] /\ responses outs = [] /\
  (directConnection s' = true ->
   exists now t app w, o = OpRx now t app w /\ addressed_to (own s) t = true /\ is_connect t = true /\ connectedTo s' = src t /\
     controls outs = []).
Proof.
  intros I OK H. apply step_cfg in H. destruct H as (c & H & -> & ->).
  pose proof I as I'. destruct I as (I1 & I2 & I3 & I4 & I5 & I6 & I7 & I8 & I9).
  assert (SAME : forall x, st x = CLOSED -> directConnection x = true -> False).
  { intros x X. unfold directConnection. rewrite X. discriminate. }
  assert (A6 : forall w, actionA06 (mkCfg s w []) = Some c -> execs (cO c) = [] /\ responses (cO c) = [] /\ st (cS c) = CLOSED).
  { intros w X. apply (A06_inv _ _ _ _ 0 o I') in X. destruct X as (_ & j & J & E1 & E2).
    rewrite E1, E2, execs_app, responses_app, execs_retries, responses_retries. auto. }
  destruct o as [now t app w|now|ok|buf w|w|a]; simpl in H, OK.
  - destruct OK as [B AB]. rewrite processTelegram_eq in H by auto. cbn [cS] in H.
    destruct (dst t =? 0) eqn:D0. { inversion H; subst. simpl. split; auto. split; auto. intros X; exfalso; eapply SAME; eauto. }
    destruct (is_group t) eqn:G. { inversion H; subst. simpl. split; auto. split; auto. intros X; exfalso; eapply SAME; eauto. }
    destruct (dst t =? own s) eqn:DO; cbn [negb] in H. 2:{ inversion H; subst. simpl. split; auto. split; auto. intros X; exfalso; eapply SAME; eauto. }
    pose proof (addressed_own _ _ D0 G DO) as AD.
    destruct (tpci_control t).
    + unfold processConControl in H. destruct (tpci t =? T_CONNECT_PDU) eqn:CN.
      { unfold processConnect in H. cbn [cS] in H. rewrite I7 in H. inversion H; subst. simpl. split; auto. split; auto.
        intros _. exists now, t, app, w. auto. }
      assert (X : c = mkCfg s w []).
      { destruct (_ =? _) in H.
        { unfold processDisconnect in H. cbn [cS] in H. rewrite I7 in H. congruence. }
        unfold processAcknowledge in H. destruct (_ =? _) in H. { congruence. }
        cbn [cS] in H. rewrite I7 in H. destruct (_ =? _) in H; simpl in H; congruence. }
      subst c. simpl. split; auto. split; auto. intros X; exfalso; eapply SAME; eauto.
    + unfold processDirect in H. destruct (_ =? 0) in H.
      { destruct (acquireSendBuffer _) as [c1|] eqn:E in H; [|discriminate].
        unfold acquireSendBuffer in E. apply acquire_spec in E; auto. destruct E as (j & J1 & J2 & E1 & E2). simpl in E1, E2, J1, J2.
        fold (retries s j) in E2. destruct c1 as [cs1 cw1 co1]. simpl in E1, E2. subst.
        destruct app as [[|] resp]; simpl in H; inversion H; subst; clear H; simpl;
        rewrite ?execs_app, ?responses_app, execs_retries, responses_retries; simpl; (split; auto; split; auto; intros X; exfalso; eapply SAME; [|apply X]; auto). }
      cbn [cS] in H. rewrite I7, orb_true_r in H. inversion H; subst. simpl. split; auto. split; auto. intros X; exfalso; eapply SAME; eauto.
  - unfold loop in H. cbn [cS] in H. unfold loopTimeout, loopSend, loopRepeat in H. cbn [cS] in H. rewrite I7 in H.
    assert (c = mkCfg s [] []) as ->. { destruct (txs s); simpl in H; rewrite ?I7 in H; simpl in H; rewrite ?I7 in H; congruence. }
    simpl. split; auto. split; auto. intros X; exfalso; eapply SAME; eauto.
  - assert (execs (cO c) = [] /\ responses (cO c) = [] /\ st (cS c) = st s) as (X1 & X2 & X3).
    { destruct (txs s) eqn:TX; try (inversion H; subst; auto; fail).
      rewrite finished_cases in H. destruct (negb _) in H; [destruct (_ && _) in H|]; inversion H; subst; auto. }
    split; auto. split; auto. intros X; exfalso; eapply SAME; [|apply X]. congruence.
  - destruct (acquireSendBuffer _) as [c1|] eqn:E in H; [|discriminate].
    unfold acquireSendBuffer in E. apply acquire_spec in E; auto. destruct E as (j & J1 & J2 & E1 & E2). simpl in E1, E2, J1, J2.
    fold (retries s j) in E2. destruct c1 as [cs1 cw1 co1]. simpl in E1, E2. subst.
    simpl in H. inversion H; subst; clear H. simpl.
    rewrite execs_app, responses_app, execs_retries, responses_retries. split; auto. split; auto. intros X; exfalso; eapply SAME; [|apply X]. auto.
  - apply A6 in H. destruct H as (X1 & X2 & X3). split; auto. split; auto. intros X; exfalso; eapply SAME; [|apply X]. auto.
  - inversion H; subst. simpl. split; auto. split; auto. intros X; exfalso; eapply SAME; [|apply X]. auto.
Qed.

(** An operation that ends a connection executes nothing and sends no response. *)
Lemma closing_silent s g o s' outs : Inv s (Some g) -> op_ok o -> step s o = Some (s', outs) -> directConnection s' = false ->
  execs outs = [] /\ responses outs = [].
Proof.
  intros I OK H DC. 
  assert (A6 : forall w c, actionA06 (mkCfg s w []) = Some c -> execs (cO c) = [] /\ responses (cO c) = []).
  { intros w c X. apply (A06_inv _ _ _ _ 0 o I) in X. destruct X as (_ & j & J & E1 & E2).
    rewrite E1, execs_app, responses_app, execs_retries, responses_retries. auto. }
  destruct o as [now t app w|now|ok|buf w|w|a]; simpl in OK.
  - destruct OK as [B AB].
    destruct (addressed_to (own s) t) eqn:AD.
    2:{ destruct (stranger_step _ _ _ _ _ _ _ _ I B (or_introl AD) H) as (_ & X & Y & _). auto. }
    destruct (Z.eq_dec (src t) (peer g)) as [SP|SP].
    2:{ destruct (stranger_step _ _ _ _ _ _ _ _ I B (or_intror SP) H) as (_ & X & Y & _). auto. }
    destruct (numbered t) eqn:NB.
    { destruct (request_step _ _ _ _ _ _ _ _ I B AD NB SP H) as (X & _). congruence. }
    apply step_cfg in H. destruct H as (c & H & -> & ->).
    destruct I as (I1 & I2 & I3 & I4 & I5 & I6 & I7). simpl in H. rewrite processTelegram_eq in H by auto. cbn [cS] in H.
    pose proof (i_open _ _ _ _ _ _ _ _ _ _ _ _ I7) as OP.
    unfold addressed_to in AD. apply andb_prop in AD as [AD AD3]. apply andb_prop in AD as [AD1 AD2].
    destruct (dst t =? 0); [discriminate|]. destruct (is_group t); [discriminate|]. rewrite AD2 in H. cbn [negb] in H.
    assert (OPN : forall x, st x = st s -> directConnection x = false -> False).
    { intros x X. unfold directConnection. rewrite X. destruct (st s); congruence. }
    destruct (tpci_control t) eqn:TC.
    + unfold processConControl in H. destruct (_ =? _) in H.
      { unfold processConnect in H. cbn [cS] in H.
        assert (c = mkCfg s w [] \/ actionA10 (src t) (mkCfg s w []) = Some c) as [->|X].
        { destruct (st s); try congruence; destruct (_ =? _) in H; auto; left; congruence. }
        exfalso. eapply OPN; [|apply DC]; auto.
        unfold actionA10 in X. apply sendCon_spec in X; auto. destruct X as (j & J & E1 & E2). simpl in E1, E2.
        exfalso. eapply OPN; [|apply DC]; rewrite E1; auto. }
      destruct (_ =? _) in H.
      { unfold processDisconnect in H. cbn [cS] in H. destruct (st s); try congruence; destruct (_ =? _) in H; inversion H; subst; auto. }
      unfold processAcknowledge in H. destruct (_ =? _) in H. { inversion H; subst; auto. }
      cbn [cS] in H. destruct (_ =? _) in H.
      * destruct (st s) eqn:ST; try (inversion H; subst; auto; fail).
        destruct (negb _) in H. { inversion H; subst; auto. }
        destruct (negb _) in H. { eapply A6; eauto. }
        inversion H; subst. auto.
      * destruct (_ || _)%bool in H. { inversion H; subst; auto. }
        destruct (_ && _)%bool in H; [|eapply A6; eauto].
        unfold actionA09 in H. destruct (sendPreparedConnectedTelegram _) as [c1|] eqn:E; [|discriminate].
        apply sendPCT_spec in E; auto. destruct E as (j & J & E1 & E2). simpl in E1, E2.
        inversion H; subst; clear H. exfalso. eapply OPN; [|apply DC]. simpl. rewrite E1. auto.
    + unfold processDirect in H. rewrite b_fc in H by (apply rd_byte; auto). 
      unfold numbered in NB. rewrite TC in NB. simpl in NB. rewrite NB in H. cbn [negb] in H.
      destruct (acquireSendBuffer _) as [c1|] eqn:E in H; [|discriminate].
      unfold acquireSendBuffer in E. apply acquire_spec in E; auto. destruct E as (j & J1 & J2 & E1 & E2). simpl in E1, E2, J1, J2.
      fold (retries s j) in E2. destruct c1 as [cs1 cw1 co1]. simpl in E1, E2. subst.
      destruct app as [[|] resp]; simpl in H; inversion H; subst; clear H; simpl;
        rewrite ?execs_app, ?responses_app, execs_retries, responses_retries; auto.
  - apply step_cfg in H. destruct H as (c & H & -> & ->). simpl in H.
    pose proof I as II. destruct I as (I1 & I2 & I3 & I4 & I5 & I6 & I7).
    pose proof (i_open _ _ _ _ _ _ _ _ _ _ _ _ I7) as OP.
    assert (OPN : forall x, st x <> CLOSED -> directConnection x = false -> False).
    { intros x X. unfold directConnection. destruct (st x); congruence. }
    unfold loop in H. cbn [cS] in H. destruct (txs s) eqn:TX; try (inversion H; subst; auto; fail).
    unfold loopTimeout in H. cbn [cS] in H.
    assert (REP : forall c, loopRepeat (u32 now) (mkCfg s [] []) = Some c -> directConnection (cS c) = false -> execs (cO c) = [] /\ responses (cO c) = []).
    { clear c H DC. intros c H DC. unfold loopRepeat in H. cbn [cS] in H. destruct (st s) eqn:ST; try (inversion H; subst; auto; fail).
      destruct (_ <=? _) in H; [|inversion H; subst; auto; fail].
      destruct (_ <? _) in H; [|eapply A6; eauto].
      unfold actionA09 in H. destruct (sendPreparedConnectedTelegram _) as [c1|] eqn:E; [|discriminate].
      apply sendPCT_spec in E; auto. destruct E as (j & J & E1 & E2). simpl in E1, E2.
      inversion H; subst; clear H. exfalso. eapply OPN; [|apply DC]. simpl. rewrite E1. simpl. congruence. }
    assert (CL : (actionA06 (mkCfg s [] []) >>= loopSend (u32 now) >>= loopRepeat (u32 now)) = Some c -> execs (cO c) = [] /\ responses (cO c) = []).
    { intros X. destruct (actionA06 _) as [c1|] eqn:E; [|discriminate]. simpl in X. 
      assert (STc : st (cS c1) = CLOSED).
      { pose proof E as E0. apply (A06_inv _ _ _ (Some g) 0 (OpLoop now) II) in E0. 
        destruct E0 as (_ & j & J & F1 & F2). rewrite F2. auto. }
      unfold loopSend, loopRepeat in X. rewrite STc in X. simpl in X. rewrite STc in X. inversion X; subst. eapply A6; eauto. }
    destruct (st s) eqn:ST; try congruence.
    + destruct (_ <=? _) in H; auto. simpl in H. unfold loopSend in H. cbn [cS] in H. rewrite ST in H.
      destruct (s1 s) eqn:S1; simpl in H; try (apply REP; auto; fail).
      destruct (actionA07 _ _) as [c1|] eqn:E in H; [|discriminate]. simpl in H.
      apply A07_spec in E; auto. destruct E as (j & J & E1 & E2).
      exfalso. unfold loopRepeat in H. rewrite E1 in H. simpl (st _) in H. simpl (stime _) in H. cbv iota in H.
      rewrite elapsed_self in H. change (TL4_T_ACK_TIMEOUT_MS <=? 0) with false in H. cbv iota in H.
      inversion H; subst. eapply OPN; [|apply DC]. rewrite E1. simpl. congruence.
    + destruct (_ <=? _) in H; auto. simpl in H. unfold loopSend in H. cbn [cS] in H. rewrite ST in H. simpl in H. auto.
  - apply step_cfg in H. destruct H as (c & H & -> & ->). simpl in H.
    destruct (txs s) eqn:TX; try (inversion H; subst; auto; fail).
    rewrite finished_cases in H. destruct (negb _) in H; [destruct (_ && _) in H|]; inversion H; subst; auto.
  - apply step_cfg in H. destruct H as (c & H & -> & ->). simpl in H.
    destruct (acquireSendBuffer _) as [c1|] eqn:E in H; [|discriminate].
    destruct I as (I1 & _). unfold acquireSendBuffer in E. apply acquire_spec in E; auto. destruct E as (j & J1 & J2 & E1 & E2). simpl in E1, E2, J1, J2.
    fold (retries s j) in E2. destruct c1 as [cs1 cw1 co1]. simpl in E1, E2. subst.
    simpl in H. inversion H; subst; clear H. simpl.
    rewrite execs_app, responses_app, execs_retries, responses_retries. auto.
  - apply step_cfg in H. destruct H as (c & H & -> & ->). simpl in H. eapply A6; eauto.
  - apply step_cfg in H. destruct H as (c & H & -> & ->). simpl in H. inversion H; subst. auto.
Qed.
