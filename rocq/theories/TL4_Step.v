(** Every operation preserves the invariant. *)
From Verif Require Import Base Bits Telegram_Model Telegram_Spec Telegram_Proofs TL4_Model TL4_Spec TL4_Proofs TL4_Inv.

Local Arguments observe : simpl never.
Local Arguments directConnection : simpl never.
Local Arguments connectedTo : simpl never.

Lemma execs_app a b : execs (a ++ b) = execs a ++ execs b.
Proof. apply flat_map_app. Qed.
Lemma responses_app a b : responses (a ++ b) = responses a ++ responses b.
Proof. apply flat_map_app. Qed.
Lemma controls_app a b : controls (a ++ b) = controls a ++ controls b.
Proof. apply flat_map_app. Qed.
Lemma execs_retries s j : execs (retries s j) = [].
Proof. induction j; simpl; auto. Qed.
Lemma responses_retries s j : responses (retries s j) = [].
Proof. induction j; simpl; auto. Qed.
Lemma controls_retries s j : controls (retries s j) = [].
Proof. induction j; simpl; auto. Qed.

Lemma WFtx_sent b s : WFtx (sentS b s).
Proof. unfold WFtx. simpl. repeat split; try lia; congruence. Qed.

Definition same_conn (s s' : tl4) : Prop :=
  st s' = st s /\ caddr s' = caddr s /\ seqS s' = seqS s /\ seqR s' = seqR s /\ repC s' = repC s /\ ctime s' = ctime s /\
  stime s' = stime s /\
  b1 s' = b1 s /\ s1 s' = s1 s /\ b2 s' = b2 s /\ s2 s' = s2 s.

Definition quiet (cur : option session) (own : Z) (o : op) (outs : list out) : Prop :=
  execs outs = [] /\ responses outs = [] /\
  forall g, cur = Some g -> match o with OpRx now t _ _ => note_rx g own now t = g | _ => True end.

Lemma directConnection_cur s cur : Inv s cur -> directConnection s = match cur with Some _ => true | None => false end.
Proof.
  intros (_ & _ & _ & _ & _ & _ & I). unfold directConnection. destruct cur as [g|].
  - pose proof (i_open _ _ _ _ _ _ _ _ _ _ _ _ I). destruct (st s); congruence.
  - destruct I as [-> _]. auto.
Qed.

Lemma quiet_extend g own o outs : quiet (Some g) own o outs -> extend g own o outs = g.
Proof.
  intros (E & R & Q). unfold extend. rewrite E, R. specialize (Q g eq_refl). destruct o; simpl; auto.
Qed.

Lemma same_inv s s' cur own0 o outs : Inv s cur -> same_conn s s' ->
  WFtx s' -> app_buffer (txb s') -> is_u16 (own s') -> quiet cur own0 o outs ->
  Inv s' (observe cur own0 o outs (directConnection s') (connectedTo s')).
Proof.
  intros I (E1 & E2 & E3 & E4 & E5 & E6 & E6' & E7 & E8 & E9 & E10) W A O Q.
  pose proof (directConnection_cur _ _ I) as D. unfold directConnection in *. rewrite E1.
  destruct I as (I1 & I2 & I3 & I4 & I5 & I6 & I7).
  unfold observe. destruct cur as [g|].
  - rewrite D. rewrite quiet_extend by auto.
    unfold Inv. rewrite E1, E2, E3, E4, E5, E6, E6', E7, E8, E9, E10. auto 10.
  - destruct I7 as (C1 & C2 & C3). rewrite C1.
    unfold Inv. rewrite E1, E2, E7, E8, E9, E10. auto 10.
Qed.

Lemma closed_inv s' cur own0 o outs : st s' = CLOSED -> s1 s' = FREE -> s2 s' = FREE ->
  WFtx s' -> app_buffer (txb s') -> app_buffer (b1 s') -> app_buffer (b2 s') -> is_u16 (own s') -> is_u16 (caddr s') ->
  Inv s' (observe cur own0 o outs (directConnection s') (connectedTo s')).
Proof. intros E. unfold observe, directConnection. rewrite E. unfold Inv. auto 10. Qed.

Lemma open_inv s' g own0 o outs g' : st s' <> CLOSED -> extend g own0 o outs = g' ->
  WFtx s' -> app_buffer (txb s') -> app_buffer (b1 s') -> app_buffer (b2 s') -> is_u16 (own s') -> is_u16 (caddr s') ->
  InvO (st s') (caddr s') (seqS s') (seqR s') (repC s') (ctime s') (stime s') (b1 s') (s1 s') (b2 s') (s2 s') g' ->
  Inv s' (observe (Some g) own0 o outs (directConnection s') (connectedTo s')).
Proof.
  intros E <-. unfold observe, directConnection.
  destruct (st s') eqn:X; try congruence; intros; unfold Inv; rewrite X; auto 10.
Qed.

Lemma A06_inv s w c cur own0 o : Inv s cur -> actionA06 (mkCfg s w []) = Some c ->
  Inv (cS c) (observe cur own0 o (cO c) (directConnection (cS c)) (connectedTo (cS c))) /\
  exists j, okretries s j /\ cO c = retries s j ++ [Tx KCtrl (frame (controlTelegram (txb s) T_DISCONNECT_PDU (caddr s) 0))] /\
  cS c = resetConnection (sentS (controlTelegram (txb s) T_DISCONNECT_PDU (caddr s) 0) (set_st CLOSED s)).
Proof.
  intros (I1 & I2 & I3 & I4 & I5 & I6 & I7) H. unfold actionA06 in H.
  destruct (sendConControlTelegram _ _ _ _) as [c1|] eqn:E; [|discriminate]. simpl in H. inversion H; subst; clear H.
  apply sendCon_spec in E; [|exact I1]. destruct E as (j & J & E1 & E2). simpl in E1, E2.
  split.
  - apply closed_inv; simpl; rewrite ?E1; simpl; auto.
    + apply WFtx_sent.
    + apply controlTelegram_buffer; auto; [red; unfold T_DISCONNECT_PDU; lia|lia].
  - exists j. split; auto. simpl. rewrite E1, E2. auto.
Qed.

Lemma addressed_own (own : Z) t : (dst t =? 0) = false -> is_group t = false -> (dst t =? own) = true -> addressed_to own t = true.
Proof. intros A B C. unfold addressed_to. rewrite A, B, C. auto. Qed.
Lemma not_addressed (own : Z) t : (dst t =? 0) = true \/ is_group t = true \/ (dst t =? own) = false -> addressed_to own t = false.
Proof.
  intros H. unfold addressed_to. destruct H as [H|[H|H]]; rewrite H; auto. apply andb_false_r.
  rewrite andb_false_r. auto.
Qed.
Lemma note_rx_not_addressed g own now t : addressed_to own t = false -> note_rx g own now t = g.
Proof. intros H. unfold note_rx, matching_ack. rewrite H. auto. Qed.
Lemma note_rx_control g own now t : tpci_control t = true -> matching_ack g own t = false -> note_rx g own now t = g.
Proof. intros H M. unfold note_rx, numbered. rewrite H, M. simpl. rewrite andb_false_r. auto. Qed.
Lemma note_rx_data g own now t : tpci_control t = false -> numbered t = false \/ src t <> peer g -> note_rx g own now t = g.
Proof.
  intros H M. unfold note_rx, matching_ack, is_ack. rewrite H. simpl. rewrite andb_false_r. simpl.
  destruct M as [M|M]; rewrite ?M, ?andb_false_r; auto.
  destruct (Z.eqb_spec (src t) (peer g)); try easy. rewrite andb_false_r. auto.
Qed.

(** the receive path, for telegrams addressed to this device *)
Lemma control_inv s cur now t app w c : Inv s cur -> bytes t -> (dst t =? 0) = false -> is_group t = false ->
  (dst t =? own s) = true -> tpci_control t = true ->
  processConControl (u32 now) (src t) (tpci t) t (mkCfg s w []) = Some c ->
  Inv (cS c) (observe cur (own s) (OpRx now t app w) (cO c) (directConnection (cS c)) (connectedTo (cS c))).
Proof.
  intros I B D0 G DO TC H. pose proof I as I'. destruct I' as (I1 & I2 & I3 & I4 & I5 & I6 & I7).
  pose proof (addressed_own _ _ D0 G DO) as AD.
  pose proof (rd_byte t 6 B) as B6.
  assert (Hc : 128 <= rd t 6) by (unfold tpci_control in TC; lia).
  unfold processConControl in H.
  destruct (tpci t =? T_CONNECT_PDU) eqn:TCN.
  - (* T_CONNECT *)
    assert (M : forall g, matching_ack g (own s) t = false).
    { intros. unfold matching_ack, is_ack, is_connect. unfold T_CONNECT_PDU in TCN. rewrite TCN. simpl.
      rewrite !andb_false_r. auto. }
    unfold processConnect in H. cbn [cS] in H.
    assert (OP : st s <> CLOSED -> (if caddr s =? src t then Some (mkCfg s w []) else actionA10 (src t) (mkCfg s w [])) = Some c ->
       Inv (cS c) (observe cur (own s) (OpRx now t app w) (cO c) (directConnection (cS c)) (connectedTo (cS c)))).
    { intros _ H1. destruct (caddr s =? src t) eqn:CS.
      - inversion H1; subst; clear H1. simpl. apply same_inv with s; auto. repeat split; auto.
        repeat split; auto. intros. apply note_rx_control; auto.
      - unfold actionA10 in H1. apply sendCon_spec in H1; auto. destruct H1 as (j & J & E1 & E2). simpl in E1, E2.
        apply same_inv with s; auto.
        + rewrite E1. repeat split; auto.
        + rewrite E1. apply WFtx_sent.
        + rewrite E1. simpl. apply controlTelegram_buffer; auto; [red; unfold T_DISCONNECT_PDU; lia|lia].
        + rewrite E1. simpl. auto.
        + rewrite E2. split; [|split].
          * rewrite execs_app, execs_retries. auto.
          * rewrite responses_app, responses_retries. auto.
          * intros. apply note_rx_control; auto. }
    destruct (st s) eqn:ST; try (apply OP; [congruence|auto; fail]).
    inversion H; subst; clear H. destruct cur as [g|].
    { exfalso. apply (i_open _ _ _ _ _ _ _ _ _ _ _ _ I7). auto. }
    exact (conj I1 (conj I2 (conj I3 (conj I4 (conj I5 (conj (src_u16 _ B)
             (T_connect _ now (repC s) (stime s) (b1 s) (b2 s) (src_u16 _ B)))))))).
  - destruct (tpci t =? T_DISCONNECT_PDU) eqn:TDN.
    + (* T_DISCONNECT *)
      assert (O1 : rd t 6 mod 2 = 1).
      { unfold tpci, T_DISCONNECT_PDU in TDN. clear - TDN. 
        pose proof (Z.div_mod (rd t 6) 4). pose proof (Z.mod_pos_bound (rd t 6) 4).
        pose proof (Z.div_mod (rd t 6) 2). pose proof (Z.mod_pos_bound (rd t 6) 2). lia. }
      assert (M : forall g, matching_ack g (own s) t = false).
      { intros. unfold matching_ack, is_ack. replace (rd t 6 mod 2 =? 0) with false by lia.
        rewrite !andb_false_r. auto. }
      unfold processDisconnect in H. cbn [cS] in H.
      assert (SAME : Inv s (observe cur (own s) (OpRx now t app w) [] (directConnection s) (connectedTo s))).
      { apply same_inv with s; auto. repeat split; auto. repeat split; auto. intros. apply note_rx_control; auto. }
      destruct (st s) eqn:ST.
      * inversion H; subst. simpl. exact SAME.
      * destruct (src t =? caddr s); inversion H; subst; [apply closed_inv; simpl; auto|exact SAME].
      * destruct (src t =? caddr s); inversion H; subst; [apply closed_inv; simpl; auto|exact SAME].
    + (* acknowledge *)
      unfold processAcknowledge in H.
      assert (TP : tpci t = Z.land (rd t 6) 0xc3) by (unfold tpci; rewrite b_tpci; auto).
      rewrite TP, b_ackmask, b_bit0 in H by auto. cbn [cS] in H.
      assert (NC : is_connect t = false). { unfold is_connect. exact TCN. }
      destruct (rd t 6 mod 2 =? 0) eqn:PAR.
      * (* ACK *)
        assert (IA : is_ack t = true) by (unfold is_ack; rewrite TC, NC, PAR; auto).
        assert (S6 : sequenceNumber t = seqno t).
        { apply sequenceNumber_seqno; auto. intros X. rewrite X in PAR. discriminate. }
        rewrite S6 in H.
        assert (SAME : (forall g, cur = Some g -> matching_ack g (own s) t = false) ->
           Inv s (observe cur (own s) (OpRx now t app w) [] (directConnection s) (connectedTo s))).
        { intros M. apply same_inv with s; auto. repeat split; auto. repeat split; auto.
          intros. apply note_rx_control; auto. }
        destruct (st s) eqn:ST.
        -- inversion H; subst. simpl. apply SAME. intros g ->. exfalso.
           apply (i_open _ _ _ _ _ _ _ _ _ _ _ _ I7). auto.
        -- inversion H; subst. simpl. apply SAME. intros g ->. unfold matching_ack.
           destruct (waiting g) eqn:W. { exfalso. apply (i_wait _ _ _ _ _ _ _ _ _ _ _ _ I7) in W. congruence. }
           rewrite !andb_false_r. auto.
        -- destruct cur as [g|]. 2:{ destruct I7; congruence. }
           assert (W : waiting g = true) by (apply (i_wait _ _ _ _ _ _ _ _ _ _ _ _ I7); auto).
           pose proof (i_nonempty _ _ _ _ _ _ _ _ _ _ _ _ I7 W) as NE.
           pose proof (acked_waiting g W NE) as AW.
           pose proof (i_peer _ _ _ _ _ _ _ _ _ _ _ _ I7) as PE.
           assert (SQ : seqno (hd [] (List.last (groups g) [])) = seqS s).
           { destruct (i_groups _ _ _ _ _ _ _ _ _ _ _ _ I7 (acked g) ltac:(lia)) as (f & k & req & r & G1 & _ & _ & G4).
             pose proof (app_removelast_last [] NE) as SPL.
             assert (LR : length (removelast (groups g)) = acked g).
             { rewrite SPL, app_length in AW. simpl in AW. lia. }
             rewrite SPL, app_nth2, LR, Nat.sub_diag in G1 by lia. simpl in G1. rewrite G1. simpl.
             rewrite (i_seqS _ _ _ _ _ _ _ _ _ _ _ _ I7). apply G4. }
           destruct (caddr s =? src t) eqn:CS; simpl in H.
           2:{ inversion H; subst. simpl. apply SAME. intros g0 X. inversion X; subst g0. unfold matching_ack.
               rewrite <- PE. rewrite Z.eqb_sym, CS. rewrite andb_false_r. auto. }
           destruct (seqno t =? seqS s) eqn:SE; simpl in H.
           2:{ apply (A06_inv _ _ _ _ _ _ I H). }
           inversion H; subst; clear H. simpl.
           assert (M : matching_ack g (own s) t = true).
           { unfold matching_ack. rewrite AD, IA, <- PE, Z.eqb_sym, CS, W, SQ, SE. auto. }
           assert (EXT : extend g (own s) (OpRx now t app w) [] = g_ack g now).
           { unfold extend. simpl. unfold note_rx, numbered. rewrite TC. simpl. rewrite andb_false_r. simpl. rewrite M. auto. }
           pose proof (T_ack _ _ _ _ _ _ _ _ _ _ _ now _ I7 W I3 I4) as T.
           apply open_inv with (g' := g_ack g now); auto.
           ++ simpl. congruence.
           ++ unfold actionA08. simpl. destruct (s2 s); simpl; auto.
           ++ unfold actionA08. simpl. destruct (s2 s); simpl; auto.
           ++ unfold actionA08. simpl. destruct (s2 s); simpl; auto; apply app_buffer_blit; auto;
                pose proof (telegramSize_range _ (proj2 I4)); lia.
           ++ unfold actionA08. simpl. destruct (s2 s); simpl; auto.
           ++ unfold actionA08. simpl. destruct (s2 s); simpl; auto.
           ++ unfold actionA08. simpl. destruct (s2 s); simpl; auto.
           ++ unfold actionA08. simpl. destruct (s2 s) eqn:E2; simpl in *; auto.
              rewrite E2. exact T.
      * (* NACK *)
        assert (M : forall g, matching_ack g (own s) t = false).
        { intros. unfold matching_ack, is_ack. rewrite PAR. rewrite !andb_false_r. auto. }
        assert (SAME : Inv s (observe cur (own s) (OpRx now t app w) [] (directConnection s) (connectedTo s))).
        { apply same_inv with s; auto. repeat split; auto. repeat split; auto. intros. apply note_rx_control; auto. }
        destruct (_ || _ || _)%bool eqn:C1 in H.
        { inversion H; subst. simpl. auto. }
        destruct (_ && _)%bool eqn:C2 in H.
        2:{ apply (A06_inv _ _ _ _ _ _ I H). }
        apply andb_prop in C2 as [C2 C3]. destruct (st s) eqn:ST; try discriminate.
        destruct cur as [g|]. 2:{ destruct I7; congruence. }
        assert (W : waiting g = true) by (apply (i_wait _ _ _ _ _ _ _ _ _ _ _ _ I7); auto).
        unfold actionA09 in H. destruct (sendPreparedConnectedTelegram _) as [c1|] eqn:E; [|discriminate].
        apply sendPCT_spec in E; auto. destruct E as (j & J & E1 & E2). simpl in E1, E2.
        inversion H; subst; clear H. simpl.
        assert (EXT : extend g (own s) (OpRx now t app w) (cO c1) = g_tx g now (frame (b1 s))).
        { unfold extend. rewrite E2, execs_app, execs_retries, responses_app, responses_retries. simpl.
          rewrite note_rx_control by auto. auto. }
        apply open_inv with (g' := g_tx g now (frame (b1 s))); auto; rewrite ?E1; simpl; auto; try congruence.
        ++ apply (WFtx_sent (blit (txb s) (b1 s) (telegramSize (b1 s))) s).
        ++ apply app_buffer_blit; auto. pose proof (telegramSize_range _ (proj2 I3)); lia.
        ++ rewrite ST. eapply T_rep; eauto. unfold TL4_MAX_REPETITION_COUNT in C2. lia.
Qed.

Lemma direct_inv s cur now t app w c : Inv s cur -> bytes t -> app_buffer (snd app) -> (dst t =? 0) = false -> is_group t = false ->
  (dst t =? own s) = true -> tpci_control t = false ->
  processDirect (u32 now) t app (mkCfg s w []) = Some c ->
  Inv (cS c) (observe cur (own s) (OpRx now t app w) (cO c) (directConnection (cS c)) (connectedTo (cS c))).
Proof.
  intros I B AB D0 G DO TC H. pose proof I as I'. destruct I' as (I1 & I2 & I3 & I4 & I5 & I6 & I7).
  pose proof (addressed_own _ _ D0 G DO) as AD.
  pose proof (rd_byte t 6 B) as B6.
  unfold processDirect in H. rewrite b_fc, src_sender in H by auto.
  destruct (4 <=? rd t 6) eqn:N4; cbn [negb] in H.
  2:{ (* connectionless *)
    destruct (acquireSendBuffer _) as [c1|] eqn:E in H; [|discriminate].
    unfold acquireSendBuffer in E. apply acquire_spec in E; auto. destruct E as (j & J1 & J2 & E1 & E2). simpl in E1, E2, J1, J2.
    fold (retries s j) in E2.
    assert (Q : forall l, (forall o, In o l -> (exists x, o = ExecDirect x) \/ (exists x, o = Tx KDirect x)) ->
       quiet cur (own s) (OpRx now t app w) (retries s j ++ l)).
    { intros l Hl. assert (execs l = [] /\ responses l = []) as [X1 X2].
      { clear - Hl. induction l as [|o l IH]; simpl; auto. destruct IH as [Y1 Y2]. { intros; apply Hl; right; auto. }
        destruct (Hl o) as [[x ->]|[x ->]]; simpl; auto. }
      split; [|split]. rewrite execs_app, execs_retries; auto. rewrite responses_app, responses_retries; auto.
      intros. apply note_rx_data; auto. left. unfold numbered. rewrite N4. apply andb_false_r. }
    destruct app as [[|] resp]; simpl in H, AB; inversion H; subst; clear H; simpl; rewrite E1, E2; simpl.
    - apply same_inv with s; auto; simpl; auto. repeat split; auto.
      unfold WFtx; simpl. repeat split; try lia; congruence.
      rewrite <- app_assoc. apply Q. intros o [<-|[<-|[]]]; eauto.
    - apply same_inv with s; auto; simpl; auto. repeat split; auto.
      unfold WFtx; simpl. repeat split; try lia; congruence.
      apply Q. intros o [<-|[]]; eauto. }
  assert (NB : numbered t = true) by (unfold numbered; rewrite TC, N4; auto).
  assert (S6 : sequenceNumber t = seqno t).
  { apply sequenceNumber_seqno; auto. unfold tpci_control in TC. lia. }
  rewrite S6 in H. cbn [cS] in H.
  destruct (negb (caddr s =? src t) || _)%bool eqn:C1 in H.
  { inversion H; subst. simpl. apply same_inv with s; auto. repeat split; auto. repeat split; auto.
    intros g ->. apply note_rx_data; auto. right. intros X.
    pose proof (i_peer _ _ _ _ _ _ _ _ _ _ _ _ I7). pose proof (i_open _ _ _ _ _ _ _ _ _ _ _ _ I7).
    destruct (st s); try congruence; simpl in C1; lia. }
  apply orb_false_iff in C1 as [C1 C2].
  destruct cur as [g|]. 2:{ destruct I7 as [X _]. rewrite X in C2. discriminate. }
  pose proof (i_peer _ _ _ _ _ _ _ _ _ _ _ _ I7) as PE. pose proof (i_open _ _ _ _ _ _ _ _ _ _ _ _ I7) as OP.
  assert (NR : note_rx g (own s) now t = g_rx g t now).
  { unfold note_rx. rewrite AD, NB. replace (src t =? peer g) with true by lia. reflexivity. }
  pose proof (seqno_range t) as SR.
  destruct (seqno t =? seqR s) eqn:C3 in H.
  { (* A02 *)
    unfold actionA02 in H. cbn [cS] in H.
    destruct (sendConControlTelegram _ _ _ _) as [c1|] eqn:E in H; [|discriminate].
    apply sendCon_spec in E; auto. destruct E as (j & J & E1 & E2). simpl in E1, E2.
    assert (AC : app_buffer (controlTelegram (txb s) T_ACK_PDU (caddr s) (seqno t))).
    { apply controlTelegram_buffer; auto. red; unfold T_ACK_PDU; lia. }
    assert (EX : forall outs, outs = cO c1 ++ [Exec t] -> extend g (own s) (OpRx now t app w) outs = note_exec (g_rx g t now) app t).
    { intros outs ->. unfold extend. rewrite E2, <- !app_assoc, !execs_app, execs_retries, !responses_app, responses_retries. simpl.
      rewrite NR. auto. }
    assert (SE : seqno t = seqR s) by lia.
    destruct c1 as [cs1 cw1 co1]. simpl in E1, E2, EX. subst cs1.
    destruct app as [[|] resp]; simpl in AB, H.
    - destruct (s1 s) eqn:S1; simpl in H; inversion H; subst; clear H; simpl.
      + eapply open_inv; [simpl; auto|apply EX; auto|..]; simpl; auto.
        * apply (WFtx_sent (controlTelegram (txb s) T_ACK_PDU (caddr s) (seqno t)) s).
        * apply finishResponse_buffer; auto. rewrite (i_seqS _ _ _ _ _ _ _ _ _ _ _ _ I7). apply mod16_range.
        * eapply T_exec1_resp; eauto.
      + eapply open_inv; [simpl; auto|apply EX; auto|..]; simpl; auto.
        * apply (WFtx_sent (controlTelegram (txb s) T_ACK_PDU (caddr s) (seqno t)) s).
        * apply finishResponse_buffer; auto. rewrite (i_seqS _ _ _ _ _ _ _ _ _ _ _ _ I7), mod16_S. apply mod16_range.
        * rewrite S1. eapply T_exec2_resp; eauto. congruence.
      + eapply open_inv; [simpl; auto|apply EX; auto|..]; simpl; auto.
        * apply (WFtx_sent (controlTelegram (txb s) T_ACK_PDU (caddr s) (seqno t)) s).
        * apply finishResponse_buffer; auto. rewrite (i_seqS _ _ _ _ _ _ _ _ _ _ _ _ I7), mod16_S. apply mod16_range.
        * rewrite S1. eapply T_exec2_resp; eauto. congruence.
    - destruct (s1 s) eqn:S1; simpl in H; inversion H; subst; clear H; simpl.
      + eapply open_inv; [simpl; auto|apply EX; auto|..]; simpl; auto.
        * apply (WFtx_sent (controlTelegram (txb s) T_ACK_PDU (caddr s) (seqno t)) s).
        * eapply T_exec1_none; eauto.
      + eapply open_inv; [simpl; auto|apply EX; auto|..]; simpl; auto.
        * apply (WFtx_sent (controlTelegram (txb s) T_ACK_PDU (caddr s) (seqno t)) s).
        * rewrite S1. eapply T_exec2_none; eauto. congruence.
      + eapply open_inv; [simpl; auto|apply EX; auto|..]; simpl; auto.
        * apply (WFtx_sent (controlTelegram (txb s) T_ACK_PDU (caddr s) (seqno t)) s).
        * rewrite S1. eapply T_exec2_none; eauto. congruence. }
  assert (NE : seqno t <> seqR s) by lia.
  assert (forall cmd c1, is_byte cmd -> sendConControlTelegram cmd (caddr s) (seqno t) (mkCfg s w []) = Some c1 ->
     c = upd (set_ctime (u32 now)) c1 ->
     Inv (cS c) (observe (Some g) (own s) (OpRx now t app w) (cO c) (directConnection (cS c)) (connectedTo (cS c)))) as FIN.
  { intros cmd c1 BC E ->. apply sendCon_spec in E; auto. destruct E as (j & J & E1 & E2). simpl in E1, E2. simpl.
    eapply open_inv with (g' := g_rx g t now); rewrite ?E1; simpl; auto.
    - unfold extend. rewrite E2, execs_app, execs_retries, responses_app, responses_retries. simpl. auto.
    - apply (WFtx_sent (controlTelegram (txb s) cmd (caddr s) (seqno t)) s).
    - apply controlTelegram_buffer; auto.
    - eapply T_rx; eauto. }
  destruct (seqno t =? Z.land (seqR s - 1) 15) in H.
  - unfold actionA03 in H. cbn [cS] in H. destruct (sendConControlTelegram _ _ _ _) as [c1|] eqn:E in H; [|discriminate].
    simpl in H. inversion H; subst. apply (FIN T_ACK_PDU c1); auto. red; unfold T_ACK_PDU; lia.
  - unfold actionA04 in H. cbn [cS] in H. destruct (sendConControlTelegram _ _ _ _) as [c1|] eqn:E in H; [|discriminate].
    simpl in H. inversion H; subst. apply (FIN T_NACK_PDU c1); auto. red; unfold T_NACK_PDU; lia.
Qed.

Lemma elapsed_self now : elapsed now now = 0.
Proof. unfold elapsed. rewrite Z.sub_diag. reflexivity. Qed.

Lemma A07_spec s w now c : WFtx s -> app_buffer (txb s) -> app_buffer (b1 s) ->
  st s = OPEN_IDLE -> s1 s = ACQUIRED -> actionA07 now (mkCfg s w []) = Some c ->
  exists j, okretries s j /\
    cS c = set_ctime now (set_stime now (set_repC 0 (sentS (blit (txb s) (b1 s) (telegramSize (b1 s))) (set_s1 SENDING (set_st OPEN_WAIT s))))) /\
    cO c = retries s j ++ [Tx KResp (frame (b1 s))].
Proof.
  intros W A1 A2 ST S1 H. unfold actionA07 in H. cbn [cS] in H. rewrite ST, S1 in H.
  destruct (sendPreparedConnectedTelegram _) as [c1|] eqn:E in H; [|discriminate].
  apply sendPCT_spec in E; auto. destruct E as (j & J & E1 & E2). exists j.
  destruct c1 as [cs1 cw1 co1]. cbn [cS cO] in E1, E2. subst cs1 co1.
  cbn [andThen] in H. inversion H; subst; clear H. cbn [cS cO upd]. auto.
Qed.

Lemma loop_inv s cur now c own0 : Inv s cur -> loop (u32 now) (mkCfg s [] []) = Some c ->
  Inv (cS c) (observe cur own0 (OpLoop now) (cO c) (directConnection (cS c)) (connectedTo (cS c))).
Proof.
  intros I H. pose proof I as I'. destruct I' as (I1 & I2 & I3 & I4 & I5 & I6 & I7).
  assert (SAME : Inv s (observe cur own0 (OpLoop now) [] (directConnection s) (connectedTo s))).
  { apply same_inv with s; auto. repeat split; auto. repeat split; auto. }
  unfold loop in H. cbn [cS] in H. destruct (txs s) eqn:TX; try (inversion H; subst; simpl; exact SAME).
  assert (REP : forall c, st s = OPEN_WAIT -> loopRepeat (u32 now) (mkCfg s [] []) = Some c ->
     Inv (cS c) (observe cur own0 (OpLoop now) (cO c) (directConnection (cS c)) (connectedTo (cS c)))).
  { clear c H. intros c ST H. unfold loopRepeat in H. cbn [cS] in H. rewrite ST in H.
    destruct (_ <=? _) in H; [|inversion H; subst; exact SAME].
    destruct (repC s <? _) eqn:R in H.
    2:{ apply (A06_inv _ _ _ _ _ _ I H). }
    unfold TL4_MAX_REPETITION_COUNT in R.
    destruct cur as [g|]. 2:{ destruct I7; congruence. }
    assert (W : waiting g = true) by (apply (i_wait _ _ _ _ _ _ _ _ _ _ _ _ I7); auto).
    unfold actionA09 in H. destruct (sendPreparedConnectedTelegram _) as [c1|] eqn:E; [|discriminate].
    apply sendPCT_spec in E; auto. destruct E as (j & J & E1 & E2). simpl in E1, E2.
    inversion H; subst; clear H. simpl.
    eapply open_inv with (g' := g_tx g now (frame (b1 s))); rewrite ?E1; simpl; auto; try congruence.
    - unfold extend. rewrite E2, responses_app, responses_retries. auto.
    - apply (WFtx_sent (blit (txb s) (b1 s) (telegramSize (b1 s))) s).
    - apply app_buffer_blit; auto. pose proof (telegramSize_range _ (proj2 I3)); lia.
    - rewrite ST. rewrite ST in I7. eapply T_rep; eauto. lia. }
  unfold loopTimeout in H. cbn [cS] in H.
  destruct (st s) eqn:ST.
  - (* closed *)
    simpl in H. unfold loopSend, loopRepeat in H. cbn [cS] in H. rewrite ST in H. simpl in H. rewrite ST in H.
    inversion H; subst. exact SAME.
  - destruct (_ <=? _) in H.
    + destruct (actionA06 _) as [c1|] eqn:E in H; [|discriminate]. simpl in H.
      pose proof (A06_inv _ _ _ _ own0 (OpLoop now) I E) as E'. clear E. rename E' into E. destruct E as (E & j & J & O1 & S1).
      assert (STc : st (cS c1) = CLOSED) by (rewrite S1; reflexivity).
      unfold loopSend, loopRepeat in H. rewrite STc in H. simpl in H. rewrite STc in H. inversion H; subst. exact E.
    + simpl in H. unfold loopSend in H. cbn [cS] in H. rewrite ST in H.
      destruct (s1 s) eqn:S1; simpl in H;
        try (unfold loopRepeat in H; cbn [cS] in H; rewrite ST in H; inversion H; subst; exact SAME).
      (* A07 *)
      destruct (actionA07 _ _) as [c1|] eqn:E in H; [|discriminate]. simpl in H.
      apply A07_spec in E; auto. destruct E as (j & J & E1 & E2).
      assert (c = c1) as ->.
      { unfold loopRepeat in H. rewrite E1 in H. simpl (st _) in H. simpl (stime _) in H. cbv iota in H.
        rewrite elapsed_self in H. change (TL4_T_ACK_TIMEOUT_MS <=? 0) with false in H. cbv iota in H. congruence. }
      destruct cur as [g|]. 2:{ destruct I7; congruence. }
      assert (EXT : extend g own0 (OpLoop now) (cO c1) = g_tx g now (frame (b1 s))).
      { unfold extend. rewrite E2, responses_app, responses_retries. auto. }
      eapply open_inv; [rewrite E1; simpl; congruence|exact EXT|..]; rewrite E1; simpl; auto.
      * apply (WFtx_sent (blit (txb s) (b1 s) (telegramSize (b1 s))) s).
      * apply app_buffer_blit; auto. pose proof (telegramSize_range _ (proj2 I3)); lia.
      * eapply T_send; eauto.
  - destruct (_ <=? _) in H.
    + destruct (actionA06 _) as [c1|] eqn:E in H; [|discriminate]. simpl in H.
      pose proof (A06_inv _ _ _ _ own0 (OpLoop now) I E) as E'. clear E. rename E' into E. destruct E as (E & j & J & O1 & S1).
      assert (STc : st (cS c1) = CLOSED) by (rewrite S1; reflexivity).
      unfold loopSend, loopRepeat in H. rewrite STc in H. simpl in H. rewrite STc in H. inversion H; subst. exact E.
    + simpl in H. unfold loopSend in H. cbn [cS] in H. rewrite ST in H. simpl in H. apply REP; auto.
Qed.

Theorem step_inv s cur o s' outs : Inv s cur -> op_ok o -> step s o = Some (s', outs) ->
  Inv s' (observe cur (own s) o outs (directConnection s') (connectedTo s')).
Proof.
  intros I OK H. unfold step in H. destruct (stepCfg s o) as [c|] eqn:E; [|discriminate].
  inversion H; subst; clear H. pose proof I as I'. destruct I' as (I1 & I2 & I3 & I4 & I5 & I6 & I7).
  destruct o as [now t app w|now|ok|buf w|w|a]; simpl in E, OK.
  - destruct OK as [B AB]. rewrite processTelegram_eq in E by auto. cbn [cS] in E.
    assert (SK : forall l, execs l = [] -> responses l = [] -> addressed_to (own s) t = false ->
       Inv s (observe cur (own s) (OpRx now t app w) l (directConnection s) (connectedTo s))).
    { intros l E1 E2 AD. apply same_inv with s; auto. repeat split; auto. repeat split; auto.
      intros. apply note_rx_not_addressed; auto. }
    destruct (dst t =? 0) eqn:D0. { inversion E; subst; simpl. apply SK; auto. apply not_addressed; auto. }
    destruct (is_group t) eqn:G. { inversion E; subst; simpl. apply SK; auto. apply not_addressed; auto. }
    destruct (dst t =? own s) eqn:DO; simpl in E.
    2:{ inversion E; subst; simpl. apply SK; auto. apply not_addressed; auto. }
    destruct (tpci_control t) eqn:TC.
    + eapply control_inv; eauto.
    + eapply direct_inv; eauto.
  - eapply loop_inv; eauto.
  - assert (SAME : Inv s (observe cur (own s) (OpTxDone ok) [] (directConnection s) (connectedTo s))).
    { apply same_inv with s; auto. repeat split; auto. repeat split; auto. }
    destruct (txs s) eqn:TX; try (inversion E; subst; exact SAME).
    rewrite finished_cases in E. destruct I1 as (W1 & W2 & W3 & W4).
    destruct (negb _) eqn:C1 in E.
    + destruct (_ && _) eqn:C2 in E; inversion E; subst; simpl; apply same_inv with s; simpl; auto;
        try (repeat split; auto; fail).
      * unfold WFtx; simpl. unfold is_ctl. repeat split; try congruence; lia.
      * unfold WFtx; simpl. repeat split; try congruence; lia.
    + inversion E; subst; simpl; apply same_inv with s; simpl; auto; try (repeat split; auto; fail).
      unfold WFtx; simpl. assert (ccRep s = 0) by (apply W4; auto; unfold is_ctl; lia).
      repeat split; try congruence; lia.
  - destruct (acquireSendBuffer _) as [c1|] eqn:A in E; [|discriminate].
    unfold acquireSendBuffer in A. apply acquire_spec in A; auto. destruct A as (j & J1 & J2 & E1 & E2). simpl in E1, E2.
    simpl in E. inversion E; subst; clear E. simpl. rewrite E1, E2. simpl.
    apply same_inv with s; simpl; auto.
    + repeat split; auto.
    + unfold WFtx; simpl. repeat split; try lia; congruence.
    + fold (retries s j). split; [|split].
      * rewrite execs_app, execs_retries; auto.
      * rewrite responses_app, responses_retries; auto.
      * auto.
  - apply (A06_inv _ _ _ _ _ _ I E).
  - inversion E; subst; simpl. apply same_inv with s; simpl; auto.
    + repeat split; auto.
    + apply u16_u16.
    + repeat split; auto.
Qed.

Lemma init_inv a : Inv (init a) None.
Proof.
  unfold Inv, init, WFtx; simpl.
  assert (app_buffer (repeat 0 TL4_BUFFER_SIZE)).
  { split. apply repeat_length. apply Forall_forall. intros x Hx. apply repeat_spec in Hx. subst; red; lia. }
  repeat split; auto; try lia; try congruence; try apply H; try apply u16_u16.
Qed.

Lemma run_inv ops : forall s cur s' cur', Inv s cur -> Forall op_ok ops -> run s cur ops = Some (s', cur') -> Inv s' cur'.
Proof.
  induction ops as [|o ops IH]; intros s cur s' cur' I F H; simpl in H.
  - inversion H; subst; auto.
  - inversion F; subst. destruct (step s o) as [[s1 outs]|] eqn:E; [|discriminate].
    eapply IH; [|eauto|eauto]. eapply step_inv; eauto.
Qed.

Theorem reachable_inv a s cur : reachable a s cur -> Inv s cur.
Proof. intros (ops & F & H). eapply run_inv; eauto. apply init_inv. Qed.
