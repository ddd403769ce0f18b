(** The main loop of the transport layer in reachable states. *)
From Verif Require Import Base Bits Telegram_Model Telegram_Spec Telegram_Proofs TL4_Model TL4_Spec TL4_Proofs TL4_Inv TL4_Step TL4_Theorems TL4_Events.

Lemma elapsed_u32 a b : elapsed (u32 a) (u32 b) = u32 (a - b).
Proof. unfold elapsed, u32. rewrite Zminus_mod_idemp_l, Zminus_mod_idemp_r. reflexivity. Qed.
Lemma u32_small a : 0 <= a < 2^32 -> u32 a = a.
Proof. intros. unfold u32. apply Z.mod_small. auto. Qed.

Lemma A06_closes s g w c : Inv s (Some g) -> actionA06 (mkCfg s w []) = Some c ->
  closes_with_disconnect (peer g) (cS c) (cO c) /\ txs (cS c) = SENDING.
Proof.
  intros I X. pose proof I as I0. apply (A06_inv _ _ _ _ 0 (OpLoop 0) I) in X. destruct X as (_ & j & J & E1 & E2).
  destruct I0 as (I1 & I2 & I3 & I4 & I5 & I6 & I7).
  pose proof (i_peer _ _ _ _ _ _ _ _ _ _ _ _ I7) as PE. pose proof (i_peer16 _ _ _ _ _ _ _ _ _ _ _ _ I7) as P16.
  split; [|rewrite E2; auto].
  unfold closes_with_disconnect. rewrite E1, E2, execs_app, responses_app, controls_app, execs_retries, responses_retries, controls_retries.
  split; auto. split; auto. split; auto. simpl. eexists. split; [reflexivity|]. rewrite PE. apply ctl_frame; auto. lia.
Qed.

Lemma loop_busy s now s' outs : txs s <> FREE -> step s (OpLoop now) = Some (s', outs) -> s' = s /\ outs = [].
Proof.
  intros T H. apply step_cfg in H. destruct H as (c & H & -> & ->). simpl in H. unfold loop in H. cbn [cS] in H.
  destruct (txs s); try congruence; inversion H; auto.
Qed.

Lemma loop_timeout s g now s' outs : Inv s (Some g) -> bus_free s -> 6000 <= now - last g < 2^32 ->
  step s (OpLoop now) = Some (s', outs) -> closes_with_disconnect (peer g) s' outs.
Proof.
  intros I T D H. apply step_cfg in H. destruct H as (c & H & -> & ->). simpl in H. unfold loop in H. cbn [cS] in H.
  unfold bus_free in T. rewrite T in H. pose proof I as I0. destruct I0 as (I1 & I2 & I3 & I4 & I5 & I6 & I7).
  pose proof (i_open _ _ _ _ _ _ _ _ _ _ _ _ I7) as OP. pose proof (i_time _ _ _ _ _ _ _ _ _ _ _ _ I7) as CT.
  unfold loopTimeout in H. cbn [cS] in H. rewrite CT, elapsed_u32, u32_small in H by lia.
  unfold TL4_CONNECTION_TIMEOUT_MS in H. replace (6000 <=? now - last g) with true in H by lia.
  assert (H' : (actionA06 (mkCfg s [] []) >>= loopSend (u32 now) >>= loopRepeat (u32 now)) = Some c).
  { destruct (st s); try congruence; auto. }
  clear H. destruct (actionA06 _) as [c1|] eqn:E; [|discriminate]. simpl in H'.
  destruct (A06_closes _ _ _ _ I E) as [X _]. 
  assert (STc : st (cS c1) = CLOSED). { destruct X as [X _]. unfold directConnection in X. destruct (st (cS c1)); congruence. }
  unfold loopSend, loopRepeat in H'. rewrite STc in H'. simpl in H'. rewrite STc in H'. inversion H'; subst. auto.
Qed.

(** before the timeout: idle connections with nothing to send *)
Lemma loop_early s g now s' outs : Inv s (Some g) -> bus_free s -> 0 <= now - last g < 6000 ->
  step s (OpLoop now) = Some (s', outs) ->
  (waiting g = true -> 0 <= now - sent_at g < 2^32) ->
  connectedTo s' = (if directConnection s' then peer g else 0) /\ execs outs = [] /\
  if waiting g
  then if now - sent_at g <? 3000 then s' = s /\ outs = []
       else if (copies g <? 4)%nat
            then directConnection s' = true /\ controls outs = [] /\ responses outs = [hd [] (List.last (groups g) [])] /\ txs s' = SENDING
            else closes_with_disconnect (peer g) s' outs /\ txs s' = SENDING
  else directConnection s' = true /\ controls outs = [] /\
       (match s1 s with
        | ACQUIRED => responses outs = [frame (b1 s)] /\ txs s' = SENDING
        | _ => s' = s /\ outs = []
        end).
Proof.
  intros I T D H SA. apply step_cfg in H. destruct H as (c & H & -> & ->). simpl in H. unfold loop in H. cbn [cS] in H.
  unfold bus_free in T. rewrite T in H. pose proof I as I0. destruct I0 as (I1 & I2 & I3 & I4 & I5 & I6 & I7).
  pose proof (i_open _ _ _ _ _ _ _ _ _ _ _ _ I7) as OP. pose proof (i_time _ _ _ _ _ _ _ _ _ _ _ _ I7) as CT.
  pose proof (i_peer _ _ _ _ _ _ _ _ _ _ _ _ I7) as PE.
  pose proof (i_wait _ _ _ _ _ _ _ _ _ _ _ _ I7) as WT.
  unfold loopTimeout in H. cbn [cS] in H. rewrite CT, elapsed_u32, u32_small in H by lia.
  unfold TL4_CONNECTION_TIMEOUT_MS in H. replace (6000 <=? now - last g) with false in H by lia.
  assert (H' : (loopSend (u32 now) (mkCfg s [] []) >>= loopRepeat (u32 now)) = Some c).
  { destruct (st s); try congruence; auto. }
  clear H. assert (CTO : forall x, caddr x = caddr s -> connectedTo x = (if directConnection x then peer g else 0)).
  { intros x X. unfold connectedTo. rewrite X, PE. auto. }
  destruct (waiting g) eqn:W.
  - assert (ST : st s = OPEN_WAIT) by (apply WT; auto).
    unfold loopSend in H'. cbn [cS] in H'. rewrite ST in H'. simpl in H'. unfold loopRepeat in H'. cbn [cS] in H'. rewrite ST in H'.
    rewrite (i_stime _ _ _ _ _ _ _ _ _ _ _ _ I7 W), elapsed_u32, u32_small in H' by auto.
    destruct (i_sending _ _ _ _ _ _ _ _ _ _ _ _ I7 W) as (S1 & RC & LG).
    unfold TL4_T_ACK_TIMEOUT_MS in H'. destruct (Z.ltb_spec (now - sent_at g) 3000).
    { replace (3000 <=? now - sent_at g) with false in H' by lia. inversion H'; subst. simpl. auto. }
    replace (3000 <=? now - sent_at g) with true in H' by lia.
    unfold copies. rewrite LG, repeat_length. unfold TL4_MAX_REPETITION_COUNT in H'.
    destruct (Z.ltb_spec (repC s) 3).
    + replace (S (Z.to_nat (repC s)) <? 4)%nat with true by (symmetry; apply Nat.ltb_lt; lia).
      unfold actionA09 in H'. destruct (sendPreparedConnectedTelegram _) as [c1|] eqn:E; [|discriminate].
      apply sendPCT_spec in E; auto. destruct E as (j & J & E1 & E2). simpl in E1, E2.
      inversion H'; subst; clear H'. cbn [upd cS cO]. rewrite E1, E2.
      split; [apply CTO; auto|]. rewrite execs_app, controls_app, responses_app, execs_retries, controls_retries, responses_retries.
      split; auto. split; [unfold directConnection; simpl; rewrite ST; auto|]. auto.
    + replace (S (Z.to_nat (repC s)) <? 4)%nat with false by (symmetry; apply Nat.ltb_ge; lia).
      destruct (A06_closes _ _ _ _ I H') as [X Y]. split; [|split; [apply X|auto]].
      destruct X as [X _]. unfold connectedTo. rewrite X. auto.
  - assert (ST : st s = OPEN_IDLE). { destruct (st s) eqn:X; auto; [congruence|]. destruct WT as [_ WT]. specialize (WT eq_refl). congruence. }
    assert (DC : directConnection s = true) by (unfold directConnection; rewrite ST; auto).
    unfold loopSend in H'. cbn [cS] in H'. rewrite ST in H'.
    destruct (s1 s) eqn:S1; cbn [andThen] in H'.
    + unfold loopRepeat in H'. cbn [cS] in H'. rewrite ST in H'. inversion H'; subst. cbn [cS cO]. split; [apply CTO; auto|]. auto 10.
    + destruct (actionA07 _ _) as [c1|] eqn:E; [|discriminate]. cbn [andThen] in H'.
      apply A07_spec in E; auto. destruct E as (j & J & E1 & E2).
      unfold loopRepeat in H'. rewrite E1 in H'. simpl (st _) in H'. simpl (stime _) in H'. cbv iota in H'.
      rewrite elapsed_self in H'. change (TL4_T_ACK_TIMEOUT_MS <=? 0) with false in H'. cbv iota in H'.
      inversion H'; subst. rewrite E1, E2.
      split; [apply CTO; auto|]. rewrite execs_app, controls_app, responses_app, execs_retries, controls_retries, responses_retries.
      auto 10.
    + unfold loopRepeat in H'. cbn [cS] in H'. rewrite ST in H'. inversion H'; subst. cbn [cS cO]. split; [apply CTO; auto|]. auto 10.
Qed.

(** ** Giving up: no acknowledge ever arrives *)
Lemma txdone_true s cur s' outs : Inv s cur -> step s (OpTxDone true) = Some (s', outs) -> outs = [] /\ txs s' = FREE /\ connection s' = connection s.
Proof.
  intros (I1 & _) H. apply step_cfg in H. destruct H as (c & H & -> & ->). simpl in H.
  destruct (txs s) eqn:TX; [inversion H; subst; auto|destruct I1; congruence|].
  rewrite finished_cases in H. destruct (negb _) in H; simpl in H; inversion H; subst; auto.
Qed.

Lemma run_app ops1 : forall s cur ops2, run s cur (ops1 ++ ops2) =
  match run s cur ops1 with Some (s', cur') => run s' cur' ops2 | None => None end.
Proof.
  induction ops1 as [|o ops1 IH]; intros; simpl; auto. destruct (step s o) as [[s' outs]|]; auto.
Qed.

Lemma closed_rounds ts : forall s s' cur', Inv s None -> run s None (flat_map give_up_round ts) = Some (s', cur') -> cur' = None.
Proof.
  induction ts as [|t ts IH]; intros s s' cur' I H; simpl in H; [congruence|].
  destruct (step s (OpLoop t)) as [[x1 o1]|] eqn:E1; [|discriminate].
  pose proof (step_inv _ (_) (OpLoop t) _ _ I Logic.I E1) as Y1.
  destruct (opens_only_by_connect _ (OpLoop t) _ _ I Logic.I E1) as (_ & _ & N1).
  assert (D1 : directConnection x1 = false).
  { destruct (directConnection x1); auto. destruct N1 as (? & ? & ? & ? & X & _); auto. discriminate. }
  unfold observe in *. rewrite D1 in *.
  destruct (step x1 (OpTxDone true)) as [[x2 o2]|] eqn:E2; [|discriminate].
  pose proof (step_inv _ _ (OpTxDone true) _ _ Y1 Logic.I E2) as Y2.
  destruct (opens_only_by_connect _ (OpTxDone true) _ _ Y1 Logic.I E2) as (_ & _ & N2).
  assert (D2 : directConnection x2 = false).
  { destruct (directConnection x2); auto. destruct N2 as (? & ? & ? & ? & X & _); auto. discriminate. }
  unfold observe in *. rewrite D2 in *. eauto.
Qed.

Lemma gives_up ts : forall s g s' cur', Inv s (Some g) -> bus_free s -> waiting g = true ->
  spaced (sent_at g) ts -> (forall t, hd_error ts = Some t -> 0 <= t - last g < 2^32) ->
  (5 <= copies g + length ts)%nat ->
  run s (Some g) (flat_map give_up_round ts) = Some (s', cur') -> cur' = None.
Proof.
  induction ts as [|t ts IH]; intros s g s' cur' I T W SP HD L H.
  - exfalso. destruct I as (_ & _ & _ & _ & _ & _ & I7).
    destruct (i_sending _ _ _ _ _ _ _ _ _ _ _ _ I7 W) as (S1 & RC & LG).
    unfold copies in L. rewrite LG, repeat_length in L. simpl in L. lia.
  - simpl in SP. destruct SP as [SP1 SP2]. specialize (HD t eq_refl).
    simpl in H. destruct (step s (OpLoop t)) as [[x1 o1]|] eqn:E1; [|discriminate].
    pose proof (step_inv _ (_) (OpLoop t) _ _ I Logic.I E1) as Y1.
    destruct (step x1 (OpTxDone true)) as [[x2 o2]|] eqn:E2; [|discriminate].
    pose proof (step_inv _ _ (OpTxDone true) _ _ Y1 Logic.I E2) as Y2.
    assert (CASE : directConnection x1 = false \/ (directConnection x1 = true /\ controls o1 = [] /\ execs o1 = [] /\ responses o1 = [hd [] (List.last (groups g) [])])).
    { destruct (Z_lt_ge_dec (t - last g) 6000).
      - destruct (loop_early _ _ t _ _ I T ltac:(lia) E1 ltac:(intros; lia)) as (_ & X0 & X). rewrite W in X.
        replace (t - sent_at g <? 3000) with false in X by lia.
        destruct (copies g <? 4)%nat. right. tauto. left. apply X.
      - left. apply (loop_timeout _ _ t _ _ I T ltac:(lia) E1). }
    destruct (txdone_true _ _ _ _ Y1 E2) as (-> & T2 & C2).
    assert (DC2 : directConnection x2 = directConnection x1).
    { unfold directConnection. unfold connection in C2. inversion C2. congruence. }
    destruct CASE as [D1|(D1 & K1 & K2 & K3)].
    + unfold observe in *. rewrite DC2, D1 in *. eapply closed_rounds; eauto.
    + unfold observe in *. rewrite DC2, D1 in *.
      assert (EX : extend (extend g (own s) (OpLoop t) o1) (own x1) (OpTxDone true) [] =
                   g_tx g t (hd [] (List.last (groups g) []))).
      { unfold extend. rewrite K3. reflexivity. }
      rewrite EX in *. eapply IH; [exact Y2|..]; eauto.
      * simpl. intros t' Ht. destruct ts; inversion Ht; subst. simpl in SP2. lia.
      * unfold copies in *. simpl. rewrite W. unfold add_copy. rewrite last_last, app_length. simpl in *. lia.
Qed.

(** ** Control telegrams: every failed transmission is repeated at once, three times *)
Lemma ctl_sent s cur o s' outs f : Inv s cur -> op_ok o -> step s o = Some (s', outs) -> In f (controls outs) ->
  txs s' = SENDING /\ ccRep s' = 0 /\ f = frame (txb s') /\ is_ctl (txb s').
Proof.
  intros I OK H F. pose proof (step_shape _ _ _ _ _ I OK H) as SH.
  assert (NT : forall l, noTx l -> controls l = []).
  { clear. induction l as [|o l IH]; intros N; auto. simpl. destruct o; try (apply IH; intros k f X; apply (N k f); right; auto).
    exfalso. eapply N. left; eauto. }
  inversion SH; subst.
  - rewrite NT in F by auto. destruct F.
  - rewrite controls_app, controls_retries, NT in F by auto. destruct F.
  - rewrite !controls_app, controls_retries, (NT l1) in F by auto. 
    change (Tx k (frame (txb s')) :: l2) with ([Tx k (frame (txb s'))] ++ l2) in F.
    rewrite controls_app, (NT l2) in F by auto. destruct k; simpl in F; try tauto. destruct F as [<-|[]]. auto.
  - destruct F.
  - destruct F.
Qed.

Lemma txdone_retry s : txs s = SENDING -> 128 <= rd (txb s) 6 -> bytes (txb s) -> ccRep s < 3 ->
  exists s', step s (OpTxDone false) = Some (s', [Tx KRetry (frame (txb s))]) /\ txs s' = SENDING /\ txb s' = txb s /\ ccRep s' = ccRep s + 1.
Proof.
  intros T C B L. unfold step, stepCfg. rewrite T, finished_cases, b_hi by (apply rd_byte; auto).
  replace (128 <=? rd (txb s) 6) with true by lia. replace (ccRep s <? 3) with true by lia. simpl. eexists. split; [reflexivity|]. auto.
Qed.
Lemma txdone_last s : txs s = SENDING -> bytes (txb s) -> ccRep s = 3 ->
  exists s', step s (OpTxDone false) = Some (s', []) /\ txs s' = FREE.
Proof.
  intros T B L. unfold step, stepCfg. rewrite T, finished_cases, L. simpl. destruct (negb _); simpl; eauto.
Qed.

Lemma retry_burst s cur o s' outs f : Inv s cur -> op_ok o -> step s o = Some (s', outs) -> In f (controls outs) ->
  exists s4, steps s' (repeat (OpTxDone false) 4) = Some (s4, repeat (Tx KRetry f) 3) /\ bus_free s4.
Proof.
  intros I OK H F. pose proof (step_inv _ _ _ _ _ I OK H) as I'. destruct I' as (_ & I2 & _).
  destruct (ctl_sent _ _ _ _ _ _ I OK H F) as (T & C & -> & B). pose proof (proj2 I2) as BY.
  assert (B6 : 128 <= rd (txb s') 6). { pose proof (b_hi _ (rd_byte _ 6 BY)). unfold is_ctl in B. lia. }
  destruct (txdone_retry s' T B6 BY ltac:(lia)) as (x1 & E1 & T1 & X1 & C1). rewrite <- X1 in B6, BY.
  destruct (txdone_retry x1 T1 B6 BY ltac:(lia)) as (x2 & E2 & T2 & X2 & C2). rewrite <- X2 in B6, BY.
  destruct (txdone_retry x2 T2 B6 BY ltac:(lia)) as (x3 & E3 & T3 & X3 & C3). rewrite <- X3 in B6, BY.
  destruct (txdone_last x3 T3 BY ltac:(lia)) as (x4 & E4 & T4).
  exists x4. cbn [repeat steps]. rewrite E1, E2, E3, E4. rewrite X2, X1. simpl. auto.
Qed.

(** ** The properties, over reachable states *)
Lemma executed_in_order a s g : reachable a s (Some g) ->
  exec g = in_order 0 (rx g) /\ forall i, (i < length (exec g))%nat -> seqno (nth i (exec g) []) = Z.of_nat i mod 16.
Proof.
  intros R. apply reachable_inv in R. destruct R as (_ & _ & _ & _ & _ & _ & I7).
  pose proof (i_exec _ _ _ _ _ _ _ _ _ _ _ _ I7) as E. split; auto. rewrite E.
  intros i Hi. pose proof (in_order_numbers (rx g) 0) as X. 
  apply (f_equal (fun l => nth i l 0)) in X. 
  rewrite (nth_indep _ 0 (seqno [])) in X by (rewrite map_length; auto). rewrite map_nth in X. rewrite X.
  rewrite nth_indep with (d' := (fun i => (0 + Z.of_nat i) mod 16) 0%nat) by (rewrite map_length, seq_length; auto).
  rewrite (map_nth (fun i => (0 + Z.of_nat i) mod 16)), seq_nth by auto. reflexivity.
Qed.
Lemma client_exactly_once a s g reqs : reachable a s (Some g) ->
  stutter reqs (rx g) -> numbered_from 0 reqs -> exec g = reqs.
Proof. intros R S N. destruct (executed_in_order _ _ _ R) as [-> _]. apply in_order_stutter; auto. Qed.
Lemma only_in_connection a s cur o s' outs : reachable a s cur -> op_ok o -> step s o = Some (s', outs) ->
  directConnection s = false \/ directConnection s' = false -> execs outs = [] /\ responses outs = [].
Proof.
  intros R OK H D. apply reachable_inv in R. pose proof (directConnection_cur _ _ R) as X. destruct cur as [g|].
  - destruct D as [D|D]; [congruence|]. eapply closing_silent; eauto.
  - destruct (opens_only_by_connect _ _ _ _ R OK H) as (A & B & _). auto.
Qed.
Lemma connectedTo_same s s' g : Inv s (Some g) -> connection s' = connection s -> connectedTo s' = peer g.
Proof.
  intros (_ & _ & _ & _ & _ & _ & I7) C. unfold connection in C. inversion C.
  unfold connectedTo, directConnection. rewrite H0, H1. 
  pose proof (i_peer _ _ _ _ _ _ _ _ _ _ _ _ I7). pose proof (i_open _ _ _ _ _ _ _ _ _ _ _ _ I7). destruct (st s); congruence.
Qed.
Lemma stranger_thm a s g now t app w s' outs : reachable a s (Some g) -> bytes t ->
  src t <> peer g -> step s (OpRx now t app w) = Some (s', outs) ->
  connection s' = connection s /\ connectedTo s' = peer g /\ execs outs = [] /\ responses outs = [] /\
  (if addressed_to (own s) t && is_connect t
   then exists f, controls outs = [f] /\ is_control_frame 0x81 (src t) 0 f
   else controls outs = []).
Proof.
  intros R B N H. apply reachable_inv in R. destruct (stranger_step _ _ _ _ _ _ _ _ R B (or_intror N) H) as (X & Y).
  split; auto. split; auto. eapply connectedTo_same; eauto.
Qed.
Lemma not_for_us_thm a s g now t app w s' outs : reachable a s (Some g) -> bytes t ->
  addressed_to (own s) t = false -> step s (OpRx now t app w) = Some (s', outs) ->
  connection s' = connection s /\ connectedTo s' = peer g /\ execs outs = [] /\ responses outs = [] /\ controls outs = [].
Proof.
  intros R B N H. apply reachable_inv in R. destruct (stranger_step _ _ _ _ _ _ _ _ R B (or_introl N) H) as (X & Y).
  rewrite N in Y. simpl in Y. split; auto. split; auto. eapply connectedTo_same; eauto.
Qed.
Lemma acknowledge_thm a s g now t app w s' outs : reachable a s (Some g) -> bytes t ->
  addressed_to (own s) t = true -> numbered t = true -> src t = peer g -> step s (OpRx now t app w) = Some (s', outs) ->
  directConnection s' = true /\ connectedTo s' = peer g /\ responses outs = [] /\ exists f, controls outs = [f] /\
  (if seqno t =? Z.of_nat (length (exec g)) mod 16
   then execs outs = [t] /\ is_control_frame 0xC2 (peer g) (seqno t) f
   else if seqno t =? (Z.of_nat (length (exec g)) - 1) mod 16
   then execs outs = [] /\ is_control_frame 0xC2 (peer g) (seqno t) f
   else execs outs = [] /\ is_control_frame 0xC3 (peer g) (seqno t) f).
Proof. intros R. apply reachable_inv in R. intros. eapply request_step; eauto. Qed.
Lemma closed_silent_thm a s now t app w s' outs : reachable a s None -> bytes t ->
  addressed_to (own s) t = true -> numbered t = true -> step s (OpRx now t app w) = Some (s', outs) -> s' = s /\ outs = [].
Proof. intros R. apply reachable_inv in R. intros. eapply closed_numbered; eauto. Qed.
Lemma at_most_four a s g : reachable a s (Some g) ->
  forall c, In c (groups g) -> exists f k, c = repeat f k /\ (1 <= k <= 4)%nat.
Proof.
  intros R c H. apply reachable_inv in R. destruct R as (_ & _ & _ & _ & _ & _ & I7).
  destruct (In_nth _ _ [] H) as (i & Hi & <-).
  destruct (i_groups _ _ _ _ _ _ _ _ _ _ _ _ I7 i Hi) as (f & k & req & r & G1 & G2 & _). exists f, (S k). split; auto. lia.
Qed.
Lemma retransmit_or_close a s g now s' outs : reachable a s (Some g) -> waiting g = true -> bus_free s ->
  3000 <= now - sent_at g < 2^32 -> 0 <= now - last g < 6000 -> step s (OpLoop now) = Some (s', outs) ->
  if (copies g <? 4)%nat
  then directConnection s' = true /\ execs outs = [] /\ controls outs = [] /\ responses outs = [hd [] (List.last (groups g) [])]
  else closes_with_disconnect (peer g) s' outs.
Proof.
  intros R W T D1 D2 H. apply reachable_inv in R.
  destruct (loop_early _ _ now _ _ R T ltac:(lia) H ltac:(intros; lia)) as (_ & X0 & X). rewrite W in X.
  replace (now - sent_at g <? 3000) with false in X by lia. destruct (copies g <? 4)%nat; tauto.
Qed.
Lemma gives_up_thm a s g ts s' cur' : reachable a s (Some g) -> waiting g = true -> bus_free s ->
  spaced (sent_at g) ts -> (forall t, hd_error ts = Some t -> 0 <= t - last g < 2^32) ->
  (5 <= copies g + length ts)%nat ->
  run s (Some g) (flat_map give_up_round ts) = Some (s', cur') -> cur' = None.
Proof. intros R W T. apply reachable_inv in R. intros. eapply gives_up; eauto. Qed.
Lemma numbered_groups a s g : reachable a s (Some g) ->
  forall i, (i < length (groups g))%nat -> forall f, In f (nth i (groups g) []) ->
  seqno f = Z.of_nat i mod 16 /\ dst f = peer g.
Proof.
  intros R i Hi f Hf. apply reachable_inv in R. destruct R as (_ & _ & _ & _ & _ & _ & I7).
  destruct (i_groups _ _ _ _ _ _ _ _ _ _ _ _ I7 i Hi) as (f0 & k & req & r & G1 & G2 & _ & G4).
  rewrite G1 in Hf. apply repeat_spec in Hf. subst f0. destruct G4 as (_ & G5 & G6 & _). auto.
Qed.
Lemma timeout_thm a s g now s' outs : reachable a s (Some g) -> bus_free s -> 6000 <= now - last g < 2^32 ->
  step s (OpLoop now) = Some (s', outs) -> closes_with_disconnect (peer g) s' outs.
Proof. intros R. apply reachable_inv in R. intros. eapply loop_timeout; eauto. Qed.
Lemma not_earlier_thm a s g now s' outs : reachable a s (Some g) -> bus_free s -> 0 <= now - last g < 6000 ->
  (waiting g = true -> 0 <= now - sent_at g < 2^32 /\ ((copies g < 4)%nat \/ now - sent_at g < 3000)) ->
  step s (OpLoop now) = Some (s', outs) -> directConnection s' = true /\ connectedTo s' = peer g /\ controls outs = [].
Proof.
  intros R T D W H. apply reachable_inv in R. 
  destruct (loop_early _ _ now _ _ R T ltac:(lia) H ltac:(intros; lia)) as (X1 & X2 & X3).
  assert (directConnection s' = true /\ controls outs = []) as [Y1 Y2].
  { pose proof (directConnection_cur _ _ R) as DC. destruct (waiting g).
    - destruct (now - sent_at g <? 3000) eqn:E; [destruct X3 as [-> ->]; auto|].
      destruct W as [_ [W|W]]; auto; [|lia]. replace (copies g <? 4)%nat with true in X3 by (symmetry; apply Nat.ltb_lt; lia). tauto.
    - tauto. }
  rewrite Y1 in X1. auto.
Qed.
Lemma busy_thm a s g now s' outs : reachable a s (Some g) -> ~ bus_free s ->
  step s (OpLoop now) = Some (s', outs) -> s' = s /\ outs = [].
Proof. intros _ B. apply loop_busy. exact B. Qed.
Lemma nothing_pending a s g now s' outs : reachable a s (Some g) -> bus_free s -> waiting g = false -> s1 s = FREE ->
  step s (OpLoop now) = Some (s', outs) -> responses outs = [].
Proof.
  intros R T W S1 H. apply reachable_inv in R. destruct R as (I1 & I2 & I3 & I4 & I5 & I6 & I7).
  pose proof (i_wait _ _ _ _ _ _ _ _ _ _ _ _ I7) as WT. pose proof (i_open _ _ _ _ _ _ _ _ _ _ _ _ I7) as OP.
  assert (ST : st s = OPEN_IDLE). { destruct (st s) eqn:X; auto; [congruence|]. destruct WT as [_ WT]. specialize (WT eq_refl). congruence. }
  assert (I : Inv s (Some g)) by exact (conj I1 (conj I2 (conj I3 (conj I4 (conj I5 (conj I6 I7)))))).
  apply step_cfg in H. destruct H as (c & H & -> & ->). simpl in H. unfold loop in H. cbn [cS] in H.
  unfold bus_free in T. rewrite T in H. unfold loopTimeout in H. cbn [cS] in H. rewrite ST in H.
  destruct (_ <=? _) in H.
  - destruct (actionA06 _) as [c1|] eqn:E; [|discriminate]. cbn [andThen] in H.
    destruct (A06_closes _ _ _ _ I E) as [X _].
    assert (STc : st (cS c1) = CLOSED). { destruct X as [X _]. unfold directConnection in X. destruct (st (cS c1)); congruence. }
    unfold loopSend, loopRepeat in H. rewrite STc in H. cbn [andThen] in H. rewrite STc in H. inversion H; subst. apply X.
  - cbn [andThen] in H. unfold loopSend, loopRepeat in H. cbn [cS] in H. rewrite ST, S1 in H. cbn [andThen cS] in H. rewrite ST in H.
    inversion H; subst. auto.
Qed.
Lemma no_response_lost a s g : reachable a s (Some g) -> crowded g = false ->
  (length (groups g) <= length (made g))%nat /\
  (forall i f, (i < length (groups g))%nat -> In f (nth i (groups g) []) ->
     carries (peer g) (Z.of_nat i mod 16) (fst (nth i (made g) ([], []))) (snd (nth i (made g) ([], []))) f) /\
  (waiting g = false -> (length (groups g) < length (made g))%nat -> bus_free s ->
     forall now s' outs, 0 <= now - last g < 6000 -> step s (OpLoop now) = Some (s', outs) ->
     exists f, responses outs = [f] /\
       carries (peer g) (Z.of_nat (length (groups g)) mod 16) (fst (nth (length (groups g)) (made g) ([], [])))
               (snd (nth (length (groups g)) (made g) ([], []))) f).
Proof.
  intros R C. apply reachable_inv in R. pose proof R as I. destruct R as (I1 & I2 & I3 & I4 & I5 & I6 & I7).
  destruct (i_fifo _ _ _ _ _ _ _ _ _ _ _ _ I7 C) as [L F].
  assert (LG : (length (groups g) <= length (made g))%nat).
  { rewrite <- L. unfold queue. rewrite app_length, map_length. lia. }
  split; auto. split.
  - intros i f Hi Hf. specialize (F i ltac:(lia)). unfold queue in F. rewrite app_nth1 in F by (rewrite map_length; auto).
    rewrite (nth_indep _ [] (hd [] [])) in F by (rewrite map_length; auto). rewrite (map_nth (fun c => hd [] c)) in F.
    destruct (i_groups _ _ _ _ _ _ _ _ _ _ _ _ I7 i Hi) as (f0 & k & req & r & G1 & G2 & _ & G4).
    rewrite G1 in Hf, F. apply repeat_spec in Hf. subst f0. exact F.
  - intros W LT T now s' outs D H.
    destruct (loop_early _ _ now _ _ I T ltac:(lia) H ltac:(intros; congruence)) as (X1 & X2 & X3). rewrite W in X3.
    destruct X3 as (_ & _ & X3). 
    assert (S1 : s1 s = ACQUIRED).
    { destruct (s1 s) eqn:S1; auto.
      - exfalso. assert (s2 s = FREE). { destruct (s2 s) eqn:S2; auto; destruct (i_b2 _ _ _ _ _ _ _ _ _ _ _ _ I7) as (_ & X & _); congruence. }
        unfold queue in L. rewrite H0, app_length, map_length in L. simpl in L. lia.
      - exfalso. eapply (i_idle _ _ _ _ _ _ _ _ _ _ _ _ I7 W); auto. }
    rewrite S1 in X3. exists (frame (b1 s)). split; [apply X3|].
    specialize (F (length (groups g)) LT). unfold queue in F. rewrite S1 in F.
    rewrite app_nth2, map_length, Nat.sub_diag in F by (rewrite map_length; lia). exact F.
Qed.
Lemma opens_fresh a s o s' outs : reachable a s None -> op_ok o -> step s o = Some (s', outs) -> directConnection s' = true ->
  exists now t app w, o = OpRx now t app w /\ addressed_to (own s) t = true /\ is_connect t = true /\
    after s None o s' outs = Some (mkSession (src t) [] [] [] [] false now 0 false) /\
    execs outs = [] /\ responses outs = [] /\ controls outs = [].
Proof.
  intros R OK H D. apply reachable_inv in R. destruct (opens_only_by_connect _ _ _ _ R OK H) as (A & B & X).
  destruct (X D) as (now & t & app & w & -> & X1 & X2 & X3 & X4). exists now, t, app, w.
  unfold after, observe. rewrite D, X3. simpl. auto 10.
Qed.
Lemma no_leak a s g : reachable a s (Some g) -> forall c f, In c (groups g) -> In f c ->
  exists req resp n, In req (exec g) /\ In (req, resp) (made g) /\ carries (peer g) n req resp f.
Proof.
  intros R c f Hc Hf. apply reachable_inv in R. destruct R as (_ & _ & _ & _ & _ & _ & I7).
  destruct (In_nth _ _ [] Hc) as (i & Hi & <-).
  destruct (i_groups _ _ _ _ _ _ _ _ _ _ _ _ I7 i Hi) as (f0 & k & req & r & G1 & G2 & G3 & G4).
  rewrite G1 in Hf. apply repeat_spec in Hf. subst f0. exists req, r, (mod16 i).
  split; auto. apply (i_made _ _ _ _ _ _ _ _ _ _ _ _ I7 _ G3).
Qed.
Lemma retries_at_once a s cur o s' outs f : reachable a s cur -> op_ok o -> step s o = Some (s', outs) -> In f (controls outs) ->
  exists s4, steps s' (repeat (OpTxDone false) 4) = Some (s4, repeat (Tx KRetry f) 3) /\ bus_free s4.
Proof. intros R. apply reachable_inv in R. intros. eapply retry_burst; eauto. Qed.
Lemma wait_ends a s cur o : reachable a s cur -> op_ok o ->
  (4 <= length (op_waits o))%nat \/ bus_free s \/ (exists now, o = OpLoop now) -> step s o <> None.
Proof. intros R. apply reachable_inv in R. intros. eapply step_ends; eauto. Qed.
