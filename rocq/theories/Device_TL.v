(** Facts about single operations of the transport layer that the device model needs: which operations change the own address, when a request is handed over *)
From Verif Require Import Base Device_Model.

(** hand-overs among the effects *)
Definition handed (l : list out) : list out := filter (fun o => match o with Tx _ _ => false | _ => true end) l.
(** [c'] comes from [c] by sending only *)
Definition sends (c c' : cfg) : Prop := own (cS c') = own (cS c) /\ handed (cO c') = handed (cO c).
Lemma handed_app l l' : handed (l ++ l') = handed l ++ handed l'.
Proof. apply filter_app. Qed.
Lemma sends_refl c : sends c c.
Proof. split; reflexivity. Qed.
Lemma sends_trans a b c : sends a b -> sends b c -> sends a c.
Proof. intros [A B] [C D]. split; congruence. Qed.
Lemma prepared_sends k c : sends c (sendPreparedTelegram k c).
Proof. split; [reflexivity|]. unfold sendPreparedTelegram. cbn [emit cO]. rewrite handed_app. cbn. apply app_nil_r. Qed.
Lemma upd_sends f c : (forall s, own (f s) = own s) -> sends c (TL4_Model.upd f c).
Proof. intros H. split; [apply H|reflexivity]. Qed.
Lemma finished_sends r c : sends c (finishedSendingTelegram r c).
Proof.
  unfold finishedSendingTelegram. apply (sends_trans _ (TL4_Model.upd (set_txs FREE) c)); [apply upd_sends; reflexivity|].
  destruct (negb _); [|apply sends_refl]. destruct (_ && _).
  - eapply sends_trans; [|apply prepared_sends]. apply upd_sends. reflexivity.
  - apply upd_sends. reflexivity.
Qed.
Lemma finished_txb r c : txb (cS (finishedSendingTelegram r c)) = txb (cS c).
Proof. unfold finishedSendingTelegram. destruct (negb _); [|reflexivity]. destruct (_ && _); reflexivity. Qed.
Lemma acquire_sends w : forall s o c, acquireLoop s o w = Some c -> sends (mkCfg s w o) c /\ txb (cS c) = txb s /\ st (cS c) = st s /\ caddr (cS c) = caddr s /\ seqR (cS c) = seqR s /\
  s1 (cS c) = s1 s /\ seqS (cS c) = seqS s.
Proof.
  induction w as [|r w IH]; intros s o c; cbn [acquireLoop]; destruct (txs s); try discriminate.
  - intros [= <-]. repeat split; reflexivity.
  - intros [= <-]. repeat split; reflexivity.
  - intros E. pose proof (finished_sends r (mkCfg s w o)) as [F1 F2]. pose proof (finished_txb r (mkCfg s w o)) as F3.
    assert (G : let k := finishedSendingTelegram r (mkCfg s w o) in st (cS k) = st s /\ caddr (cS k) = caddr s /\ seqR (cS k) = seqR s /\ s1 (cS k) = s1 s /\ seqS (cS k) = seqS s).
    { unfold finishedSendingTelegram. destruct (negb _); [|repeat split; reflexivity]. destruct (_ && _); repeat split; reflexivity. }
    cbv zeta in G. cbn [cS cO] in *. destruct (IH _ _ _ E) as ((A1 & A2) & A3 & A4 & A5 & A6 & A7 & A8). cbn [cS cO] in *. destruct G as (G1 & G2 & G3 & G4 & G5).
    split; [split; cbn [cS cO]; congruence|]. repeat split; congruence.
Qed.
Lemma acquire_keeps c c' : acquireSendBuffer c = Some c' -> sends c c' /\ txb (cS c') = txb (cS c) /\ st (cS c') = st (cS c) /\ caddr (cS c') = caddr (cS c) /\ seqR (cS c') = seqR (cS c) /\
  s1 (cS c') = s1 (cS c) /\ seqS (cS c') = seqS (cS c).
Proof. intros E. destruct (acquire_sends _ _ _ _ E) as ((A & B) & C). split; auto. split; auto. Qed.
Lemma con_sends cmd a n c c' : sendConControlTelegram cmd a n c = Some c' -> sends c c' /\ st (cS c') = st (cS c) /\ caddr (cS c') = caddr (cS c) /\ seqR (cS c') = seqR (cS c) /\ s1 (cS c') = s1 (cS c).
Proof.
  unfold sendConControlTelegram. destruct (acquireSendBuffer c) as [k|] eqn:E; cbn [TL4_Model.andThen]; [|discriminate]. intros [= <-]. destruct (acquire_keeps _ _ E) as (S & _ & A & B & C & D & _).
  split; [|split; [exact A|split; [exact B|split; [exact C|exact D]]]]. eapply sends_trans; [exact S|]. eapply sends_trans; [|apply prepared_sends]. apply upd_sends. reflexivity.
Qed.
Lemma pct_sends c c' : sendPreparedConnectedTelegram c = Some c' -> sends c c'.
Proof.
  unfold sendPreparedConnectedTelegram. destruct (acquireSendBuffer c) as [k|] eqn:E; cbn [TL4_Model.andThen]; [|discriminate]. intros [= <-]. destruct (acquire_keeps _ _ E) as (S & _).
  eapply sends_trans; [exact S|]. eapply sends_trans; [|apply prepared_sends]. apply upd_sends. reflexivity.
Qed.
Lemma bind_sends c0 x (f : act) c' : (x >>= f) = Some c' -> (forall c, x = Some c -> sends c0 c) -> (forall c c'', f c = Some c'' -> sends c c'') -> sends c0 c'.
Proof. destruct x; cbn [TL4_Model.andThen]; [|discriminate]. intros E H G. eapply sends_trans; [apply H; reflexivity|apply (G _ _ E)]. Qed.
Ltac upds := intros ? ? [= <-]; apply upd_sends; reflexivity.
Lemma a06_sends c c' : actionA06 c = Some c' -> sends c c'.
Proof. unfold actionA06. intros E. apply (bind_sends _ _ _ _ E); [|upds]. intros k K. eapply sends_trans; [apply upd_sends|apply (con_sends _ _ _ _ _ K)]. reflexivity. Qed.
Lemma a03_sends n q c c' : actionA03 n q c = Some c' -> sends c c'.
Proof. unfold actionA03. intros E. apply (bind_sends _ _ _ _ E); [|upds]. intros k K. apply (con_sends _ _ _ _ _ K). Qed.
Lemma a04_sends n q c c' : actionA04 n q c = Some c' -> sends c c'.
Proof. unfold actionA04. intros E. apply (bind_sends _ _ _ _ E); [|upds]. intros k K. apply (con_sends _ _ _ _ _ K). Qed.
Lemma a07_sends n c c' : actionA07 n c = Some c' -> sends c c'.
Proof.
  unfold actionA07. destruct (st (cS c)), (s1 (cS c)); try (intros [= <-]; apply sends_refl); intros E; (apply (bind_sends _ _ _ _ E); [|upds]);
    intros k K; (eapply sends_trans; [apply upd_sends|apply (pct_sends _ _ K)]); reflexivity.
Qed.
Lemma a09_sends n c c' : actionA09 n c = Some c' -> sends c c'.
Proof. unfold actionA09. intros E. apply (bind_sends _ _ _ _ E); [|upds]. intros k K. apply (pct_sends _ _ K). Qed.
Lemma a08_own n s : own (actionA08 n s) = own s.
Proof. unfold actionA08. cbn [s2 set_s1 set_ctime set_seqS]. destruct (s2 s); reflexivity. Qed.
Lemma loop_sends n c c' : loop n c = Some c' -> sends c c'.
Proof.
  unfold loop. destruct (txs (cS c)); try (intros [= <-]; apply sends_refl). intros E.
  apply (bind_sends _ _ _ _ E).
  - intros k K. apply (bind_sends _ _ _ _ K).
    + intros j J. unfold loopTimeout in J. destruct (st (cS c)); try (injection J as <-; apply sends_refl); destruct (_ <=? _); try (injection J as <-; apply sends_refl); apply (a06_sends _ _ J).
    + intros j j' J. unfold loopSend in J. destruct (st (cS j)), (s1 (cS j)); try (injection J as <-; apply sends_refl); apply (a07_sends _ _ _ J).
  - intros j j' J. unfold loopRepeat in J. destruct (st (cS j)); try (injection J as <-; apply sends_refl).
    destruct (_ <=? _); try (injection J as <-; apply sends_refl). destruct (_ <? _); [apply (a09_sends _ _ _ J)|apply (a06_sends _ _ J)].
Qed.
Lemma control_sends n a p t c c' : processConControl n a p t c = Some c' -> sends c c'.
Proof.
  unfold processConControl. destruct (p =? T_CONNECT_PDU).
  { unfold processConnect. destruct (st (cS c)); try (intros [= <-]; apply upd_sends; reflexivity);
      (destruct (_ =? _); [intros [= <-]; apply sends_refl|intros E; apply (con_sends _ _ _ _ _ E)]). }
  destruct (p =? T_DISCONNECT_PDU).
  { unfold processDisconnect. destruct (st (cS c)); try (intros [= <-]; apply sends_refl);
      (destruct (_ =? _); [|intros [= <-]; apply sends_refl]); intros [= <-]; unfold actionA05; (eapply sends_trans; [apply upd_sends|apply upd_sends]); reflexivity. }
  unfold processAcknowledge. destruct (_ =? 0). { intros [= <-]. apply sends_refl. }
  destruct (_ =? 0).
  - destruct (st (cS c)); try (intros [= <-]; apply sends_refl). destruct (negb _); [intros [= <-]; apply sends_refl|]. destruct (negb _); [apply a06_sends|].
    intros [= <-]. eapply sends_trans; apply upd_sends; [apply a08_own|reflexivity].
  - destruct (_ || _); [intros [= <-]; apply sends_refl|]. destruct (_ && _); [apply a09_sends|apply a06_sends].
Qed.

(** what an operation hands over; only setOwnAddress changes the own address *)
Definition handover (s : tl4) (o : op) : list out :=
  match o with
  | OpRx _ t _ _ =>
      if destinationAddress t =? 0 then [Bcast t]
      else if negb (Z.land (rd t 5) 0x80 =? 0) then [Group t]
      else if executes s t then [if Z.land (rd t 6) 0xfc =? 0 then ExecDirect t else Exec t]
      else []
  | _ => []
  end.
Definition is_set (o : op) : bool := match o with OpSetOwn _ => true | _ => false end.
Lemma step_hands s o s' l : step s o = Some (s', l) -> handed l = handover s o /\ (is_set o = false -> own s' = own s).
Proof.
  unfold step. destruct (stepCfg s o) as [c|] eqn:E; [|discriminate]. intros [= <- <-]. destruct o as [now t app w|now|ok|buf w|w|a]; cbn [stepCfg handover is_set] in *.
  - unfold processTelegram in E. unfold executes. cbn [cS] in E.
    destruct (destinationAddress t =? 0) eqn:D0. { injection E as <-. split; reflexivity. }
    destruct (Z.land (rd t 5) 0x80 =? 0) eqn:G; cbn [negb] in *; [|injection E as <-; split; reflexivity].
    destruct (destinationAddress t =? own s) eqn:D1; cbn [negb andb] in *; [|injection E as <-; split; reflexivity].
    destruct (Z.land (Z.land (rd t 6) 0xc3) 0x80 =? 0) eqn:Q; cbn [negb andb] in *.
    2:{ destruct (control_sends _ _ _ _ _ _ E) as [A B]. split; auto. }
    unfold processDirect in E. destruct (Z.land (rd t 6) 0xfc =? 0) eqn:F; cbn [orb andb].
    + destruct (acquireSendBuffer _) as [k|] eqn:K; cbn [TL4_Model.andThen] in E; [|discriminate]. destruct (acquire_keeps _ _ K) as ((A & B) & _). cbn [cS cO] in *.
      destruct (fst app); injection E as <-.
      * destruct (prepared_sends KDirect (TL4_Model.upd (set_txb (snd app)) (emit (ExecDirect t) k))) as [P1 P2]. split; [|intros _; rewrite P1; exact A].
        rewrite P2. cbn [TL4_Model.upd emit cO]. rewrite handed_app, B. reflexivity.
      * split; [|intros _; exact A]. cbn [TL4_Model.upd emit cO]. rewrite handed_app, B. reflexivity.
    + cbn [cS] in E. unfold directConnection. destruct (caddr s =? senderAddress t); cbn [negb orb andb] in *; [|injection E as <-; split; reflexivity].
      destruct (st s) eqn:S0; cbn [andb]; [injection E as <-; split; reflexivity| |]; (destruct (sequenceNumber t =? seqR s);
        [|destruct (sequenceNumber t =? Z.land (seqR s - 1) 0x0F); [destruct (a03_sends _ _ _ _ E) as [A B]; split; auto|destruct (a04_sends _ _ _ _ E) as [A B]; split; auto]]).
      all: unfold actionA02 in E; destruct (sendConControlTelegram _ _ _ _) as [k|] eqn:K; cbn [TL4_Model.andThen] in E; [|discriminate];
        destruct (con_sends _ _ _ _ _ K) as ((A & B) & _); cbn [cS cO] in *; destruct app as [ans resp]; cbn [TL4_Model.upd emit cS cO] in E;
        destruct ans; injection E as <-; (split; [cbn [TL4_Model.upd emit cO]; rewrite handed_app, B; reflexivity|intros _; rewrite <- A; cbn [TL4_Model.upd emit cS];
          destruct (s1 _); reflexivity]).
  - destruct (loop_sends _ _ _ E) as [A B]. split; auto.
  - destruct (txs s); injection E as <-; try (split; reflexivity). destruct (finished_sends ok (mkCfg s [] [])) as [A B]. split; auto.
  - destruct (acquireSendBuffer _) as [k|] eqn:K; cbn [TL4_Model.andThen] in E; [|discriminate]. destruct (acquire_keeps _ _ K) as ((A & B) & _). injection E as <-.
    destruct (prepared_sends KApp (TL4_Model.upd (set_txb buf) k)) as [P1 P2]. split; [rewrite P2; exact B|intros _; rewrite P1; exact A].
  - destruct (a06_sends _ _ E) as [A B]. split; auto.
  - injection E as <-. split; [reflexivity|discriminate].
Qed.
