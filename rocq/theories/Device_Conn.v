(** Answers to the requests of a connection: lemmas for C95 *)
From Verif Require Import Base Bits Telegram_Model Device_Model Device_Spec Device_Spec2 Device_Spec3 Device_Spec5 Device_Spec6 Device_TL Device_Status Device_Proofs Device_Wf Device_Steps Device_Bytes Device_Refine Device_Refine2 Device_Client Device_Restart Device_Keep Device_Answer.
From Verif Require MemReq_Spec MemReq_Proofs MemReq_Op TL4_Spec TL4_Proofs TL4_Inv TL4_Step TL4_Loop TL4_Props.
Import TL4_Spec(app_buffer, steps, run, peer, exec, observe, execs, responses).
Import Eeprom_Model(esize, fsize, marked).
Import MemReq_Spec(layout_ok, dev_ok, no_auto, request_ok, q_count, q_address, q_command, ideal_answer, ideal_request, decode_response, array).

(** ** Contents of the response buffer *)
Definition body (sb : list Z) (a : Z * list Z) : Prop :=
  length sb = 23%nat /\ (length (snd a) <= 14)%nat /\ rd sb 5 = 0x60 + 1 + Z.of_nat (length (snd a)) /\ 0 <= rd sb 6 < 4 /\ two sb 6 = fst a /\ firstn (length (snd a)) (skipn 8 sb) = snd a.
Definition told (b : bool) (sb : list Z) (a : option (Z * list Z)) : Prop := match a with Some a => b = true /\ body sb a | None => b = false end.
Ltac bodied sb L := explicit sb L; split; [reflexivity|split; [cbn; lia|split; [reflexivity|split; [split; [vm_compute; congruence|reflexivity]|split; [try reflexivity|try reflexivity]]]]].
Lemma plain_default_body c n conn t sb x b sb' y : app_buffer sb -> Forall is_byte t -> plain c t -> 0 <= maskVersion (lay c) < 65536 ->
  processApciDefault c n conn t sb x = Some (b, sb', y) -> told b sb' (answer_to c t).
Proof.
  intros (L & _) F (PR & PW & _) MV. unfold processApciDefault, answer_to, told. cbv zeta. pose proof (service_range t F) as SR.
  unfold APCI_ADC_READ_PDU, APCI_MEMORY_READ_PDU, APCI_MEMORY_WRITE_PDU, APCI_DEVICEDESCRIPTOR_READ_PDU, APCI_MASTER_RESET_PDU, APCI_AUTHORIZE_REQUEST_PDU, APCI_BASIC_RESTART_PDU.
  rewrite !command_short by auto 10. rewrite !command_long by auto. change (0x180 + 64) with 0x1C0. change (0x200 + 64) with 0x240. change (0x280 + 64) with 0x2C0. change (0x300 + 64) with 0x340.
  replace ((0x200 <=? service t) && (service t <? 0x240)) with false by lia. replace ((0x280 <=? service t) && (service t <? 0x2C0)) with false by lia. cbn [orb].
  destruct ((0x180 <=? service t) && (service t <? 0x1C0)) eqn:A.
  { intros [= <- <- <-]. split; [reflexivity|]. destruct (adc_service t F ltac:(lia)) as (Q1 & Q2). pose proof (adc_low (rd t 7) Q2) as Q3. bodied sb L.
    unfold two. change (256 * 1 + Z.lor (lowByte APCI_ADC_RESPONSE_PDU) (Z.land (rd t 7) 0x3f) = service t + 64). rewrite Q3. unfold service. lia. }
  destruct ((0x300 <=? service t) && (service t <? 0x340)) eqn:DS.
  { unfold descriptorRead. assert (Q : (Z.land (rd t 7) 0x3f =? 0) = (service t =? 0x300)).
    { pose proof (rd_byte t 7 F) as B. unfold is_byte in B. assert (rd t 6 mod 4 = 3 /\ 0 <= rd t 7 < 64) as (Q1 & Q2) by (unfold service in *; pose proof (Z.mod_pos_bound (rd t 6) 4 ltac:(lia)); lia).
      change 0x3f with (Z.ones 6). rewrite Z.land_ones by lia. rewrite Z.mod_small by lia. unfold service. rewrite Q1. lia. }
    rewrite Q. destruct (service t =? 0x300) eqn:S0; cbn [negb].
    - intros [= <- <- <-]. split; [reflexivity|]. destruct (high_low _ MV) as (-> & ->). bodied sb L.
    - intros [= <- <- <-]. replace (service t =? 0x381) with false by lia. replace (service t =? 0x3D1) with false by lia. reflexivity. }
  replace (service t =? 0x300) with false by lia. destruct (service t =? 0x381).
  { pose proof (rd_byte t 8 F) as B8. unfold is_byte in B8. unfold masterReset, T_MASTERRESET_FACTORY_WO_IA, BOOTLOADER_MAGIC_CHANNEL, T_MASTERRESET_CONFIRMED_RESTART.
    assert (G : forall e, e = 0 \/ e = 2 -> let z := wr (wr (wr (setApciCommand (wr sb 5 0x64) APCI_MASTER_RESET_RESPONSE_PDU 0) 8 e) 9 0) 10 (if e =? T_RESTART_NO_ERROR then 1 else 0) in
       body z (0x3A1, [e; 0; if e =? 0 then 1 else 0])).
    { intros e He. cbv zeta. bodied sb L. }
    destruct ((rd t 8 =? 7) && (rd t 9 =? 255)) eqn:M.
    { rewrite orb_true_r. intros [= <- <- <-]. split; [reflexivity|]. apply (G 0); auto. }
    rewrite orb_false_r. destruct ((rd t 8 =? 0) || (7 <? rd t 8)) eqn:N.
    { replace (rd t 8 =? 1) with false by lia. intros [= <- <- <-]. split; [reflexivity|]. apply (G 2); auto. }
    destruct (rd t 8 =? 1); intros [= <- <- <-]; (split; [reflexivity|]); [apply (G 0)|apply (G 2)]; auto. }
  destruct (service t =? 0x3D1).
  { intros [= <- <- <-]. split; [reflexivity|]. bodied sb L. }
  destruct (service t =? 0x380); intros [= <- <- <-]; reflexivity.
Qed.
Lemma plain_body c n conn t len sb x b sb' y : app_buffer sb -> Forall is_byte t -> plain c t -> 0 <= maskVersion (lay c) < 65536 ->
  processApci c n conn t len sb x = Some (b, sb', y) -> told b sb' (answer_to c t).
Proof.
  intros H F P MV. unfold processApci. destruct (kind c) eqn:K; [apply plain_default_body; auto|].
  assert (Q : isPropertyCommand (apciCommand t) = false).
  { destruct P as (_ & _ & [P|P]); [congruence|]. unfold isPropertyCommand, APCI_PROPERTY_VALUE_READ_PDU, APCI_PROPERTY_VALUE_WRITE_PDU, APCI_PROPERTY_DESCRIPTION_READ_PDU. rewrite !command_long by auto. cbn [In] in P. lia. }
  rewrite Q. apply plain_default_body; auto.
Qed.
Lemma decoded_body sb k a bs : length sb = 23%nat -> Forall is_byte sb -> 0 <= a < 65536 -> k <= 12 -> decode_response sb = Some (k, a, bs) -> body sb (0x240 + k, a / 256 :: a mod 256 :: bs).
Proof.
  intros L F A K. unfold decode_response. cbv zeta. destruct ((_ && _) && _) eqn:E; [|discriminate]. intros QQ. assert (K1 : rd sb 7 mod 16 = k) by congruence. assert (A1 : 256 * rd sb 8 + rd sb 9 = a) by congruence. assert (B1 : firstn (Z.to_nat (rd sb 7 mod 16)) (skipn 10 sb) = bs) by congruence. clear QQ.
  pose proof (Z.mod_pos_bound (rd sb 7) 16 ltac:(lia)) as M. pose proof (Z.div_mod (rd sb 7) 16 ltac:(lia)) as DM.
  pose proof (rd_byte sb 8 F) as B8. pose proof (rd_byte sb 9 F) as B9. unfold is_byte in *.
  assert (LB : length bs = Z.to_nat k) by (rewrite <- B1, firstn_length, skipn_length, K1; lia).
  assert (A8 : a / 256 = rd sb 8) by (rewrite <- A1; rewrite (Z.mul_comm 256), Z.div_add_l by lia; rewrite Z.div_small by lia; lia).
  assert (A9 : a mod 256 = rd sb 9) by (rewrite <- A1; rewrite Z.add_comm, (Z.mul_comm 256), Z.mod_add by lia; apply Z.mod_small; lia).
  split; [exact L|]. cbn [fst snd length]. rewrite LB. split; [lia|]. split; [lia|]. split; [lia|]. split; [unfold two; lia|].
  rewrite A8, A9, <- B1, K1. clear - L. do 23 (destruct sb as [|? sb]; [discriminate L|]). destruct sb; [|discriminate L]. reflexivity.
Qed.
Lemma memory_body c n conn t len sb x b sb' y : conf_ok c -> layout_ok (lay c) -> Z.of_nat (esize (ecf c)) = eeSize (lay c) -> mapper_apart c x -> wf c x -> app_buffer sb -> request_ok t -> (q_count t <= 12)%nat ->
  processApci c n conn t len sb x = Some (b, sb', y) -> app_buffer sb' ->
  told b sb' (option_map (fun a : MemReq_Spec.answer => let '(k, q, bs) := a in (0x240 + k, q / 256 :: q mod 256 :: bs)) (fst (ideal_request (lay c) t (array (lay c) (mem x))))).
Proof.
  intros K HL EE MA W HB HT Hn E SB.
  assert (D : dev_ok (lay c) (mem x)).
  { destruct W as ((W1 & W2 & W3 & W4 & W5) & _). constructor; auto.
    - split; [rewrite W1; exact EE|exact W2].
    - split; [rewrite W3; unfold ram_bytes; pose proof (MemReq_Spec.l_ram _ HL); lia|exact W4].
    - intros m Hm. destruct (MA m Hm) as (M1 & _ & M2). split; auto. }
  assert (N : no_auto (lay c) (mem x)) by (intros Q; destruct (memMapper (mem x)) as [m|] eqn:Hm; [apply (MA m Hm)|congruence]).
  pose proof (MemReq_Proofs.dev_good _ _ HL D) as G. pose proof (MemReq_Op.request_command t HT) as HC. pose proof HT as (LT & F & H). destruct HB as (LB & _). unfold TL4_Model.TL4_BUFFER_SIZE in LB.
  assert (P : exists d', processMemoryApci (lay c) t sb (mem x) = Some (b, sb', d')).
  { unfold processApci in E. assert (Q : isPropertyCommand (apciCommand t) = false) by (rewrite HC; destruct H as [-> | ->]; reflexivity). rewrite Q in E.
    assert (E' : processApciDefault c n conn t sb x = Some (b, sb', y)) by (destruct (kind c); exact E). unfold processApciDefault in E'. cbv zeta in E'. rewrite HC in E'.
    replace (q_command t =? APCI_ADC_READ_PDU) with false in E' by (destruct H as [-> | ->]; reflexivity).
    replace ((q_command t =? APCI_MEMORY_READ_PDU) || (q_command t =? APCI_MEMORY_WRITE_PDU)) with true in E' by (destruct H as [-> | ->]; reflexivity).
    destruct (processMemoryApci _ _ _ _) as [[[b2 sb2] d2]|]; [|discriminate]. injection E' as -> -> _. exists d2. reflexivity. }
  destruct P as (d' & P). destruct (MemReq_Op.request_spec (lay c) t sb (mem x) (array (lay c) (mem x)) HL G N HT Hn LB (fun _ => eq_refl)) as (b2 & sb2 & d2 & P2 & _ & _ & _ & R).
  rewrite P in P2. injection P2 as <- <- <-. destruct (memory_head _ _ _ _ _ _ _ HL G N HT Hn LB P) as (L' & R').
  destruct (MemReq_Op.request_fields t F) as (_ & _ & _ & F3 & F4).
  destruct b; cbn [option_map] in R.
  - destruct (fst (ideal_request _ _ _)) as [[[k q] bs]|] eqn:I; [|discriminate]. cbn [option_map] in R. injection R as R. cbn [option_map told].
    assert (KQ : 0 <= k <= 12 /\ q = q_address t).
    { revert I. unfold ideal_request. cbv zeta. assert (IA : forall f, ideal_answer (lay c) (q_address t) (q_count t) f = (k, q, bs) -> 0 <= k <= 12 /\ q = q_address t).
      { intros f. unfold ideal_answer. destruct (q_count t) as [|m]; [intros [= <- <- _]; lia|]. destruct (MemReq_Spec.read_bytes _ _ _); intros [= <- <- _]; lia. }
      destruct (q_command t =? 0x200); [intros [= I]; apply (IA _ I)|]. destruct (match q_count t with O => _ | S _ => _ end) as [ok g]. destruct (_ && _); cbn [fst]; [|discriminate]. intros [= I]. apply (IA _ I). }
    destruct KQ as (KQ & ->). destruct SB as (_ & SB). split; [reflexivity|]. apply (decoded_body sb' k (q_address t) bs L' SB); auto; lia.
  - destruct (fst (ideal_request _ _ _)) as [[[k q] bs]|]; [discriminate|]. reflexivity.
Qed.
Lemma covered_reply c x n conn t len sb b sb' y : conf_ok c -> layout_ok (lay c) -> Z.of_nat (esize (ecf c)) = eeSize (lay c) -> 0 <= maskVersion (lay c) < 65536 -> wf c x -> app_buffer sb -> Forall is_byte t ->
  covered c x t -> processApci c n conn t len sb x = Some (b, sb', y) -> app_buffer sb' -> told b sb' (reply c (mem x) t).
Proof.
  intros K HL EE MV W HB F C E SB. unfold reply. destruct C as [P|(R & Q & M)].
  - replace (memory_service t) with false by (unfold memory_service; destruct P as (P1 & P2 & _); lia). apply (plain_body c n conn t len sb x b sb' y HB F P MV E).
  - assert (MS : memory_service t = true).
    { pose proof R as (_ & _ & H). rewrite service_command in H by exact F. pose proof (Z.div_mod (service t) 64 ltac:(lia)). pose proof (Z.mod_pos_bound (service t) 64 ltac:(lia)). unfold memory_service. lia. }
    rewrite MS. apply (memory_body c n conn t len sb x b sb' y K HL EE M W HB R Q E SB).
Qed.

(** ** Frames *)
Lemma answer_frame p n req resp f a : 0 <= n < 16 -> TL4_Spec.carries p n req resp f -> body resp a -> numbered_answer p n req a f.
Proof.
  intros Hn (C1 & C2 & C3 & C4 & C5 & C6 & C7 & C8) (B1 & B2 & B3 & B4 & B5 & B6). destruct a as [sv data]. cbn [fst snd] in *. unfold numbered_answer, is_frame. cbn [fst snd].
  assert (LF : length f = (8 + length data)%nat). { rewrite C1, B3. replace (0x60 + 1 + Z.of_nat (length data)) with (1 + Z.of_nat (length data) + 6 * 16) by lia. rewrite Z.mod_add by lia. rewrite Z.mod_small by lia. lia. }
  split; [exact LF|]. split; [exact C4|]. split; [exact C2|]. split; [rewrite C5; exact B3|]. split.
  - unfold TL4_Spec.seqno in C3. rewrite (Z.div_small (rd resp 6)) in C7 by lia. rewrite (Z.mod_small (rd resp 6)) in C6 by lia.
    unfold two in *. rewrite (C8 7%nat) by lia. assert (Q : rd f 6 = 64 + 4 * n + rd resp 6) by (clear - C3 C6 C7; Z.div_mod_to_equations; lia). rewrite Q. lia.
  - rewrite <- B6. apply list_ext with (d := 0); [rewrite skipn_length, firstn_length, skipn_length; lia|]. intros i Hi. rewrite skipn_length in Hi.
    rewrite MemReq_Proofs.nth_skipn. rewrite MemReq_Proofs.nth_firstn by lia. rewrite MemReq_Proofs.nth_skipn. apply (C8 (8 + i)%nat). lia.
Qed.

(** ** Where response frames come from *)
Lemma resp_app a b : responses (a ++ b) = responses a ++ responses b.
Proof. apply flat_map_app. Qed.
Lemma finished_resp r k : responses (cO (finishedSendingTelegram r k)) = responses (cO k).
Proof. unfold finishedSendingTelegram. destruct (negb _); [|reflexivity]. destruct (_ && _); [|reflexivity]. unfold sendPreparedTelegram. cbn [TL4_Model.upd emit cO]. rewrite resp_app. cbn. apply app_nil_r. Qed.
Lemma acquireLoop_resp w : forall s o k, acquireLoop s o w = Some k -> responses (cO k) = responses o.
Proof.
  induction w as [|r w IH]; intros s o k; cbn [acquireLoop]; destruct (txs s); try discriminate; try (intros [= <-]; reflexivity).
  intros E. rewrite (IH _ _ _ E). apply finished_resp.
Qed.
Lemma acquire_resp k k' : acquireSendBuffer k = Some k' -> responses (cO k') = responses (cO k).
Proof. apply acquireLoop_resp. Qed.
Lemma con_resp cmd a n k k' : sendConControlTelegram cmd a n k = Some k' -> responses (cO k') = responses (cO k).
Proof.
  unfold sendConControlTelegram. destruct (acquireSendBuffer k) as [j|] eqn:A; cbn [TL4_Model.andThen]; [|discriminate]. intros [= <-]. unfold sendPreparedTelegram. cbn [TL4_Model.upd emit cO]. rewrite resp_app. cbn. rewrite app_nil_r. apply (acquire_resp _ _ A).
Qed.
Lemma a06_resp k k' : actionA06 k = Some k' -> responses (cO k') = responses (cO k).
Proof. unfold actionA06. destruct (sendConControlTelegram _ _ _ _) as [j|] eqn:A; cbn [TL4_Model.andThen]; [|discriminate]. intros [= <-]. apply con_resp in A. exact A. Qed.
Lemma a02_resp n q t a k k' : actionA02 n q t a k = Some k' -> responses (cO k') = responses (cO k).
Proof.
  unfold actionA02. destruct (sendConControlTelegram _ _ _ _) as [j|] eqn:A; cbn [TL4_Model.andThen]; [|discriminate]. apply con_resp in A. destruct a as [b sb].
  destruct b; intros [= <-]; cbn [TL4_Model.upd emit cO]; rewrite resp_app; cbn; rewrite app_nil_r; exact A.
Qed.
Lemma direct_resp n t a k k' : processDirect n t a k = Some k' -> responses (cO k') = responses (cO k).
Proof.
  unfold processDirect. cbv zeta. destruct (Z.land (rd t 6) 0xfc =? 0).
  - destruct (acquireSendBuffer k) as [j|] eqn:A; cbn [TL4_Model.andThen]; [|discriminate]. apply acquire_resp in A.
    destruct (fst a); intros [= <-]; unfold sendPreparedTelegram; cbn [TL4_Model.upd emit cO]; rewrite !resp_app; cbn; rewrite ?app_nil_r; exact A.
  - destruct (_ || _); [now intros [= <-]|]. destruct (_ =? _); [apply a02_resp|]. destruct (_ =? _); [unfold actionA03|unfold actionA04]; (destruct (sendConControlTelegram _ _ _ _) as [j|] eqn:A; cbn [TL4_Model.andThen]; [|discriminate]; intros [= <-]; apply con_resp in A; exact A).
Qed.
Lemma odd_land v : is_byte v -> Z.land (Z.land v 0xc3) 1 <> 0 -> v mod 2 <> 0.
Proof.
  intros B N. assert (Q : (fun v => (Z.land (Z.land v 0xc3) 1 =? 0) || negb (v mod 2 =? 0)) v = true) by (revert v B N; intros v B _; revert v B; apply byte_forall; vm_compute; reflexivity). cbv beta in Q. destruct (Z.eqb_spec (Z.land (Z.land v 0xc3) 1) 0); [contradiction|]. destruct (Z.eqb_spec (v mod 2) 0); [discriminate|assumption].
Qed.
Lemma high_land v : is_byte v -> Z.land (Z.land v 0xc3) 0x80 <> 0 -> 128 <= v.
Proof.
  intros B N. assert (Q : (fun v => (Z.land (Z.land v 0xc3) 0x80 =? 0) || (128 <=? v)) v = true) by (revert v B N; intros v B _; revert v B; apply byte_forall; vm_compute; reflexivity). cbv beta in Q. destruct (Z.eqb_spec (Z.land (Z.land v 0xc3) 0x80) 0); [contradiction|]. lia.
Qed.
Lemma some_inj (a b : cfg) : Some a = Some b -> a = b.
Proof. congruence. Qed.
(** a received telegram makes the device send a response only if it is a control telegram that is no acknowledge *)
Lemma rx_resp s n t a w s' l : Forall is_byte t -> step s (OpRx n t a w) = Some (s', l) -> responses l = [] \/ (TL4_Spec.numbered t = false /\ TL4_Spec.is_ack t = false /\ execs l = []).
Proof.
  intros F E. pose proof (step_hands _ _ _ _ E) as (H & _). unfold step in E. cbn [stepCfg] in E. destruct (processTelegram _ _ _ _) as [k|] eqn:P; [|discriminate]. injection E as _ <-. unfold processTelegram in P. cbn [cS] in P. cbn [handover] in H.
  destruct (destinationAddress t =? 0). { apply some_inj in P; subst k. left. reflexivity. }
  destruct (negb (Z.land (rd t 5) 0x80 =? 0)). { apply some_inj in P; subst k. left. reflexivity. }
  destruct (negb (destinationAddress t =? own s)) eqn:D. { apply some_inj in P; subst k. left. reflexivity. }
  destruct (negb (Z.land (Z.land (rd t 6) 0xc3) 0x80 =? 0)) eqn:C.
  2:{ left. apply direct_resp in P. exact P. }
  assert (N : 128 <= rd t 6) by (apply high_land; [apply rd_byte; exact F|lia]).
  assert (X : execs (cO k) = []). { rewrite execs_handed, H. unfold executes. apply negb_true_iff in C. rewrite C, andb_false_r. reflexivity. }
  unfold processConControl in P. destruct (_ =? T_CONNECT_PDU).
  { left. unfold processConnect in P. cbn [cS] in P. assert (Q : Some (mkCfg s w []) = Some k \/ actionA10 (senderAddress t) (mkCfg s w []) = Some k \/ Some (TL4_Model.upd (actionA01Connect (u32 n) (senderAddress t)) (mkCfg s w [])) = Some k).
    { destruct (st s); [auto| |]; (destruct (caddr s =? senderAddress t); auto). }
    destruct Q as [Q|[Q|Q]].
    - apply some_inj in Q; subst k; reflexivity.
    - unfold actionA10 in Q. apply con_resp in Q. exact Q.
    - apply some_inj in Q. rewrite <- Q. reflexivity. }
  destruct (_ =? T_DISCONNECT_PDU).
  { left. unfold processDisconnect in P. cbn [cS] in P. destruct (st s); [apply some_inj in P; subst k; reflexivity| |]; (destruct (senderAddress t =? caddr s); apply some_inj in P; subst k; reflexivity). }
  unfold processAcknowledge in P. destruct (Z.land (Z.land (rd t 6) 0xc3) 0xC2 =? 0). { left. apply some_inj in P; subst k. reflexivity. } cbv zeta in P. cbn [cS] in P.
  destruct (Z.land (Z.land (rd t 6) 0xc3) 1 =? 0) eqn:O.
  { left. destruct (st s); [apply some_inj in P; subst k; reflexivity|apply some_inj in P; subst k; reflexivity|]. destruct (negb (caddr s =? _)) in P; [apply some_inj in P; subst k; reflexivity|]. destruct (negb _) in P; [apply a06_resp in P; exact P|apply some_inj in P; rewrite <- P; reflexivity]. }
  right. assert (OD : rd t 6 mod 2 <> 0) by (apply odd_land; [apply rd_byte; exact F|lia]). split; [unfold TL4_Spec.numbered, TL4_Spec.tpci_control; lia|]. split; [unfold TL4_Spec.is_ack; lia|exact X].
Qed.
Definition passive (o : op) : bool := match o with OpRx _ _ _ _ => false | OpLoop _ => false | _ => true end.
Lemma passive_resp s o s' l : passive o = true -> step s o = Some (s', l) -> responses l = [] /\ execs l = [].
Proof.
  intros P E. split; [|destruct (step_hands _ _ _ _ E) as (H & _); rewrite execs_handed, H; destruct o; try discriminate; reflexivity].
  unfold step in E. destruct o; try discriminate; cbn [stepCfg] in E.
  - destruct (txs s); injection E as _ <-; rewrite ?finished_resp; reflexivity.
  - destruct (acquireSendBuffer _) as [j|] eqn:A; cbn [TL4_Model.andThen] in E; [|discriminate]. injection E as _ <-. apply acquire_resp in A. unfold sendPreparedTelegram. cbn [TL4_Model.upd emit cO]. rewrite resp_app. cbn. rewrite app_nil_r. exact A.
  - destruct (actionA06 _) as [j|] eqn:A; [|discriminate]. injection E as _ <-. apply a06_resp in A. exact A.
  - injection E as _ <-. reflexivity.
Qed.

(** ** The operations of the transport layer in one operation of the device *)
Fixpoint course (c : conf) (x : device) (n : Z) (s : tl4) (ops : list op) : Prop :=
  match ops with
  | [] => True
  | o :: r =>
      match o with
      | OpRx m t app w => m = n /\ Forall is_byte t /\ (executes s t = true -> covered c x t -> told (fst app) (snd app) (reply c (mem x) t)) /\ Forall (fun o => passive o = true) r
      | OpLoop m => m = n
      | _ => True
      end /\ forall s' l, step s o = Some (s', l) -> course c x n s' r
  end.
Lemma course_passive c x n ops : Forall (fun o => passive o = true) ops -> forall s, course c x n s ops.
Proof. induction 1 as [|o r P R IH]; intros s; cbn [course]; [exact Logic.I|]. split; [destruct o; try exact Logic.I; discriminate|]. intros s' l _. apply IH. Qed.
Lemma course_app c x n b : Forall (fun o => passive o = true) b -> forall a s, course c x n s a -> course c x n s (a ++ b).
Proof.
  intros P. induction a as [|o r IH]; intros s; cbn [course app]; [intros _; apply course_passive; exact P|]. intros (A & B). split; [|intros s' l E; apply IH, (B s' l E)].
  destruct o; try exact A. destruct A as (A1 & A2 & A3 & A4). repeat split; auto. apply Forall_app; auto.
Qed.
Lemma course_setTl c x u n ops : forall s, course c (setTl x u) n s ops -> course c x n s ops.
Proof. induction ops as [|o r IH]; intros s; cbn [course]; [auto|]. intros (A & B). split; [destruct o; exact A|]. intros s' l E. apply IH, (B s' l E). Qed.
Lemma broadcast_ops c t w x y l : sound (tl x) -> wf c x -> processBroadCastTelegram c t w x = Some (y, l) -> exists ops, does (tl x) ops (tl y) l [] /\ Forall (fun o => passive o = true) ops.
Proof.
  intros S W.
  assert (N : forall (z : device) (k : list out), Some (x, []) = Some (z, k) -> exists ops, does (tl x) ops (tl z) k [] /\ Forall (fun o => passive o = true) ops).
  { intros z k [= <- <-]. exists []. split; [apply does_nil|constructor]. }
  assert (O : forall a, quiet (setOwnAddress c a x) = Some (y, l) -> exists ops, does (tl x) ops (tl y) l [] /\ Forall (fun o => passive o = true) ops).
  { intros a E. apply quiet_some in E. destruct E as [E ->]. unfold setOwnAddress in E. destruct (memOwnAddress _ _ _) as [d|] eqn:M; [|discriminate]. injection E as <-. exists [OpSetOwn a]. split; [apply does_one; [exact Logic.I|reflexivity|reflexivity]|repeat constructor]. }
  assert (A : forall f, (forall b, app_buffer b -> app_buffer (f b)) -> sendOwn f w x = Some (y, l) -> exists ops, does (tl x) ops (tl y) l [] /\ Forall (fun o => passive o = true) ops).
  { intros f K E. unfold sendOwn in E. destruct (acquireSendBuffer _) as [k|] eqn:A; [|discriminate]. injection E as <- <-. exists [OpAppSend (f (txb (tl x))) w]. split; [|repeat constructor].
    destruct (acquire_keeps _ _ A) as (_ & T & _). cbn [cS] in T. apply does_one; [apply K, sound_txb, S| |reflexivity]. unfold step. cbn [stepCfg]. rewrite A. cbn [TL4_Model.andThen]. rewrite T. reflexivity. }
  assert (D : broadcastDefault c t w x = Some (y, l) -> exists ops, does (tl x) ops (tl y) l [] /\ Forall (fun o => passive o = true) ops).
  { unfold broadcastDefault. cbv zeta. destruct (negb _); [apply N|]. destruct (_ =? _); [apply O|]. destruct (_ =? _); [apply A; apply addressResponse_ok|apply N]. }
  unfold processBroadCastTelegram. cbv zeta. destruct (kind c); [exact D|]. destruct (_ =? _); [destruct (sameSerial _ _); [apply O|apply N]|].
  destruct (_ =? _); [|exact D]. destruct (sameSerial _ _); [|apply N]. apply A. intros b. apply (serialResponse_ok c). apply W.
Qed.
Section Device.
Variable c : conf.
Hypothesis K : conf_ok c.
Hypothesis T : tables_ok c.
Hypothesis MV : 0 <= maskVersion (lay c) < 65536.
Hypothesis HL : layout_ok (lay c).
Hypothesis EE : Z.of_nat (esize (ecf c)) = eeSize (lay c).
Lemma receive_course n r x y l : sound (tl x) -> good_dev c x -> Forall is_byte (rxTel r) -> receive c n r x = Some (y, l) ->
  exists ops, does (tl x) ops (tl y) l [rxTel r] /\ course c x n (tl x) ops.
Proof.
  intros S G F E. unfold receive in E. cbv zeta in E. set (t := rxTel r) in *. pose proof G as (W & B). destruct (destinationAddress t =? 0) eqn:D0.
  { assert (X0 : executes (tl x) t = false) by (unfold executes; rewrite D0; reflexivity).
    destruct (processBroadCastTelegram _ _ _ _) as [[z o]|] eqn:P; [|discriminate]. injection E as <- <-. destruct (broadcast_ops _ _ _ _ _ _ S W P) as (ops & D & M). exists (OpRx n t (false, blank) [] :: ops). split.
    - apply (does_app _ [OpRx n t (false, blank) []] (tl x) [Bcast t] [t] ops _ o []); [|exact D|left; reflexivity]. apply does_rx; [exact F|apply blank_ok|]. unfold step. cbn [stepCfg]. unfold processTelegram. rewrite D0. reflexivity.
    - cbn [course]. split; [|intros s' l' _; apply course_passive; exact M]. split; [reflexivity|]. split; [exact F|]. split; [congruence|exact M]. }
  destruct (negb (Z.land (rd t 5) 0x80 =? 0)) eqn:Gr.
  { assert (X0 : executes (tl x) t = false) by (unfold executes; rewrite D0; apply negb_true_iff in Gr; rewrite Gr; reflexivity).
    injection E as <- <-. exists [OpRx n t (false, blank) []]. split; [apply does_rx; [exact F|apply blank_ok|]; unfold step; cbn [stepCfg]; unfold processTelegram; rewrite D0, Gr; reflexivity|].
    cbn [course]. split; [|auto]. split; [reflexivity|]. split; [exact F|]. split; [congruence|constructor]. }
  destruct (executes (tl x) t) eqn:X.
  - destruct (processApci _ _ _ _ _ _ _) as [[[ans sb] z]|] eqn:P; [|discriminate]. destruct (step _ _) as [[s o]|] eqn:Q; [|discriminate]. injection E as <- <-.
    destruct (apci_good _ _ _ _ _ _ _ _ _ _ T F P G (apciBuffer_ok _ _ S)) as (A1 & A2). exists [OpRx n t (ans, sb) (rxWaits r)]. split; [apply does_rx; assumption|].
    cbn [course fst snd]. split; [|auto]. split; [reflexivity|]. split; [exact F|]. split; [|constructor]. intros _ CV.
    apply (covered_reply c x _ _ t _ _ ans sb z K HL EE MV W (apciBuffer_ok _ _ S) F CV P A1).
  - destruct (step _ _) as [[s o]|] eqn:Q; [|discriminate]. injection E as <- <-. exists [OpRx n t (false, blank) (rxWaits r)]. split; [apply does_rx; [exact F|apply blank_ok|]; rewrite (unexecuted _ _ _ _ (false, []) _ X D0 Gr); exact Q|].
    cbn [course]. split; [|auto]. split; [reflexivity|]. split; [exact F|]. split; [congruence|constructor].
Qed.
Lemma loop_course i x y l : sound (tl x) -> good_dev c x -> input_ok c (Loop i) -> running x = true -> bcuLoop c i x = Some (y, l) ->
  exists ops, does (tl x) ops (tl y) (bus_events l) (taken x (Loop i)) /\ course c x (now i) (tl x) ops.
Proof.
  intros S (W & B) (OK & _) R E. destruct (loop_parts _ _ _ _ _ E) as (s & o1 & x2 & o2 & x3 & o3 & x4 & o4 & P1 & P2 & P3 & P4 & -> & P6).
  assert (D1 : does (tl x) [OpLoop (now i)] s o1 []) by (apply does_one; [exact Logic.I|exact P1|reflexivity]). pose proof (does_sound _ _ _ _ _ D1 S) as S1.
  assert (W1 : wf c (setTl x s)). { destruct (step_hands _ _ _ _ P1) as (_ & O). apply wf_setTl; [exact W|apply O; reflexivity]. }
  assert (D2 : exists ops, does s ops (tl x2) (bus_events o2) (taken x (Loop i)) /\ course c x (now i) s ops).
  { cbn [taken]. rewrite R. destruct (received_case _ _ _ _ _ P2) as [(r & o & Rx & S0 & St & V & ->)|(H & -> & ->)].
    - rewrite Rx, S0. cbn [mem setTl] in St. rewrite St. cbn [negb andb]. rewrite bus_map. destruct (receive_course (now i) r (setTl x s) x2 o S1 (conj W1 B) (proj1 (OK r Rx)) V) as (ops & D & C). exists ops. split; [exact D|apply (course_setTl _ _ _ _ _ _ C)].
    - exists []. split; [|exact Logic.I]. cbn [mem setTl] in H. destruct (rx i) as [r|]; [|apply does_nil]. destruct H as [H|[H|H]]; [discriminate|rewrite H; apply does_nil|rewrite H, andb_false_r; apply does_nil]. }
  destruct D2 as (ops2 & D2 & B2). pose proof (does_sound _ _ _ _ _ D2 S1) as S2. destruct (button_frame _ _ _ _ _ _ P3) as (F1 & _ & F3 & _ & _ & _ & _ & F8).
  assert (D4 : exists ops, does (tl x3) ops (tl x4) (bus_events o4) [] /\ Forall (fun o => passive o = true) ops).
  { destruct (sending2 i); [destruct P4 as (-> & ->); exists []; split; [apply does_nil|constructor]|].
    destruct (restart_case _ _ _ _ _ _ P4) as [(_ & -> & ->)|[(_ & _ & s' & o & Q & -> & ->)|[(_ & _ & t & _ & -> & ->)|(_ & _ & t & z & _ & F & -> & ->)]]].
    - exists []. split; [apply does_nil|constructor].
    - exists [OpDisconnect (waits i)]. split; [|repeat constructor]. rewrite bus_map. apply does_one; [exact Logic.I|exact Q|reflexivity].
    - exists []. split; [apply does_nil|constructor].
    - exists []. destruct (flush_frame _ _ _ F) as (Ft & _). split; [|constructor]. cbn [tl stop]. rewrite Ft. apply does_nil. }
  destruct D4 as (ops4 & D4 & B4). exists ([OpLoop (now i)] ++ ops2 ++ ops4). split.
  - assert (Y : tl y = tl x4) by (destruct (_ || _) in P6; [now subst y|]; destruct (flush_frame _ _ _ P6) as (Ft & _); exact Ft). rewrite Y.
    rewrite !bus_app, bus_map, (bus_pins o3 F8). cbn [app]. apply (does_app _ _ _ _ [] _ _ _ (taken x (Loop i)) D1); [|right; constructor; [reflexivity|constructor]]. rewrite <- (app_nil_r (taken x (Loop i))).
    rewrite F1 in D4. apply (does_app _ _ _ _ _ _ _ _ _ D2 D4). left; reflexivity.
  - cbn [app course]. split; [reflexivity|]. intros s' l' E1. rewrite P1 in E1. injection E1 as <- <-. apply course_app; assumption.
Qed.
Lemma step_course x o y l : sound (tl x) -> good_dev c x -> input_ok c o -> is_power_up o = false -> dstep c x o = Some (y, l) ->
  exists ops, does (tl x) ops (tl y) (bus_events l) (taken x o) /\ course c x (time_of o) (tl x) ops.
Proof.
  intros S G OK NP E. pose proof G as (W & B). unfold dstep in E. destruct (running x) eqn:R.
  2:{ assert (H : Some (x, []) = Some (y, l)) by (destruct o; [exact E|exact E|exact E|exact E|exact E|discriminate NP]). injection H as <- <-. exists []. split; [|exact Logic.I].
      unfold taken. rewrite R. destruct o; try apply does_nil. destruct (rx i); apply does_nil. }
  destruct o as [i|ok|b|g|buf w|last junk]; [apply (loop_course i x y l S G OK R E)| | | | |discriminate].
  - destruct (step _ _) as [[s o]|] eqn:Q; [|discriminate]. injection E as <- <-. exists [OpTxDone ok]. split; [|cbn; auto]. rewrite bus_map. apply does_one; [exact Logic.I|exact Q|reflexivity].
  - destruct (setProgrammingMode c b x) as [[r z] o] eqn:Q. injection E as <- <-. destruct (setMode_tl _ _ _ _ _ _ Q) as (-> & M & ->). exists []. split; [apply does_nil|exact Logic.I].
  - injection E as <- <-. exists []. split; [apply does_nil|exact Logic.I].
  - destruct (step _ _) as [[s o]|] eqn:Q; [|discriminate]. injection E as <- <-. exists [OpAppSend buf w]. split; [|cbn; auto]. rewrite bus_map. apply does_one; [apply OK|exact Q|reflexivity].
Qed.
End Device.
