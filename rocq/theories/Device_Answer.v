(** Answers of the device: lemmas for C77 and C78 *)
From Verif Require Import Base Bits Telegram_Model Device_Model Device_Spec Device_Spec3 Device_Spec5 Device_TL Device_Status Device_Proofs Device_Wf Device_Steps Device_Bytes Device_Refine Device_Refine2 Device_Restart Device_Keep.
From Verif Require MemReq_Spec MemReq_Props MemReq_Proofs TL4_Spec TL4_Proofs.
Import TL4_Spec(app_buffer).
Import Eeprom_Model(esize, fsize, marked).

(** ** disconnect() *)
(** [o'] continues [o] with telegrams without data *)
Definition controls (o o' : list out) : Prop := exists b, o' = o ++ b /\ forall e, In e b -> match e with Tx _ f => 0x80 <= rd f 6 | _ => False end.
Lemma controls_refl o : controls o o.
Proof. exists []. split; [symmetry; apply app_nil_r|]. intros e []. Qed.
Lemma controls_trans a b c : controls a b -> controls b c -> controls a c.
Proof. intros (u & -> & U) (v & -> & V). exists (u ++ v). split; [apply app_assoc_reverse|]. intros e He. apply in_app_or in He. destruct He as [He|He]; [apply (U e He)|apply (V e He)]. Qed.
Lemma sent_byte b : rd (firstn (telegramSize b) b) 6 = rd b 6.
Proof. apply TL4_Proofs.rd_firstn. unfold telegramSize. rewrite land_15. pose proof (Z.mod_pos_bound (rd b 5) 16 ltac:(lia)). lia. Qed.
Lemma bit_128 v : is_byte v -> Z.land v 0x80 <> 0 -> 0x80 <= v.
Proof.
  intros H N. destruct (Z.lt_ge_cases v 0x80) as [Q|Q]; [|exact Q]. exfalso. apply N. apply Z.bits_inj'. intros k Hk. rewrite Z.land_spec, Z.bits_0. change 0x80 with (2 ^ 7). rewrite Z.pow2_bits_eqb by lia.
  destruct (Z.eqb_spec 7 k) as [<-|]; [|apply andb_false_r]. rewrite andb_true_r. unfold is_byte in H. destruct (Z.eqb_spec v 0) as [->|]; [reflexivity|]. apply Z.bits_above_log2; [lia|]. apply Z.log2_lt_pow2; lia.
Qed.
Lemma finished_controls r k : is_byte (rd (txb (cS k)) 6) -> controls (cO k) (cO (finishedSendingTelegram r k)).
Proof.
  intros B. unfold finishedSendingTelegram. cbn [TL4_Model.upd cS cO txb set_txs]. destruct (Z.eqb_spec (Z.land (rd (txb (cS k)) 6) 0x80) 0) as [|N]; cbn [negb]; [apply controls_refl|]. destruct (_ && _); [|apply controls_refl].
  unfold sendPreparedTelegram. cbn [TL4_Model.upd emit cS cO txb set_txs set_ccRep]. exists [Tx KRetry (firstn (telegramSize (txb (cS k))) (txb (cS k)))]. split; [reflexivity|]. intros e [<-|[]]. rewrite sent_byte. apply bit_128; auto.
Qed.
Lemma acquire_controls w : forall s o k, app_buffer (txb s) -> acquireLoop s o w = Some k -> controls o (cO k) /\ txb (cS k) = txb s.
Proof.
  induction w as [|r w IH]; intros s o k B; cbn [acquireLoop]; destruct (txs s); try discriminate; try (intros [= <-]; split; [apply controls_refl|reflexivity]).
  intros E. pose proof (finished_txb r (mkCfg s w o)) as T. pose proof (finished_controls r (mkCfg s w o) (rd_byte _ 6 (proj2 B))) as C. cbn [cS cO] in T, C. apply IH in E; [|rewrite T; exact B]. destruct E as (E1 & E2). split; [|congruence]. apply (controls_trans _ _ _ C E1).
Qed.
Lemma controlTelegram_disc b a n : app_buffer b -> rd (controlTelegram b T_DISCONNECT_PDU a n) 6 = 0x81.
Proof.
  intros (L & _). unfold TL4_Model.TL4_BUFFER_SIZE in L. do 23 (destruct b as [|? b]; [discriminate L|]). destruct b; [|discriminate L].
  unfold controlTelegram. change (Z.land T_DISCONNECT_PDU T_SEQUENCED_COMMAND =? 0) with true. cbv iota. reflexivity.
Qed.
Lemma disconnect_frames s w s' l : app_buffer (txb s) -> step s (OpDisconnect w) = Some (s', l) -> controls [] l.
Proof.
  intros B. unfold step. cbn [stepCfg]. unfold actionA06, sendConControlTelegram, acquireSendBuffer. cbn [TL4_Model.upd cS cO cW caddr set_st].
  destruct (acquireLoop _ _ _) as [k|] eqn:E; cbn [TL4_Model.andThen]; [|discriminate]. apply acquire_controls in E; [|exact B]. destruct E as (E1 & E2). intros [= _ <-].
  unfold sendPreparedTelegram. cbn [TL4_Model.upd emit cS cO txb set_txs set_txb]. eapply controls_trans; [exact E1|]. eexists. split; [reflexivity|]. intros e [<-|[]]. rewrite sent_byte, controlTelegram_disc by (rewrite E2; exact B). lia.
Qed.
(** ** One pass with a telegram *)
Lemma pass_answer c i r x y l : conf_ok c -> op_ok c (Loop i) -> wf c x -> takes x (Loop i) r -> dstep c x (Loop i) = Some (y, l) ->
  exists s o1 x2 o2 b, step (tl x) (OpLoop (now i)) = Some (s, o1) /\ own s = own (tl x) /\ receive c (now i) r (setTl x s) = Some (x2, o2) /\ l = map Bus o1 ++ map Bus o2 ++ b /\
    (app_buffer (txb (tl x2)) -> closing b) /\
    ramData (mem y) = ramData (mem x2) /\ (forall j, (j < esize (ecf c) - 1)%nat -> rd (eeData (mem y)) j = rd (eeData (mem x2)) j) /\ own (tl y) = own (tl x2).
Proof.
  intros K OK W (RN & i' & [= <-] & RX & S1 & ST) E. unfold dstep in E. rewrite RN in E.
  destruct (loop_parts _ _ _ _ _ E) as (s & o1 & x2 & o2 & x3 & o3 & x4 & o4 & P1 & P2 & P3 & P4 & P5 & P6).
  destruct (step_hands _ _ _ _ P1) as (_ & O). specialize (O eq_refl). assert (W1 : wf c (setTl x s)) by (apply wf_setTl; auto). pose proof (wf_received _ _ _ _ _ OK W1 P2) as W2. pose proof (wf_button _ _ _ _ _ _ P3 W2) as W3.
  destruct (received_case _ _ _ _ _ P2) as [(r' & o & R' & _ & _ & RR & ->)|([Q|[Q|Q]] & _)]; try (cbn [mem setTl] in Q; congruence). assert (r' = r) as -> by congruence.
  destruct (button_frame _ _ _ _ _ _ P3) as (TB & _ & MB & _ & _ & _ & _ & PN).
  assert (A3 : ramData (mem x3) = ramData (mem x2) /\ eeData (mem x3) = eeData (mem x2)) by (destruct MB as [-> | ->]; split; reflexivity).
  assert (A4 : wf c x4 /\ ramData (mem x4) = ramData (mem x3) /\ own (tl x4) = own (tl x3) /\ (forall j, (j < esize (ecf c) - 1)%nat -> rd (eeData (mem x4)) j = rd (eeData (mem x3)) j) /\
     (app_buffer (txb (tl x3)) -> closing o4)).
  { destruct (sending2 i). { destruct P4 as (-> & ->). split; [exact W3|]. split; [reflexivity|]. split; [reflexivity|]. split; [reflexivity|]. intros _ e []. } pose proof (wf_restart _ _ _ _ _ _ K W3 P4) as W4. split; [exact W4|].
    destruct (restart_case _ _ _ _ _ _ P4) as [(_ & -> & ->)|[(_ & _ & s' & o' & S & -> & ->)|[(_ & _ & t & _ & -> & ->)|(_ & _ & t & z & _ & F & -> & ->)]]].
    - split; [reflexivity|]. split; [reflexivity|]. split; [reflexivity|]. intros _ e [].
    - split; [reflexivity|]. destruct (step_hands _ _ _ _ S) as (_ & O'). split; [apply O'; reflexivity|]. split; [reflexivity|]. intros B. destruct (disconnect_frames _ _ _ _ B S) as (u & -> & D). intros e He. cbn [app] in He. apply in_map_iff in He. destruct He as (q & <- & He). apply (D q He).
    - split; [reflexivity|]. split; [reflexivity|]. split; [reflexivity|]. intros _ e [].
    - destruct (flush_frame _ _ _ F) as (T & _ & M & _). destruct (tail_flush c _ _ K (W3 : wf c (setRestart x3 (rType x3) (rDisc x3) t)) F) as (TF & _). cbn [stop mem tl]. rewrite M, T. split; [reflexivity|]. split; [reflexivity|]. split; [exact TF|]. intros _ e [<-|[]]. exact Logic.I. }
  destruct A4 as (W4 & A4 & A5 & A6 & A7). exists s, o1, x2, o, (o3 ++ o4). split; [exact P1|]. split; [exact O|]. split; [exact RR|]. split; [exact P5|].
  split. { intros B e He. apply in_app_or in He. destruct He as [He|He]; [destruct (PN e He) as (v & ->); exact Logic.I|]. rewrite <- TB in B. apply (A7 B e He). }
  destruct A3 as (A3 & A3').
  destruct (_ || _) in P6; [subst y|].
  - rewrite A4, A3, A5, TB. split; [reflexivity|]. split; [|reflexivity]. intros j J. rewrite A6, A3' by exact J. reflexivity.
  - destruct (flush_frame _ _ _ P6) as (T & _ & M & _). destruct (tail_flush c _ _ K W4 P6) as (TF & _). rewrite M, T, A4, A3, A5, TB. split; [reflexivity|]. split; [|reflexivity]. intros j J. rewrite (TF j J), A6, A3' by exact J. reflexivity.
Qed.
(** a connectionless request in the transport layer *)
Lemma direct_rx s n t ans sb w s' l : executes s t = true -> Z.land (rd t 6) 0xfc = 0 -> step s (OpRx n t (ans, sb) w) = Some (s', l) ->
  exists a, l = a ++ ExecDirect t :: (if ans then [Tx KDirect (firstn (telegramSize sb) sb)] else []) /\ txb s' = sb.
Proof.
  unfold executes. intros X F. unfold step. cbn [stepCfg]. unfold processTelegram. cbn [cS].
  destruct (destinationAddress t =? 0) eqn:D0; [discriminate|]. destruct (Z.land (rd t 5) 0x80 =? 0) eqn:G; [|discriminate]. destruct (destinationAddress t =? own s) eqn:D1; [|discriminate].
  destruct (Z.land (Z.land (rd t 6) 0xc3) 0x80 =? 0) eqn:Q; [|discriminate]. cbn [negb]. unfold processDirect. rewrite F. cbn [Z.eqb].
  destruct (acquireSendBuffer _) as [k|]; cbn [TL4_Model.andThen]; [|discriminate]. cbn [fst snd]. destruct ans; intros [= <- <-]; exists (cO k); (split; [|reflexivity]).
  - unfold sendPreparedTelegram. cbn [TL4_Model.upd emit cS cO txb set_txs set_txb]. rewrite <- app_assoc. reflexivity.
  - reflexivity.
Qed.
(** ** Frames *)
Lemma frame_is sb p d up srv data : length sb = 23%nat -> rd sb 0 = 0xB0 + 4 * p -> two sb 3 = d -> (length data <= 14)%nat -> up mod 16 = 0 -> rd sb 5 = up + 1 + Z.of_nat (length data) -> two sb 6 = srv ->
  firstn (length data) (skipn 8 sb) = data -> is_frame (firstn (telegramSize sb) sb) p d up srv data.
Proof.
  intros L H0 H3 N U H5 H6 H8.
  assert (T : telegramSize sb = (8 + length data)%nat).
  { unfold telegramSize. rewrite H5, land_15. replace (up + 1 + Z.of_nat (length data)) with (up + (1 + Z.of_nat (length data))) by lia.
    rewrite Z.add_mod, U by lia. rewrite (Z.mod_small (1 + _)) by lia. cbn [Z.add]. rewrite Z.mod_small by lia. lia. }
  rewrite T. assert (R : forall i, (i < 8)%nat -> rd (firstn (8 + length data) sb) i = rd sb i) by (intros i Hi; apply TL4_Proofs.rd_firstn; lia).
  unfold is_frame. unfold two in *. rewrite !R by lia. split; [rewrite firstn_length; lia|]. split; [exact H0|]. split; [exact H3|]. split; [exact H5|]. split; [exact H6|].
  rewrite skipn_firstn_comm. replace (8 + length data - 8)%nat with (length data) by lia. exact H8.
Qed.
Lemma prio_field t : Forall is_byte t -> priority t = prio_of t.
Proof.
  intros F. unfold priority, prio_of, controlByte. change 3 with (Z.ones 2). rewrite Z.land_ones, Z.shiftr_div_pow2 by lia. reflexivity.
Qed.
(** the header in front of the answer *)
Definition headed (b : list Z) (p d : Z) : Prop := app_buffer b /\ rd b 0 = 0xB0 + 4 * p /\ two b 3 = d.
Lemma header b p d : app_buffer b -> 0 <= p < 4 -> 0 <= d < 65536 -> headed (setDestinationAddress (initLpdu b p false FRAME_STANDARD) d) p d.
Proof.
  intros B P D. split; [apply TL4_Proofs.setDest_buffer, TL4_Proofs.initLpdu_buffer; auto|]. destruct B as (L & _). unfold TL4_Model.TL4_BUFFER_SIZE in L.
  do 23 (destruct b as [|? b]; [discriminate L|]). destruct b; [|discriminate L]. split.
  - assert (Q : p = 0 \/ p = 1 \/ p = 2 \/ p = 3) by lia. destruct Q as [-> |[-> |[-> | ->]]]; reflexivity.
  - unfold two. change (256 * HIGH_BYTE d + lowByte d = d). unfold HIGH_BYTE, lowByte, u8. rewrite ?land_255, ?Z.shiftr_div_pow2 by lia. change (2 ^ 8) with 256. rewrite ?(Z.mod_small (d / 256)) by (split; [apply Z.div_pos; lia|apply Z.div_lt_upper_bound; lia]).
    pose proof (Z.div_mod d 256 ltac:(lia)). lia.
Qed.
(** ** Requests that need no memory *)
Ltac explicit sb L := unfold TL4_Model.TL4_BUFFER_SIZE in L; do 23 (destruct sb as [|? sb]; [discriminate L|]); destruct sb; [|discriminate L].
Lemma high_low v : 0 <= v < 65536 -> HIGH_BYTE v = v / 256 /\ lowByte v = v mod 256.
Proof.
  intros H. unfold HIGH_BYTE, lowByte, u8. rewrite ?land_255, ?Z.shiftr_div_pow2 by lia. change (2 ^ 8) with 256. split; [|reflexivity]. rewrite ?Z.mod_small; [reflexivity|].
  split; [apply Z.div_pos; lia|apply Z.div_lt_upper_bound; lia].
Qed.
Lemma adc_service t : Forall is_byte t -> 0x180 <= service t < 0x1C0 -> rd t 6 mod 4 = 1 /\ 128 <= rd t 7 < 192.
Proof. intros F. pose proof (rd_byte t 7 F) as B. unfold is_byte, service in *. pose proof (Z.mod_pos_bound (rd t 6) 4 ltac:(lia)). lia. Qed.
Lemma adc_low v : 128 <= v < 192 -> Z.lor (lowByte APCI_ADC_RESPONSE_PDU) (Z.land v 0x3f) = v + 64.
Proof.
  intros H. assert (Q : (fun v => negb ((128 <=? v) && (v <? 192)) || (Z.lor (lowByte APCI_ADC_RESPONSE_PDU) (Z.land v 0x3f) =? v + 64)) v = true).
  { revert v H. enough (H : forall v, is_byte v -> (fun v => negb ((128 <=? v) && (v <? 192)) || (Z.lor (lowByte APCI_ADC_RESPONSE_PDU) (Z.land v 0x3f) =? v + 64)) v = true) by (intros v Hv; apply H; unfold is_byte; lia). apply byte_forall. vm_compute. reflexivity. }
  cbv beta in Q. lia.
Qed.
Definition done (b : bool) (sb : list Z) (p d : Z) (ans : option (Z * list Z)) : Prop :=
  match ans with Some (s, data) => b = true /\ is_frame (firstn (telegramSize sb) sb) p d 0x60 s data | None => b = false end.
Lemma plain_default c n conn t sb x b sb' y p d : headed sb p d -> Forall is_byte t -> plain c t -> 0 <= maskVersion (lay c) < 65536 ->
  processApciDefault c n conn t sb x = Some (b, sb', y) -> done b sb' p d (answer_to c t) /\ mem y = mem x.
Proof.
  intros ((L & _) & H0 & H3) F (PR & PW & _) MV. unfold processApciDefault, answer_to, done. cbv zeta. pose proof (service_range t F) as SR.
  unfold APCI_ADC_READ_PDU, APCI_MEMORY_READ_PDU, APCI_MEMORY_WRITE_PDU, APCI_DEVICEDESCRIPTOR_READ_PDU, APCI_MASTER_RESET_PDU, APCI_AUTHORIZE_REQUEST_PDU, APCI_BASIC_RESTART_PDU.
  rewrite !command_short by auto 10. rewrite !command_long by auto. change (0x180 + 64) with 0x1C0. change (0x200 + 64) with 0x240. change (0x280 + 64) with 0x2C0. change (0x300 + 64) with 0x340.
  replace ((0x200 <=? service t) && (service t <? 0x240)) with false by lia. replace ((0x280 <=? service t) && (service t <? 0x2C0)) with false by lia. cbn [orb].
  destruct ((0x180 <=? service t) && (service t <? 0x1C0)) eqn:A.
  { intros [= <- <- <-]. split; [|reflexivity]. split; [reflexivity|]. destruct (adc_service t F ltac:(lia)) as (Q1 & Q2). pose proof (adc_low (rd t 7) Q2) as Q3. explicit sb L.
    apply frame_is; try assumption; try reflexivity; try (cbn [length]; lia).
    unfold two. change (256 * 1 + Z.lor (lowByte APCI_ADC_RESPONSE_PDU) (Z.land (rd t 7) 0x3f) = service t + 64). rewrite Q3. unfold service. lia. }
  destruct ((0x300 <=? service t) && (service t <? 0x340)) eqn:DS.
  { unfold descriptorRead. assert (Q : (Z.land (rd t 7) 0x3f =? 0) = (service t =? 0x300)).
    { pose proof (rd_byte t 7 F) as B. unfold is_byte in B. assert (rd t 6 mod 4 = 3 /\ 0 <= rd t 7 < 64) as (Q1 & Q2) by (unfold service in *; pose proof (Z.mod_pos_bound (rd t 6) 4 ltac:(lia)); lia).
      change 0x3f with (Z.ones 6). rewrite Z.land_ones by lia. rewrite Z.mod_small by lia. unfold service. rewrite Q1. lia. }
    rewrite Q. destruct (service t =? 0x300) eqn:S0; cbn [negb].
    - intros [= <- <- <-]. split; [|reflexivity]. split; [reflexivity|]. destruct (high_low _ MV) as (-> & ->). explicit sb L. apply frame_is; try assumption; try reflexivity; try (cbn [length]; lia).
    - intros [= <- <- <-]. replace (service t =? 0x381) with false by lia. replace (service t =? 0x3D1) with false by lia. split; reflexivity. }
  replace (service t =? 0x300) with false by lia. destruct (service t =? 0x381).
  { pose proof (rd_byte t 8 F) as B8. unfold is_byte in B8. unfold masterReset, T_MASTERRESET_FACTORY_WO_IA, BOOTLOADER_MAGIC_CHANNEL, T_MASTERRESET_CONFIRMED_RESTART.
    assert (G : forall e, e = 0 \/ e = 2 -> let z := wr (wr (wr (setApciCommand (wr sb 5 0x64) APCI_MASTER_RESET_RESPONSE_PDU 0) 8 e) 9 0) 10 (if e =? T_RESTART_NO_ERROR then 1 else 0) in
       is_frame (firstn (telegramSize z) z) p d 0x60 0x3A1 [e; 0; if e =? 0 then 1 else 0]).
    { intros e He. cbv zeta. explicit sb L. apply frame_is; try assumption; try reflexivity; try (cbn [length]; lia). }
    destruct ((rd t 8 =? 7) && (rd t 9 =? 255)) eqn:M.
    { rewrite orb_true_r. intros [= <- <- <-]. split; [|reflexivity]. split; [reflexivity|]. apply (G 0); auto. }
    rewrite orb_false_r. destruct ((rd t 8 =? 0) || (7 <? rd t 8)) eqn:N.
    { replace (rd t 8 =? 1) with false by lia. intros [= <- <- <-]. split; [|reflexivity]. split; [reflexivity|]. apply (G 2); auto. }
    destruct (rd t 8 =? 1); intros [= <- <- <-]; (split; [|reflexivity]); (split; [reflexivity|]); [apply (G 0)|apply (G 2)]; auto. }
  destruct (service t =? 0x3D1).
  { intros [= <- <- <-]. split; [|reflexivity]. split; [reflexivity|]. explicit sb L. apply frame_is; try assumption; try reflexivity; try (cbn [length]; lia). }
  destruct (service t =? 0x380); intros [= <- <- <-]; split; reflexivity.
Qed.
Lemma plain_apci c n conn t len sb x b sb' y p d : headed sb p d -> Forall is_byte t -> plain c t -> 0 <= maskVersion (lay c) < 65536 ->
  processApci c n conn t len sb x = Some (b, sb', y) -> done b sb' p d (answer_to c t) /\ mem y = mem x.
Proof.
  intros H F P MV. unfold processApci. destruct (kind c) eqn:K; [apply plain_default; auto|].
  assert (Q : isPropertyCommand (apciCommand t) = false).
  { destruct P as (_ & _ & [P|P]); [congruence|]. unfold isPropertyCommand, APCI_PROPERTY_VALUE_READ_PDU, APCI_PROPERTY_VALUE_WRITE_PDU, APCI_PROPERTY_DESCRIPTION_READ_PDU. rewrite !command_long by auto. cbn [In] in P. lia. }
  rewrite Q. apply plain_default; auto.
Qed.
(** ** Requests in a pass *)
Lemma connectionless_executes x s t : Forall is_byte t -> own s = own (tl x) -> connectionless x t -> executes s t = true /\ Z.land (rd t 6) 0xfc = 0 /\ (destinationAddress t =? 0) = false /\ negb (Z.land (rd t 5) 0x80 =? 0) = false.
Proof.
  intros F O (D & N & H5 & H6). unfold executes. rewrite dest_field, O by auto. unfold own_address in *. rewrite D.
  pose proof (rd_byte t 6 F) as B6. pose proof (rd_byte t 5 F) as B5. unfold is_byte in *.
  assert (Q : rd t 6 = 0 \/ rd t 6 = 1 \/ rd t 6 = 2 \/ rd t 6 = 3) by lia.
  assert (G : Z.land (rd t 5) 0x80 = 0).
  { apply Z.bits_inj'. intros k Hk. rewrite Z.land_spec, Z.bits_0. change 0x80 with (2 ^ 7). rewrite Z.pow2_bits_eqb by lia. destruct (Z.eqb_spec 7 k) as [<-|]; [|apply andb_false_r].
    rewrite andb_true_r. destruct (Z.eqb_spec (rd t 5) 0) as [->|]; [reflexivity|]. apply Z.bits_above_log2; [lia|]. apply Z.log2_lt_pow2; lia. }
  rewrite G, !Z.eqb_refl. replace (own (tl x) =? 0) with false by lia. destruct Q as [-> |[-> |[-> | ->]]]; repeat split.
Qed.
Lemma source_field t : Forall is_byte t -> senderAddress t = source t.
Proof. apply (two_word t 1). Qed.
Lemma connectionless_pass c i r x y l : conf_ok c -> tables_ok c -> found c x -> input_ok c (Loop i) -> takes x (Loop i) r -> connectionless x (rxTel r) -> dstep c x (Loop i) = Some (y, l) ->
  exists s conn sb0 ans sb z, headed sb0 (prio_of (rxTel r)) (source (rxTel r)) /\ processApci c (u32 (now i)) conn (rxTel r) (rxLen r) sb0 (setTl x s) = Some (ans, sb, z) /\ app_buffer sb /\ wf c (setTl x s) /\
    (ans = true -> answered_with l (ExecDirect (rxTel r)) (firstn (telegramSize sb) sb)) /\ (ans = false -> not_answered l (ExecDirect (rxTel r))) /\
    ramData (mem y) = ramData (mem z) /\ (forall j, (j < esize (ecf c) - 1)%nat -> rd (eeData (mem y)) j = rd (eeData (mem z)) j) /\ own_address y = own_address x.
Proof.
  intros K T FO (OK & _) TK CL E. destruct (found_sound c x K T FO) as ((W & DB) & SO). pose proof TK as (_ & i' & [= <-] & RX & _). destruct (OK r RX) as (F & _).
  destruct (pass_answer c i r x y l K OK W TK E) as (s & o1 & x2 & o2 & b & P1 & O & P2 & -> & CB & MR & ME & MO).
  destruct (connectionless_executes x s (rxTel r) F O CL) as (X & Q & D0 & G).
  assert (S : sound s) by (refine (sound_step _ (OpLoop (now i)) _ _ SO _ P1); exact Logic.I).
  pose proof P2 as RC. unfold receive in P2. cbv zeta in P2. cbn [tl setTl] in P2. rewrite D0, G, X in P2.
  destruct (processApci _ _ _ _ _ _ _) as [[[ans sb] z]|] eqn:PA; [|discriminate]. destruct (step s _) as [[s2 o]|] eqn:ST; [|discriminate]. injection P2 as <- <-.
  exists s, (directConnection s), (apciBuffer s (rxTel r)), ans, sb, z. cbn [tl setTl] in CB.
  assert (HB : app_buffer (apciBuffer s (rxTel r))) by (apply apciBuffer_ok; exact S).
  split. { unfold apciBuffer. rewrite Q. cbn [Z.eqb]. rewrite prio_field, source_field by exact F. apply header; [apply sound_txb; exact S|unfold prio_of; apply Z.mod_pos_bound; lia|]. apply (two_range (rxTel r) 1 F). }
  split; [exact PA|]. destruct (direct_rx _ _ _ _ _ _ _ _ X Q ST) as (a & -> & TB).
  assert (SB : app_buffer sb). { apply (apci_good c _ _ _ _ _ _ _ _ _ T F PA); [|exact HB]. split; [|exact DB]. apply wf_setTl; auto. }
  split; [exact SB|]. split; [apply wf_setTl; auto|]. split; [|split].
  - intros ->. exists (map Bus o1 ++ map Bus a), [], KDirect, b. split; [rewrite map_app, <- !app_assoc; reflexivity|]. split; [intros e []|]. apply CB. rewrite TB. exact SB.
  - intros ->. exists (map Bus o1 ++ map Bus a), b. split; [rewrite map_app, <- !app_assoc; reflexivity|]. apply CB. rewrite TB. exact SB.
  - cbn [mem setTl] in MR, ME. split; [exact MR|]. split; [exact ME|]. unfold own_address. rewrite MO. cbn [tl setTl]. destruct (step_hands _ _ _ _ ST) as (_ & OO). rewrite OO by reflexivity. exact O.
Qed.
(** ** Memory requests *)
Import MemReq_Spec(layout_ok, dev_ok, no_auto, request_ok, q_count, q_address, q_command, ideal_answer, ideal_request, decode_response, array).
Lemma read_head L n a sb d b sb' d' : layout_ok L -> MemReq_Proofs.good L d -> no_auto L d -> length sb = 23%nat -> (n <= 12)%nat -> 0 <= a < 65536 -> memoryRead L (Z.of_nat n) a sb d = Some (b, sb', d') ->
  length sb' = 23%nat /\ forall i, (i < 5)%nat -> rd sb' i = rd sb i.
Proof.
  intros HL G N Hl Hn Ha. unfold memoryRead.
  assert (Q : exists ok sb1 d1, processApciMemoryOperation L a 10 (Z.of_nat n) true sb d = Some (ok, sb1, d1) /\ length sb1 = 23%nat /\ forall i, (i < 5)%nat -> rd sb1 i = rd sb i).
  { destruct n as [|n]; [exists false, sb, d; repeat split; auto|]. destruct (MemReq_Op.op_spec L a (S n) 10 true sb d HL G N) as (k & ok & sb1 & d1 & -> & V & _); try lia; try discriminate. exists ok, sb1, d1. split; [reflexivity|].
    split; [rewrite (MemReq_Proofs.v_len _ _ _ _ _ _ _ _ _ V); exact Hl|]. intros i Hi. rewrite (MemReq_Proofs.v_buf _ _ _ _ _ _ _ _ _ V). replace (Nat.leb 10 i) with false by (symmetry; apply Nat.leb_gt; lia). reflexivity. }
  destruct Q as (ok & sb1 & d1 & -> & L1 & R1). intros [= _ <- _]. unfold setApciCommand. cbv zeta. split; [rewrite !wr_length; exact L1|]. intros i Hi. rewrite !rd_wr_other by lia. apply R1. exact Hi.
Qed.
Lemma memory_head L t sb d b sb' d' : layout_ok L -> MemReq_Proofs.good L d -> no_auto L d -> request_ok t -> (q_count t <= 12)%nat -> length sb = 23%nat -> processMemoryApci L t sb d = Some (b, sb', d') ->
  length sb' = 23%nat /\ forall i, (i < 5)%nat -> rd sb' i = rd sb i.
Proof.
  intros HL G N HT Hn Hl. pose proof (MemReq_Op.request_command t HT) as HC. destruct HT as (LT & B & H). destruct (MemReq_Op.request_fields t B) as (_ & F1 & F2 & F3 & F4).
  unfold processMemoryApci. cbv zeta. rewrite HC, F1, F2. destruct H as [H|H]; rewrite H.
  - change (0x200 =? APCI_MEMORY_READ_PDU) with true. cbv iota. apply read_head; auto.
  - change (0x280 =? APCI_MEMORY_READ_PDU) with false. change (0x280 =? APCI_MEMORY_WRITE_PDU) with true. cbv iota.
    assert (W : forall ok b' d1, processApciMemoryOperation L (q_address t) 10 (Z.of_nat (q_count t)) false t d = Some (ok, b', d1) -> MemReq_Proofs.good L d1 /\ no_auto L d1).
    { intros ok b' d1. destruct (q_count t) as [|n]. { intros [= _ _ <-]. auto. }
      destruct (MemReq_Op.op_spec L (q_address t) (S n) 10 false t d HL G N (fun _ => B) F4 ltac:(lia) ltac:(lia)) as (k & ok2 & b2 & d2 & -> & V & _). intros [= _ _ <-]. split; apply V. }
    destruct (processApciMemoryOperation _ _ _ _ _ _ _) as [[[ok b'] d1]|]; [|discriminate]. destruct (W ok b' d1 eq_refl) as (G1 & N1). destruct (_ && _).
    + apply read_head; auto.
    + intros [= _ <- _]. auto.
Qed.
Lemma service_command t : Forall is_byte t -> q_command t = 64 * (service t / 64).
Proof.
  intros F. unfold q_command, service. replace (256 * (rd t 6 mod 4) + rd t 7) with (rd t 7 + 4 * (rd t 6 mod 4) * 64) by lia. rewrite Z.div_add by lia. lia.
Qed.
Lemma decoded_frame sb p d k a bs : length sb = 23%nat -> Forall is_byte sb -> rd sb 0 = 0xB0 + 4 * p -> two sb 3 = d -> 0 <= a < 65536 -> k <= 12 -> decode_response sb = Some (k, a, bs) ->
  is_frame (firstn (telegramSize sb) sb) p d 0x60 (0x240 + k) (a / 256 :: a mod 256 :: bs).
Proof.
  intros L F H0 H3 A K. unfold decode_response. cbv zeta. destruct ((_ && _) && _) eqn:E; [|discriminate]. intros QQ. assert (K1 : rd sb 7 mod 16 = k) by congruence. assert (A1 : 256 * rd sb 8 + rd sb 9 = a) by congruence. assert (B1 : firstn (Z.to_nat (rd sb 7 mod 16)) (skipn 10 sb) = bs) by congruence. clear QQ.
  pose proof (Z.mod_pos_bound (rd sb 7) 16 ltac:(lia)) as M. pose proof (Z.div_mod (rd sb 7) 16 ltac:(lia)) as DM.
  pose proof (rd_byte sb 8 F) as B8. pose proof (rd_byte sb 9 F) as B9. unfold is_byte in *.
  assert (LB : length bs = Z.to_nat k) by (rewrite <- B1, firstn_length, skipn_length, K1; lia).
  assert (A8 : a / 256 = rd sb 8) by (rewrite <- A1; rewrite (Z.mul_comm 256), Z.div_add_l by lia; rewrite Z.div_small by lia; lia).
  assert (A9 : a mod 256 = rd sb 9) by (rewrite <- A1; rewrite Z.add_comm, (Z.mul_comm 256), Z.mod_add by lia; apply Z.mod_small; lia).
  apply frame_is; auto.
  - cbn [length]. rewrite LB. lia.
  - cbn [length]. rewrite LB. lia.
  - unfold two. lia.
  - cbn [length]. rewrite A8, A9, LB, <- B1, K1. clear - L. do 23 (destruct sb as [|? sb]; [discriminate L|]). destruct sb; [|discriminate L]. reflexivity.
Qed.
(** the answer to a memory request *)
Lemma memory_apci c n conn t len sb x b sb' y p d : conf_ok c -> layout_ok (lay c) -> Z.of_nat (esize (ecf c)) = eeSize (lay c) -> mapper_apart c x -> wf c x -> headed sb p d -> request_ok t -> (q_count t <= 12)%nat ->
  processApci c n conn t len sb x = Some (b, sb', y) -> app_buffer sb' ->
  done b sb' p d (option_map (fun a : MemReq_Spec.answer => let '(k, q, bs) := a in (0x240 + k, q / 256 :: q mod 256 :: bs)) (fst (ideal_request (lay c) t (array (lay c) (mem x))))).
Proof.
  intros K HL EE MA W (HB & H0 & H3) HT Hn E SB.
  assert (D : dev_ok (lay c) (mem x)).
  { destruct W as ((W1 & W2 & W3 & W4 & W5) & _). constructor; auto.
    - split; [rewrite W1; exact EE|exact W2].
    - split; [rewrite W3; unfold ram_bytes; pose proof (MemReq_Spec.l_ram _ HL); lia|exact W4].
    - intros m Hm. destruct (MA m Hm) as (M1 & _ & M2). split; auto. }
  assert (N : no_auto (lay c) (mem x)) by (intros Q; destruct (memMapper (mem x)) as [m|] eqn:Hm; [apply (MA m Hm)|congruence]).
  pose proof (MemReq_Proofs.dev_good _ _ HL D) as G. pose proof (MemReq_Op.request_command t HT) as HC. pose proof HT as (LT & F & H). destruct HB as (LB & _). unfold TL4_Model.TL4_BUFFER_SIZE in LB.
  assert (P : exists d', processMemoryApci (lay c) t sb (mem x) = Some (b, sb', d')).
  { unfold processApci in E. assert (Q : isPropertyCommand (apciCommand t) = false) by (rewrite HC; destruct H as [-> | ->]; reflexivity). rewrite Q in E.
    assert (E' : processApciDefault c n conn t sb x = Some (b, sb', y)) by (destruct (kind c); exact E). unfold processApciDefault in E'. cbv zeta in E'. rewrite HC in E'.
    replace (q_command t =? APCI_ADC_READ_PDU) with false in E' by (destruct H as [-> | ->]; reflexivity).
    replace ((q_command t =? APCI_MEMORY_READ_PDU) || (q_command t =? APCI_MEMORY_WRITE_PDU)) with true in E' by (destruct H as [-> | ->]; reflexivity).
    destruct (processMemoryApci _ _ _ _) as [[[b2 sb2] d2]|]; [|discriminate]. injection E' as -> -> _. exists d2. reflexivity. }
  destruct P as (d' & P). destruct (MemReq_Op.request_spec (lay c) t sb (mem x) (array (lay c) (mem x)) HL G N HT Hn LB (fun _ => eq_refl)) as (b2 & sb2 & d2 & P2 & _ & _ & _ & R).
  rewrite P in P2. injection P2 as <- <- <-. destruct (memory_head _ _ _ _ _ _ _ HL G N HT Hn LB P) as (L' & R').
  destruct (MemReq_Op.request_fields t F) as (_ & _ & _ & F3 & F4).
  destruct b; cbn [option_map] in R.
  - destruct (fst (ideal_request _ _ _)) as [[[k q] bs]|] eqn:I; [|discriminate]. cbn [option_map] in R. injection R as R. cbn [option_map done].
    assert (KQ : 0 <= k <= 12 /\ q = q_address t).
    { revert I. unfold ideal_request. cbv zeta. assert (IA : forall f, ideal_answer (lay c) (q_address t) (q_count t) f = (k, q, bs) -> 0 <= k <= 12 /\ q = q_address t).
      { intros f. unfold ideal_answer. destruct (q_count t) as [|m]; [intros [= <- <- _]; lia|]. destruct (MemReq_Spec.read_bytes _ _ _); intros [= <- <- _]; lia. }
      destruct (q_command t =? 0x200); [intros [= I]; apply (IA _ I)|]. destruct (match q_count t with O => _ | S _ => _ end) as [ok g]. destruct (_ && _); cbn [fst]; [|discriminate]. intros [= I]. apply (IA _ I). }
    destruct KQ as (KQ & ->). destruct SB as (_ & SB).
    split; [reflexivity|]. apply (decoded_frame sb' p d k (q_address t) bs L' SB); auto; try lia. { rewrite R' by lia. exact H0. } unfold two in *. rewrite !R' by lia. exact H3.
  - destruct (fst (ideal_request _ _ _)) as [[[k q] bs]|]; [discriminate|]. reflexivity.
Qed.
(** ** Broadcasts *)
Lemma sendOwn_spec f w x y l : app_buffer (txb (tl x)) -> (forall b, app_buffer b -> app_buffer (f b)) -> sendOwn f w x = Some (y, l) ->
  exists a, l = a ++ [Tx KApp (firstn (telegramSize (f (txb (tl x)))) (f (txb (tl x))))] /\ controls [] a /\ app_buffer (txb (tl y)).
Proof.
  intros B F. unfold sendOwn, acquireSendBuffer. cbn [cS cO cW]. destruct (acquireLoop _ _ _) as [k|] eqn:E; [|discriminate]. apply acquire_controls in E; [|exact B]. destruct E as (E0 & E). intros [= <- <-].
  unfold sendPreparedTelegram. cbn [TL4_Model.upd emit cS cO txb set_txs set_txb tl setTl]. rewrite E. exists (cO k). split; [reflexivity|]. split; [exact E0|]. apply F. exact B.
Qed.
Lemma address_frame b : app_buffer b -> app_buffer (addressResponse b) /\ is_frame (firstn (telegramSize (addressResponse b)) (addressResponse b)) 0 0 0xE0 0x140 [].
Proof.
  intros B. destruct (header b PRIORITY_SYSTEM 0 B) as (HB & H0 & H3); try (unfold PRIORITY_SYSTEM; lia). unfold addressResponse. cbv zeta. set (h := setDestinationAddress _ 0) in *. clearbody h. clear B b. split; [buf|].
  destruct HB as (L & _). explicit h L. apply frame_is; try assumption; try reflexivity; cbn [length]; lia.
Qed.
Lemma serial_length c x : conf_ok c -> wf c x -> kind c = Bcu2 -> serial (mem x) = map (fun i => rd (eeData (mem x)) (Z.to_nat 0x38A + i)) (seq 0 6).
Proof.
  intros [K _ _ _] ((W1 & _) & _) KD. rewrite KD in K. unfold serial, serialSize, serialOffset. assert (L : (Z.to_nat 0x38A + 6 <= length (eeData (mem x)))%nat) by lia. set (l := eeData (mem x)) in *. set (n := Z.to_nat 0x38A) in *. clearbody l n. clear - L.
  apply list_ext with (d := 0); [rewrite firstn_length, skipn_length, map_length, seq_length; lia|]. intros i Hi. rewrite firstn_length, skipn_length in Hi.
  change (nth i (firstn 6 (skipn n l)) 0) with (rd (firstn 6 (skipn n l)) i). rewrite MemReq_Proofs.rd_sub by lia. do 6 (destruct i as [|i]; [reflexivity|]). lia.
Qed.
Lemma serial_frame c x b : conf_ok c -> wf c x -> kind c = Bcu2 -> app_buffer b ->
  app_buffer (serialResponse (mem x) b) /\ is_frame (firstn (telegramSize (serialResponse (mem x) b)) (serialResponse (mem x) b)) 0 0 0xE0 0x3DD (map (fun i => rd (eeData (mem x)) (Z.to_nat 0x38A + i)) (seq 0 6) ++ [0; 0; 0; 0]).
Proof.
  intros K W KD B. pose proof (serial_length c x K W KD) as S. destruct (header b PRIORITY_SYSTEM 0 B) as (HB & H0 & H3); try (unfold PRIORITY_SYSTEM; lia). unfold serialResponse. cbv zeta. set (h := setDestinationAddress _ 0) in *. clearbody h. clear B b.
  split.
  - apply TL4_Proofs.app_buffer_wr; [|red; lia]. apply TL4_Proofs.app_buffer_wr; [|red; lia]. apply TL4_Proofs.app_buffer_wr; [|red; lia]. apply TL4_Proofs.app_buffer_wr; [|red; lia].
    assert (Q : app_buffer (setApciCommand (wr h 5 0xeb) APCI_INDIVIDUALADDRESS_SERIALNUMBER_RESPONSE_PDU 0)) by buf. destruct Q as (Q1 & Q2). split; [rewrite wr_range_length; exact Q1|]. apply MemReq_Proofs.Forall_wr_range; [exact Q2|].
    apply MemReq_Proofs.Forall_sub. apply W.
  - rewrite S. cbn [map seq]. destruct HB as (L & _). explicit h L. apply frame_is; try assumption; try reflexivity; cbn [length app map]; lia.
Qed.
Lemma serial_iff c x t : conf_ok c -> wf c x -> kind c = Bcu2 -> sameSerial t (mem x) = forallb (fun i => rd t (8 + i) =? rd (eeData (mem x)) (Z.to_nat 0x38A + i)) (seq 0 6).
Proof.
  intros K W KD. unfold sameSerial. rewrite (serial_length c x K W KD). unfold serialSize. set (n := Z.to_nat 0x38A). clearbody n. cbn [map seq forallb].
  destruct (list_eq_dec _ _ _) as [E|E].
  - injection E as E0 E1 E2 E3 E4 E5. cbn [Nat.add] in *. rewrite E0, E1, E2, E3, E4, E5, !Z.eqb_refl. reflexivity.
  - symmetry. apply not_true_is_false. intros Q. apply E. rewrite !andb_true_iff, !Z.eqb_eq in Q. cbn [Nat.add] in Q. destruct Q as (Q0 & Q1 & Q2 & Q3 & Q4 & Q5 & _). rewrite Q0, Q1, Q2, Q3, Q4, Q5. reflexivity.
Qed.
Lemma broadcast_pass c i r x y l : conf_ok c -> tables_ok c -> found c x -> input_ok c (Loop i) -> takes x (Loop i) r -> is_broadcast (rxTel r) -> dstep c x (Loop i) = Some (y, l) ->
  match broadcast_answer c (mem x) (rxTel r) with
  | Some (s, data) => exists f, answered_with l (Bcast (rxTel r)) f /\ is_frame f 0 0 0xE0 s data
  | None => not_answered l (Bcast (rxTel r))
  end.
Proof.
  intros K T FO (OK & _) TK CL E. destruct (found_sound c x K T FO) as ((W & DB) & SO). pose proof TK as (_ & i' & [= <-] & RX & _). destruct (OK r RX) as (F & _).
  destruct (pass_answer c i r x y l K OK W TK E) as (s & o1 & x2 & o2 & b & P1 & O & P2 & -> & CB & _).
  assert (S : sound s) by (refine (sound_step _ (OpLoop (now i)) _ _ SO _ P1); exact Logic.I). pose proof (sound_txb s S) as TX.
  unfold receive in P2. cbv zeta in P2. rewrite dest_field, CL, Z.eqb_refl in P2 by auto. destruct (processBroadCastTelegram _ _ _ _) as [[z o]|] eqn:PB; [|discriminate]. injection P2 as -> <-.
  set (t := rxTel r) in *. pose proof (service_range t F) as SR.
  assert (QA : forall a, quiet (setOwnAddress c a (setTl x s)) = Some (x2, o) -> not_answered (map Bus o1 ++ map Bus (Bcast t :: o) ++ b) (Bcast t)).
  { intros a Q. destruct (quiet_some _ _ _ Q) as (Q' & ->). exists (map Bus o1), b. split; [reflexivity|]. apply CB. unfold setOwnAddress in Q'. destruct (memOwnAddress _ _ _); [|discriminate]. injection Q' as <-. exact TX. }
  assert (QN : Some (setTl x s, []) = Some (x2, o) -> not_answered (map Bus o1 ++ map Bus (Bcast t :: o) ++ b) (Bcast t)).
  { intros [= <- <-]. exists (map Bus o1), b. split; [reflexivity|]. apply CB. exact TX. }
  assert (QF : forall f sv data, (forall q, app_buffer q -> app_buffer (f q) /\ is_frame (firstn (telegramSize (f q)) (f q)) 0 0 0xE0 sv data) -> sendOwn f (rxWaits r) (setTl x s) = Some (x2, o) ->
     exists g, answered_with (map Bus o1 ++ map Bus (Bcast t :: o) ++ b) (Bcast t) g /\ is_frame g 0 0 0xE0 sv data).
  { intros f sv data HF Q. destruct (sendOwn_spec f _ (setTl x s) _ _ TX (fun q B => proj1 (HF q B)) Q) as (a & -> & (u & Eu & U) & B2). cbn [app] in Eu. subst u. eexists. split; [|apply (proj2 (HF _ TX))].
    exists (map Bus o1), (map Bus a), KApp, b. split; [|split; [|apply CB; exact B2]].
    - cbn [map app]. rewrite map_app, <- app_assoc. reflexivity.
    - intros e He. apply in_map_iff in He. destruct He as (q & <- & He). apply (U q He). }
  assert (DF : broadcastDefault c t (rxWaits r) (setTl x s) = Some (x2, o) -> if (service t =? 0x100) && Z.testbit (status (mem x)) 0
     then exists g, answered_with (map Bus o1 ++ map Bus (Bcast t :: o) ++ b) (Bcast t) g /\ is_frame g 0 0 0xE0 0x140 [] else not_answered (map Bus o1 ++ map Bus (Bcast t :: o) ++ b) (Bcast t)).
  { unfold broadcastDefault. cbv zeta. rewrite programming_bit. cbn [mem setTl]. unfold APCI_INDIVIDUAL_ADDRESS_WRITE_PDU, APCI_INDIVIDUAL_ADDRESS_READ_PDU. rewrite !command_long by auto.
    destruct (Z.testbit (status (mem x)) 0); cbn [negb]; [rewrite andb_true_r|rewrite andb_false_r; exact QN]. destruct (Z.eqb_spec (service t) 0xC0) as [A|A]; [rewrite A; cbn; apply QA|]. destruct (service t =? 0x100); [|exact QN].
    apply QF. exact address_frame. }
  unfold processBroadCastTelegram in PB. cbv zeta in PB. unfold APCI_INDIVIDUALADDRESS_SERIALNUMBER_WRITE_PDU, APCI_INDIVIDUALADDRESS_SERIALNUMBER_READ_PDU in PB. rewrite !command_long in PB by auto. unfold broadcast_answer. fold t.
  destruct (kind c) eqn:KD.
  { specialize (DF PB). destruct ((service t =? 0x100) && _); [exact DF|]. rewrite andb_false_r. cbn [andb]. exact DF. }
  destruct (Z.eqb_spec (service t) 0x3DE) as [A|A].
  { rewrite A. cbn [Z.eqb Pos.eqb andb]. destruct (sameSerial _ _); [apply (QA _ PB)|apply (QN PB)]. }
  destruct (Z.eqb_spec (service t) 0x3DC) as [A2|A2].
  { rewrite A2. cbn [Z.eqb Pos.eqb andb]. cbn [mem setTl] in PB. rewrite (serial_iff c x t K W KD) in PB. destruct (forallb _ _); [|apply (QN PB)]. apply (QF (serialResponse (mem x))); [|exact PB]. intros q B. apply (serial_frame c x q K W KD B). }
  specialize (DF PB). destruct ((service t =? 0x100) && _); exact DF.
Qed.
