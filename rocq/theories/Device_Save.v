(** Saving the EEPROM and reading it back at power-up *)
From Verif Require Import Base Bits Device_Model Device_Spec Device_TL Device_Status Device_Proofs Device_Wf Device_Steps.
Import Eeprom_Model(esize, fsize, marked).
Import Eeprom_Spec(ecfg_ok, sector_ok, content).

Lemma receive_running c n r x y l : receive c n r x = Some (y, l) -> running y = running x /\ sector y = sector x.
Proof.
  assert (SO : forall f w y l, sendOwn f w x = Some (y, l) -> running y = running x /\ sector y = sector x).
  { intros f w z k E. destruct (sendOwn_frame _ _ _ _ _ E) as (_ & _ & C & D). split; [apply D|exact C]. }
  assert (SA : forall a y l, quiet (setOwnAddress c a x) = Some (y, l) -> running y = running x /\ sector y = sector x).
  { intros a z k E. destruct (quiet_some _ _ _ E) as (E' & _). unfold setOwnAddress in E'. destruct (memOwnAddress _ _ _); [|discriminate]. injection E' as <-. split; reflexivity. }
  assert (BD : forall t w y l, broadcastDefault c t w x = Some (y, l) -> running y = running x /\ sector y = sector x).
  { intros t w z k. unfold broadcastDefault. cbv zeta. destruct (negb _); [now intros [= <- _]|]. destruct (_ =? _); [apply SA|]. destruct (_ =? _); [apply SO|now intros [= <- _]]. }
  assert (AD : forall conn t sb b sb' z, processApciDefault c (u32 n) conn t sb x = Some (b, sb', z) -> running z = running x /\ sector z = sector x).
  { intros conn t sb b sb' z. unfold processApciDefault. cbv zeta. destruct (_ =? _); [now intros [= _ _ <-]|]. destruct (_ || _).
    { destruct (processMemoryApci _ _ _ _) as [[[a s] d]|]; [|discriminate]. now intros [= _ _ <-]. }
    destruct (_ =? _). { destruct (descriptorRead _ _ _). now intros [= _ _ <-]. }
    destruct (_ =? _). { unfold masterReset. destruct (_ && _); [now intros [= _ _ <-]|]. destruct (_ || _); [now intros [= _ _ <-]|]. destruct (_ =? _); now intros [= _ _ <-]. }
    destruct (_ =? _); [now intros [= _ _ <-]|]. destruct (_ =? _); now intros [= _ _ <-]. }
  unfold receive. cbv zeta. destruct (_ =? 0).
  - destruct (processBroadCastTelegram _ _ _ _) as [[z o]|] eqn:E; [|discriminate]. intros [= <- _]. unfold processBroadCastTelegram in E. cbv zeta in E.
    destruct (kind c); [apply (BD _ _ _ _ E)|]. destruct (_ =? _); [destruct (sameSerial _ _); [apply (SA _ _ _ E)|injection E as <- _; auto]|].
    destruct (_ =? _); [destruct (sameSerial _ _); [apply (SO _ _ _ _ E)|injection E as <- _; auto]|apply (BD _ _ _ _ E)].
  - destruct (negb _); [now intros [= <- _]|].
    match goal with |- context [match ?a with Some _ => _ | None => _ end = _] => destruct a as [[[b sb] z]|] eqn:A; [|discriminate] end.
    destruct (step _ _) as [[s o]|]; [|discriminate]. intros [= <- _]. destruct (executes _ _); [|injection A as _ _ <-; split; reflexivity].
    unfold processApci in A. destruct (kind c); [apply (AD _ _ _ _ _ _ A)|]. destruct (isPropertyCommand _); [|apply (AD _ _ _ _ _ _ A)].
    destruct (processPropertyApci _ _ _ _ _ _ _) as [[s' d]|]; [|discriminate]. injection A as _ _ <-. split; reflexivity.
Qed.
Lemma received_running c i x y l : checkReceived c i x = Some (y, l) -> running y = running x /\ sector y = sector x.
Proof. intros E. destruct (received_case _ _ _ _ _ E) as [(r & o & _ & _ & _ & V & _)|(_ & -> & _)]; [apply (receive_running _ _ _ _ _ _ V)|auto]. Qed.
Lemma read_content c s : conf_ok c -> sector_ok (ecf c) s -> saved c s (read_back c s).
Proof. intros K S. apply (Eeprom_Proofs.read_content (ecf c) (Eeprom_Model.mkEep s [] false) (conf_ecfg c K) (proj1 S)). Qed.
Lemma content_read c s d : conf_ok c -> sector_ok (ecf c) s -> saved c s d -> read_back c s = d.
Proof. intros K S C. apply (Eeprom_Proofs.content_unique (ecf c) s); auto. apply read_content; auto. Qed.

(** a pass that ends without a connection and outside a transmission leaves nothing unsaved *)
Lemma loop_saves c i x y l s o1 x2 o2 x3 o3 x4 o4 :
  conf_ok c -> wf c x2 -> running x = true -> sending3 i = false -> directConnection (tl y) = false ->
  step (tl x) (OpLoop (now i)) = Some (s, o1) -> checkReceived c i (setTl x s) = Some (x2, o2) -> progButton c (u32 (now i)) (level i) x2 = (x3, o3) ->
  (if sending2 i then x4 = x3 /\ o4 = [] else checkRestart c (u32 (now i)) (waits i) x3 = Some (x4, o4)) -> l = map Bus o1 ++ o2 ++ o3 ++ o4 ->
  (if negb (running x4) || sending3 i || negb (eeModified (mem x4)) || directConnection (tl x4) then y = x4 else flushUserMemory c x4 = Some y) ->
  wf c y /\ eeModified (mem y) = false /\ (forall j, (j < esize (ecf c) - 1)%nat -> rd (eeData (mem y)) j = rd (eeData (mem x2)) j) /\
  (if eeModified (mem x2) then read_back c (sector y) = eeData (mem y) else eeData (mem y) = eeData (mem x2) /\ sector y = sector x2).
Proof.
  intros K W2 R S3 NC P1 P2 P3 P4 _ P6. destruct (received_running _ _ _ _ _ P2) as (R2 & _). cbn [running setTl] in R2.
  pose proof (wf_button _ _ _ _ _ _ P3 W2) as W3. destruct (button_frame _ _ _ _ _ _ P3) as (_ & SB & B & _ & _ & _ & R3 & _).
  assert (BE : eeData (mem x3) = eeData (mem x2) /\ eeModified (mem x3) = eeModified (mem x2)) by (destruct B as [-> | ->]; split; reflexivity). destruct BE as (B1 & B2).
  assert (LOW : forall z z', wf c z -> flushUserMemory c z = Some z' -> forall j, (j < esize (ecf c) - 1)%nat -> rd (eeData (mem z')) j = rd (eeData (mem z)) j).
  { intros z z' Wz Fz j Hj. destruct (flush_wf _ _ _ K Wz Fz) as (_ & -> & _). unfold flushed. destruct (eeModified (mem z)); [|reflexivity]. unfold marked. apply rd_wr_other. lia. }
  assert (G : (running x4 = true /\ wf c x4 /\ eeData (mem x4) = eeData (mem x2) /\ eeModified (mem x4) = eeModified (mem x2) /\ sector x4 = sector x2) \/
    (running x4 = false /\ exists z, wf c z /\ eeData (mem z) = eeData (mem x2) /\ eeModified (mem z) = eeModified (mem x2) /\ sector z = sector x2 /\ exists u, flushUserMemory c z = Some u /\ x4 = stop u)).
  { assert (G0 : wf c x4 -> mem x4 = mem x3 -> sector x4 = sector x3 -> running x4 = running x3 ->
      (running x4 = true /\ wf c x4 /\ eeData (mem x4) = eeData (mem x2) /\ eeModified (mem x4) = eeModified (mem x2) /\ sector x4 = sector x2)).
    { intros Q0 Q1 Q2 Q3. rewrite Q1, Q2, Q3. split; [congruence|]. split; [exact Q0|]. split; [congruence|]. split; congruence. }
    destruct (sending2 i). { destruct P4 as (-> & _). left. apply G0; auto. }
    pose proof (wf_restart _ _ _ _ _ _ K W3 P4) as W4.
    destruct (restart_case _ _ _ _ _ _ P4) as [(_ & -> & _)|[(_ & _ & s' & o & S & -> & _)|[(_ & _ & t & _ & -> & _)|(_ & _ & t & z & _ & F & -> & _)]]].
    - left. apply G0; auto.
    - left. apply G0; auto.
    - left. apply G0; auto.
    - right. split; [reflexivity|]. exists (setRestart x3 (rType x3) (rDisc x3) t). split; [exact W3|]. split; [exact B1|]. split; [exact B2|]. split; [exact SB|]. exists z. auto. }
  destruct G as [(G1 & W4 & G2 & G3 & G4)|(G1 & z & Wz & Z1 & Z2 & Z3 & u & FU & ->)].
  - rewrite G1, S3 in P6. cbn [negb orb] in P6. rewrite G3 in P6. destruct (eeModified (mem x2)) eqn:M; cbn [negb orb] in P6.
    + assert (DC : directConnection (tl x4) = false). { destruct (directConnection (tl x4)) eqn:D; [|reflexivity]. congruence. }
      rewrite DC in P6. destruct (flush_wf _ _ _ K W4 P6) as (WY & E1 & E2 & E3). rewrite G3 in E3. split; [exact WY|]. split; [exact E2|]. split; [|congruence].
      intros j Hj. rewrite (LOW _ _ W4 P6) by exact Hj. congruence.
    + subst y. split; [exact W4|]. split; [congruence|]. split; [intros j _; congruence|]. auto.
  - cbn [running stop negb orb] in P6. subst y. destruct (flush_wf _ _ _ K Wz FU) as (WY & E1 & E2 & E3). split; [exact WY|]. split; [exact E2|]. split; [intros j Hj; cbn [mem stop]; rewrite (LOW _ _ Wz FU) by exact Hj; congruence|].
    cbn [mem sector stop]. rewrite Z2 in E3. destruct (eeModified (mem x2)) eqn:M; [congruence|]. rewrite E1. unfold flushed. rewrite Z2. split; congruence.
Qed.

(** ** Power-up *)
Lemma nth_wr_range_out (src l : list Z) i j : (j < i \/ i + length src <= j)%nat -> rd (wr_range l i src) j = rd l j.
Proof.
  revert l i. induction src as [|x r IH]; intros l i H; [reflexivity|]. cbn [wr_range length] in *. rewrite IH by lia. apply rd_wr_other. lia.
Qed.
Lemma memOwn_same c a d : Forall is_byte (eeData d) -> (kind c = Bcu1 \/ rd (eeData d) (Z.to_nat 0x371) <> 2) -> a = two (eeData d) (Z.to_nat 0x17) -> memOwnAddress c a d = Some d.
Proof.
  intros F NL ->. assert (S : storeOwnAddress (two (eeData d) (Z.to_nat 0x17)) d = d).
  { unfold storeOwnAddress, storedAddress. change (Z.to_nat addrTabOffset) with (Z.to_nat 0x17). change (Z.to_nat (addrTabOffset + 1)) with (S (Z.to_nat 0x17)). rewrite two_word by auto. rewrite Z.eqb_refl. reflexivity. }
  unfold memOwnAddress. rewrite S. destruct (kind c); [reflexivity|]. destruct NL as [NL|NL]; [discriminate|].
  unfold loadState, loadStateOffset, OT_ADDR_TABLE, LS_LOADING. change (0x370 + 1) with 0x371. replace (_ =? 2) with false by lia. reflexivity.
Qed.
Lemma rd_eeByte_other o v d i : 0 <= o -> Z.of_nat i <> o -> rd (eeData (eeByte o v d)) i = rd (eeData d) i.
Proof. intros H N. unfold eeByte. cbn [eeData setEe]. apply rd_wr_other. lia. Qed.
Lemma rd_eeWord_other o v d i : 0 <= o -> Z.of_nat i <> o -> Z.of_nat i <> o + 1 -> rd (eeData (eeWord o v d)) i = rd (eeData d) i.
Proof. intros H N N1. unfold eeWord. rewrite !rd_eeByte_other by lia. reflexivity. Qed.
Lemma default_other c d i : ~ In (Z.of_nat i) [0x03; 0x04; 0x05; 0x06; 0x07; 0x0c; 0x0d] -> rd (eeData (beginDefault c d)) i = rd (eeData d) i.
Proof.
  intros N. unfold beginDefault. cbn [In] in N. unfold portADDROffset, runErrorOffset, manufacturerHOffset, deviceTypeHOffset, versionOffset.
  change (rd (eeData (eeByte 7 (version c) ?d)) i) with (rd (eeData (eeByte 7 (version c) d)) i). unfold setModified at 1. cbn [eeData].
  rewrite !rd_eeByte_other by lia. reflexivity.
Qed.
Lemma begin_keeps c d a : conf_ok c -> mem_wf (esize (ecf c)) (ram_bytes c) d -> not_loading (kind c) d -> a = two (eeData d) (Z.to_nat 0x17) -> a <> 0 ->
  exists d', begin c d = Some (a, d') /\ forall i, ~ begin_fixes c i -> rd (eeData d') i = rd (eeData d) i.
Proof.
  intros K W NL A NZ. unfold begin. assert (ST : storedAddress d = a).
  { rewrite A. unfold storedAddress. apply (two_word (eeData d) (Z.to_nat 0x17)). apply W. }
  rewrite ST. rewrite (memOwn_same c a d) by (auto; apply W).
  assert (NZ' : (a =? 0) = false) by lia. unfold begin_fixes. destruct (kind c) eqn:KC.
  { rewrite NZ'. eexists. split; [reflexivity|]. intros i NI. apply default_other. tauto. }
  unfold beginBcu2. cbv zeta. set (d1 := eeByte appTypeOffset 0 (setRam (beginDefault c d) (wr (ramData (beginDefault c d)) peiTypeOffset 0))).
  assert (D1 : forall i, ~ In (Z.of_nat i) [0x03; 0x04; 0x05; 0x06; 0x07; 0x0c; 0x0d] -> Z.of_nat i <> 0x15 -> rd (eeData d1) i = rd (eeData d) i).
  { intros i N1 N2. unfold d1. rewrite rd_eeByte_other by (unfold appTypeOffset; lia). cbn [eeData setRam]. apply default_other. exact N1. }
  clearbody d1. assert (LS : (loadState d1 OT_ADDR_TABLE =? LS_LOADING) = false).
  { unfold loadState, loadStateOffset, OT_ADDR_TABLE, LS_LOADING. change (0x370 + 1) with 0x371. rewrite D1; [|cbn [In]; rewrite Z2Nat.id by lia; lia|rewrite Z2Nat.id by lia; lia].
    destruct NL as [NL|NL]; [discriminate|]. lia. }
  rewrite LS, NZ'. eexists. split; [reflexivity|]. intros i NI.
  assert (N1 : ~ In (Z.of_nat i) [0x03; 0x04; 0x05; 0x06; 0x07; 0x0c; 0x0d]) by tauto.
  assert (N2 : ~ In (Z.of_nat i) [0x15; 0x3A2; 0x3A3]) by (intros Q; apply NI; right; auto). cbn [In] in N2.
  assert (N3 : ~ (0x38A <= Z.of_nat i < 0x390)) by (intros Q; apply NI; right; auto).
  rewrite !rd_eeByte_other by (unfold orderInfoOffset; lia). cbn [eeData setEe].
  transitivity (rd (eeData d1) i); [|apply D1; auto; lia].
  match goal with |- rd (wr_range (eeData ?g) _ _) _ = _ => assert (EG : rd (eeData g) i = rd (eeData d1) i) end.
  { destruct (Z.eqb_spec (static c) 0) as [Q|Q]; cbn [negb andb]; [reflexivity|]. destruct (negb _); [|reflexivity]. cbn [eeData touch].
    assert (N4 : ~ In (Z.of_nat i) [0x37C; 0x37D]) by (intros QQ; apply NI; right; split; auto). cbn [In] in N4. apply rd_eeWord_other; unfold commsTabAddrOffset; lia. }
  rewrite <- EG. apply nth_wr_range_out. destruct (k_serial c K) as (-> & _). unfold serialOffset. lia.
Qed.
Lemma powerUp_reads c sec m lst junk d a : conf_ok c -> sector_ok (ecf c) sec -> saved c sec d -> (kind c = Bcu1 \/ rd d (Z.to_nat 0x371) <> 2) -> a = two d (Z.to_nat 0x17) -> a <> 0 ->
  exists x, powerUp c sec m lst junk = Some x /\ own_address x = a /\ sector x = sec /\ forall i, ~ begin_fixes c i -> rd (eeData (mem x)) i = rd d i.
Proof.
  intros K S C NL A NZ. pose proof (content_read c sec d K S C) as RB. destruct (Eeprom_Proofs.content_shape _ _ _ (proj1 (proj2 S)) C) as (L & F).
  unfold powerUp. cbv zeta. change (Eeprom_Model.data (Eeprom_Model.readUserEeprom (ecf c) (Eeprom_Model.mkEep sec [] false))) with (read_back c sec). rewrite RB.
  match goal with |- context [begin c ?q] => destruct (begin_keeps c q a K) as (d' & B & P) end.
  - split; [exact L|]. split; [exact F|]. cbn [ramData status]. split; [rewrite repeat_length; reflexivity|]. split; [|red; lia].
    apply Forall_forall. intros z Z. apply repeat_spec in Z. subst. red; lia.
  - exact NL.
  - exact A.
  - exact NZ.
  - rewrite B. eexists. split; [reflexivity|]. split; [|split; [reflexivity|exact P]]. unfold own_address. cbn [tl init own]. apply u16_id. subst a. apply two_range. exact F.
Qed.
