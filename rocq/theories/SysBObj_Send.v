From Verif Require Import Base Bits Telegram_Model Telegram_Spec Telegram_Proofs ComObj_Model ComObj_Spec ComObj_Proofs ComObj_Values ComObj_Send ComObj_Next SysBObj_Model SysBObj_Spec SysBObj_Proofs.

Section Tel.
Variables (c : cfg) (o : nat) (p : ptr) (m : mem) (buf : list Z).
Hypothesis Hc : cfg_ok c. Hypothesis Hm : mem_ok c m. Hypothesis Hsz : (size_b c o <= 14)%nat.
Hypothesis Hp : ptr_at c p (addr_b c o) (Z.of_nat (size_b c o)).
Hypothesis Hb : Forall is_byte buf. Hypothesis Hl : length buf = 23%nat.

Lemma typ_rangeB : 0 <= typ_b c o. Proof. pose proof (typ_b_byte c o Hc) as H. unfold is_byte in H. lia. Qed.
Lemma getBytes_valueB : getBytes m p (size_b c o) = value_b c m o.
Proof. unfold getBytes, value_b. apply map_ext_in. intros i Hi. apply in_seq in Hi. apply (getp_at c m p _ _ i Hc Hp). lia. Qed.
Lemma value_lengthB : length (value_b c m o) = size_b c o. Proof. unfold value_b. rewrite map_length, seq_length. reflexivity. Qed.
Lemma value_bytesB : Forall is_byte (value_b c m o).
Proof. apply Forall_forall. intros x Hx. unfold value_b in Hx. apply in_map_iff in Hx. destruct Hx as (i & <- & _). apply cell_byte; auto. Qed.
Lemma short_sizeB : (typ_b c o <? 6) = true -> size_b c o = 1%nat. Proof. intros H. apply short_one; auto. Qed.
Lemma hd_valueB : (typ_b c o <? 6) = true -> getp m p 0 = hd 0 (value_b c m o).
Proof.
  intros H. pose proof (short_sizeB H) as S. rewrite <- getBytes_valueB, S. reflexivity.
Qed.

Definition tel_cmdB (r : bool) : Z := if r then APCI_GROUP_VALUE_RESPONSE_PDU else APCI_GROUP_VALUE_WRITE_PDU.
Definition tel_nB : nat := if typ_b c o <? 6 then 0%nat else size_b c o.
Definition tel_baseB (a : Z) : list Z := wr (setDestinationAddress (initLpdu buf PRIORITY_LOW false FRAME_STANDARD) a) 5 (224 + Z.of_nat (tel_nB + 1)).
Definition tel_bodyB (a : Z) : list Z := if typ_b c o <? 6 then tel_baseB a else wr_range (tel_baseB a) 8 (rev (value_b c m o)).
Definition tel_addB : Z := if typ_b c o <? 6 then hd 0 (value_b c m o) else 0.

Lemma dn_boundB : (tel_nB <= 14)%nat.
Proof. unfold tel_nB. destruct (typ_b c o <? 6); [lia|]. exact Hsz. Qed.
Lemma long_lengthB : (typ_b c o <? 6) = false -> tel_nB = size_b c o. Proof. unfold tel_nB. intros ->. reflexivity. Qed.
Lemma groupTelegram_eqB a r : groupTelegramB c o p a r m buf = setApciCommand (tel_bodyB a) (tel_cmdB r) tel_addB.
Proof.
  unfold groupTelegramB. cbv zeta. rewrite telSizeB by auto.
  assert (N : Z.lor 224 (Z.land (Z.of_nat tel_nB + 1) 15) = 224 + Z.of_nat (tel_nB + 1)).
  { pose proof dn_boundB. rewrite land_15, Z.mod_small by lia.
    assert (F : forallb (fun k => Z.lor 224 k =? 224 + k) (range_Z 16) = true) by (vm_compute; reflexivity).
    assert (X := range_forall 16 _ F (Z.of_nat tel_nB + 1) ltac:(change (Z.of_nat 16) with 16; lia)). cbv beta in X. apply Z.eqb_eq in X. rewrite X. lia. }
  assert (D : (if typ_b c o <? 6 then 0 else Z.of_nat (size_b c o)) = Z.of_nat tel_nB) by (unfold tel_nB; destruct (typ_b c o <? 6); reflexivity).
  rewrite D, N. fold (tel_baseB a). fold (tel_cmdB r).
  assert (Z0 : (Z.of_nat tel_nB =? 0) = (typ_b c o <? 6)).
  { unfold tel_nB. destruct (typ_b c o <? 6); auto. pose proof (size_b_pos c o Hc). lia. }
  rewrite Z0. unfold tel_bodyB, tel_addB. destruct (typ_b c o <? 6) eqn:T.
  - rewrite hd_valueB by auto. reflexivity.
  - rewrite Nat2Z.id, (long_lengthB T), getBytes_valueB. reflexivity.
Qed.
Lemma base_lengthB a : length (tel_baseB a) = 23%nat.
Proof. unfold tel_baseB, setDestinationAddress. rewrite !wr_length, initLpdu_length. auto. Qed.
Lemma body_lengthB a : length (tel_bodyB a) = 23%nat.
Proof. unfold tel_bodyB. destruct (typ_b c o <? 6); rewrite ?wr_range_length; apply base_lengthB. Qed.
Lemma base_rdB a : rd (tel_baseB a) 0 = 188 /\ rd (tel_baseB a) 3 = HIGH_BYTE a /\ rd (tel_baseB a) 4 = lowByte a /\ rd (tel_baseB a) 5 = 224 + Z.of_nat (tel_nB + 1).
Proof.
  unfold tel_baseB, setDestinationAddress. repeat apply conj.
  - rewrite !rd_wr_other by lia. apply initLpdu_low. lia.
  - rewrite (rd_wr_other _ 5) by lia. rewrite (rd_wr_other _ 4) by lia. apply rd_wr_same. rewrite initLpdu_length. lia.
  - rewrite (rd_wr_other _ 5) by lia. apply rd_wr_same. rewrite wr_length, initLpdu_length. lia.
  - apply rd_wr_same. rewrite !wr_length, initLpdu_length. lia.
Qed.
Lemma body_rdB a j : (j < 8)%nat -> rd (tel_bodyB a) j = rd (tel_baseB a) j.
Proof.
  intros H. unfold tel_bodyB. destruct (typ_b c o <? 6) eqn:T; auto. pose proof (size_b_pos c o Hc).
  rewrite rd_wr_range by (rewrite rev_length, value_lengthB, base_lengthB; lia). replace (Nat.leb 8 j && Nat.ltb j (8 + length (rev (value_b c m o)))) with false by lia. reflexivity.
Qed.
Lemma body_dataB a j : (typ_b c o <? 6) = false -> (j < size_b c o)%nat -> rd (tel_bodyB a) (8 + j) = nth j (rev (value_b c m o)) 0.
Proof.
  intros T H. unfold tel_bodyB. rewrite T. pose proof (size_b_pos c o Hc).
  rewrite rd_wr_range by (rewrite rev_length, value_lengthB, base_lengthB; lia).
  replace (Nat.leb 8 (8 + j) && Nat.ltb (8 + j) (8 + length (rev (value_b c m o)))) with true by (rewrite rev_length, value_lengthB; lia). f_equal. lia.
Qed.
Lemma body_bytesB a : Forall is_byte (tel_bodyB a).
Proof.
  assert (B : Forall is_byte (tel_baseB a)).
  { unfold tel_baseB, setDestinationAddress. pose proof dn_boundB. do 3 (apply Forall_wr; [|first [apply HIGH_BYTE_byte|apply lowByte_byte|unfold is_byte; lia]]). apply initLpdu_bytes; auto. }
  unfold tel_bodyB. destruct (typ_b c o <? 6); auto. apply wr_range_bytes; auto. apply Forall_rev, value_bytesB.
Qed.
Lemma add_byteB : is_byte tel_addB.
Proof.
  unfold tel_addB. destruct (typ_b c o <? 6) eqn:T; [|unfold is_byte; lia]. pose proof value_bytesB as V. destruct (value_b c m o); simpl; [unfold is_byte; lia|]. inversion V; auto.
Qed.
Lemma tel_rdB a r j : j <> 6%nat -> j <> 7%nat -> rd (setApciCommand (tel_bodyB a) (tel_cmdB r) tel_addB) j = rd (tel_bodyB a) j.
Proof. intros H1 H2. unfold setApciCommand. cbv zeta. rewrite !rd_wr_other by auto. reflexivity. Qed.
Lemma tel_rd6B a r : rd (setApciCommand (tel_bodyB a) (tel_cmdB r) tel_addB) 6 = 0.
Proof.
  unfold setApciCommand. cbv zeta. rewrite !(rd_wr_other _ 7) by lia. rewrite rd_wr_same by (rewrite body_lengthB; lia). destruct r; reflexivity.
Qed.
Lemma tel_rd7B a r : rd (setApciCommand (tel_bodyB a) (tel_cmdB r) tel_addB) 7 = Z.lor (tel_cmdB r) tel_addB.
Proof.
  unfold setApciCommand. cbv zeta. rewrite rd_wr_same by (rewrite !wr_length, body_lengthB; lia). rewrite rd_wr_same by (rewrite wr_length, body_lengthB; lia). destruct r; reflexivity.
Qed.
Lemma tel_lengthB a r : length (setApciCommand (tel_bodyB a) (tel_cmdB r) tel_addB) = 23%nat.
Proof. unfold setApciCommand. cbv zeta. rewrite !wr_length. apply body_lengthB. Qed.
Lemma tel_bytesB a r : Forall is_byte (groupTelegramB c o p a r m buf).
Proof.
  rewrite groupTelegram_eqB. unfold setApciCommand. cbv zeta.
  assert (X : Forall is_byte (wr (wr (tel_bodyB a) 6 (HIGH_BYTE (tel_cmdB r))) 7 (lowByte (tel_cmdB r)))) by (apply Forall_wr; [apply Forall_wr; [apply body_bytesB|apply HIGH_BYTE_byte]|apply lowByte_byte]).
  apply Forall_wr; auto. apply lor_byte; [apply rd_byte; auto|apply add_byteB].
Qed.
Lemma telegramSize_groupB a r : telegramSize (setApciCommand (tel_bodyB a) (tel_cmdB r) tel_addB) = (8 + tel_nB)%nat.
Proof.
  unfold telegramSize. rewrite tel_rdB, body_rdB by lia. destruct (base_rdB a) as (_ & _ & _ & ->). pose proof dn_boundB.
  rewrite land_15. replace (224 + Z.of_nat (tel_nB + 1)) with (Z.of_nat (tel_nB + 1) + 14 * 16) by lia. rewrite Z.mod_add, Z.mod_small by lia. lia.
Qed.
(** what is sent *)
Lemma groupTelegram_carriesB a (r : bool) : is_u16 a -> short_b c m o ->
  carries_b c m o a (if r then 64 else 128) (firstn (telegramSize (groupTelegramB c o p a r m buf)) (groupTelegramB c o p a r m buf)).
Proof.
  intros Ha Hs. rewrite groupTelegram_eqB, telegramSize_groupB. destruct (base_rdB a) as (B0 & B3 & B4 & B5). pose proof dn_boundB as Hd. split.
  - fold tel_nB. fold tel_addB. unfold group_frame. rewrite firstn_length, tel_lengthB, Nat.min_l by lia. split; [reflexivity|].
    rewrite !rd_firstn by lia. rewrite tel_rd6B, tel_rd7B, !tel_rdB, !body_rdB, B0, B3, B4, B5 by lia. split; [reflexivity|]. split.
    { pose proof (word_roundtrip a Ha) as W. rewrite word_split in W by (apply HIGH_BYTE_byte || apply lowByte_byte). exact W. }
    split; [reflexivity|]. split; [reflexivity|].
    unfold tel_addB. destruct (typ_b c o <? 6) eqn:T; [|destruct r; reflexivity].
    assert (V : 0 <= hd 0 (value_b c m o) < 64).
    { pose proof value_lengthB as VL. pose proof value_bytesB as VB. rewrite (short_sizeB T) in VL.
      specialize (Hs ltac:(lia)).
      destruct (value_b c m o); [discriminate|]. inversion Hs; inversion VB; subst. unfold is_byte in *. simpl. lia. }
    assert (F : forallb (fun v => (Z.lor 64 v =? 64 + v) && (Z.lor 128 v =? 128 + v)) (range_Z 64) = true) by (vm_compute; reflexivity).
    assert (X := range_forall 64 _ F (hd 0 (value_b c m o)) ltac:(change (Z.of_nat 64) with 64; lia)). cbv beta in X. apply andb_true_iff in X. destruct X as [X1 X2].
    apply Z.eqb_eq in X1, X2. unfold tel_cmdB, APCI_GROUP_VALUE_RESPONSE_PDU, APCI_GROUP_VALUE_WRITE_PDU. destruct r; assumption.
  - destruct (typ_b c o <? 6) eqn:T; [left; lia|right]. rewrite (long_lengthB T).
    pose proof (size_b_pos c o Hc). rewrite skipn_firstn_rd by (rewrite tel_lengthB; lia).
    apply (list_ext _ _ _ 0); rewrite ?map_length, ?seq_length, ?rev_length, ?value_lengthB; auto.
    intros i Hi. rewrite (nth_indep (map _ _) 0 (rd (setApciCommand (tel_bodyB a) (tel_cmdB r) tel_addB) (8 + 0))) by (rewrite map_length, seq_length; auto).
    rewrite (map_nth (fun i => rd (setApciCommand (tel_bodyB a) (tel_cmdB r) tel_addB) (8 + i))), seq_nth by auto. simpl (0 + i)%nat. rewrite tel_rdB by lia. apply body_dataB; auto.
Qed.
End Tel.

Lemma sendB_effect c o a r s : device_b c -> flags_clear c -> pairs_ok c -> mem_ok c (smem s) -> buf_ok (sendBuf s) -> object_b c o -> is_u16 a ->
  let s' := sendGroupWriteTelegramB c o a r s in
  buf_ok (sendBuf s') /\
  (exists t, sent s' = sent s ++ [t] /\ (short_b c (smem s) o -> carries_b c (smem s) o a (if r : bool then 64 else 128) t)) /\
  (exists P, wroteB c (sendBuf s') P (smem s) (smem s') /\ (forall q, P q = true <-> assoc_b c a q /\ write_b c q /\ q <> o)).
Proof.
  intros Hd Hf Ha Hm (Hbl & Hbb) Ho Hu s'. pose proof Hd as (_ & Hc & _ & Hz). pose proof (Hz o Ho) as Hsz.
  destruct (value_ptr c o Hd Ho) as (p & E & Hp).
  assert (EQ : sendGroupWriteTelegramB c o a r s = mkSt (processGroupWriteB c a (groupTelegramB c o p a r (smem s) (sendBuf s)) (Z.of_nat o) (smem s))
    (groupTelegramB c o p a r (smem s) (sendBuf s))
    (sent s ++ [firstn (telegramSize (groupTelegramB c o p a r (smem s) (sendBuf s))) (groupTelegramB c o p a r (smem s) (sendBuf s))]) (sendNext s) (Z.of_nat o))
    by (unfold sendGroupWriteTelegramB; rewrite E; reflexivity).
  unfold s'. rewrite EQ. cbn [smem sendBuf sent sendNext].
  assert (TB : Forall is_byte (groupTelegramB c o p a r (smem s) (sendBuf s))) by (apply tel_bytesB; auto).
  assert (TL : length (groupTelegramB c o p a r (smem s) (sendBuf s)) = 23%nat) by (rewrite (groupTelegram_eqB c o p (smem s) (sendBuf s)) by auto; apply tel_lengthB; auto).
  split; [|split].
  - split; auto.
  - eexists. split; [reflexivity|]. intros SO. apply (groupTelegram_carriesB c o p (smem s) (sendBuf s)); auto.
  - destruct (processB_wrote c a (groupTelegramB c o p a r (smem s) (sendBuf s)) (Z.of_nat o) (smem s) Hd Hf Ha Hm TB Hu) as (P & W & I).
    exists P. split; auto. intros q. rewrite I. split; intros (X & Y & Z); split; auto; split; auto; lia.
Qed.

Lemma carries_b_value c m m' o a cmd t : value_b c m' o = value_b c m o -> carries_b c m' o a cmd t -> carries_b c m o a cmd t.
Proof. unfold carries_b. intros ->. auto. Qed.
Lemma short_b_value c m m' o : value_b c m' o = value_b c m o -> short_b c m o -> short_b c m' o.
Proof. unfold short_b. intros ->. auto. Qed.
Definition answeredB (c : cfg) (a : Z) (m : mem) (os : list nat) (ts : list (list Z)) : Prop :=
  length ts = length os /\
  forall i o t, nth_error os i = Some o -> nth_error ts i = Some t -> i = 0%nat \/ ~ write_b c o -> short_b c m o -> carries_b c m o a 64 t.
Definition keptB (c : cfg) (m m' : mem) : Prop := forall q, object_b c q -> ~ write_b c q -> value_b c m' q = value_b c m q.
Lemma readReqLoopB_spec c a k : device_b c -> flags_clear c -> pairs_ok c -> is_u16 a ->
  forall n i0 s, (i0 + n = pairs_b c)%nat -> mem_ok c (smem s) -> buf_ok (sendBuf s) ->
  let os := map (fun i => Z.to_nat (pair_obj c i))
    (filter (fun i => (pair_addr c i =? Z.of_nat k) && (let conf := conf_b c (Z.to_nat (pair_obj c i)) in Z.testbit conf 2 && Z.testbit conf 3)) (seq i0 n)) in
  let s' := readReqLoopB c a (Z.of_nat k) INVALID_OBJECT_NUMBER (map (fun i => (pair_addr c i, pair_obj c i)) (seq i0 n)) s in
  exists ts, sent s' = sent s ++ ts /\ answeredB c a (smem s) os ts /\ keptB c (smem s) (smem s') /\ mem_ok c (smem s') /\ buf_ok (sendBuf s').
Proof.
  intros Hd Hf Ha Hu. pose proof Hd as (_ & Hc & _). induction n; intros i0 s Hn Hm Hb; cbn [seq map filter readReqLoopB].
  - exists []. rewrite app_nil_r. split; auto. split; [split; auto; intros i o t H; destruct i; discriminate|]. split; [intros q _ _; reflexivity|]. auto.
  - pose proof (pair_addr_range c i0 Hc) as Gb. pose proof (pair_obj_range c i0 Hc) as Qb. set (g := pair_addr c i0) in *. set (q := pair_obj c i0) in *.
    rewrite (Z.eqb_sym (Z.of_nat k) g). replace (q =? INVALID_OBJECT_NUMBER) with false by (unfold INVALID_OBJECT_NUMBER; lia).
    destruct (g =? Z.of_nat k) eqn:G; cbn [negb andb]; [|apply IHn; auto; lia].
    rewrite read_comm_bits. change (objConfigB c (Z.to_nat q)) with (conf_b c (Z.to_nat q)). cbv zeta.
    destruct (Z.testbit (conf_b c (Z.to_nat q)) 2 && Z.testbit (conf_b c (Z.to_nat q)) 3); [|apply IHn; auto; lia].
    set (o := Z.to_nat q). assert (Ho : object_b c o).
    { apply (Ha (Z.to_nat g) o). exists i0. split; [lia|]. fold g. fold q. unfold o. split; lia. }
    destruct (sendB_effect c o a true s Hd Hf Ha Hm Hb Ho Hu) as (E1 & (t & T1 & T2) & (P & (W1 & W2 & W3 & W4) & I)).
    set (s1 := sendGroupWriteTelegramB c o a true s) in *.
    destruct (IHn (S i0) s1 ltac:(lia) W1 E1) as (ts & S1 & (A1 & A2) & K1 & M' & B').
    assert (KV : forall x, object_b c x -> ~ write_b c x -> value_b c (smem s1) x = value_b c (smem s) x).
    { intros x Hx NW. apply W3; auto. destruct (P x) eqn:PX; auto. apply I in PX. destruct PX as (_ & PX & _). destruct (NW PX). }
    exists (t :: ts). split; [rewrite S1, T1, <- app_assoc; reflexivity|]. split; [|split; [|split; auto]].
    + split; [cbn [map length]; rewrite A1; reflexivity|]. intros i x tx Hi Ht HX SO. destruct i as [|i].
      * cbn [map nth_error] in Hi, Ht. injection Hi as <-. injection Ht as <-. apply T2; auto.
      * cbn [map nth_error] in Hi, Ht. destruct HX as [HX|HX]; [discriminate|].
        assert (XN : object_b c x).
        { apply nth_error_In in Hi. apply in_map_iff in Hi. destruct Hi as (j & <- & J). apply filter_In in J. destruct J as [J1 J2]. apply in_seq in J1. apply andb_true_iff in J2. destruct J2 as [J2 _].
          apply (Ha k). exists j. pose proof (pair_obj_range c j Hc) as BJ. split; [lia|]. split; [lia|]. rewrite Z2Nat.id by lia. reflexivity. }
        apply (carries_b_value c (smem s) (smem s1)); [apply KV; auto|]. apply (A2 i); auto. apply (short_b_value c (smem s)); auto.
    + intros x Hx NW. rewrite K1 by auto. apply KV; auto.
Qed.
