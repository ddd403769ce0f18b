From Verif Require Import Base Bits Telegram_Model Telegram_Spec Telegram_Proofs ComObj_Model ComObj_Spec ComObj_Proofs ComObj_Values.

(** ** The telegram *)
Lemma initLpdu_length t p r f : length (initLpdu t p r f) = length t.
Proof. unfold initLpdu, setFrameType, setPriority, setRepeated. rewrite !wr_length. reflexivity. Qed.
Lemma initLpdu_rd t p r f i : i <> 0%nat -> rd (initLpdu t p r f) i = rd t i.
Proof. intros H. unfold initLpdu, setFrameType, setPriority, setRepeated. rewrite !rd_wr_other by auto. reflexivity. Qed.
Lemma initLpdu_low t : (0 < length t)%nat -> rd (initLpdu t PRIORITY_LOW false FRAME_STANDARD) 0 = 188.
Proof.
  intros H. unfold initLpdu, setFrameType, setPriority, setRepeated, controlByte. rewrite !rd_wr_same by (rewrite ?wr_length; auto). reflexivity.
Qed.
Lemma initLpdu_bytes t : Forall is_byte t -> Forall is_byte (initLpdu t PRIORITY_LOW false FRAME_STANDARD).
Proof.
  intros H. destruct t as [|x r]; [constructor|].
  assert (B : forall i, is_byte (rd (initLpdu (x :: r) PRIORITY_LOW false FRAME_STANDARD) i)).
  { intros [|i]; [rewrite initLpdu_low by (simpl; lia); unfold is_byte; lia|]. rewrite initLpdu_rd by lia. apply rd_byte; auto. }
  apply Forall_forall. intros v Hv. apply (In_nth _ _ 0) in Hv. destruct Hv as (i & _ & <-). apply B.
Qed.
Lemma rd_firstn n l i : (i < n)%nat -> rd (firstn n l) i = rd l i.
Proof.
  unfold rd. revert l i; induction n; intros l i H; [lia|]. destruct l; simpl; auto. destruct i; auto. apply IHn; lia.
Qed.
Lemma skipn_firstn_rd n k l : (n + k <= length l)%nat -> skipn n (firstn (n + k) l) = map (fun i => rd l (n + i)) (seq 0 k).
Proof.
  intros H. apply (list_ext _ _ _ 0); rewrite skipn_length, firstn_length, Nat.min_l by auto.
  - rewrite map_length, seq_length. lia.
  - intros i Hi. replace (n + k - n)%nat with k in Hi by lia.
    rewrite (nth_indep (map _ _) 0 (rd l (n + 0))) by (rewrite map_length, seq_length; auto).
    rewrite (map_nth (fun i => rd l (n + i))), seq_nth by auto. simpl.
    rewrite <- (rd_firstn (n + k)) by lia. unfold rd. rewrite <- (firstn_skipn n (firstn (n + k) l)) at 2.
    rewrite app_nth2; rewrite firstn_length, firstn_length, !Nat.min_l by lia; [|lia]. f_equal. lia.
Qed.

Section Tel.
Variables (c : cfg) (o : nat) (p : ptr) (m : mem) (buf : list Z).
Hypothesis Hc : cfg_ok c. Hypothesis Hm : mem_ok c m. Hypothesis Ho : obj_ok c o.
Hypothesis Hp : ptr_at c p (obj_addr c o) (Z.of_nat (obj_size c o)).
Hypothesis Hb : Forall is_byte buf. Hypothesis Hl : length buf = 23%nat.

Lemma typ_range : 0 <= obj_typ c o <= 15.
Proof. destruct Ho as (_ & H & _). pose proof (typ_byte c o Hc). unfold is_byte in *. lia. Qed.
Lemma getBytes_value : getBytes m p (obj_size c o) = value c m o.
Proof. unfold getBytes, value. apply map_ext_in. intros i Hi. apply in_seq in Hi. apply (getp_at c m p _ _ i Hc Hp). lia. Qed.
Lemma value_length : length (value c m o) = obj_size c o. Proof. unfold value. rewrite map_length, seq_length. reflexivity. Qed.
Lemma value_bytes : Forall is_byte (value c m o).
Proof. apply Forall_forall. intros x Hx. unfold value in Hx. apply in_map_iff in Hx. destruct Hx as (i & <- & _). apply cell_byte; auto. Qed.
Lemma short_size : (obj_typ c o <? 6) = true -> obj_size c o = 1%nat.
Proof.
  intros H. unfold obj_size. pose proof typ_range. assert (T : obj_typ c o = 0 \/ obj_typ c o = 1 \/ obj_typ c o = 2 \/ obj_typ c o = 3 \/ obj_typ c o = 4 \/ obj_typ c o = 5) by lia.
  destruct T as [->|[->|[->|[->|[->| ->]]]]]; reflexivity.
Qed.
Lemma hd_value : (obj_typ c o <? 6) = true -> getp m p 0 = hd 0 (value c m o).
Proof.
  intros H. pose proof (short_size H) as S. rewrite <- getBytes_value, S. reflexivity.
Qed.

Definition tel_cmd (r : bool) : Z := if r then APCI_GROUP_VALUE_RESPONSE_PDU else APCI_GROUP_VALUE_WRITE_PDU.
Definition tel_n : nat := if obj_typ c o <? 6 then 0%nat else obj_size c o.
Definition tel_base (a : Z) : list Z := wr (setDestinationAddress (initLpdu buf PRIORITY_LOW false FRAME_STANDARD) a) 5 (224 + Z.of_nat (tel_n + 1)).
Definition tel_body (a : Z) : list Z := if obj_typ c o <? 6 then tel_base a else wr_range (tel_base a) 8 (rev (value c m o)).
Definition tel_add : Z := if obj_typ c o <? 6 then hd 0 (value c m o) else 0.

Lemma dn_bound : (tel_n <= 14)%nat.
Proof. unfold tel_n. destruct (obj_typ c o <? 6); [lia|]. apply (obj_size_pos c o Hc Ho). Qed.
Lemma long_length : (obj_typ c o <? 6) = false -> tel_n = obj_size c o. Proof. unfold tel_n. intros ->. reflexivity. Qed.
Lemma groupTelegram_eq a r : groupTelegram c o p a r m buf = setApciCommand (tel_body a) (tel_cmd r) tel_add.
Proof.
  unfold groupTelegram. cbv zeta. unfold telegramObjectSize. rewrite objType_typ, telSize_zero by apply typ_range.
  fold (obj_size c o).
  assert (N : Z.lor 224 (Z.land (Z.of_nat tel_n + 1) 15) = 224 + Z.of_nat (tel_n + 1)).
  { pose proof dn_bound. rewrite land_15, Z.mod_small by lia.
    assert (F : forallb (fun k => Z.lor 224 k =? 224 + k) (range_Z 16) = true) by (vm_compute; reflexivity).
    assert (X := range_forall 16 _ F (Z.of_nat tel_n + 1) ltac:(change (Z.of_nat 16) with 16; lia)). cbv beta in X. apply Z.eqb_eq in X. rewrite X. lia. }
  assert (D : (if obj_typ c o <? 6 then 0 else Z.of_nat (obj_size c o)) = Z.of_nat tel_n) by (unfold tel_n; destruct (obj_typ c o <? 6); reflexivity).
  rewrite D, N. fold (tel_base a). fold (tel_cmd r).
  assert (Z0 : (Z.of_nat tel_n =? 0) = (obj_typ c o <? 6)).
  { unfold tel_n. destruct (obj_typ c o <? 6); auto. pose proof (obj_size_pos c o Hc Ho). lia. }
  rewrite Z0. unfold tel_body, tel_add. destruct (obj_typ c o <? 6) eqn:T.
  - rewrite hd_value by auto. reflexivity.
  - rewrite Nat2Z.id, (long_length T), getBytes_value. reflexivity.
Qed.
Lemma base_length a : length (tel_base a) = 23%nat.
Proof. unfold tel_base, setDestinationAddress. rewrite !wr_length, initLpdu_length. auto. Qed.
Lemma body_length a : length (tel_body a) = 23%nat.
Proof. unfold tel_body. destruct (obj_typ c o <? 6); rewrite ?wr_range_length; apply base_length. Qed.
Lemma base_rd a : rd (tel_base a) 0 = 188 /\ rd (tel_base a) 3 = HIGH_BYTE a /\ rd (tel_base a) 4 = lowByte a /\ rd (tel_base a) 5 = 224 + Z.of_nat (tel_n + 1).
Proof.
  unfold tel_base, setDestinationAddress. repeat apply conj.
  - rewrite !rd_wr_other by lia. apply initLpdu_low. lia.
  - rewrite (rd_wr_other _ 5) by lia. rewrite (rd_wr_other _ 4) by lia. apply rd_wr_same. rewrite initLpdu_length. lia.
  - rewrite (rd_wr_other _ 5) by lia. apply rd_wr_same. rewrite wr_length, initLpdu_length. lia.
  - apply rd_wr_same. rewrite !wr_length, initLpdu_length. lia.
Qed.
Lemma rd_wr_range l i src j : (i + length src <= length l)%nat -> rd (wr_range l i src) j = if Nat.leb i j && Nat.ltb j (i + length src) then nth (j - i) src 0 else rd l j.
Proof. intros H. unfold rd. apply nth_wr_range; auto. Qed.
Lemma body_rd a j : (j < 8)%nat -> rd (tel_body a) j = rd (tel_base a) j.
Proof.
  intros H. unfold tel_body. destruct (obj_typ c o <? 6) eqn:T; auto. pose proof (obj_size_pos c o Hc Ho).
  rewrite rd_wr_range by (rewrite rev_length, value_length, base_length; lia). replace (Nat.leb 8 j && Nat.ltb j (8 + length (rev (value c m o)))) with false by lia. reflexivity.
Qed.
Lemma body_data a j : (obj_typ c o <? 6) = false -> (j < obj_size c o)%nat -> rd (tel_body a) (8 + j) = nth j (rev (value c m o)) 0.
Proof.
  intros T H. unfold tel_body. rewrite T. pose proof (obj_size_pos c o Hc Ho).
  rewrite rd_wr_range by (rewrite rev_length, value_length, base_length; lia).
  replace (Nat.leb 8 (8 + j) && Nat.ltb (8 + j) (8 + length (rev (value c m o)))) with true by (rewrite rev_length, value_length; lia). f_equal. lia.
Qed.
Lemma wr_range_bytes src l i : Forall is_byte l -> Forall is_byte src -> Forall is_byte (wr_range l i src).
Proof. revert l i; induction src; intros l i H1 H2; simpl; auto. inversion H2; subst. apply IHsrc; auto. apply Forall_wr; auto. Qed.
Lemma body_bytes a : Forall is_byte (tel_body a).
Proof.
  assert (B : Forall is_byte (tel_base a)).
  { unfold tel_base, setDestinationAddress. pose proof dn_bound. do 3 (apply Forall_wr; [|first [apply HIGH_BYTE_byte|apply lowByte_byte|unfold is_byte; lia]]). apply initLpdu_bytes; auto. }
  unfold tel_body. destruct (obj_typ c o <? 6); auto. apply wr_range_bytes; auto. apply Forall_rev, value_bytes.
Qed.
Lemma add_byte : is_byte tel_add.
Proof.
  unfold tel_add. destruct (obj_typ c o <? 6) eqn:T; [|unfold is_byte; lia]. pose proof value_bytes as V. destruct (value c m o); simpl; [unfold is_byte; lia|]. inversion V; auto.
Qed.
Lemma tel_rd a r j : j <> 6%nat -> j <> 7%nat -> rd (setApciCommand (tel_body a) (tel_cmd r) tel_add) j = rd (tel_body a) j.
Proof. intros H1 H2. unfold setApciCommand. cbv zeta. rewrite !rd_wr_other by auto. reflexivity. Qed.
Lemma tel_rd6 a r : rd (setApciCommand (tel_body a) (tel_cmd r) tel_add) 6 = 0.
Proof.
  unfold setApciCommand. cbv zeta. rewrite !(rd_wr_other _ 7) by lia. rewrite rd_wr_same by (rewrite body_length; lia). destruct r; reflexivity.
Qed.
Lemma tel_rd7 a r : rd (setApciCommand (tel_body a) (tel_cmd r) tel_add) 7 = Z.lor (tel_cmd r) tel_add.
Proof.
  unfold setApciCommand. cbv zeta. rewrite rd_wr_same by (rewrite !wr_length, body_length; lia). rewrite rd_wr_same by (rewrite wr_length, body_length; lia). destruct r; reflexivity.
Qed.
Lemma tel_length a r : length (setApciCommand (tel_body a) (tel_cmd r) tel_add) = 23%nat.
Proof. unfold setApciCommand. cbv zeta. rewrite !wr_length. apply body_length. Qed.
Lemma tel_bytes a r : Forall is_byte (groupTelegram c o p a r m buf).
Proof.
  rewrite groupTelegram_eq. unfold setApciCommand. cbv zeta.
  assert (X : Forall is_byte (wr (wr (tel_body a) 6 (HIGH_BYTE (tel_cmd r))) 7 (lowByte (tel_cmd r)))) by (apply Forall_wr; [apply Forall_wr; [apply body_bytes|apply HIGH_BYTE_byte]|apply lowByte_byte]).
  apply Forall_wr; auto. apply lor_byte; [apply rd_byte; auto|apply add_byte].
Qed.
Lemma telegramSize_group a r : telegramSize (setApciCommand (tel_body a) (tel_cmd r) tel_add) = (8 + tel_n)%nat.
Proof.
  unfold telegramSize. rewrite tel_rd, body_rd by lia. destruct (base_rd a) as (_ & _ & _ & ->). pose proof dn_bound.
  rewrite land_15. replace (224 + Z.of_nat (tel_n + 1)) with (Z.of_nat (tel_n + 1) + 14 * 16) by lia. rewrite Z.mod_add, Z.mod_small by lia. lia.
Qed.
(** what is sent *)
Lemma groupTelegram_carries a (r : bool) : is_u16 a -> short_ok c m o ->
  carries c m o a (if r then 64 else 128) (firstn (telegramSize (groupTelegram c o p a r m buf)) (groupTelegram c o p a r m buf)).
Proof.
  intros Ha Hs. rewrite groupTelegram_eq, telegramSize_group. destruct (base_rd a) as (B0 & B3 & B4 & B5). pose proof dn_bound as Hd. split.
  - fold tel_n. fold tel_add. unfold group_frame. rewrite firstn_length, tel_length, Nat.min_l by lia. split; [reflexivity|].
    rewrite !rd_firstn by lia. rewrite tel_rd6, tel_rd7, !tel_rd, !body_rd, B0, B3, B4, B5 by lia. split; [reflexivity|]. split.
    { pose proof (word_roundtrip a Ha) as W. rewrite word_split in W by (apply HIGH_BYTE_byte || apply lowByte_byte). exact W. }
    split; [reflexivity|]. split; [reflexivity|].
    unfold tel_add. destruct (obj_typ c o <? 6) eqn:T; [|destruct r; reflexivity].
    assert (V : 0 <= hd 0 (value c m o) < 64).
    { pose proof value_length as VL. pose proof value_bytes as VB. rewrite (short_size T) in VL.
      assert (S : short_type (obj_typ c o)) by (pose proof typ_range; unfold short_type; lia). specialize (Hs S).
      destruct (value c m o); [discriminate|]. inversion Hs; inversion VB; subst. unfold is_byte in *. simpl. lia. }
    assert (F : forallb (fun v => (Z.lor 64 v =? 64 + v) && (Z.lor 128 v =? 128 + v)) (range_Z 64) = true) by (vm_compute; reflexivity).
    assert (X := range_forall 64 _ F (hd 0 (value c m o)) ltac:(change (Z.of_nat 64) with 64; lia)). cbv beta in X. apply andb_true_iff in X. destruct X as [X1 X2].
    apply Z.eqb_eq in X1, X2. unfold tel_cmd, APCI_GROUP_VALUE_RESPONSE_PDU, APCI_GROUP_VALUE_WRITE_PDU. destruct r; assumption.
  - destruct (obj_typ c o <? 6) eqn:T; [left; lia|right]. rewrite (long_length T).
    pose proof (obj_size_pos c o Hc Ho). rewrite skipn_firstn_rd by (rewrite tel_length; lia).
    apply (list_ext _ _ _ 0); rewrite ?map_length, ?seq_length, ?rev_length, ?value_length; auto.
    intros i Hi. rewrite (nth_indep (map _ _) 0 (rd (setApciCommand (tel_body a) (tel_cmd r) tel_add) (8 + 0))) by (rewrite map_length, seq_length; auto).
    rewrite (map_nth (fun i => rd (setApciCommand (tel_body a) (tel_cmd r) tel_add) (8 + i))), seq_nth by auto. simpl (0 + i)%nat. rewrite tel_rd by lia. apply body_data; auto.
Qed.
End Tel.
