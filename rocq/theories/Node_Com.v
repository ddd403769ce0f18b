(** What the functions of the communication objects keep, whatever the tables contain: the sizes of the memories and of the send buffer, bytes, and the EEPROM if all values lie in the RAM *)
From Verif Require Import Base Bits Telegram_Model ComObj_Model ComObj_Spec ComObj_Proofs ComObj_Values ComObj_Send ComObj_Next.
From Verif Require TL4_Spec TL4_Proofs Device_Refine Device_Refine2.

Definition mem_bytes (m : mem) : Prop := Forall is_byte (ram m) /\ Forall is_byte (eep m).
Lemma getp_byte m p i : mem_bytes m -> is_byte (getp m p i).
Proof. intros (A & B). unfold getp. destruct (fst p); apply rd_byte; assumption. Qed.
Lemma buf_app b : buf_ok b <-> TL4_Spec.app_buffer b.
Proof. reflexivity. Qed.
Lemma getBytes_byte m p n : mem_bytes m -> Forall is_byte (getBytes m p n).
Proof. intros H. unfold getBytes. apply Forall_forall. intros v E. apply in_map_iff in E. destruct E as (i & <- & _). apply getp_byte; auto. Qed.
Lemma init_buf b r : buf_ok b -> buf_ok (initLpdu b PRIORITY_LOW r FRAME_STANDARD).
Proof. rewrite !buf_app. intros B. apply TL4_Proofs.initLpdu_buffer; [exact B|]. unfold PRIORITY_LOW; lia. Qed.
Lemma group_buf c o p a r m b : mem_bytes m -> buf_ok b -> buf_ok (groupTelegram c o p a r m b).
Proof.
  intros M B. unfold groupTelegram. cbv zeta. rewrite buf_app. apply Device_Refine.buf_cmd; [destruct (_ =? 0); [apply getp_byte; auto|red; lia]|].
  assert (H : TL4_Spec.app_buffer (wr (setDestinationAddress (initLpdu b PRIORITY_LOW false FRAME_STANDARD) a) 5 (Z.lor 224 (Z.land (telegramObjectSize c o + 1) 15)))).
  { apply Device_Refine.buf_wr; [apply lor_byte; [red; lia|apply Device_Refine.nibble_byte]|]. apply TL4_Proofs.setDest_buffer. apply init_buf. exact B. }
  destruct (_ =? 0); [exact H|]. apply Device_Refine2.buf_range; [apply Forall_rev, getBytes_byte; auto|exact H].
Qed.
Lemma read_buf b a : buf_ok b -> buf_ok (setApciCommand (wr (setDestinationAddress (initLpdu b PRIORITY_LOW false FRAME_STANDARD) a) 5 225) APCI_GROUP_VALUE_READ_PDU 0).
Proof. intros B. rewrite buf_app. apply Device_Refine.buf_cmd; [red; lia|]. apply Device_Refine.buf_wr; [red; lia|]. apply TL4_Proofs.setDest_buffer. apply init_buf. exact B. Qed.

Definition flagsAt (c : cfg) (p : ptr) : Prop := objectFlagsTable c = Some p.
Section Keep.
Variable c : cfg.
(** the objects that may be touched *)
Variable good : nat -> Prop.
Variable K : mem -> Prop.
Hypothesis KB : forall m, K m -> mem_bytes m.
Hypothesis KV : forall o p, good o -> objectValuePtr c o = Some p -> forall m i v, is_byte v -> K m -> K (putp m p i v).
Hypothesis KF : forall p, flagsAt c p -> forall m i v, is_byte v -> K m -> K (putp m p i v).
Hypothesis GA : forall ga o, In (ga, o) (assocs c) -> good (Z.to_nat o).
Hypothesis GN : forall o, (o < objectCount c)%nat -> good o.

Lemma put_keeps o p bs : good o -> objectValuePtr c o = Some p -> Forall is_byte bs -> forall m i, K m -> K (putBytes m p i bs).
Proof. intros G E. induction 1 as [|b r B R IH]; intros m i H; cbn [putBytes]; [exact H|]. apply IH. apply (KV o p G E); auto. Qed.
Lemma add_keeps o f m : K m -> K (addObjectFlags c o f m).
Proof. intros H. unfold addObjectFlags. destruct (objectFlagsTable c) as [p|] eqn:E; [|exact H]. cbv zeta. apply (KF p E); [apply u8_byte|exact H]. Qed.
Lemma set_keeps o f m : K m -> K (setObjectFlags c o f m).
Proof. intros H. unfold setObjectFlags. destruct (objectFlagsTable c) as [p|] eqn:E; [|exact H]. cbv zeta. apply (KF p E); [apply u8_byte|exact H]. Qed.
Lemma write_keeps o v f m : good o -> K m -> K (objectWrite_ c o v f m).
Proof.
  intros G H. unfold objectWrite_. destruct (objectValuePtr c o) as [p|] eqn:E; [|exact H]. destruct (_ =? _); [exact H|]. apply set_keeps. apply (put_keeps o); auto. apply writeBytes_byte.
Qed.
Lemma upd_keeps p : flagsAt c p -> forall n o m, K m -> K (snd (updLoop p n o m)).
Proof.
  intros E. induction n as [|n IH]; intros o m H; cbn [updLoop]; [exact H|]. cbv zeta. destruct (_ =? 0); [apply IH; exact H|]. cbn [snd]. apply (KF p E); [|exact H]. apply Device_Refine.mask_byte, u8_byte.
Qed.
Lemma next_keeps m : K m -> K (snd (nextUpdatedObject c m)).
Proof. intros H. unfold nextUpdatedObject. destruct (objectFlagsTable c) as [p|] eqn:E; [|exact H]. apply (upd_keeps p E). exact H. Qed.
Lemma take_keeps o tel m : good o -> Forall is_byte tel -> K m -> K (processGroupWriteTelegram c o tel m).
Proof.
  intros G F H. unfold processGroupWriteTelegram. destruct (objectValuePtr c o) as [p|] eqn:E; [|exact H]. cbv zeta. apply add_keeps. destruct (_ <? _).
  - apply (put_keeps o); auto. apply Forall_rev. apply Forall_forall. intros v Q. apply in_map_iff in Q. destruct Q as (i & <- & _). apply rd_byte; auto.
  - apply (KV o p G E); [apply Device_Refine.six_byte|exact H].
Qed.
Lemma loop_keeps gapos tel trg : Forall is_byte tel -> forall l, (forall ga o, In (ga, o) l -> good (Z.to_nat o)) -> forall m, K m -> K (writeLoop c gapos tel trg l m).
Proof.
  intros F. induction l as [|(ga, o) r IH]; intros G m H; cbn [writeLoop]; [exact H|]. assert (R : forall ga o, In (ga, o) r -> good (Z.to_nat o)) by (intros a b Q; apply (G a b); right; exact Q).
  destruct (negb _); [apply IH; auto|]. destruct (_ =? trg); [apply IH; auto|]. apply IH; auto. destruct (_ =? _); [|exact H]. apply take_keeps; auto. apply (G ga o). left. reflexivity.
Qed.
Lemma group_keeps a tel trg m : Forall is_byte tel -> K m -> K (processGroupWrite c a tel trg m).
Proof. intros F H. unfold processGroupWrite. cbv zeta. destruct (_ <? 0); [exact H|]. apply loop_keeps; auto. Qed.
Lemma send_keeps o a r s : K (smem s) -> buf_ok (sendBuf s) -> K (smem (sendGroupWriteTelegram c o a r s)) /\ buf_ok (sendBuf (sendGroupWriteTelegram c o a r s)).
Proof.
  intros H B. unfold sendGroupWriteTelegram. destruct (objectValuePtr c o) as [p|] eqn:E; [|auto]. cbv zeta. unfold sendPrepared. cbn [smem sendBuf].
  pose proof (group_buf c o p a r (smem s) (sendBuf s) (KB _ H) B) as G. split; [|exact G]. apply group_keeps; [apply G|exact H].
Qed.
Lemma sendObject_keeps p o s : flagsAt c p -> K (smem s) -> buf_ok (sendBuf s) -> K (smem (sendObject c p o s)) /\ buf_ok (sendBuf (sendObject c p o s)).
Proof.
  intros E H B. unfold sendObject. cbv zeta. cbn [smem sendBuf].
  match goal with |- context [if ?b then sendGroupReadTelegram ?x ?y s else ?z] => assert (Q : K (smem (if b then sendGroupReadTelegram x y s else z)) /\ buf_ok (sendBuf (if b then sendGroupReadTelegram x y s else z))) end.
  { destruct (negb _); [|apply send_keeps; auto]. unfold sendGroupReadTelegram, sendPrepared. cbn [smem sendBuf]. split; [exact H|]. apply read_buf. exact B. }
  split; [|apply Q]. apply (KF p E); [apply u8_byte|apply Q].
Qed.
Lemma sendNext_keeps s : K (smem s) -> buf_ok (sendBuf s) -> 0 <= sendNext s ->
  let s' := snd (sendNextGroupTelegram c s) in K (smem s') /\ buf_ok (sendBuf s') /\ 0 <= sendNext s'.
Proof.
  intros H B N. cbv zeta. unfold sendNextGroupTelegram. destruct (objectFlagsTable c) as [p|] eqn:E; [|auto]. destruct (Nat.eqb _ 0); [auto|]. cbv zeta. destruct (scanSend _ _ _ _ _) as [o|].
  - cbn [snd]. destruct (sendObject_keeps p o s E H B) as (A1 & A2). split; [exact A1|]. split; [exact A2|]. unfold sendObject. cbv zeta. cbn [sendNext]. lia.
  - cbn [snd smem sendBuf sendNext]. split; [exact H|]. split; [exact B|]. lia.
Qed.
Lemma received_keeps apci a tel s : Forall is_byte tel -> Z.land apci APCI_GROUP_MASK <> APCI_GROUP_VALUE_READ_PDU -> K (smem s) -> K (smem (processGroupAddressTelegram c apci a tel s)).
Proof.
  intros F N H. unfold processGroupAddressTelegram, processGroupTelegram. destruct (_ || _); [cbn [smem]; apply group_keeps; auto|].
  destruct (Z.eqb_spec (Z.land apci APCI_GROUP_MASK) APCI_GROUP_VALUE_READ_PDU) as [E|_]; [destruct (N E)|exact H].
Qed.
End Keep.
