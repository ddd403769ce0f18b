(** The device drives its transport layer as TL4_Spec assumes: every operation of the device is a sequence of operations on the transport layer, with byte buffers of the right size *)
From Verif Require Import Base Bits Device_Model Device_Spec Device_Spec3 Device_TL Device_Status Device_Proofs Device_Wf Device_Steps Device_Bytes Telegram_Model.
From Verif Require TL4_Spec TL4_Proofs TL4_Inv TL4_Step Telegram_Proofs.
Import TL4_Spec(app_buffer, steps, outputs, run).
Import TL4_Inv(Inv).
Import Eeprom_Model(esize, fsize, marked).
Import Eeprom_Spec(ecfg_ok, sector_ok).

(** ** Buffers *)
Lemma low_byte v : is_byte (lowByte v).
Proof. apply Telegram_Proofs.lowByte_byte. Qed.
Lemma high_byte v : is_byte (HIGH_BYTE v).
Proof. apply Telegram_Proofs.HIGH_BYTE_byte. Qed.
Lemma buf_wr b i x : is_byte x -> app_buffer b -> app_buffer (wr b i x).
Proof. intros. apply TL4_Proofs.app_buffer_wr; auto. Qed.
Lemma or_byte a b : is_byte a -> is_byte b -> is_byte (Z.lor a b).
Proof. intros. apply lor_byte; auto. Qed.
Lemma buf_cmd b cmd add : is_byte add -> app_buffer b -> app_buffer (setApciCommand b cmd add).
Proof.
  intros A B. unfold setApciCommand. cbv zeta. assert (C : app_buffer (wr (wr b 6 (HIGH_BYTE cmd)) 7 (lowByte cmd))) by (apply buf_wr; [apply low_byte|]; apply buf_wr; [apply high_byte|exact B]).
  apply buf_wr; [|exact C]. apply or_byte; [|exact A]. apply rd_byte. apply C.
Qed.
Lemma buf_rd b i : app_buffer b -> is_byte (rd b i).
Proof. intros [_ B]. apply rd_byte. exact B. Qed.
Lemma nibble_byte v : is_byte (Z.land v 15).
Proof. rewrite land_15. unfold is_byte. pose proof (Z.mod_pos_bound v 16). lia. Qed.
Lemma six_byte v : is_byte (Z.land v 0x3f).
Proof. change 0x3f with (Z.ones 6). rewrite Z.land_ones by lia. pose proof (Z.mod_pos_bound v (2 ^ 6)). unfold is_byte. lia. Qed.
Lemma mask_byte x k : is_byte k -> is_byte (Z.land x k).
Proof.
  intros H. replace (Z.land x k) with (Z.land (Z.land x k) 255); [rewrite land_255; apply Z.mod_pos_bound; lia|]. rewrite <- Z.land_assoc. f_equal. rewrite land_255. apply Z.mod_small. exact H.
Qed.
Lemma zero_byte : is_byte 0. Proof. red; lia. Qed.
Ltac bufb := first [apply zero_byte | apply u8_byte | apply low_byte | apply high_byte | apply six_byte | apply nibble_byte | apply rd_byte; assumption | red; lia | idtac].
Ltac buf := repeat first [assumption | match goal with |- app_buffer (setApciCommand _ _ _) => apply buf_cmd; [bufb|] | |- app_buffer (wr _ _ _) => apply buf_wr; [bufb|] end].
Section Mem.
Variables N M : nat.
Lemma memoryRead_good L n a sb d b sb' d' : is_byte n -> memoryRead L n a sb d = Some (b, sb', d') -> app_buffer sb -> dev_bytes d -> mem_wf N M d -> app_buffer sb' /\ dev_bytes d'.
Proof.
  unfold memoryRead. intros Hn E B D W. destruct (processApciMemoryOperation _ _ _ _ _ _ _) as [[[ok s] d1]|] eqn:O; [|discriminate]. cbv zeta in E. injection E as _ <- <-.
  assert (G : good N M true sb d) by (split; [exact B|auto]). destruct (op_good _ _ _ _ _ _ _ _ _ _ _ _ G O) as (G1 & G2 & _). split; [|exact G2]. unfold bufOk in G1. buf. destruct ok; [exact Hn|apply zero_byte].
Qed.
Lemma memory_good L t sb d b sb' d' : Forall is_byte t -> processMemoryApci L t sb d = Some (b, sb', d') -> app_buffer sb -> dev_bytes d -> mem_wf N M d -> app_buffer sb' /\ dev_bytes d'.
Proof.
  intros F E B D W. unfold processMemoryApci in E. cbv zeta in E. pose proof (nibble_byte (rd t 7)) as C. change 15 with 0x0f in C. destruct (_ =? _); [apply (memoryRead_good _ _ _ _ _ _ _ _ C E B D W)|].
  destruct (_ =? _); [|discriminate]. destruct (processApciMemoryOperation _ _ _ _ _ _ _) as [[[ok s] d1]|] eqn:O; [|discriminate].
  assert (G : good N M false t d) by (split; [exact F|auto]). destruct (op_good _ _ _ _ _ _ _ _ _ _ _ _ G O) as (_ & G2 & G3).
  match type of E with context [if ?b then _ else _] => destruct b end; [apply (memoryRead_good _ _ _ _ _ _ _ _ C E B G2 G3)|]. injection E as _ <- <-. auto.
Qed.
End Mem.
(** ** Properties *)
Lemma load_map L static o data n d : memMapper (snd (loadProperty L static o data n d)) = memMapper d.
Proof.
  unfold loadProperty, handleAllocAbsTaskSegment, handleTaskCtrl1, handleTaskCtrl2. cbv zeta.
  repeat match goal with |- context [if ?b then (_, _) else _] => destruct b; [reflexivity|] end. repeat match goal with |- context [if ?b then _ else _] => destruct b end; reflexivity.
Qed.
Lemma vput_map v k bs d d' : vput v k bs d = Some d' -> memMapper d' = memMapper d.
Proof. unfold vput. destruct v; [destruct (zput _ _ _)|destruct (zput _ _ _)|destruct (Nat.eqb _ _)]; try discriminate; now intros [= <-]. Qed.
Lemma prop_map L static tabs t n sb d sb' d' : processPropertyApci L static tabs t n sb d = Some (sb', d') -> memMapper d' = memMapper d.
Proof.
  unfold processPropertyApci. cbv zeta. destruct (_ || _).
  - destruct (apciCommand t =? _).
    + unfold option_map. destruct (propertyValueRead _ _ _ _ _ _ _) as [[f b]|]; [|discriminate]. now intros [= _ <-].
    + unfold propertyValueWrite. destruct (propertyDef _ _ _) as [[p|]|]; [|now intros [= _ <-]|discriminate]. destruct (_ =? 0); [now intros [= _ <-]|].
      destruct (valuePointer p) as [v|]; [|discriminate]. destruct (ptype p =? _).
      * pose proof (load_map L static (rd t 8) (skipn 12 t) (n - 13) d) as S. destruct (loadProperty _ _ _ _ _ _) as [s d1]. intros [= _ <-]. exact S.
      * destruct (bget _ _ _) as [bs|]; [|discriminate]. destruct (vput _ _ _ _) as [d1|] eqn:V; [|discriminate]. apply vput_map in V. destruct (vget _ _ _ _); [|discriminate].
        destruct (bput _ _ _); [|discriminate]. intros [= _ <-]. destruct (isEepromPointer p); exact V.
  - destruct (_ =? _); [|discriminate]. unfold option_map. destruct (propertyDescRead _ _ _ _ _ _); [|discriminate]. now intros [= _ <-].
Qed.
Section Props.
Variables N M : nat.
Lemma zget_bytes l i n bs : zget l i n = Some bs -> Forall is_byte l -> Forall is_byte bs.
Proof. unfold zget. destruct (Nat.eqb _ _); [intros [= <-]; constructor|]. destruct (_ <? _); [discriminate|]. intros E F. apply (bget_wf _ _ _ _ E F). Qed.
Lemma vget_bytes v k n d bs : vget v k n d = Some bs -> mem_wf N M d -> Forall is_byte bs.
Proof.
  unfold vget. intros E W. destruct v; apply zget_bytes in E; auto; try apply W. constructor; [apply low_byte|constructor; [apply high_byte|constructor]].
Qed.
Lemma buf_put l p bs l' : bput l p bs = Some l' -> Forall is_byte bs -> app_buffer l -> app_buffer l'.
Proof. intros E F B. apply (buffer_put _ _ _ _ E B F). Qed.
Lemma valueRead_buf tabs o id n st sb d b sb' : propertyValueRead tabs o id n st sb d = Some (b, sb') -> mem_wf N M d -> app_buffer sb -> app_buffer sb'.
Proof.
  unfold propertyValueRead. intros E W B. destruct (propertyDef _ _ _) as [[p|]|]; [|now injection E as _ <-|discriminate]. destruct (valuePointer p) as [v|]; [|discriminate]. cbv zeta in E.
  destruct (_ <? _); [now injection E as _ <-|]. destruct (vget _ _ _ _) as [bs|] eqn:G; [|discriminate]. apply vget_bytes in G; [|exact W]. destruct (bput _ _ _) as [s1|] eqn:P; [|discriminate]. injection E as _ <-.
  apply buf_put in P; [|destruct (_ <? _); [apply Forall_rev|]; exact G|exact B]. buf.
Qed.
Lemma valueWrite_buf L static tabs t len o id n st sb d b sb' d' : Forall is_byte t -> propertyValueWrite L static tabs t len o id n st sb d = Some (b, sb', d') -> mem_wf N M d -> app_buffer sb -> app_buffer sb'.
Proof.
  unfold propertyValueWrite. intros F E W B. destruct (propertyDef _ _ _) as [[p|]|]; [|now injection E as _ <- _|discriminate]. destruct (_ =? 0); [now injection E as _ <- _|].
  destruct (valuePointer p) as [v|]; [|discriminate]. destruct (ptype p =? _).
  - destruct (loadProperty _ _ _ _ _ _) as [s d1]. cbv zeta in E. injection E as _ <- _. buf.
  - cbv zeta in E. destruct (bget _ _ _) as [bs|] eqn:G; [|discriminate]. destruct (vput _ _ _ _) as [d1|] eqn:V; [|discriminate].
    apply (wf_vput N M) in V; [|auto|apply Forall_rev; apply (bget_wf _ _ _ _ G F)]. destruct (vget _ _ _ _) as [b1|] eqn:G1; [|discriminate]. apply vget_bytes in G1; [|exact V].
    destruct (bput _ _ _) as [s1|] eqn:P; [|discriminate]. injection E as _ <- _. apply buf_put in P; [|apply Forall_rev; exact G1|exact B]. buf.
Qed.
Definition pids (tabs : list (list pdef)) : Prop := Forall (Forall (fun p => is_byte (pid p))) tabs.
Lemma find_pid id tab p : Forall (fun p => is_byte (pid p)) tab -> findProperty id tab = Some (Some p) -> is_byte (pid p).
Proof. induction 1 as [|q r Q R IH]; cbn [findProperty]; [discriminate|]. destruct (_ =? 0); [discriminate|]. destruct (_ =? _); [now intros [= <-]|exact IH]. Qed.
Lemma descRead_buf tabs o id ix sb d b sb' : pids tabs -> is_byte id -> propertyDescRead tabs o id ix sb d = Some (b, sb') -> app_buffer sb -> app_buffer sb'.
Proof.
  intros T I E B. unfold propertyDescRead in E. cbv zeta in E.
  destruct (if id =? 0 then _ else _) as [q|] eqn:Q; [|discriminate].
  assert (P : forall p, q = Some p -> is_byte (pid p)).
  { intros p ->. destruct (id =? 0).
    - destruct (nth_error tabs _) as [tab|] eqn:T1; [|discriminate]. destruct (nth_error tab _) as [p'|] eqn:T2; [|discriminate]. injection Q as ->. apply nth_error_In in T1, T2.
      pose proof (proj1 (Forall_forall _ _) T _ T1) as FT. apply (proj1 (Forall_forall _ _) FT _ T2).
    - unfold propertyDef in Q. destruct (_ <=? _); [discriminate|]. apply find_pid in Q; auto. destruct (nth_in_or_default (Z.to_nat o) tabs []) as [H|H]; [|rewrite H; constructor]. apply (proj1 (Forall_forall _ _) T _ H). }
  destruct q as [p|]; [destruct (pid p =? 0)|]; try (injection E as _ <-; buf; fail).
  destruct (if Z.land (control p) PC_ARRAY_POINTER =? _ then _ else _) as [k|]; [|discriminate]. injection E as _ <-. specialize (P p eq_refl).
  apply buf_wr; [destruct (negb _); red; lia|]. apply buf_wr; [apply u8_byte|]. apply buf_wr; [apply nibble_byte|]. apply buf_wr.
  { apply mask_byte. vm_compute. split; [discriminate|reflexivity]. }
  apply buf_wr; [exact P|]. buf.
Qed.
Lemma prop_buf L static tabs t n sb d sb' d' : pids tabs -> Forall is_byte t -> processPropertyApci L static tabs t n sb d = Some (sb', d') -> mem_wf N M d -> app_buffer sb -> app_buffer sb'.
Proof.
  intros T F E W B. unfold processPropertyApci in E. cbv zeta in E.
  destruct (_ || _).
  - set (s0 := wr _ 11 _) in E. assert (S0 : app_buffer s0) by (unfold s0; buf). clearbody s0. destruct (apciCommand t =? _).
    + unfold option_map in E. destruct (propertyValueRead _ _ _ _ _ _ _) as [[f b]|] eqn:R; [|discriminate]. injection E as <- _. apply valueRead_buf in R; auto. destruct f; buf.
    + destruct (propertyValueWrite _ _ _ _ _ _ _ _ _ _ _) as [[[f b] d1]|] eqn:R; [|discriminate]. injection E as <- _. apply valueWrite_buf in R; auto. destruct f; buf.
  - destruct (_ =? _); [|discriminate]. unfold option_map in E. destruct (propertyDescRead _ _ _ _ _ _) as [[f b]|] eqn:R; [|discriminate]. injection E as <- _. cbn [snd].
    apply descRead_buf in R; auto; [apply rd_byte; exact F|]. buf.
Qed.
End Props.
(** ** A request *)
Definition good_dev (c : conf) (x : device) : Prop := wf c x /\ dev_bytes (mem x).
Lemma default_good c n conn t sb x b sb' y : Forall is_byte t -> processApciDefault c n conn t sb x = Some (b, sb', y) -> good_dev c x -> app_buffer sb -> app_buffer sb' /\ dev_bytes (mem y).
Proof.
  intros F E (W & D) B. unfold processApciDefault in E. cbv zeta in E. destruct (_ =? _). { injection E as _ <- <-. split; [buf|exact D]. }
  destruct (_ || _). { destruct (processMemoryApci _ _ _ _) as [[[a s] d]|] eqn:P; [|discriminate]. injection E as _ <- <-. apply (memory_good _ _ _ _ _ _ _ _ _ F P B D (proj1 W)). }
  destruct (_ =? _). { unfold descriptorRead in E. destruct (negb _); injection E as _ <- <-; (split; [buf|exact D]). }
  destruct (_ =? _).
  { unfold masterReset in E. destruct (_ && _); [injection E as _ <- <-; split; [buf; (vm_compute; split; [discriminate|reflexivity])|exact D]|]. destruct (_ || _); [injection E as _ <- <-; split; [buf; (vm_compute; split; [discriminate|reflexivity])|exact D]|].
    destruct (_ =? _); injection E as _ <- <-; (split; [buf; (vm_compute; split; [discriminate|reflexivity])|exact D]). }
  destruct (_ =? _). { injection E as _ <- <-. split; [buf|exact D]. }
  destruct (_ =? _); injection E as _ <- <-; auto.
Qed.
Lemma apci_good c n conn t len sb x b sb' y : pids (tabs c) -> Forall is_byte t -> processApci c n conn t len sb x = Some (b, sb', y) -> good_dev c x -> app_buffer sb -> app_buffer sb' /\ dev_bytes (mem y).
Proof.
  intros T F E G B. unfold processApci in E. destruct (kind c); [apply (default_good _ _ _ _ _ _ _ _ _ F E G B)|]. destruct (isPropertyCommand _); [|apply (default_good _ _ _ _ _ _ _ _ _ F E G B)].
  destruct (processPropertyApci _ _ _ _ _ _ _) as [[s d]|] eqn:P; [|discriminate]. injection E as _ <- <-. destruct G as (W & D). split; [apply (prop_buf _ _ _ _ _ _ _ _ _ _ _ T F P (proj1 W) B)|].
  unfold dev_bytes in *. cbn [mem setMem]. rewrite (prop_map _ _ _ _ _ _ _ _ _ P). exact D.
Qed.
