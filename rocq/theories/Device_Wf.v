(** Memories keep their sizes and hold bytes, the flash sector stays in order: an invariant of every operation of a device *)
From Verif Require Import Base Bits Device_Model Device_Spec Device_TL Device_Status Device_Proofs.
From Verif Require MemReq_Proofs Eeprom_Spec Eeprom_Proofs.

Definition mem_wf (N M : nat) (d : dev) : Prop :=
  length (eeData d) = N /\ Forall is_byte (eeData d) /\ length (ramData d) = M /\ Forall is_byte (ramData d) /\ is_byte (status d).
Lemma bput_wf l p bs l' : bput l p bs = Some l' -> Forall is_byte l -> Forall is_byte bs -> length l' = length l /\ Forall is_byte l'.
Proof.
  unfold bput. destruct (_ <=? _)%nat; [|discriminate]. intros [= <-] A B. split; [apply wr_range_length|apply MemReq_Proofs.Forall_wr_range; auto].
Qed.
Lemma bget_wf l p n bs : bget l p n = Some bs -> Forall is_byte l -> Forall is_byte bs.
Proof. intros E F. destruct (get_some _ _ _ _ E) as (-> & _). apply MemReq_Proofs.Forall_sub; auto. Qed.
Section Sizes.
Variables N M : nat.
Lemma wf_ee d l : mem_wf N M d -> length l = N -> Forall is_byte l -> mem_wf N M (setEe d l).
Proof. intros (A & B & C & D & E) F G. exact (conj F (conj G (conj C (conj D E)))). Qed.
Lemma wf_ram d l : mem_wf N M d -> length l = M -> Forall is_byte l -> mem_wf N M (setRam d l).
Proof. intros (A & B & C & D & E) F G. exact (conj A (conj B (conj F (conj G E)))). Qed.
Lemma wf_touch d : mem_wf N M d -> mem_wf N M (touch d).
Proof. intros H. exact H. Qed.
Lemma wf_mod d b : mem_wf N M d -> mem_wf N M (setModified d b).
Proof. intros H. exact H. Qed.
Lemma wf_status d v : mem_wf N M d -> is_byte v -> mem_wf N M (setStatus d v).
Proof. intros (A & B & C & D & E) F. exact (conj A (conj B (conj C (conj D F)))). Qed.
Lemma wf_eeByte o v d : mem_wf N M d -> mem_wf N M (eeByte o v d).
Proof. intros W. apply wf_ee; auto; [rewrite wr_length; apply W|apply Forall_wr; [apply W|apply u8_byte]]. Qed.
Lemma wf_eeWord o v d : mem_wf N M d -> mem_wf N M (eeWord o v d).
Proof. intros W. unfold eeWord. now do 2 apply wf_eeByte. Qed.

(** memory requests *)
Section Op.
Variable L : layout.
Variable buf : list Z.
Hypothesis BB : Forall is_byte buf.
Lemma wf_putLoop bs : Forall is_byte bs -> forall i d d', mem_wf N M d -> ramPutLoop i bs d = Some d' -> mem_wf N M d'.
Proof.
  induction 1 as [|b r Hb Hr IH]; intros i d d' W; cbn [ramPutLoop]. { intros [= <-]. exact W. }
  destruct (_ =? _). { apply IH. apply (wf_status d b W Hb). }
  destruct (bput _ _ _) as [l|] eqn:E; [|discriminate]. apply bput_wf in E; [|apply W|repeat constructor; apply Hb]. apply IH. destruct E as (E1 & E2). apply (wf_ram d l W); auto. rewrite E1. apply W.
Qed.
Lemma wf_cpyTo x bs d d' : Forall is_byte bs -> mem_wf N M d -> cpyToUserRam L x bs d = Some d' -> mem_wf N M d'.
Proof.
  intros B W. unfold cpyToUserRam. destruct (_ && _). { intros [= <-]. apply (wf_status d _ W). apply rd_byte; auto. }
  destruct (_ || _); [|apply wf_putLoop; auto]. destruct (bput _ _ _) as [l|] eqn:E; [|discriminate]. intros [= <-]. apply bput_wf in E; [|apply W|auto]. destruct E as (E1 & E2).
  apply (wf_ram d l W); auto. rewrite E1. apply W.
Qed.
Lemma wf_ramMove x n p d b d' : ramMove L false x n p buf d = Some (b, d') -> mem_wf N M d -> b = buf /\ mem_wf N M d'.
Proof.
  unfold ramMove. destruct (bget buf p n) as [bs|] eqn:G; [|discriminate]. destruct (cpyToUserRam _ _ _ _) as [d1|] eqn:C; [|discriminate]. intros [= <- <-] W. split; auto.
  apply (wf_cpyTo _ _ _ _ (bget_wf _ _ _ _ G BB) W C).
Qed.
Lemma wf_eeMove x n p d b d' : eeMove L false x n p buf d = Some (b, d') -> mem_wf N M d -> b = buf /\ mem_wf N M d'.
Proof.
  unfold eeMove. destruct (bget buf p n) as [bs|] eqn:G; [|discriminate]. destruct (bput _ _ _) as [l|] eqn:E; [|discriminate]. intros [= <- <-] W. split; auto.
  apply bput_wf in E; [|apply W|apply (bget_wf _ _ _ _ G BB)]. destruct E as (E1 & E2). apply (wf_ee d l W); auto. rewrite E1. apply W.
Qed.
Lemma wf_mapMove x n p m d ok b d' : mapMove L false x n p buf m d = Some (ok, b, d') -> mem_wf N M d -> b = buf /\ mem_wf N M d'.
Proof.
  unfold mapMove. destruct (bget buf p n) as [bs|] eqn:G; [|discriminate]. destruct (writeMemPtr _ _ _ _) as [[rc m']|]; [|discriminate]. intros [= _ <- <-] W. split; auto.
Qed.
Definition wfS (s : MemReq_Model.st) : Prop := sbuf s = buf /\ mem_wf N M (sdev s).
Lemma wf_mapLoop n : forall s s', wfS s -> mapLoop L false n s = Some s' -> wfS s'.
Proof.
  induction n as [|n IH]; intros s s' (B & W); cbn [mapLoop]. { intros [= <-]. split; auto. }
  destruct (memMapper (sdev s)) as [m|]; [|intros [= <-]; split; auto]. destruct (isMapped _ _ _); [|intros [= <-]; split; auto].
  rewrite B. destruct (mapMove _ _ _ _ _ _ _ _) as [[[ok b] d]|] eqn:E; [|discriminate]. destruct (wf_mapMove _ _ _ _ _ _ _ _ E W) as (-> & W'). destruct ok.
  - apply IH. split; auto.
  - intros [= <-]. split; auto.
Qed.
Definition wfR (x : res) : Prop := match x with Crash => True | Return _ _ d => mem_wf N M d | Go s => wfS s end.
Lemma wfR_then x f : wfR x -> (forall s, wfS s -> wfR (f s)) -> wfR (MemReq_Model.andThen x f).
Proof. destruct x; cbn; auto. Qed.
Lemma wf_stages aEnd len s : wfS s -> wfR (MemReq_Model.andThen (MemReq_Model.andThen (mapStage L false aEnd len s) (eeStage L false aEnd)) (ramStage L false aEnd)).
Proof.
  intros WS. apply wfR_then; [apply wfR_then|].
  - destruct WS as (B & W). unfold mapStage. destruct (memMapper (sdev s)) as [m|]; [|split; auto]. rewrite B. destruct (_ && _).
    + destruct (mapMove _ _ _ _ _ _ _ _) as [[[ok b] d]|] eqn:E; [|exact I]. apply (wf_mapMove _ _ _ _ _ _ _ _ E W).
    + destruct (isMapped _ _ _); [|split; auto]. destruct (mapLoop _ _ _ _) eqn:E; [|exact I]. apply wf_mapLoop in E; auto. split; auto.
  - intros s1 (B & W). unfold eeStage. rewrite B. destruct (inRange2 _ _ _ _).
    + destruct (eeMove _ _ _ _ _ _ _) as [[b d]|] eqn:E; [|exact I]. apply (wf_eeMove _ _ _ _ _ _ E W).
    + destruct (inRange1 _ _ _); [|split; auto]. destruct (eeMove _ _ _ _ _ _ _) as [[b d]|] eqn:E; [|exact I]. destruct (wf_eeMove _ _ _ _ _ _ E W) as (-> & ?). split; auto.
  - intros s1 (B & W). unfold ramStage. rewrite B. destruct (_ || _).
    + destruct (ramMove _ _ _ _ _ _ _) as [[b d]|] eqn:E; [|exact I]. apply (wf_ramMove _ _ _ _ _ _ E W).
    + destruct (inRange1 _ _ _); [|split; auto]. destruct (ramMove _ _ _ _ _ _ _) as [[b d]|] eqn:E; [|exact I]. destruct (wf_ramMove _ _ _ _ _ _ E W) as (-> & ?). split; auto.
Qed.
Lemma wf_opLoop fuel : forall s aEnd len b buf' d, wfS s -> opLoop fuel L false aEnd len s = Some (b, buf', d) -> mem_wf N M d.
Proof.
  induction fuel as [|k IH]; intros s aEnd len b buf' d WS; cbn [opLoop]; [discriminate|]. destruct (_ && _); [|intros [= _ _ <-]; apply WS].
  pose proof (wf_stages aEnd len (mkSt (sa s) (spos s) true (sbuf s) (sdev s)) WS) as H.
  destruct (MemReq_Model.andThen _ _) as [|b1 buf1 d1|s1]; [discriminate|intros [= _ _ <-]; exact H|]. intros E. apply (IH _ _ _ _ _ _ H E).
Qed.
Lemma wf_write a pos len d b buf' d' : mem_wf N M d -> processApciMemoryOperation L a pos len false buf d = Some (b, buf', d') -> mem_wf N M d'.
Proof.
  intros W. unfold processApciMemoryOperation. destruct (len =? 0); [intros [= _ _ <-]; exact W|]. destruct (_ <? a); [intros [= _ _ <-]; exact W|].
  apply wf_opLoop. split; auto.
Qed.
End Op.
Lemma wf_same d d' : same_local d d' -> mem_wf N M d -> mem_wf N M d'.
Proof. intros (A & _ & B & C) W. unfold mem_wf. rewrite A, B, C. exact W. Qed.
Lemma wf_memory L t sb d b sb' d' : Forall is_byte t -> mem_wf N M d -> processMemoryApci L t sb d = Some (b, sb', d') -> mem_wf N M d'.
Proof.
  intros F W. unfold processMemoryApci. cbv zeta. destruct (_ =? _). { intros E. apply (wf_same d); auto. apply (memoryRead_same _ _ _ _ _ _ _ _ E). }
  destruct (_ =? _); [|discriminate]. destruct (processApciMemoryOperation _ _ _ _ _ _ _) as [[[ok s] d1]|] eqn:E; [|discriminate]. apply wf_write in E; auto.
  match goal with |- context [if ?b then _ else _] => destruct b end; [|intros [= _ _ <-]; exact E]. intros Q. apply (wf_same d1); auto. apply (memoryRead_same _ _ _ _ _ _ _ _ Q).
Qed.

(** properties *)
Ltac wf := repeat first [assumption | apply wf_eeByte | apply wf_eeWord | apply wf_touch].
Lemma wf_load L static o data n d : mem_wf N M d -> mem_wf N M (snd (loadProperty L static o data n d)).
Proof.
  intros W. unfold loadProperty, handleAllocAbsTaskSegment, handleTaskCtrl1, handleTaskCtrl2. cbv zeta.
  repeat match goal with |- context [if ?b then (_, _) else _] => destruct b; [cbn [snd]; wf; fail|] end.
  repeat match goal with |- mem_wf _ _ (snd (if ?b then _ else _)) => destruct b; cbn [snd]; wf end.
Qed.
Lemma wf_vput v k bs d d' : mem_wf N M d -> Forall is_byte bs -> vput v k bs d = Some d' -> mem_wf N M d'.
Proof.
  intros W B. assert (Z : forall l i l', zput l i bs = Some l' -> Forall is_byte l -> length l' = length l /\ Forall is_byte l').
  { intros l i l'. unfold zput. destruct (Nat.eqb _ _); [intros [= <-]; auto|]. destruct (i <? 0); [discriminate|]. intros E F. apply (bput_wf _ _ _ _ E F B). }
  unfold vput. destruct v.
  - destruct (zput _ _ _) as [l|] eqn:E; [|discriminate]. intros [= <-]. apply Z in E; [|apply W]. destruct E as (E1 & E2). apply wf_ram; auto. rewrite E1. apply W.
  - destruct (zput _ _ _) as [l|] eqn:E; [|discriminate]. intros [= <-]. apply Z in E; [|apply W]. destruct E as (E1 & E2). apply wf_ee; auto. rewrite E1. apply W.
  - destruct (Nat.eqb _ _); [|discriminate]. now intros [= <-].
Qed.
Lemma wf_prop L static tabs t n sb d sb' d' : Forall is_byte t -> mem_wf N M d -> processPropertyApci L static tabs t n sb d = Some (sb', d') -> mem_wf N M d'.
Proof.
  intros F W. unfold processPropertyApci. cbv zeta. destruct (_ || _).
  - destruct (apciCommand t =? _).
    + unfold option_map. destruct (propertyValueRead _ _ _ _ _ _ _) as [[f b]|]; [|discriminate]. now intros [= _ <-].
    + unfold propertyValueWrite. destruct (propertyDef _ _ _) as [[p|]|]; [|now intros [= _ <-]|discriminate]. destruct (_ =? 0); [now intros [= _ <-]|].
      destruct (valuePointer p) as [v|]; [|discriminate]. destruct (ptype p =? _).
      * pose proof (wf_load L static (rd t 8) (skipn 12 t) (n - 13) d W) as S. destruct (loadProperty _ _ _ _ _ _) as [s d1]. intros [= _ <-]. now apply wf_eeByte.
      * destruct (bget _ _ _) as [bs|] eqn:G; [|discriminate]. destruct (vput _ _ _ _) as [d1|] eqn:V; [|discriminate].
        apply wf_vput in V; [|auto|apply Forall_rev; apply (bget_wf _ _ _ _ G F)]. destruct (vget _ _ _ _); [|discriminate].
        destruct (bput _ _ _); [|discriminate]. intros [= _ <-]. destruct (isEepromPointer p); exact V.
  - destruct (_ =? _); [|discriminate]. unfold option_map. destruct (propertyDescRead _ _ _ _ _ _); [|discriminate]. now intros [= _ <-].
Qed.
(** own address *)
Lemma wf_storeOwn a d : mem_wf N M d -> mem_wf N M (storeOwnAddress a d).
Proof. intros W. unfold storeOwnAddress. destruct (negb _); wf. Qed.
Lemma wf_memOwn c a d d' : mem_wf N M d -> memOwnAddress c a d = Some d' -> mem_wf N M d'.
Proof.
  intros W. pose proof (wf_storeOwn a d W) as S. unfold memOwnAddress. destruct (kind c). { now intros [= <-]. }
  destruct (_ =? _); [|now intros [= <-]]. destruct (addrTable _ _) as [[ee o]|]; [|discriminate]. unfold pokeWord.
  assert (B : Forall is_byte [HIGH_BYTE a; lowByte a]).
  { repeat constructor; try (apply u8_byte); unfold lowByte; rewrite land_255; apply Z.mod_pos_bound; lia. }
  destruct ee; (destruct (bput _ _ _) as [l|] eqn:E; [|discriminate]); intros [= <-]; (apply bput_wf in E; [|apply S|exact B]); destruct E as (E1 & E2); apply wf_touch.
  - apply wf_ee; auto. rewrite E1. apply S.
  - apply wf_ram; auto. rewrite E1. apply S.
Qed.
End Sizes.

(** ** Devices *)
Import Eeprom_Model(esize, fsize, marked).
Import Eeprom_Spec(ecfg_ok, sector_ok).
Definition ram_bytes (c : conf) : nat := (Z.to_nat (ramSize (lay c)) + 3)%nat.
Definition wf (c : conf) (x : device) : Prop := mem_wf (esize (ecf c)) (ram_bytes c) (mem x) /\ sector_ok (ecf c) (sector x) /\ is_u16 (own (tl x)).
Lemma conf_ecfg c : conf_ok c -> ecfg_ok (ecf c).
Proof.
  intros [K F _ _]. unfold ecfg_ok. rewrite F. pose proof Eeprom_Proofs.sector_Z. destruct (kind c); rewrite K; (split; [lia|split; [lia|split; [reflexivity|]]]); [right; left|left]; reflexivity.
Qed.
Lemma esize_big c : conf_ok c -> (256 <= esize (ecf c))%nat.
Proof. intros [K _ _ _]. destruct (kind c); lia. Qed.
Definition flushed (c : conf) (x : device) : list Z := if eeModified (mem x) then marked (ecf c) (eeData (mem x)) else eeData (mem x).
Definition read_back (c : conf) (s : list Z) : list Z := Eeprom_Model.data (Eeprom_Model.readUserEeprom (ecf c) (Eeprom_Model.mkEep s [] false)).
Lemma flush_wf c x y : conf_ok c -> wf c x -> flushUserMemory c x = Some y ->
  wf c y /\ eeData (mem y) = flushed c x /\ eeModified (mem y) = false /\
  (if eeModified (mem x) then read_back c (sector y) = flushed c x else sector y = sector x).
Proof.
  intros K (W & S & O). pose proof (conf_ecfg c K) as E. unfold flushUserMemory, flushed.
  destruct (Eeprom_Model.writeUserEeprom _ _) as [e|] eqn:WE; [|discriminate]. destruct (match memMapper _ with None => _ | Some _ => _ end) as [m|]; [|discriminate]. intros [= <-].
  cbn [mem setSector setMem eeData eeModified sector].
  destruct (eeModified (mem x)) eqn:MD.
  - destruct (Eeprom_Proofs.save_spec (ecf c) (Eeprom_Model.mkEep (sector x) (eeData (mem x)) true) E S (proj1 W) (proj1 (proj2 W)) eq_refl) as (s' & W1 & S1 & F1 & P1).
    rewrite W1 in WE. injection WE as <-. cbn [Eeprom_Model.data Eeprom_Model.isModified Eeprom_Model.sector] in *.
    split; [|split; [reflexivity|split; [reflexivity|]]].
    + split; [|split; [exact S1|exact O]]. destruct W as (A & B & C & D & G). unfold mem_wf. cbn [mem setSector setMem eeData ramData status].
      split; [rewrite Eeprom_Proofs.marked_length; exact A|]. split; [apply Eeprom_Proofs.marked_bytes; exact B|]. auto.
    + apply (Eeprom_Proofs.content_unique (ecf c) s').
      * apply (Eeprom_Proofs.read_content (ecf c) (Eeprom_Model.mkEep s' [] false) E (proj1 S1)).
      * apply (Eeprom_Proofs.found_content _ _ _ _ F1 P1).
  - unfold Eeprom_Model.writeUserEeprom in WE. cbn [Eeprom_Model.isModified] in WE. injection WE as <-. cbn [Eeprom_Model.data Eeprom_Model.isModified Eeprom_Model.sector].
    split; [|split; [reflexivity|split; [reflexivity|reflexivity]]]. split; [|split; [exact S|exact O]]. exact W.
Qed.
Lemma wf_beginDefault c d : mem_wf (esize (ecf c)) (ram_bytes c) d -> mem_wf (esize (ecf c)) (ram_bytes c) (beginDefault c d).
Proof.
  intros W. unfold beginDefault. apply wf_mod. do 7 apply wf_eeByte. apply wf_ram.
  - apply wf_status; auto. vm_compute. split; [discriminate|reflexivity].
  - rewrite wr_length. apply W.
  - apply Forall_wr; [apply W|red; lia].
Qed.
Lemma wf_serial c d : conf_ok c -> mem_wf (esize (ecf c)) (ram_bytes c) d -> mem_wf (esize (ecf c)) (ram_bytes c) (setEe d (wr_range (eeData d) (Z.to_nat serialOffset) (serialNo c))).
Proof.
  intros K W. apply wf_ee; auto; [rewrite wr_range_length; apply W|apply MemReq_Proofs.Forall_wr_range; [apply W|apply (k_serial c K)]].
Qed.
Lemma peek_u16 p d a : peekWord p d = Some a -> is_u16 a.
Proof. unfold peekWord. destruct p as [ee o]. unfold option_map. destruct (bget _ _ _); [|discriminate]. intros [= <-]. apply u16_u16. Qed.
Lemma wf_beginBcu2 c o d a d' : conf_ok c -> is_u16 o -> mem_wf (esize (ecf c)) (ram_bytes c) d -> beginBcu2 c o d = Some (a, d') -> mem_wf (esize (ecf c)) (ram_bytes c) d' /\ is_u16 a.
Proof.
  intros K U W. unfold beginBcu2. cbv zeta.
  assert (W3 : mem_wf (esize (ecf c)) (ram_bytes c) (eeByte appTypeOffset 0 (setRam d (wr (ramData d) peiTypeOffset 0)))).
  { apply wf_eeByte. apply wf_ram; auto; [rewrite wr_length; apply W|apply Forall_wr; [apply W|red; lia]]. }
  revert W3. generalize (eeByte appTypeOffset 0 (setRam d (wr (ramData d) peiTypeOffset 0))). intros d3 W3.
  match goal with |- context [match ?a with Some _ => _ | None => _ end = _] => destruct a as [[b1 d4]|] eqn:E3; [|discriminate] end.
  assert (W4 : mem_wf (esize (ecf c)) (ram_bytes c) d4 /\ is_u16 b1).
  { destruct (_ =? _). 2:{ injection E3 as <- <-. auto. }
    destruct (addrTable _ _) as [p|]; [|discriminate]. destruct (peekWord p d3) as [a1|] eqn:P; [|discriminate]. destruct (memOwnAddress c a1 d3) as [d5|] eqn:E4; [|discriminate].
    injection E3 as <- <-. split; [apply (wf_memOwn _ _ _ _ _ _ W3 E4)|apply (peek_u16 _ _ _ P)]. }
  destruct W4 as (W4 & U4). match goal with |- context [if ?b then touch ?x else _] => set (g := if b then touch x else d4) end.
  assert (W5 : mem_wf (esize (ecf c)) (ram_bytes c) g). { unfold g. destruct (_ && _); [apply wf_touch; now apply wf_eeWord|exact W4]. }
  clearbody g. intros E. assert (a = b1 /\ d' = eeByte (orderInfoOffset + 9) (lowByte SBLIB_VERSION) (eeByte (orderInfoOffset + 8) (HIGH_BYTE SBLIB_VERSION) (setEe g (wr_range (eeData g) (Z.to_nat serialOffset) (serialNo c))))) as (-> & ->) by (split; congruence).
  split; auto. do 2 apply wf_eeByte. apply wf_serial; auto.
Qed.
Lemma wf_begin c d a d' : conf_ok c -> mem_wf (esize (ecf c)) (ram_bytes c) d -> begin c d = Some (a, d') -> mem_wf (esize (ecf c)) (ram_bytes c) d' /\ is_u16 a.
Proof.
  intros K W. unfold begin. destruct (memOwnAddress c _ d) as [d1|] eqn:E1; [|discriminate]. apply (wf_memOwn _ _ _ _ _ _ W) in E1.
  pose proof (wf_beginDefault c d1 E1) as W2.
  assert (U : is_u16 (storedAddress d)) by apply u16_u16.
  match goal with |- context [match ?a with Some _ => _ | None => _ end] => destruct a as [[b d2]|] eqn:E2; [|discriminate] end.
  assert (W3 : mem_wf (esize (ecf c)) (ram_bytes c) d2 /\ is_u16 b).
  { destruct (kind c); [|apply (wf_beginBcu2 c _ _ _ _ K U W2 E2)]. assert (b = storedAddress d /\ d2 = beginDefault c d1) as (-> & ->) by (split; congruence). auto. }
  destruct W3 as (W3 & U3). destruct (b =? 0).
  - destruct (memOwnAddress c PHY_ADDR_DEFAULT d2) as [d3|] eqn:E3; [|discriminate]. intros [= <- <-]. split; [apply (wf_memOwn _ _ _ _ _ _ W3 E3)|]. unfold is_u16, PHY_ADDR_DEFAULT. lia.
  - intros [= <- <-]. auto.
Qed.
Lemma wf_powerUp c sec m last junk x : conf_ok c -> sector_ok (ecf c) sec -> powerUp c sec m last junk = Some x -> wf c x /\ running x = true.
Proof.
  intros K S. unfold powerUp. cbv zeta. destruct (begin c _) as [[a d]|] eqn:B; [|discriminate]. intros [= <-].
  pose proof (Eeprom_Proofs.read_content (ecf c) (Eeprom_Model.mkEep sec [] false) (conf_ecfg c K) (proj1 S)) as C.
  destruct (Eeprom_Proofs.content_shape _ _ _ (proj1 (proj2 S)) C) as (L & F).
  apply wf_begin in B; auto.
  - destruct B as (B & U). split; [|reflexivity]. split; [exact B|]. split; [exact S|]. cbn [tl init own]. rewrite u16_id by exact U. exact U.
  - split; [exact L|]. split; [exact F|]. cbn [ramData status]. split; [rewrite repeat_length; reflexivity|]. split; [|red; lia].
    apply Forall_forall. intros z Z. apply repeat_spec in Z. subst. red; lia.
Qed.
