(** Buffers of the transport layer hold bytes and keep their size, whatever a request does: the device is a client of the transport layer as TL4_Spec assumes it *)
From Verif Require Import Base Bits Device_Model Device_Spec Device_TL Device_Status Device_Proofs Device_Wf.
From Verif Require TL4_Spec TL4_Proofs.
Import TL4_Spec(app_buffer).

(** ** The memory mapper holds bytes *)
Definition map_bytes (m : mapper) : Prop := (forall p, Forall is_byte (flash m p)) /\ Forall is_byte (allocTable m) /\ Forall is_byte (writeBuf m).
Definition dev_bytes (d : dev) : Prop := match memMapper d with None => True | Some m => map_bytes m end.
Lemma bytes_repeat v n : is_byte v -> Forall is_byte (repeat v n).
Proof. intros H. apply Forall_forall. intros z Z. apply repeat_spec in Z. now subst. Qed.
Lemma and_byte a b : is_byte a -> is_byte b -> is_byte (Z.land a b).
Proof.
  unfold is_byte. intros A B. split; [apply Z.land_nonneg; lia|]. replace b with (Z.land b (Z.ones 8)) by (rewrite Z.land_ones by lia; apply Z.mod_small; lia).
  rewrite Z.land_assoc, Z.land_ones by lia. apply Z.mod_pos_bound. lia.
Qed.
Lemma upd_bytes f p l : (forall q, Forall is_byte (f q)) -> Forall is_byte l -> forall q, Forall is_byte (Mapper_Model.upd f p l q).
Proof. intros F L q. unfold Mapper_Model.upd. destruct (_ =? _); auto. Qed.
Lemma erase_bytes f p : (forall q, Forall is_byte (f q)) -> forall q, Forall is_byte (erasePage f p q).
Proof. intros F. apply upd_bytes; auto. apply bytes_repeat. red; lia. Qed.
Lemma program_bytes f p bs f' : programPage f p bs = Some f' -> (forall q, Forall is_byte (f q)) -> Forall is_byte bs -> forall q, Forall is_byte (f' q).
Proof.
  unfold programPage. cbv zeta. destruct (list_eq_dec _ _ _); [|discriminate]. intros [= <-] F B. apply upd_bytes; auto. apply Forall_forall. intros z Z. apply in_map_iff in Z. destruct Z as (i & <- & _).
  apply and_byte; apply rd_byte; auto.
Qed.
Lemma flash_bytes c m m' : doFlash c m = Some m' -> map_bytes m -> map_bytes m'.
Proof.
  intros E (F & T & W). unfold doFlash in E. destruct (if allocTableModified m then _ else _) as [f1|] eqn:E1; [|discriminate].
  assert (F1 : forall q, Forall is_byte (f1 q)). { destruct (allocTableModified m); [|injection E1 as <-; exact F]. apply (program_bytes _ _ _ _ E1); auto. apply erase_bytes; auto. }
  destruct (if flashMemModified m then _ else _) as [f2|] eqn:E2; [|discriminate]. injection E as <-. split; [|split; auto]. cbn [flash].
  destruct (flashMemModified m); [|injection E2 as <-; exact F1]. apply (program_bytes _ _ _ _ E2); auto. apply erase_bytes; auto.
Qed.
Lemma alloc_bytes c v m : map_bytes m -> map_bytes (snd (allocatePage c v m)).
Proof.
  intros (F & T & W). unfold allocatePage. cbv zeta. destruct (_ =? _); cbn [snd]; (split; [exact F|split]); cbn [allocTable writeBuf]; auto; [apply Forall_wr; auto; apply u8_byte|apply bytes_repeat; red; lia].
Qed.
Lemma swap_bytes c p m m' : swapIn c p m = Some m' -> map_bytes m -> map_bytes m'.
Proof.
  unfold swapIn. destruct (_ =? _); [now intros [= <-]|]. destruct (doFlash c m) as [m1|] eqn:E; [|discriminate]. intros [= <-] B. apply (flash_bytes _ _ _ E) in B. destruct B as (F & T & W).
  split; [exact F|]. split; [exact T|]. cbn [writeBuf]. destruct (p =? 0); auto.
Qed.
Lemma put_bytes a v m : is_byte v -> map_bytes m -> map_bytes (putByte a v m).
Proof. intros V (F & T & W). split; [exact F|]. split; [exact T|]. apply Forall_wr; auto. Qed.
Lemma writeMem_bytes c a v m rc m' : writeMem c a v m = Some (rc, m') -> is_byte v -> map_bytes m -> map_bytes m'.
Proof.
  intros E V B. unfold writeMem in E. cbv zeta in E. destruct (_ <? 0); [now injection E as _ <-|]. destruct (swapIn _ _ _) as [m1|] eqn:S; [|discriminate]. apply (swap_bytes _ _ _ _ S) in B.
  destruct (_ && _).
  - pose proof (alloc_bytes c (Z.to_nat (Z.shiftr a 8)) m1 B) as A. destruct (allocatePage _ _ _) as [r m2]. cbn [snd] in A. destruct (_ =? _); injection E as _ <-; [apply put_bytes; auto|exact A].
  - injection E as _ <-. apply put_bytes; auto.
Qed.
Lemma readMem_bytes c a ff m rc v m' : readMem c a ff m = Some (rc, v, m') -> map_bytes m -> is_byte v /\ map_bytes m'.
Proof.
  intros E B. assert (Z0 : is_byte 0) by (red; lia). unfold readMem in E. cbv zeta in E. destruct (_ <? 0); [injection E as _ <- <-; auto|].
  destruct (if ff then _ else _) as [m1|] eqn:S; [|discriminate]. assert (B1 : map_bytes m1) by (destruct ff; [apply (flash_bytes _ _ _ S B)|injection S as <-; exact B]).
  destruct (_ =? 0); [injection E as _ <- <-; auto|]. destruct B1 as (F & T & W). destruct (_ && _); injection E as _ <- <-; (split; [apply rd_byte; auto|exact (conj F (conj T W))]).
Qed.
Lemma writePtr_bytes c bs : Forall is_byte bs -> forall a m rc m', writeMemPtr c a bs m = Some (rc, m') -> map_bytes m -> map_bytes m'.
Proof.
  induction 1 as [|b r Hb Hr IH]; intros a m rc m'; cbn [writeMemPtr]; [now intros [= _ <-]|]. destruct (writeMem _ _ _ _) as [[r1 m1]|] eqn:E; [|discriminate]. intros E' B.
  apply (writeMem_bytes _ _ _ _ _ _ E Hb) in B. destruct (_ =? _); [apply (IH _ _ _ _ E' B)|injection E' as _ <-; exact B].
Qed.
Lemma readPtr_bytes c ff n : forall a m rc bs m', readMemPtr c a n ff m = Some (rc, bs, m') -> map_bytes m -> Forall is_byte bs /\ map_bytes m'.
Proof.
  induction n as [|n IH]; intros a m rc bs m'; cbn [readMemPtr]; [intros [= _ <- <-]; auto|]. destruct (readMem _ _ _ _) as [[[r1 v] m1]|] eqn:E; [|discriminate]. intros E' B.
  destruct (readMem_bytes _ _ _ _ _ _ _ E B) as (V & B1). destruct (_ =? _).
  - destruct (readMemPtr _ _ _ _ _) as [[[r2 ds] m2]|] eqn:E2; [|discriminate]. injection E' as _ <- <-. destruct (IH _ _ _ _ _ E2 B1). auto.
  - injection E' as _ <- <-. auto.
Qed.

(** ** A memory request: buffer and mapper *)
Lemma buffer_put l p bs l' : bput l p bs = Some l' -> app_buffer l -> Forall is_byte bs -> app_buffer l'.
Proof. intros E (L & B) F. destruct (bput_wf _ _ _ _ E B F) as (L' & B'). split; [congruence|exact B']. Qed.
Section Op.
Variable L : layout.
Variables N M : nat.
Variable r : bool.
(** reading: the buffer is one of the transport layer's; writing: any bytes *)
Definition bufOk (b : list Z) : Prop := if r then app_buffer b else Forall is_byte b.
Definition good (b : list Z) (d : dev) : Prop := bufOk b /\ dev_bytes d /\ mem_wf N M d.
Lemma buf_put l p bs l' : r = true -> bput l p bs = Some l' -> bufOk l -> Forall is_byte bs -> bufOk l'.
Proof. unfold bufOk. intros ->. apply buffer_put. Qed.
Lemma get_wf n : forall i d bs, ramGetLoop i n d = Some bs -> mem_wf N M d -> Forall is_byte bs.
Proof.
  induction n as [|n IH]; intros i d bs; cbn [ramGetLoop]; [now intros [= <-]|]. intros E W. destruct (if i =? _ then _ else _) as [b|] eqn:G; [|discriminate].
  destruct (ramGetLoop _ _ _) as [q|] eqn:Q; [|discriminate]. injection E as <-. apply Forall_app. split; [|apply (IH _ _ _ Q W)].
  destruct (i =? _); [injection G as <-; constructor; [apply W|constructor]|apply (bget_wf _ _ _ _ G); apply W].
Qed.
Lemma cpyFrom_wf a n d bs : cpyFromUserRam L a n d = Some bs -> mem_wf N M d -> Forall is_byte bs.
Proof.
  intros E W. unfold cpyFromUserRam in E. destruct (_ && _); [injection E as <-; constructor; [apply W|constructor]|]. destruct (_ || _); [apply (bget_wf _ _ _ _ E); apply W|apply (get_wf _ _ _ _ E W)].
Qed.
Lemma cpyTo_map a bs d d' : cpyToUserRam L a bs d = Some d' -> memMapper d' = memMapper d.
Proof.
  assert (P : forall bs i d d', ramPutLoop i bs d = Some d' -> memMapper d' = memMapper d).
  { clear. induction bs as [|b q IH]; intros i d d'; cbn [ramPutLoop]; [now intros [= <-]|]. destruct (_ =? _); [intros E; apply IH in E; exact E|]. destruct (bput _ _ _); [|discriminate]. intros E. apply IH in E. exact E. }
  unfold cpyToUserRam. destruct (_ && _); [now intros [= <-]|]. destruct (_ || _); [|apply P]. destruct (bput _ _ _); [|discriminate]. now intros [= <-].
Qed.
Lemma eeMove_good a n p b d b' d' : eeMove L r a n p b d = Some (b', d') -> good b d -> good b' d'.
Proof.
  intros E (B & D & W). unfold eeMove in E. unfold good, bufOk in *. destruct r eqn:R.
  - destruct (bget _ _ _) as [bs|] eqn:G; [|discriminate]. destruct (bput _ _ _) as [q|] eqn:P; [|discriminate]. injection E as <- <-. split; [|auto].
    apply (buffer_put _ _ _ _ P B). apply (bget_wf _ _ _ _ G). apply W.
  - destruct (bget _ _ _) as [bs|] eqn:G; [|discriminate]. destruct (bput _ _ _) as [e|] eqn:P; [|discriminate]. injection E as <- <-. split; [exact B|]. split; [exact D|].
    apply bput_wf in P; [|apply W|apply (bget_wf _ _ _ _ G B)]. destruct P as (P1 & P2). apply (wf_ee N M d e W); auto. rewrite P1. apply W.
Qed.
Lemma ramMove_good a n p b d b' d' : ramMove L r a n p b d = Some (b', d') -> good b d -> good b' d'.
Proof.
  intros E (B & D & W). unfold ramMove in E. unfold good, bufOk in *. destruct r eqn:R.
  - destruct (cpyFromUserRam _ _ _ _) as [bs|] eqn:G; [|discriminate]. destruct (bput _ _ _) as [q|] eqn:P; [|discriminate]. injection E as <- <-. split; [|auto].
    apply (buffer_put _ _ _ _ P B). apply (cpyFrom_wf _ _ _ _ G W).
  - destruct (bget _ _ _) as [bs|] eqn:G; [|discriminate]. destruct (cpyToUserRam _ _ _ _) as [q|] eqn:P; [|discriminate]. injection E as <- <-. split; [exact B|]. split.
    + unfold dev_bytes. rewrite (cpyTo_map _ _ _ _ P). exact D.
    + apply (wf_cpyTo N M L a bs d q (bget_wf _ _ _ _ G B) W P).
Qed.
Lemma mapMove_good a n p b m d ok b' d' : mapMove L r a n p b m d = Some (ok, b', d') -> memMapper d = Some m -> good b d -> good b' d'.
Proof.
  intros E MM (B & D & W). unfold mapMove in E. unfold good, bufOk, dev_bytes in *. rewrite MM in D. destruct r eqn:R.
  - destruct (readMemPtr _ _ _ _ _) as [[[rc bs] m']|] eqn:G; [|discriminate]. destruct (bput _ _ _) as [q|] eqn:P; [|discriminate]. injection E as _ <- <-. destruct (readPtr_bytes _ _ _ _ _ _ _ _ G D) as (FB & MB).
    split; [apply (buffer_put _ _ _ _ P B FB)|]. split; [exact MB|exact W].
  - destruct (bget _ _ _) as [bs|] eqn:G; [|discriminate]. destruct (writeMemPtr _ _ _ _) as [[rc m']|] eqn:P; [|discriminate]. injection E as _ <- <-. split; [exact B|]. split; [|exact W].
    apply (writePtr_bytes _ _ (bget_wf _ _ _ _ G B) _ _ _ _ P D).
Qed.
Definition goodS (s : MemReq_Model.st) : Prop := good (sbuf s) (sdev s).
Lemma mapLoop_good n : forall s s', goodS s -> mapLoop L r n s = Some s' -> goodS s'.
Proof.
  induction n as [|n IH]; intros s s' G; cbn [mapLoop]; [now intros [= <-]|]. destruct (memMapper (sdev s)) as [m|] eqn:MM; [|now intros [= <-]]. destruct (isMapped _ _ _); [|now intros [= <-]].
  destruct (mapMove _ _ _ _ _ _ _ _) as [[[ok b] d]|] eqn:E; [|discriminate]. pose proof (mapMove_good _ _ _ _ _ _ _ _ _ E MM G) as G'. destruct ok; [apply IH; exact G'|intros [= <-]; exact G'].
Qed.
Definition goodR (x : res) : Prop := match x with Crash => True | Return _ b d => good b d | Go s => goodS s end.
Lemma goodR_then x f : goodR x -> (forall s, goodS s -> goodR (f s)) -> goodR (MemReq_Model.andThen x f).
Proof. destruct x; cbn; auto. Qed.
Lemma stages_good aEnd len s : goodS s -> goodR (MemReq_Model.andThen (MemReq_Model.andThen (mapStage L r aEnd len s) (eeStage L r aEnd)) (ramStage L r aEnd)).
Proof.
  intros G. apply goodR_then; [apply goodR_then|].
  - unfold mapStage. destruct (memMapper (sdev s)) as [m|] eqn:MM; [|exact G]. destruct (_ && _).
    + destruct (mapMove _ _ _ _ _ _ _ _) as [[[ok b] d]|] eqn:E; [|exact I]. apply (mapMove_good _ _ _ _ _ _ _ _ _ E MM G).
    + destruct (isMapped _ _ _); [|exact G]. destruct (mapLoop _ _ _ _) eqn:E; [|exact I]. apply (mapLoop_good _ _ _ G E).
  - clear. intros s G. unfold eeStage. destruct (inRange2 _ _ _ _).
    + destruct (eeMove _ _ _ _ _ _ _) as [[b d]|] eqn:E; [|exact I]. apply (eeMove_good _ _ _ _ _ _ _ E G).
    + destruct (inRange1 _ _ _); [|exact G]. destruct (eeMove _ _ _ _ _ _ _) as [[b d]|] eqn:E; [|exact I]. apply (eeMove_good _ _ _ _ _ _ _ E G).
  - clear. intros s G. unfold ramStage. destruct (_ || _).
    + destruct (ramMove _ _ _ _ _ _ _) as [[b d]|] eqn:E; [|exact I]. apply (ramMove_good _ _ _ _ _ _ _ E G).
    + destruct (inRange1 _ _ _); [|exact G]. destruct (ramMove _ _ _ _ _ _ _) as [[b d]|] eqn:E; [|exact I]. apply (ramMove_good _ _ _ _ _ _ _ E G).
Qed.
Lemma opLoop_good fuel : forall s aEnd len ok b d, goodS s -> opLoop fuel L r aEnd len s = Some (ok, b, d) -> good b d.
Proof.
  induction fuel as [|k IH]; intros s aEnd len ok b d G; cbn [opLoop]; [discriminate|]. destruct (_ && _); [|intros [= _ <- <-]; exact G].
  pose proof (stages_good aEnd len (mkSt (sa s) (spos s) true (sbuf s) (sdev s)) G) as H.
  destruct (MemReq_Model.andThen _ _) as [|b1 buf1 d1|s1]; [discriminate|intros [= _ <- <-]; exact H|]. intros E. apply (IH _ _ _ _ _ _ H E).
Qed.
Lemma op_good a pos len b d ok b' d' : good b d -> processApciMemoryOperation L a pos len r b d = Some (ok, b', d') -> good b' d'.
Proof.
  intros G. unfold processApciMemoryOperation. destruct (len =? 0); [intros [= _ <- <-]; exact G|]. destruct (_ <? a); [intros [= _ <- <-]; exact G|]. apply opLoop_good. exact G.
Qed.
End Op.
