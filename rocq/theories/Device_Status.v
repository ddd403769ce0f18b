(** A memory request changes the status byte only by writing its byte at address 0x60 (devices whose RAM starts at 0) *)
From Verif Require Import Base Device_Model.

Lemma get_some (l : list Z) p n bs : bget l p n = Some bs -> bs = firstn n (skipn p l) /\ length bs = n.
Proof. unfold bget. destruct (p + n <=? length l)%nat eqn:E; [|discriminate]. intros [= <-]. split; auto. rewrite firstn_length, skipn_length. apply Nat.leb_le in E. lia. Qed.
Lemma rd_part (l : list Z) p n i : (i < n)%nat -> rd (firstn n (skipn p l)) i = rd l (p + i).
Proof.
  unfold rd. revert p i. revert l. induction n; intros l p i H; [lia|]. revert i H. revert p. induction l as [|x l IL]; intros p i H.
  - rewrite skipn_nil, firstn_nil. destruct i, p; reflexivity.
  - destruct p.
    + cbn [skipn firstn]. destruct i; [reflexivity|]. cbn [nth Nat.add]. specialize (IHn l O i ltac:(lia)). exact IHn.
    + cbn [skipn Nat.add]. rewrite IL by lia. reflexivity.
Qed.

(** ** The mapper's table *)
Lemma doFlash_table c m m' : doFlash c m = Some m' -> allocTable m' = allocTable m.
Proof. unfold doFlash. destruct (if allocTableModified m then _ else _); [|discriminate]. destruct (if flashMemModified m then _ else _); [|discriminate]. intros [= <-]. reflexivity. Qed.
Lemma writeMem_table c a v m rc m' : autoAddPage c = false -> writeMem c a v m = Some (rc, m') -> allocTable m' = allocTable m.
Proof.
  intros A. unfold writeMem. destruct (_ <? 0). { now intros [= _ <-]. }
  unfold swapIn. rewrite A, andb_false_r. destruct (writePage m =? _). { now intros [= _ <-]. }
  destruct (doFlash c m) as [m1|] eqn:E; [|discriminate]. intros [= _ <-]. cbn [putByte allocTable]. apply (doFlash_table _ _ _ E).
Qed.
Lemma writeMemPtr_table c bs : autoAddPage c = false -> forall a m rc m', writeMemPtr c a bs m = Some (rc, m') -> allocTable m' = allocTable m.
Proof.
  intros A. induction bs as [|b r IH]; intros a m rc m'; cbn [writeMemPtr]. { now intros [= _ <-]. }
  destruct (writeMem c a b m) as [[rc1 m1]|] eqn:E; [|discriminate]. pose proof (writeMem_table _ _ _ _ _ _ A E) as T. destruct (rc1 =? _); [|now intros [= _ <-]].
  intros H. rewrite (IH _ _ _ _ H). exact T.
Qed.
Lemma isMapped_table c a m m' : allocTable m' = allocTable m -> isMapped c a m' = isMapped c a m.
Proof. intros E. unfold isMapped, getFlashPageNum. now rewrite E. Qed.

(** ** Writing *)
Section Op.
Variable L : layout.
Hypothesis R0 : ramStart L = 0.
Variables (a aEnd : Z) (pos : nat) (buf : list Z) (st0 : Z).
Hypothesis range : 0 <= a <= aEnd /\ aEnd < 1000000.
Definition hit (v : Z) : Prop := a <= 0x60 <= aEnd /\ v = rd buf (pos + Z.to_nat (0x60 - a)).
Definition okst (d : dev) : Prop := status d = st0 \/ hit (status d).
Definition okS (s : MemReq_Model.st) : Prop := okst (sdev s) /\ a <= sa s <= aEnd /\ Z.of_nat (spos s) = Z.of_nat pos + (sa s - a) /\ sbuf s = buf.

Lemma put_status bs : forall i d d', 0 <= i -> i + Z.of_nat (length bs) < 2000000 -> ramPutLoop i bs d = Some d' ->
  status d' = status d \/ (i <= 0x60 < i + Z.of_nat (length bs) /\ status d' = rd bs (Z.to_nat (0x60 - i))).
Proof.
  induction bs as [|b r IH]; intros i d d' H0 H1; cbn [ramPutLoop]. { intros [= <-]. now left. }
  cbn [length] in *. rewrite u32_id by (unfold is_u32; lia). unfold statusOffset. destruct (Z.eqb_spec i 0x60) as [->|N].
  - intros E. right. split; [lia|]. apply IH in E; [|lia|lia]. destruct E as [S|(S & _)]; [|lia]. rewrite S. reflexivity.
  - destruct (bput _ _ _); [|discriminate]. intros E. apply IH in E; [|lia|lia]. destruct E as [Q|(Q & T)]; [now left|]. right. split; [lia|]. rewrite T.
    replace (Z.to_nat (0x60 - i)) with (S (Z.to_nat (0x60 - (i + 1)))) by lia. reflexivity.
Qed.
Lemma cpyTo_status x bs d d' : 0 <= x -> x + Z.of_nat (length bs) < 2000000 -> cpyToUserRam L x bs d = Some d' ->
  status d' = status d \/ (x <= 0x60 < x + Z.of_nat (length bs) /\ status d' = rd bs (Z.to_nat (0x60 - x))).
Proof.
  intros H0 H1. unfold cpyToUserRam. unfold statusOffset. destruct (Z.eqb_spec x 0x60) as [->|N]; cbn [andb].
  - destruct (Nat.eqb_spec (length bs) 1) as [E|E]; cbn [andb].
    + intros [= <-]. right. split; [lia|]. reflexivity.
    + rewrite R0, Z.sub_0_r, u32_id by (unfold is_u32; lia). destruct (_ || _).
      * destruct (bput _ _ _); [|discriminate]. intros [= <-]. now left.
      * apply put_status; lia.
  - rewrite R0, Z.sub_0_r, u32_id by (unfold is_u32; lia). destruct (_ || _).
    + destruct (bput _ _ _); [|discriminate]. intros [= <-]. now left.
    + apply put_status; lia.
Qed.
Lemma ramMove_status x n p d b d' : a <= x -> x + Z.of_nat n <= aEnd + 1 -> Z.of_nat p = Z.of_nat pos + (x - a) ->
  ramMove L false x n p buf d = Some (b, d') -> okst d -> b = buf /\ okst d'.
Proof.
  intros H0 H1 H2. unfold ramMove. destruct (bget buf p n) as [bs|] eqn:G; [|discriminate]. destruct (get_some _ _ _ _ G) as (-> & LB).
  destruct (cpyToUserRam L x _ d) as [d1|] eqn:C; [|discriminate]. intros [= <- <-] O. split; auto.
  apply cpyTo_status in C; [|lia|lia]. destruct C as [S|(S & T)]; [unfold okst in *; now rewrite S|].
  right. split; [lia|]. rewrite T. rewrite rd_part by lia. f_equal. lia.
Qed.
Lemma eeMove_status x n p d b d' : eeMove L false x n p buf d = Some (b, d') -> okst d -> b = buf /\ okst d'.
Proof.
  unfold eeMove. destruct (bget buf p n) as [bs|] eqn:G; [|discriminate]. destruct (bput _ _ _); [|discriminate]. intros [= <- <-] O. split; auto.
Qed.
Lemma mapMove_status x n p m d ok b d' : mapMove L false x n p buf m d = Some (ok, b, d') -> autoAddPage (mapCfg L) = false ->
  b = buf /\ status d' = status d /\ exists m', memMapper d' = Some m' /\ allocTable m' = allocTable m.
Proof.
  unfold mapMove. destruct (bget buf p n) as [bs|] eqn:G; [|discriminate]. destruct (writeMemPtr _ _ _ _) as [[rc m']|] eqn:W; [|discriminate]. intros [= <- <- <-] A.
  split; auto. split; auto. exists m'. split; auto. apply (writeMemPtr_table _ _ A _ _ _ _ W).
Qed.
Lemma mapMove_status' x n p m d ok b d' : mapMove L false x n p buf m d = Some (ok, b, d') -> b = buf /\ status d' = status d.
Proof.
  unfold mapMove. destruct (bget buf p n) as [bs|] eqn:G; [|discriminate]. destruct (writeMemPtr _ _ _ _) as [[rc m']|] eqn:W; [|discriminate]. intros [= <- <- <-]. split; auto.
Qed.
Lemma mapLoop_status n : autoAddPage (mapCfg L) = false -> forall s s' m, 0 <= sa s -> sa s + Z.of_nat n < 2000000 -> sbuf s = buf -> memMapper (sdev s) = Some m -> mapLoop L false n s = Some s' ->
  exists j, (j <= n)%nat /\ sa s' = sa s + Z.of_nat j /\ spos s' = (spos s + j)%nat /\ sbuf s' = buf /\ status (sdev s') = status (sdev s) /\
    forall i, (i < j)%nat -> isMapped (mapCfg L) (s32 (sa s + Z.of_nat i)) m = true.
Proof.
  intros A. induction n as [|n IH]; intros s s' m H0 H1 HB HM; cbn [mapLoop].
  { intros [= <-]. exists O. split; [lia|]. repeat split; try lia; auto. }
  rewrite HM. destruct (isMapped _ _ m) eqn:IM.
  2:{ intros [= <-]. exists O. split; [lia|]. repeat split; try lia; auto. }
  rewrite HB. destruct (mapMove _ _ _ _ _ _ _ _) as [[[ok b] d]|] eqn:MM; [|discriminate]. destruct (mapMove_status _ _ _ _ _ _ _ _ MM A) as (-> & SS & m' & M' & T).
  destruct ok.
  - intros E. apply (IH _ _ m') in E; [|cbn [advance sa]; rewrite u32_id; unfold is_u32; lia|cbn [advance sa]; rewrite u32_id; unfold is_u32; lia|reflexivity|exact M']. destruct E as (j & J0 & J1 & J2 & J3 & J4 & J5).
    cbn [advance sa spos sdev] in *. rewrite u32_id in * by (unfold is_u32; lia). exists (S j). split; [lia|]. split; [lia|]. split; [lia|]. split; auto. split; [congruence|].
    intros i Hi. destruct i as [|i]. { rewrite Z.add_0_r. exact IM. }
    specialize (J5 i ltac:(lia)). rewrite <- (isMapped_table _ _ _ _ T). replace (sa s + Z.of_nat (S i)) with (sa s + Z.of_nat 1 + Z.of_nat i) by lia. exact J5.
  - intros [= <-]. exists O. split; [lia|]. cbn [sa spos sbuf sdev]. repeat split; try lia; auto.
Qed.
(** a stage keeps the invariant *)
Definition okR (x : res) : Prop := match x with Crash => True | Return _ _ d => okst d | Go s => okS s end.
Lemma mapStage_status s : okS s -> okR (mapStage L false aEnd (aEnd - sa s + 1) s).
Proof.
  intros (O & Rg & P & B). unfold mapStage. destruct (memMapper (sdev s)) as [m|] eqn:M; [|repeat split; auto; lia].
  destruct (isMapped (mapCfg L) (s32 (sa s)) m && isMapped (mapCfg L) (s32 aEnd) m) eqn:SE.
  { rewrite B. destruct (mapMove _ _ _ _ _ _ _ _) as [[[ok b] d]|] eqn:MM; [|exact I]. cbn [okR]. destruct (mapMove_status' _ _ _ _ _ _ _ _ MM) as (_ & S). unfold okst in *. now rewrite S. }
  destruct (isMapped (mapCfg L) (s32 (sa s)) m) eqn:S0; [|repeat split; auto; lia]. cbn [andb] in SE.
  assert (A : autoAddPage (mapCfg L) = false). { unfold isMapped in SE. destruct (autoAddPage (mapCfg L)); [discriminate|reflexivity]. }
  destruct (mapLoop _ _ _ _) as [s'|] eqn:ML; [|exact I].
  apply (mapLoop_status _ A s s' m) in ML; [|lia|lia|exact B|exact M]. destruct ML as (j & J0 & J1 & J2 & J3 & J4 & J5). cbn [okR].
  assert (JN : Z.of_nat j <> aEnd - sa s + 1).
  { intros E. specialize (J5 (Z.to_nat (aEnd - sa s)) ltac:(lia)). replace (sa s + Z.of_nat (Z.to_nat (aEnd - sa s))) with aEnd in J5 by lia. congruence. }
  split; [unfold okst in *; now rewrite J4|]. split; [lia|]. split; [lia|auto].
Qed.
Lemma eeStage_status s : okS s -> okR (eeStage L false aEnd s).
Proof.
  intros (O & Rg & P & B). unfold eeStage. rewrite B. destruct (inRange2 _ _ _ _) eqn:I2.
  { destruct (eeMove _ _ _ _ _ _ _) as [[b d]|] eqn:E; [|exact I]. apply (eeMove_status _ _ _ _ _ _ E O). }
  destruct (inRange1 _ _ _) eqn:I1; [|repeat split; auto; lia].
  destruct (eeMove _ _ _ _ _ _ _) as [[b d]|] eqn:E; [|exact I]. destruct (eeMove_status _ _ _ _ _ _ E O) as (-> & O'). cbn [okR]; unfold advance.
  unfold inRange1, inRange2 in *. rewrite !andb_true_iff, !Z.leb_le in I1. destruct I1 as (I1 & I3).
  assert (I4 : ~ aEnd <= eeStart L + eeSize L - 1). { intros Q. rewrite !andb_false_iff, !Z.leb_gt in I2. lia. }
  split; [exact O'|]. cbn [sa spos sbuf]. rewrite u32_id by (unfold is_u32; lia). split; [lia|]. split; [lia|auto].
Qed.
Lemma ramStage_status s : okS s -> okR (ramStage L false aEnd s).
Proof.
  intros (O & Rg & P & B). unfold ramStage. rewrite B. destruct (inRange2 _ _ _ _ || _) eqn:I2.
  { destruct (ramMove _ _ _ _ _ _ _) as [[b d]|] eqn:E; [|exact I]. apply ramMove_status in E; [apply E|lia|lia|exact P|exact O]. }
  destruct (inRange1 _ _ _) eqn:I1; [|repeat split; auto; lia].
  apply orb_false_iff in I2. destruct I2 as (I2 & _).
  unfold inRange1, inRange2 in *. rewrite !andb_true_iff, !Z.leb_le in I1. destruct I1 as (I1 & I3).
  assert (I4 : ~ aEnd <= ramStart L + ramSize L - 1). { intros Q. rewrite !andb_false_iff, !Z.leb_gt in I2. lia. }
  destruct (ramMove _ _ _ _ _ _ _) as [[b d]|] eqn:E; [|exact I]. apply ramMove_status in E; [|lia|lia|exact P|exact O]. destruct E as (-> & O'). cbn [okR]; unfold advance.
  split; [exact O'|]. cbn [sa spos sbuf]. rewrite u32_id by (unfold is_u32; lia). split; [lia|]. split; [lia|auto].
Qed.
Lemma okR_then x f : okR x -> (forall s, okS s -> okR (f s)) -> okR (MemReq_Model.andThen x f).
Proof. destruct x; cbn; auto. Qed.
Lemma opLoop_status fuel : forall s len b buf' d, okS s -> len = aEnd - sa s + 1 -> opLoop fuel L false aEnd len s = Some (b, buf', d) -> okst d.
Proof.
  induction fuel as [|k IH]; intros s len b buf' d OS HL; cbn [opLoop]; [discriminate|].
  destruct (negb (snf s) && (sa s <=? aEnd)).
  - assert (OR : okR (MemReq_Model.andThen (MemReq_Model.andThen (mapStage L false aEnd len (mkSt (sa s) (spos s) true (sbuf s) (sdev s))) (eeStage L false aEnd)) (ramStage L false aEnd))).
    { apply okR_then; [apply okR_then|]; [|apply eeStage_status|apply ramStage_status]. subst len. apply (mapStage_status (mkSt (sa s) (spos s) true (sbuf s) (sdev s))). exact OS. }
    destruct (MemReq_Model.andThen _ _) as [|b1 buf1 d1|s1]; [discriminate|intros [= _ _ <-]; exact OR|].
    intros E. apply (IH _ _ _ _ _ OR) in E; auto. destruct OR as (_ & ? & _). apply u32_id. unfold is_u32. lia.
  - intros [= _ _ <-]. apply OS.
Qed.
End Op.
Lemma op_status L a pos len buf d b buf' d' : ramStart L = 0 -> 0 <= a < 65536 -> 0 <= len < 65536 -> processApciMemoryOperation L a pos len false buf d = Some (b, buf', d') ->
  status d' = status d \/ (a <= 0x60 < a + len /\ status d' = rd buf (pos + Z.to_nat (0x60 - a))).
Proof.
  intros R Ha Hl. unfold processApciMemoryOperation. destruct (Z.eqb_spec len 0). { intros [= _ _ <-]. now left. }
  rewrite u32_id by (unfold is_u32; lia). destruct (_ <? a). { intros [= _ _ <-]. now left. }
  intros E. apply (opLoop_status L R a (a + len - 1) pos buf (status d)) in E; [|lia| |cbn [sa]; lia].
  - destruct E as [E|(E1 & E2)]; [now left|right]. split; [lia|auto].
  - split; [now left|]. cbn [sa spos sbuf]. split; [lia|]. split; [lia|auto].
Qed.

(** ** Reading leaves EEPROM, RAM and status alone *)
Definition same_local (d d' : dev) : Prop := eeData d' = eeData d /\ eeModified d' = eeModified d /\ ramData d' = ramData d /\ status d' = status d.
Lemma same_refl d : same_local d d.
Proof. repeat split. Qed.
Lemma same_trans d d1 d2 : same_local d d1 -> same_local d1 d2 -> same_local d d2.
Proof. intros (A & B & C & D) (E & F & G & H). repeat split; congruence. Qed.
Lemma mapMove_read L x n p buf m d ok b d' : mapMove L true x n p buf m d = Some (ok, b, d') -> same_local d d'.
Proof. unfold mapMove. destruct (readMemPtr _ _ _ _ _) as [[[rc bs] m']|]; [|discriminate]. destruct (bput _ _ _); [|discriminate]. intros [= _ _ <-]. repeat split. Qed.
Lemma eeMove_read L x n p buf d b d' : eeMove L true x n p buf d = Some (b, d') -> d' = d.
Proof. unfold eeMove. destruct (bget _ _ _); [|discriminate]. destruct (bput _ _ _); [|discriminate]. now intros [= _ <-]. Qed.
Lemma ramMove_read L x n p buf d b d' : ramMove L true x n p buf d = Some (b, d') -> d' = d.
Proof. unfold ramMove. destruct (cpyFromUserRam _ _ _ _); [|discriminate]. destruct (bput _ _ _); [|discriminate]. now intros [= _ <-]. Qed.
Lemma mapLoop_read L n : forall s s', mapLoop L true n s = Some s' -> same_local (sdev s) (sdev s').
Proof.
  induction n as [|n IH]; intros s s'; cbn [mapLoop]. { intros [= <-]. apply same_refl. }
  destruct (memMapper (sdev s)) as [m|]; [|intros [= <-]; apply same_refl]. destruct (isMapped _ _ _); [|intros [= <-]; apply same_refl].
  destruct (mapMove _ _ _ _ _ _ _ _) as [[[ok b] d]|] eqn:E; [|discriminate]. apply mapMove_read in E. destruct ok.
  - intros H. apply IH in H. cbn [advance sdev] in H. eapply same_trans; eauto.
  - intros [= <-]. exact E.
Qed.
Definition readR (d : dev) (x : res) : Prop := match x with Crash => True | Return _ _ d' => same_local d d' | Go s => same_local d (sdev s) end.
Lemma readR_then d x f : readR d x -> (forall s, readR (sdev s) (f s)) -> readR d (MemReq_Model.andThen x f).
Proof.
  destruct x as [|b bf d1|s]; cbn [MemReq_Model.andThen readR]; auto. intros A B. specialize (B s). destruct (f s); cbn [readR] in *; auto; eapply same_trans; eauto.
Qed.
Lemma stages_read L aEnd len s : readR (sdev s) (MemReq_Model.andThen (MemReq_Model.andThen (mapStage L true aEnd len s) (eeStage L true aEnd)) (ramStage L true aEnd)).
Proof.
  apply readR_then; [apply readR_then|].
  - unfold mapStage. destruct (memMapper (sdev s)) as [m|]; [|apply same_refl]. destruct (_ && _).
    + destruct (mapMove _ _ _ _ _ _ _ _) as [[[ok b] d]|] eqn:E; [|exact I]. apply (mapMove_read _ _ _ _ _ _ _ _ _ _ E).
    + destruct (isMapped _ _ _); [|apply same_refl]. destruct (mapLoop _ _ _ _) eqn:E; [|exact I]. apply (mapLoop_read _ _ _ _ E).
  - intros s1. unfold eeStage. destruct (inRange2 _ _ _ _).
    + destruct (eeMove _ _ _ _ _ _ _) as [[b d]|] eqn:E; [|exact I]. apply eeMove_read in E. subst. apply same_refl.
    + destruct (inRange1 _ _ _); [|apply same_refl]. destruct (eeMove _ _ _ _ _ _ _) as [[b d]|] eqn:E; [|exact I]. apply eeMove_read in E. subst. apply same_refl.
  - intros s1. unfold ramStage. destruct (_ || _).
    + destruct (ramMove _ _ _ _ _ _ _) as [[b d]|] eqn:E; [|exact I]. apply ramMove_read in E. subst. apply same_refl.
    + destruct (inRange1 _ _ _); [|apply same_refl]. destruct (ramMove _ _ _ _ _ _ _) as [[b d]|] eqn:E; [|exact I]. apply ramMove_read in E. subst. apply same_refl.
Qed.
Lemma op_read L a pos len buf d b buf' d' : processApciMemoryOperation L a pos len true buf d = Some (b, buf', d') -> same_local d d'.
Proof.
  unfold processApciMemoryOperation. destruct (len =? 0). { intros [= _ _ <-]. apply same_refl. }
  destruct (_ <? a). { intros [= _ _ <-]. apply same_refl. }
  generalize (S (S (Z.to_nat len))). intros fuel. generalize (mkSt a pos false buf d) len (u32 (a + len - 1)) (eq_refl : sdev (mkSt a pos false buf d) = d). 
  enough (H : forall fuel s len aEnd, opLoop fuel L true aEnd len s = Some (b, buf', d') -> same_local (sdev s) d') by (intros s l e <-; apply H).
  clear. induction fuel as [|k IH]; intros s len aEnd; cbn [opLoop]; [discriminate|]. destruct (_ && _); [|intros [= _ _ <-]; apply same_refl].
  pose proof (stages_read L aEnd len (mkSt (sa s) (spos s) true (sbuf s) (sdev s))) as H. cbn [sdev] in H.
  destruct (MemReq_Model.andThen _ _) as [|b1 buf1 d1|s1]; [discriminate|intros [= _ _ <-]; exact H|]. intros E. apply IH in E. eapply same_trans; eauto.
Qed.
