(** A memory request changes a byte of the EEPROM only by writing its own byte there, and marks the EEPROM modified *)
From Verif Require Import Base Device_Model Device_Status.

Section EeOp.
Variable L : layout.
Hypothesis EB : 0 <= eeStart L <= 65536 /\ 0 <= eeSize L <= 65536.
Variables (a aEnd : Z) (pos : nat) (buf : list Z) (j : nat) (v0 : Z) (m0 : bool).
Hypothesis range : 0 <= a <= aEnd /\ aEnd < 1000000.
Definition ehit (d : dev) : Prop := a <= eeStart L + Z.of_nat j <= aEnd /\ rd (eeData d) j = rd buf (pos + Z.to_nat (eeStart L + Z.of_nat j - a)) /\ eeModified d = true.
Definition eok (d : dev) : Prop := (m0 = true -> eeModified d = true) /\ (rd (eeData d) j = v0 \/ ehit d).
Definition eokS (s : MemReq_Model.st) : Prop := eok (sdev s) /\ a <= sa s <= aEnd /\ Z.of_nat (spos s) = Z.of_nat pos + (sa s - a) /\ sbuf s = buf.
Lemma eok_same d d' : eeData d' = eeData d -> eeModified d' = eeModified d -> eok d -> eok d'.
Proof. unfold eok, ehit. intros -> ->. auto. Qed.

Lemma put_ee bs : forall i d d', ramPutLoop i bs d = Some d' -> eeData d' = eeData d /\ eeModified d' = eeModified d.
Proof.
  induction bs as [|b r IH]; intros i d d'; cbn [ramPutLoop]; [intros [= <-]; auto|]. destruct (i =? _); [intros E; apply IH in E; exact E|]. destruct (bput _ _ _); [|discriminate]. intros E. apply IH in E. exact E.
Qed.
Lemma cpyTo_ee x bs d d' : cpyToUserRam L x bs d = Some d' -> eeData d' = eeData d /\ eeModified d' = eeModified d.
Proof. unfold cpyToUserRam. cbv zeta. destruct (_ && _); [intros [= <-]; auto|]. destruct (_ || _); [|apply put_ee]. destruct (bput _ _ _); [|discriminate]. intros [= <-]. auto. Qed.
Lemma ramMove_ee x n p d b d' : ramMove L false x n p buf d = Some (b, d') -> eok d -> b = buf /\ eok d'.
Proof.
  unfold ramMove. destruct (bget buf p n) as [bs|]; [|discriminate]. destruct (cpyToUserRam L x bs d) as [d1|] eqn:C; [|discriminate]. intros [= <- <-] O. split; auto.
  destruct (cpyTo_ee _ _ _ _ C) as (A & B). apply (eok_same d); auto.
Qed.
Lemma eeMove_ee x n p d b d' : a <= x -> x + Z.of_nat n <= aEnd + 1 -> eeStart L <= x -> Z.of_nat p = Z.of_nat pos + (x - a) -> eeMove L false x n p buf d = Some (b, d') -> eok d -> b = buf /\ eok d'.
Proof.
  intros H0 H1 H2 H3. unfold eeMove. cbv zeta. rewrite u32_id by (unfold is_u32; lia). destruct (bget buf p n) as [bs|] eqn:G; [|discriminate]. destruct (get_some _ _ _ _ G) as (-> & LB).
  unfold bput. destruct (_ <=? _)%nat eqn:LE; [|discriminate]. intros [= <- <-] (M & O). split; [reflexivity|]. split; [reflexivity|]. cbn [eeData eeModified].
  apply Nat.leb_le in LE. set (i := Z.to_nat (x - eeStart L)) in *. set (bs := firstn n (skipn p buf)) in *. unfold ehit. cbn [eeData eeModified]. 
  assert (RW : rd (wr_range (eeData d) i bs) j = if (i <=? j)%nat && (j <? i + n)%nat then rd bs (j - i) else rd (eeData d) j) by (unfold rd; rewrite nth_wr_range by exact LE; rewrite LB; reflexivity). rewrite RW.
  destruct ((i <=? j)%nat && (j <? i + n)%nat) eqn:C.
  - right. rewrite andb_true_iff, Nat.leb_le, Nat.ltb_lt in C. split; [lia|]. split; [|reflexivity]. unfold bs. rewrite rd_part by lia. f_equal. lia.
  - destruct O as [O|(O1 & O2 & O3)]; [left; exact O|right]. split; [exact O1|]. split; [exact O2|reflexivity].
Qed.
Lemma mapMove_ee x n p m d ok b d' : mapMove L false x n p buf m d = Some (ok, b, d') -> b = buf /\ eeData d' = eeData d /\ eeModified d' = eeModified d.
Proof.
  unfold mapMove. destruct (bget buf p n) as [bs|]; [|discriminate]. destruct (writeMemPtr _ _ _ _) as [[rc m']|]; [|discriminate]. intros [= <- <- <-]. auto.
Qed.
Lemma mapLoop_ee n : forall s s', sbuf s = buf -> mapLoop L false n s = Some s' -> eeData (sdev s') = eeData (sdev s) /\ eeModified (sdev s') = eeModified (sdev s).
Proof.
  induction n as [|n IH]; intros s s' HB; cbn [mapLoop]; [intros [= <-]; auto|]. destruct (memMapper (sdev s)) as [m|]; [|intros [= <-]; auto]. destruct (isMapped _ _ _); [|intros [= <-]; auto].
  rewrite HB. destruct (mapMove _ _ _ _ _ _ _ _) as [[[ok b] d]|] eqn:E; [|discriminate]. destruct (mapMove_ee _ _ _ _ _ _ _ _ E) as (-> & A & B). destruct ok; [|intros [= <-]; auto].
  intros H. apply IH in H; [|reflexivity]. cbn [advance sdev] in H. destruct H as (C & D). split; congruence.
Qed.
Definition eokR (x : res) : Prop := match x with Crash => True | Return _ _ d => eok d | Go s => eokS s end.
Lemma mapStage_ee s : eokS s -> eokR (mapStage L false aEnd (aEnd - sa s + 1) s).
Proof.
  intros (O & Rg & P & B). unfold mapStage. destruct (memMapper (sdev s)) as [m|] eqn:M; [|split; [exact O|auto]].
  destruct (isMapped (mapCfg L) (s32 (sa s)) m && isMapped (mapCfg L) (s32 aEnd) m) eqn:SE.
  { rewrite B. destruct (mapMove _ _ _ _ _ _ _ _) as [[[ok b] d]|] eqn:MM; [|exact I]. cbn [eokR]. destruct (mapMove_ee _ _ _ _ _ _ _ _ MM) as (_ & S1 & S2). apply (eok_same (sdev s)); auto. }
  destruct (isMapped (mapCfg L) (s32 (sa s)) m) eqn:S0; [|split; [exact O|auto]]. cbn [andb] in SE.
  assert (A : autoAddPage (mapCfg L) = false). { unfold isMapped in SE. destruct (autoAddPage (mapCfg L)); [discriminate|reflexivity]. }
  destruct (mapLoop _ _ _ _) as [s'|] eqn:ML; [|exact I]. destruct (mapLoop_ee _ _ _ B ML) as (Q1 & Q2).
  apply (mapLoop_status _ buf _ A s s' m) in ML; [|lia|lia|exact B|exact M]. destruct ML as (k & J0 & J1 & J2 & J3 & _ & J5). cbn [eokR].
  assert (JN : Z.of_nat k <> aEnd - sa s + 1).
  { intros E. specialize (J5 (Z.to_nat (aEnd - sa s)) ltac:(lia)). replace (sa s + Z.of_nat (Z.to_nat (aEnd - sa s))) with aEnd in J5 by lia. congruence. }
  split; [apply (eok_same (sdev s)); auto|]. split; [lia|]. split; [lia|auto].
Qed.
Lemma eeStage_ee s : eokS s -> eokR (eeStage L false aEnd s).
Proof.
  intros (O & Rg & P & B). unfold eeStage. rewrite B. destruct (inRange2 _ _ _ _) eqn:I2.
  { unfold inRange2 in I2. rewrite !andb_true_iff, !Z.leb_le in I2. destruct (eeMove _ _ _ _ _ _ _) as [[b d]|] eqn:E; [|exact I]. apply eeMove_ee in E; [apply E|lia|lia|lia|exact P|exact O]. }
  destruct (inRange1 _ _ _) eqn:I1; [|split; [exact O|auto]].
  unfold inRange1, inRange2 in *. rewrite !andb_true_iff, !Z.leb_le in I1. destruct I1 as (I1 & I3).
  assert (I4 : ~ aEnd <= eeStart L + eeSize L - 1). { intros Q. rewrite !andb_false_iff, !Z.leb_gt in I2. lia. }
  destruct (eeMove _ _ _ _ _ _ _) as [[b d]|] eqn:E; [|exact I]. apply eeMove_ee in E; [|lia|lia|lia|exact P|exact O]. destruct E as (-> & O'). cbn [eokR]; unfold advance.
  split; [exact O'|]. cbn [sa spos sbuf]. rewrite u32_id by (unfold is_u32; lia). split; [lia|]. split; [lia|auto].
Qed.
Lemma ramStage_ee s : 0 <= ramStart L <= 65536 -> 0 <= ramSize L <= 65536 -> eokS s -> eokR (ramStage L false aEnd s).
Proof.
  intros RB RS (O & Rg & P & B). unfold ramStage. rewrite B. destruct (inRange2 _ _ _ _ || _) eqn:I2.
  { destruct (ramMove _ _ _ _ _ _ _) as [[b d]|] eqn:E; [|exact I]. apply ramMove_ee in E; [apply E|exact O]. }
  destruct (inRange1 _ _ _) eqn:I1; [|split; [exact O|auto]].
  apply orb_false_iff in I2. destruct I2 as (I2 & _). unfold inRange1, inRange2 in *. rewrite !andb_true_iff, !Z.leb_le in I1. destruct I1 as (I1 & I3).
  assert (I4 : ~ aEnd <= ramStart L + ramSize L - 1). { intros Q. rewrite !andb_false_iff, !Z.leb_gt in I2. lia. }
  destruct (ramMove _ _ _ _ _ _ _) as [[b d]|] eqn:E; [|exact I]. apply ramMove_ee in E; [|exact O]. destruct E as (-> & O'). cbn [eokR]; unfold advance.
  split; [exact O'|]. cbn [sa spos sbuf]. rewrite u32_id by (unfold is_u32; lia). split; [lia|]. split; [lia|auto].
Qed.
Lemma eokR_then x f : eokR x -> (forall s, eokS s -> eokR (f s)) -> eokR (MemReq_Model.andThen x f).
Proof. destruct x; cbn; auto. Qed.
Lemma opLoop_ee fuel : 0 <= ramStart L <= 65536 -> 0 <= ramSize L <= 65536 -> forall s len b buf' d, eokS s -> len = aEnd - sa s + 1 -> opLoop fuel L false aEnd len s = Some (b, buf', d) -> eok d.
Proof.
  intros RB RS. induction fuel as [|k IH]; intros s len b buf' d OS HL; cbn [opLoop]; [discriminate|].
  destruct (negb (snf s) && (sa s <=? aEnd)).
  - assert (OR : eokR (MemReq_Model.andThen (MemReq_Model.andThen (mapStage L false aEnd len (mkSt (sa s) (spos s) true (sbuf s) (sdev s))) (eeStage L false aEnd)) (ramStage L false aEnd))).
    { apply eokR_then; [apply eokR_then|]; [|apply eeStage_ee|intros s1; apply ramStage_ee; auto]. subst len. apply (mapStage_ee (mkSt (sa s) (spos s) true (sbuf s) (sdev s))). exact OS. }
    destruct (MemReq_Model.andThen _ _) as [|b1 buf1 d1|s1]; [discriminate|intros [= _ _ <-]; exact OR|].
    intros E. apply (IH _ _ _ _ _ OR) in E; auto. destruct OR as (_ & ? & _). apply u32_id. unfold is_u32. lia.
  - intros [= _ _ <-]. apply OS.
Qed.
End EeOp.
Definition small_layout (L : layout) : Prop := (0 <= eeStart L <= 65536 /\ 0 <= eeSize L <= 65536) /\ (0 <= ramStart L <= 65536 /\ 0 <= ramSize L <= 65536).
Lemma op_ee L a pos len buf d b buf' d' j : small_layout L -> 0 <= a < 65536 -> 0 <= len < 65536 -> processApciMemoryOperation L a pos len false buf d = Some (b, buf', d') ->
  (eeModified d = true -> eeModified d' = true) /\
  (rd (eeData d') j = rd (eeData d) j \/ (a <= eeStart L + Z.of_nat j < a + len /\ rd (eeData d') j = rd buf (pos + Z.to_nat (eeStart L + Z.of_nat j - a)) /\ eeModified d' = true)).
Proof.
  intros (S1 & S2 & S3) Ha Hl. unfold processApciMemoryOperation. destruct (Z.eqb_spec len 0). { intros [= _ _ <-]. auto. }
  rewrite u32_id by (unfold is_u32; lia). destruct (_ <? a). { intros [= _ _ <-]. auto. }
  intros E. apply (opLoop_ee L S1 a (a + len - 1) pos buf j (rd (eeData d) j) (eeModified d)) in E; [|lia|exact S2|exact S3| |cbn [sa]; lia].
  - destruct E as (E0 & [E|(E1 & E2 & E3)]); (split; [exact E0|]); [now left|right]. split; [lia|auto].
  - split; [split; [auto|now left]|]. cbn [sa spos sbuf]. split; [lia|]. split; [lia|auto].
Qed.
(** a request that lies in the EEPROM stores all its bytes *)
Lemma op_ee_all L a pos n buf d b buf' d' : small_layout L -> (0 < n)%nat -> 0 <= a -> eeStart L <= a -> a + Z.of_nat n <= eeStart L + eeSize L -> (match memMapper d with Some m => isMapped (mapCfg L) a m = false | None => True end) ->
  processApciMemoryOperation L a pos (Z.of_nat n) false buf d = Some (b, buf', d') -> b = true /\ eeModified d' = true /\ forall k, (k < n)%nat -> rd (eeData d') (Z.to_nat (a - eeStart L) + k) = rd buf (pos + k).
Proof.
  intros (S1 & S2 & S3) Hn Ha H0 H1 NM. unfold processApciMemoryOperation. destruct (Z.eqb_spec (Z.of_nat n) 0); [lia|]. rewrite u32_id by (unfold is_u32; lia). destruct (Z.ltb_spec (a + Z.of_nat n - 1) a); [lia|].
  cbn [opLoop snf sa negb andb]. destruct (Z.leb_spec a (a + Z.of_nat n - 1)); [|lia]. cbn [spos sbuf sdev].
  assert (MS : mapStage L false (a + Z.of_nat n - 1) (Z.of_nat n) (mkSt a pos true buf d) = Go (mkSt a pos true buf d)).
  { unfold mapStage. cbn [sdev sa]. destruct (memMapper d) as [m|]; [|reflexivity]. assert (Q : s32 a = a). { unfold s32. cbv zeta. rewrite u32_id by (unfold is_u32; lia). destruct (Z.ltb_spec a 2147483648); lia. } rewrite Q, NM. reflexivity. }
  rewrite MS. cbn [MemReq_Model.andThen]. unfold eeStage. cbn [sa spos sbuf sdev]. assert (I2 : inRange2 (eeStart L) (eeSize L) a (a + Z.of_nat n - 1) = true) by (unfold inRange2; rewrite !andb_true_iff, !Z.leb_le; lia). rewrite I2.
  destruct (eeMove _ _ _ _ _ _ _) as [[b1 d1]|] eqn:E; [|discriminate]. cbn [MemReq_Model.andThen]. intros [= <- _ <-]. split; [reflexivity|].
  unfold eeMove in E. cbv zeta in E. rewrite u32_id in E by (unfold is_u32; lia). replace (Z.to_nat (a + Z.of_nat n - 1 - a + 1)) with n in E by lia. destruct (bget buf pos n) as [bs|] eqn:G; [|discriminate]. destruct (get_some _ _ _ _ G) as (-> & LB).
  unfold bput in E. destruct (_ <=? _)%nat eqn:LE; [|discriminate]. injection E as _ <-. cbn [eeData eeModified]. split; [reflexivity|]. intros k Hk. apply Nat.leb_le in LE. set (i := Z.to_nat (a - eeStart L)) in *. set (bs := firstn n (skipn pos buf)) in *.
  assert (RW : rd (wr_range (eeData d) i bs) (i + k) = if (i <=? i + k)%nat && (i + k <? i + n)%nat then rd bs (i + k - i) else rd (eeData d) (i + k)) by (unfold rd; rewrite nth_wr_range by exact LE; rewrite LB; reflexivity). rewrite RW.
  match goal with |- context [if ?c then _ else _] => replace c with true end.
  - unfold bs. rewrite rd_part by lia. f_equal. lia.
  - symmetry. rewrite andb_true_iff, Nat.leb_le, Nat.ltb_lt. lia.
Qed.
