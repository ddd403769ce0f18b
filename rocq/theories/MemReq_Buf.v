(** Memory requests: what lies behind the telegram buffers does not matter *)
From Verif Require Import Base Bits Telegram_Model Mapper_Model Mapper_Spec Mapper_Proofs MemReq_Model MemReq_Spec MemReq_Proofs MemReq_Op.

Lemma bget_app l y pos n bs : bget l pos n = Some bs -> bget (l ++ y) pos n = Some bs.
Proof.
  unfold bget. destruct (Nat.leb_spec (pos + n) (length l)) as [H|]; [|discriminate]. intros [= <-]. rewrite app_length. replace (pos + n <=? length l + length y)%nat with true by lia.
  rewrite skipn_app, firstn_app, skipn_length. replace (pos - length l)%nat with O by lia. replace (n - (length l - pos))%nat with O by lia. cbn [skipn firstn]. now rewrite app_nil_r.
Qed.
Lemma wr_app (l y : list Z) : forall i v, (i < length l)%nat -> wr (l ++ y) i v = wr l i v ++ y.
Proof. induction l as [|x l IH]; intros [|i] v H; cbn [length] in H; try lia; cbn [app wr]; auto. f_equal. apply IH. lia. Qed.
Lemma wr_range_app (bs : list Z) : forall l y pos, (pos + length bs <= length l)%nat -> wr_range (l ++ y) pos bs = wr_range l pos bs ++ y.
Proof. induction bs as [|b bs IH]; intros l y pos H; cbn [length wr_range] in *; auto. rewrite wr_app by lia. apply IH. rewrite wr_length. lia. Qed.
Lemma bput_app l y pos bs l' : bput l pos bs = Some l' -> bput (l ++ y) pos bs = Some (l' ++ y).
Proof.
  unfold bput. destruct (Nat.leb_spec (pos + length bs) (length l)) as [H|]; [|discriminate]. intros [= <-]. rewrite app_length. replace (pos + length bs <=? length l + length y)%nat with true by lia.
  now rewrite wr_range_app.
Qed.
Lemma eeMove_app L r a n pos buf y d b d' : eeMove L r a n pos buf d = Some (b, d') -> eeMove L r a n pos (buf ++ y) d = Some (b ++ y, d').
Proof.
  unfold eeMove. cbv zeta. destruct r.
  - destruct (bget (eeData d) _ n) as [bs|]; [|discriminate]. destruct (bput buf pos bs) as [b'|] eqn:E; [|discriminate]. intros [= <- <-]. now rewrite (bput_app _ y _ _ _ E).
  - destruct (bget buf pos n) as [bs|] eqn:E; [|discriminate]. rewrite (bget_app _ y _ _ _ E). destruct (bput (eeData d) _ bs); [|discriminate]. now intros [= <- <-].
Qed.
Lemma ramMove_app L r a n pos buf y d b d' : ramMove L r a n pos buf d = Some (b, d') -> ramMove L r a n pos (buf ++ y) d = Some (b ++ y, d').
Proof.
  unfold ramMove. destruct r.
  - destruct (cpyFromUserRam L a n d) as [bs|]; [|discriminate]. destruct (bput buf pos bs) as [b'|] eqn:E; [|discriminate]. intros [= <- <-]. now rewrite (bput_app _ y _ _ _ E).
  - destruct (bget buf pos n) as [bs|] eqn:E; [|discriminate]. rewrite (bget_app _ y _ _ _ E). destruct (cpyToUserRam L a bs d); [|discriminate]. now intros [= <- <-].
Qed.
Lemma mapMove_app L r a n pos buf y m d ok b d' : mapMove L r a n pos buf m d = Some (ok, b, d') -> mapMove L r a n pos (buf ++ y) m d = Some (ok, b ++ y, d').
Proof.
  unfold mapMove. destruct r.
  - destruct (readMemPtr (mapCfg L) a n false m) as [((rc, bs), m')|]; [|discriminate]. destruct (bput buf pos bs) as [b'|] eqn:E; [|discriminate]. intros [= <- <- <-]. now rewrite (bput_app _ y _ _ _ E).
  - destruct (bget buf pos n) as [bs|] eqn:E; [|discriminate]. rewrite (bget_app _ y _ _ _ E). destruct (writeMemPtr (mapCfg L) a bs m) as [(rc, m')|]; [|discriminate]. now intros [= <- <- <-].
Qed.
Definition behind (y : list Z) (s : st) : st := mkSt (sa s) (spos s) (snf s) (sbuf s ++ y) (sdev s).
Lemma mapLoop_app L r y n : forall s s', mapLoop L r n s = Some s' -> mapLoop L r n (behind y s) = Some (behind y s').
Proof.
  induction n as [|n IH]; intros s s'; cbn [mapLoop]. { now intros [= <-]. } cbn [behind sdev sa spos sbuf]. destruct (memMapper (sdev s)) as [m|]. 2:{ now intros [= <-]. }
  destruct (isMapped (mapCfg L) (s32 (sa s)) m). 2:{ now intros [= <-]. }
  destruct (mapMove L r (s32 (sa s)) 1 (spos s) (sbuf s) m (sdev s)) as [((ok, b), d)|] eqn:E; [|discriminate]. rewrite (mapMove_app _ _ _ _ _ _ y _ _ _ _ _ E). destruct ok.
  - intros H. apply IH in H. exact H.
  - now intros [= <-].
Qed.
Definition behind_res (y : list Z) (x : res) : res := match x with Crash => Crash | Return b buf d => Return b (buf ++ y) d | Go s => Go (behind y s) end.
Lemma mapStage_app L r aEnd len y s : mapStage L r aEnd len s <> Crash -> mapStage L r aEnd len (behind y s) = behind_res y (mapStage L r aEnd len s).
Proof.
  unfold mapStage. cbn [behind sdev sa spos sbuf]. destruct (memMapper (sdev s)) as [m|]; [|reflexivity]. cbv zeta. destruct (_ && _).
  - destruct (mapMove L r _ _ _ (sbuf s) _ _) as [((ok, b), d)|] eqn:E; [|contradiction]. intros _. now rewrite (mapMove_app _ _ _ _ _ _ y _ _ _ _ _ E).
  - destruct (isMapped _ _ m); [|reflexivity]. destruct (mapLoop L r (Z.to_nat len) s) as [s'|] eqn:E; [|contradiction]. intros _. pose proof (mapLoop_app L r y _ _ _ E) as E'. unfold behind in *. now rewrite E'.
Qed.
Lemma eeStage_app L r aEnd y s : eeStage L r aEnd s <> Crash -> eeStage L r aEnd (behind y s) = behind_res y (eeStage L r aEnd s).
Proof.
  unfold eeStage. cbn [behind sdev sa spos sbuf]. destruct (inRange2 _ _ _ _).
  - destruct (eeMove L r _ _ _ (sbuf s) _) as [(b, d)|] eqn:E; [|contradiction]. intros _. now rewrite (eeMove_app _ _ _ _ _ _ y _ _ _ E).
  - destruct (inRange1 _ _ _); [|reflexivity]. cbv zeta. destruct (eeMove L r _ _ _ (sbuf s) _) as [(b, d)|] eqn:E; [|contradiction]. intros _. now rewrite (eeMove_app _ _ _ _ _ _ y _ _ _ E).
Qed.
Lemma ramStage_app L r aEnd y s : ramStage L r aEnd s <> Crash -> ramStage L r aEnd (behind y s) = behind_res y (ramStage L r aEnd s).
Proof.
  unfold ramStage. cbn [behind sdev sa spos sbuf]. destruct (inRange2 _ _ _ _ || _).
  - destruct (ramMove L r _ _ _ (sbuf s) _) as [(b, d)|] eqn:E; [|contradiction]. intros _. now rewrite (ramMove_app _ _ _ _ _ _ y _ _ _ E).
  - destruct (inRange1 _ _ _); [|reflexivity]. cbv zeta. destruct (ramMove L r _ _ _ (sbuf s) _) as [(b, d)|] eqn:E; [|contradiction]. intros _. now rewrite (ramMove_app _ _ _ _ _ _ y _ _ _ E).
Qed.
Lemma andThen_app y x f : andThen x f <> Crash -> (forall s, f s <> Crash -> f (behind y s) = behind_res y (f s)) -> andThen (behind_res y x) f = behind_res y (andThen x f).
Proof. destruct x; cbn [andThen behind_res]; auto. Qed.
Lemma opLoop_app L r aEnd y fuel : forall len s b buf d, opLoop fuel L r aEnd len s = Some (b, buf, d) -> opLoop fuel L r aEnd len (behind y s) = Some (b, buf ++ y, d).
Proof.
  induction fuel as [|fuel IH]; intros len s b buf d; cbn [opLoop]; [discriminate|]. cbn [behind sa snf spos sdev sbuf]. destruct (negb (snf s) && (sa s <=? aEnd)). 2:{ now intros [= <- <- <-]. }
  set (s0 := mkSt (sa s) (spos s) true (sbuf s) (sdev s)). change (mkSt (sa s) (spos s) true (sbuf s ++ y) (sdev s)) with (behind y s0).
  intros H. set (x1 := mapStage L r aEnd len s0) in *. set (x2 := andThen x1 (eeStage L r aEnd)) in *. set (x3 := andThen x2 (ramStage L r aEnd)) in *.
  assert (N3 : x3 <> Crash) by (intros Q; rewrite Q in H; discriminate).
  assert (N2 : x2 <> Crash) by (intros Q; apply N3; unfold x3; rewrite Q; reflexivity).
  assert (N1 : x1 <> Crash) by (intros Q; apply N2; unfold x2; rewrite Q; reflexivity).
  assert (E3 : andThen (andThen (mapStage L r aEnd len (behind y s0)) (eeStage L r aEnd)) (ramStage L r aEnd) = behind_res y x3).
  { rewrite mapStage_app by auto. fold x1. rewrite (andThen_app y x1) by (auto using eeStage_app). fold x2. rewrite (andThen_app y x2) by (auto using ramStage_app). reflexivity. }
  rewrite E3. clearbody x3. destruct x3 as [|b' buf' d'|s']; cbn [behind_res]; [discriminate| |].
  - injection H as <- <- <-. reflexivity.
  - now apply IH.
Qed.
Lemma op_app L a pos len r buf y d b buf' d' : processApciMemoryOperation L a pos len r buf d = Some (b, buf', d') -> processApciMemoryOperation L a pos len r (buf ++ y) d = Some (b, buf' ++ y, d').
Proof.
  unfold processApciMemoryOperation. destruct (len =? 0). { now intros [= <- <- <-]. } cbv zeta. destruct (u32 (a + len - 1) <? a). { now intros [= <- <- <-]. }
  intros H. apply (opLoop_app _ _ _ y) in H. exact H.
Qed.
Lemma rd_app l y i : (i < length l)%nat -> rd (l ++ y) i = rd l i.
Proof. intros H. unfold rd. now apply app_nth1. Qed.
Lemma read_app L n a sb y d ans sb' d' : (10 <= length sb)%nat -> (forall ok sb1 d1, processApciMemoryOperation L a 10 n true sb d = Some (ok, sb1, d1) -> length sb1 = length sb) ->
  memoryRead L n a sb d = Some (ans, sb', d') -> memoryRead L n a (sb ++ y) d = Some (ans, sb' ++ y, d') /\ length sb' = length sb.
Proof.
  intros Hl HL. unfold memoryRead. destruct (processApciMemoryOperation L a 10 n true sb d) as [((ok, sb1), d1)|] eqn:E; [|discriminate]. specialize (HL ok sb1 d1 eq_refl).
  rewrite (op_app _ _ _ _ _ _ y _ _ _ _ E). intros [= <- <- <-]. cbv zeta. unfold setApciCommand. split.
  - repeat rewrite wr_app by (rewrite ?wr_length; lia). rewrite rd_app by (rewrite !wr_length; lia). repeat rewrite wr_app by (rewrite ?wr_length; lia). reflexivity.
  - now rewrite !wr_length.
Qed.
