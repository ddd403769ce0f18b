(** User memories (C134). *)
From Verif Require Export MemArea_Spec Bits.

Lemma u32_id v : 0 <= v < 4294967296 -> u32 v = v. Proof. intros. unfold u32. apply Z.mod_small. lia. Qed.
Lemma norm_in m start n f a : holds m start n f -> start <= a < start + n -> normalizeAddress m a = a - start.
Proof. intros (H0 & H1 & H2 & E & _) A. unfold normalizeAddress. rewrite E. apply u32_id. lia. Qed.
Lemma norm_out m start n f a : holds m start n f -> is_u32 a -> ~ start <= a < start + n -> normalizeAddress m a >= n.
Proof. intros (H0 & H1 & H2 & E & _) A N. unfold normalizeAddress, u32, is_u32 in *. rewrite E. Z.div_mod_to_equations. lia. Qed.
Lemma elem_in m start n f a : holds m start n f -> start <= a < start + n -> elem (cells m) (a - start) = Some (f a).
Proof.
  intros (H0 & H1 & H2 & _ & _ & _ & L & F) A. unfold elem. destruct (Z.leb_spec 0 (a - start)); [|lia]. destruct (Z.ltb_spec (a - start) (Z.of_nat (length (cells m)))); [|lia]. cbn [andb].
  destruct (F a A) as [_ E]. unfold rd. erewrite nth_error_nth by exact E. reflexivity.
Qed.
Lemma get8 m start n f a : holds m start n f -> is_u32 a -> getUInt8 m a = Some (byte_or_0 start n f a).
Proof.
  intros H A. pose proof H as (H0 & H1 & H2 & _ & _ & Sz & L & _). unfold getUInt8, byte_or_0, size. cbv zeta. rewrite Sz, (u32_id (n - 1)) by lia.
  destruct (Z.leb_spec start a) as [Q|Q]; [destruct (Z.ltb_spec a (start + n)) as [R|R]|]; cbn [andb].
  - rewrite (norm_in m start n f a H) by lia. destruct (Z.ltb_spec (n - 1) (a - start)); [lia|]. apply (elem_in m start n f); auto.
  - pose proof (norm_out m start n f a H A ltac:(lia)). destruct (Z.ltb_spec (n - 1) (normalizeAddress m a)); [reflexivity|lia].
  - pose proof (norm_out m start n f a H A ltac:(lia)). destruct (Z.ltb_spec (n - 1) (normalizeAddress m a)); [reflexivity|lia].
Qed.
Lemma word h l : is_byte h -> is_byte l -> makeWord h l = h * 256 + l.
Proof.
  intros H L. unfold makeWord. rewrite word_bytes by exact L. unfold u16, is_byte in *. apply Z.mod_small. lia.
Qed.
Lemma get16 m start n f a : holds m start n f -> is_u32 a -> a <> (start - 1) mod 4294967296 -> getUInt16 m a = Some (word_or_0 start n f a).
Proof.
  intros H A X. pose proof H as (H0 & H1 & H2 & E & _ & Sz & L & F). unfold getUInt16, word_or_0, size. cbv zeta. rewrite Sz, (u32_id (n - 1)) by lia.
  assert (In : is_u32 (normalizeAddress m a) /\ normalizeAddress m a <> 4294967295).
  { unfold normalizeAddress, u32, is_u32 in *. rewrite E. Z.div_mod_to_equations. lia. }
  destruct In as [In1 In2]. unfold is_u32 in In1. rewrite (u32_id (normalizeAddress m a + 1)) by lia.
  destruct (Z.leb_spec start a) as [Q|Q]; [destruct (Z.ltb_spec (a + 1) (start + n)) as [R|R]|]; cbn [andb].
  - rewrite (norm_in m start n f a H) by lia. destruct (Z.ltb_spec (n - 1) (a - start + 1)); [lia|]. rewrite (elem_in m start n f a H) by lia.
    replace (a - start + 1) with (a + 1 - start) by ring. rewrite (elem_in m start n f (a + 1) H) by lia. rewrite word; [reflexivity|apply F; lia|apply F; lia].
  - destruct (Z.eq_dec a (start + n - 1)) as [->|].
    + rewrite (norm_in m start n f _ H) by lia. destruct (Z.ltb_spec (n - 1) (start + n - 1 - start + 1)); [reflexivity|lia].
    + pose proof (norm_out m start n f a H A ltac:(lia)). destruct (Z.ltb_spec (n - 1) (normalizeAddress m a + 1)); [reflexivity|lia].
  - pose proof (norm_out m start n f a H A ltac:(lia)). destruct (Z.ltb_spec (n - 1) (normalizeAddress m a + 1)); [reflexivity|lia].
Qed.
Lemma get16_before m start n f : holds m start n f -> Z.of_nat (length (cells m)) < 4294967296 -> getUInt16 m ((start - 1) mod 4294967296) = None.
Proof.
  intros H L2. pose proof H as (H0 & H1 & H2 & E & _ & Sz & L & F). unfold getUInt16, size. cbv zeta. rewrite Sz, (u32_id (n - 1)) by lia.
  assert (N : normalizeAddress m ((start - 1) mod 4294967296) = 4294967295) by (unfold normalizeAddress, u32; rewrite E; Z.div_mod_to_equations; lia).
  rewrite N. change (u32 (4294967295 + 1)) with 0. destruct (Z.ltb_spec (n - 1) 0); [lia|]. unfold elem at 1. destruct (Z.ltb_spec 4294967295 (Z.of_nat (length (cells m)))); [lia|]. rewrite andb_false_r. reflexivity.
Qed.
Lemma range_iff m start n f a : holds m start n f -> inRange m a = true <-> start <= a < start + n.
Proof. intros (H0 & H1 & H2 & E & E2 & _). unfold inRange, startAddr, endAddr. rewrite E, E2, andb_true_iff, !Z.leb_le. lia. Qed.
Lemma range2_iff m start n f a b : holds m start n f -> inRange2 m a b = true <-> a <= b /\ forall c, a <= c <= b -> start <= c < start + n.
Proof.
  intros (H0 & H1 & H2 & E & E2 & _). unfold inRange2, startAddr, endAddr. rewrite E, E2, !andb_true_iff, !Z.leb_le. split; [intros; split; [|intros]; lia|].
  intros [L C]. pose proof (C a ltac:(lia)). pose proof (C b ltac:(lia)). lia.
Qed.
Lemma store_holds m start n f a v : holds m start n f -> start <= a < start + n -> is_byte v -> exists m', store_at m a v = Some m' /\ holds m' start n (fun b => if b =? a then v else f b).
Proof.
  intros H A V. pose proof H as (H0 & H1 & H2 & E & E2 & Sz & L & F). unfold store_at, index. rewrite (norm_in m start n f a H A), (elem_in m start n f a H A). eexists. split; [reflexivity|].
  unfold holds. cbn [startAddress endAddress sizeTotal cells]. rewrite wr_length. repeat (split; [first [assumption | lia]|]).
  intros b B. destruct (F b B) as [Fb Eb].
  assert (X : nth_error (wr (cells m) (Z.to_nat (a - start)) v) (Z.to_nat (b - start)) = Some (rd (wr (cells m) (Z.to_nat (a - start)) v) (Z.to_nat (b - start)))).
  { unfold rd. apply nth_error_nth'. rewrite wr_length. lia. }
  rewrite X. destruct (Z.eqb_spec b a) as [->|N].
  - rewrite rd_wr_same by lia. auto.
  - rewrite rd_wr_other by lia. split; [exact Fb|]. unfold rd. erewrite nth_error_nth by exact Eb. reflexivity.
Qed.
Lemma eeprom_holds start n l : 0 <= start -> 1 <= n -> start + n <= 4294967296 -> Z.of_nat (length l) = n -> Forall is_byte l -> holds (UserEeprom start n l) start n (fun a => rd l (Z.to_nat (a - start))).
Proof.
  intros H0 H1 H2 L F. unfold holds, UserEeprom, Memory. cbn [startAddress endAddress sizeTotal cells].
  split; [lia|]. split; [lia|]. split; [lia|]. split; [reflexivity|]. split; [unfold u32; Z.div_mod_to_equations; lia|]. split; [reflexivity|]. split; [lia|].
  intros a A. split.
  - unfold rd. rewrite Forall_forall in F. apply F, nth_In. lia.
  - unfold rd. apply nth_error_nth'. lia.
Qed.
Lemma ram_holds start n shadow : 0 <= start -> 1 <= n -> 0 <= shadow -> start + n + shadow <= 4294967295 -> holds (UserRam start n shadow) start n (fun _ => 0).
Proof.
  intros H0 H1 Hs H2. unfold holds, UserRam, Memory. cbv zeta. cbn [startAddress endAddress sizeTotal cells]. rewrite (u32_id (n + shadow)) by lia. rewrite repeat_length.
  split; [lia|]. split; [lia|]. split; [lia|]. split; [reflexivity|]. split; [unfold u32; Z.div_mod_to_equations; lia|]. split; [unfold u32; Z.div_mod_to_equations; lia|]. split; [lia|].
  intros a A. split; [unfold is_byte; lia|]. rewrite (nth_error_nth' _ 0) by (rewrite repeat_length; lia). f_equal. apply nth_repeat.
Qed.
Lemma moved m start n f start' : holds m start n f -> 0 <= start' -> start' + n <= 4294967296 -> holds (setUserRamStart m start') start' n (fun a => f (a - start' + start)).
Proof.
  intros (H0 & H1 & H2 & E & E2 & Sz & L & F) H0' H2'. unfold holds, setUserRamStart. cbn [startAddress endAddress sizeTotal cells]. rewrite Sz.
  split; [lia|]. split; [lia|]. split; [lia|]. split; [reflexivity|]. split; [unfold u32; Z.div_mod_to_equations; lia|]. split; [reflexivity|]. split; [lia|].
  intros a A. destruct (F (a - start' + start) ltac:(lia)) as [Fb Eb]. split; [exact Fb|]. rewrite <- Eb. f_equal. f_equal. lia.
Qed.
