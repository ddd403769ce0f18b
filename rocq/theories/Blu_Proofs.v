(** Proofs about the updater of the bootloader *)
From Verif Require Export Blu_Model Blu_Spec Iap_Proofs.

Notation SEC := (Z.to_nat 4096).
Lemma sec_nat : FLASH_SECTOR_SIZE = 4096. Proof. reflexivity. Qed.
Lemma wr_range_length A (src : list A) : forall l i, length (wr_range l i src) = length l.
Proof. induction src as [|x r IH]; intros l i; cbn [wr_range]; auto. rewrite IH, wr_length. reflexivity. Qed.
Lemma putWord_length buf i v : length (putWord buf i v) = length buf.
Proof. apply wr_range_length. Qed.
Lemma putWord_other buf i v k : ~ (i <= k < i + 4)%nat -> rd (putWord buf i v) k = rd buf k.
Proof. intros H. unfold putWord, rd. cbn [wr_range]. rewrite !nth_wr_other by lia. reflexivity. Qed.
Lemma putWord_same buf i v j : (j < 4)%nat -> (i + 4 <= length buf)%nat -> rd (putWord buf i v) (i + j) = u8 (v / 2 ^ (8 * Z.of_nat j)).
Proof.
  intros J L. unfold putWord, rd. cbn [wr_range]. rewrite !Z.shiftr_div_pow2 by lia.
  assert (E : (j = 0 \/ j = 1 \/ j = 2 \/ j = 3)%nat) by lia. destruct E as [->|[->|[->| ->]]].
  - replace (i + 0)%nat with i by lia. rewrite !nth_wr_other by lia. rewrite nth_wr_same by lia. change (2 ^ (8 * Z.of_nat 0)) with 1. rewrite Z.div_1_r. reflexivity.
  - replace (i + 1)%nat with (S i) by lia. rewrite !nth_wr_other by lia. rewrite nth_wr_same by (rewrite ?wr_length; lia). reflexivity.
  - replace (i + 2)%nat with (S (S i)) by lia. rewrite !nth_wr_other by lia. rewrite nth_wr_same by (rewrite ?wr_length; lia). reflexivity.
  - replace (i + 3)%nat with (S (S (S i))) by lia. rewrite nth_wr_same by (rewrite ?wr_length; lia). reflexivity.
Qed.
Lemma nth_firstn_lt n : forall (l : list Z) i d, (i < n)%nat -> nth i (firstn n l) d = nth i l d.
Proof. induction n; intros [|x l] [|i] d H; cbn; auto; try lia. apply IHn. lia. Qed.
Lemma nth_skipn_add n : forall (l : list Z) i d, nth i (skipn n l) d = nth (n + i) l d.
Proof. induction n; intros [|x l] i d; cbn; auto. destruct i; reflexivity. Qed.

Section Buffer.
  Context (image : list Z).
  Definition raw (i : nat) : list Z := blit (repeat 0xff SEC) (skipn i image) (Nat.min (length image - i) SEC).
  Lemma raw_length i : length (raw i) = SEC.
  Proof. unfold raw, blit. rewrite app_length, firstn_length, skipn_length, skipn_length, repeat_length. lia. Qed.
  Lemma raw_nth i k : (k < SEC)%nat -> rd (raw i) k = nth (i + k) image 0xff.
  Proof.
    intros K. unfold raw, blit, rd. set (m := Nat.min _ _). destruct (Nat.lt_ge_cases k m) as [L|L].
    - rewrite app_nth1 by (rewrite firstn_length, skipn_length; lia). rewrite nth_firstn_lt by lia. rewrite nth_skipn_add. apply nth_indep. lia.
    - rewrite app_nth2 by (rewrite firstn_length, skipn_length; lia). rewrite firstn_length, skipn_length, nth_skipn_add.
      rewrite (nth_overflow image) by lia. rewrite nth_indep with (d' := 0xff) by (rewrite repeat_length; lia). apply nth_repeat.
  Qed.
  Lemma pass_raw i : passBuffer image i = if Nat.eqb i 0 then putWord (raw i) 28 (vectorSum (raw i)) else raw i.
  Proof.
    unfold passBuffer. rewrite sec_nat. replace (if Z.of_nat (length image - i) >? 4096 then SEC else (length image - i)%nat) with (Nat.min (length image - i) SEC); [reflexivity|].
    destruct (Z.gtb_spec (Z.of_nat (length image - i)) 4096); lia.
  Qed.
  Lemma pass_length i : length (passBuffer image i) = SEC.
  Proof. rewrite pass_raw. destruct (Nat.eqb i 0); rewrite ?putWord_length; apply raw_length. Qed.
  Lemma pass_nth i k : (k < SEC)%nat -> (i = 0%nat -> ~ (28 <= k < 32)%nat) -> rd (passBuffer image i) k = nth (i + k) image 0xff.
  Proof.
    intros K N. rewrite pass_raw. destruct (Nat.eqb_spec i 0) as [->|N0]; [|apply raw_nth; auto]. rewrite putWord_other by (specialize (N eq_refl); lia). apply raw_nth; auto.
  Qed.
  Lemma pass_byte i k : Forall is_byte image -> (k < SEC)%nat -> is_byte (rd (passBuffer image i) k).
  Proof.
    intros F K. assert (R : is_byte (nth (i + k) image 0xff)).
    { destruct (Nat.lt_ge_cases (i + k) (length image)); [apply Forall_nth; auto|rewrite nth_overflow by auto; unfold is_byte; lia]. }
    destruct (Nat.eq_dec i 0) as [->|N]; [|rewrite pass_nth by (auto; lia); exact R].
    destruct (Nat.lt_ge_cases k 28); [rewrite pass_nth by (auto; lia); exact R|]. destruct (Nat.lt_ge_cases k 32); [|rewrite pass_nth by (auto; lia); exact R].
    rewrite pass_raw. cbn [Nat.eqb]. replace k with (28 + (k - 28))%nat by lia. rewrite putWord_same; [apply u8_byte|lia|rewrite raw_length; lia].
  Qed.
  (** The eight words of the first buffer add up to zero *)
  Definition le (f : nat -> Z) (j : nat) : Z := f (4 * j)%nat + 256 * f (4 * j + 1)%nat + 65536 * f (4 * j + 2)%nat + 16777216 * f (4 * j + 3)%nat.
  Lemma four v : 0 <= v < 4294967296 -> u8 v + 256 * u8 (v / 2 ^ 8) + 65536 * u8 (v / 2 ^ 16) + 16777216 * u8 (v / 2 ^ 24) = v.
  Proof. intros H. unfold u8. change (2 ^ 8) with 256. change (2 ^ 16) with 65536. change (2 ^ 24) with 16777216. Z.div_mod_to_equations. lia. Qed.
  Lemma pass_sum : let f := rd (passBuffer image 0) in (le f 0 + le f 1 + le f 2 + le f 3 + le f 4 + le f 5 + le f 6 + le f 7) mod 2 ^ 32 = 0.
  Proof.
    cbv zeta. rewrite pass_raw. cbn [Nat.eqb]. set (b := raw 0). set (v := vectorSum b).
    assert (Hv : 0 <= v < 4294967296) by (unfold v, vectorSum, u32; apply Z.mod_pos_bound; lia).
    assert (W : forall j, (j < 7)%nat -> le (rd (putWord b 28 v)) j = word b j) by (intros j J; unfold le, word; rewrite !putWord_other by lia; reflexivity).
    assert (W7 : le (rd (putWord b 28 v)) 7 = v).
    { unfold le. change (4 * 7)%nat with (28 + 0)%nat at 1. change (4 * 7 + 1)%nat with (28 + 1)%nat. change (4 * 7 + 2)%nat with (28 + 2)%nat. change (4 * 7 + 3)%nat with (28 + 3)%nat.
      rewrite !putWord_same by (try lia; unfold b; rewrite raw_length; lia). rewrite <- (four v Hv) at 5. change (8 * Z.of_nat 0) with 0. change (2 ^ 0) with 1. rewrite Z.div_1_r. reflexivity. }
    rewrite W7, !W by lia. unfold v, vectorSum. cbn [seq fold_left]. unfold u32. change (2 ^ 32) with 4294967296.
    generalize (word b 0) (word b 1) (word b 2) (word b 3) (word b 4) (word b 5) (word b 6). clear. intros. Z.div_mod_to_equations. lia.
  Qed.
End Buffer.

Section Run.
  Context (wd : world) (clk p : Z) (image : list Z).
  Let w := fun buf => lpc (with_buffer wd p buf).
  Lemma with_healthy buf : healthy wd -> healthy (with_buffer wd p buf).
  Proof. intros H. exact H. Qed.
  Lemma with_sane buf : sane wd -> Forall is_byte buf -> sane (with_buffer wd p buf).
  Proof.
    intros [A B] F. split; [exact A|]. intros a. cbn [ram with_buffer]. destruct (within _ _ _) eqn:W; auto. apply within_spec in W. apply Forall_nth; auto. lia.
  Qed.
  Lemma with_ram buf k : 0 <= k < Z.of_nat (length buf) -> ram (with_buffer wd p buf) (p + k) = rd buf (Z.to_nat k).
  Proof.
    intros H. cbn [ram with_buffer]. assert (W : within p (Z.of_nat (length buf)) (p + k) = true) by (apply within_spec; lia). rewrite W. unfold rd. f_equal. lia.
  Qed.
  Lemma pass_Forall i : Forall is_byte image -> Forall is_byte (passBuffer image i).
  Proof. intros F. apply Forall_nth. intros k d K. rewrite pass_length in K. rewrite nth_indep with (d' := 0) by (rewrite pass_length; auto). apply pass_byte; auto. Qed.

  Lemma taken_lt (i : nat) : (i < length image)%nat -> Z.of_nat i mod 4096 = 0 -> Z.of_nat i + 4096 <= taken (length image) * 4096.
  Proof. intros H M. unfold taken. Z.div_mod_to_equations. lia. Qed.

  (** Whatever the chip does: nothing behind the sectors of the image is changed, and no call is made with interrupts enabled *)
  Lemma passes_any : forall n i s, Z.of_nat i mod 4096 = 0 ->
    let s' := passes w clk p image n i s in (forall a, ~ (Z.of_nat i <= a < taken (length image) * 4096) -> cells (hw s') a = cells (hw s) a) /\ exposed (hw s') = exposed (hw s).
  Proof.
    induction n as [|n IH]; intros i s M; cbn [passes]; [auto|]. destruct (Nat.ltb_spec i (length image)) as [L|L]; [|auto].
    pose proof (program_sound (with_buffer wd p (passBuffer image i)) clk (Z.of_nat i) p FLASH_SECTOR_SIZE s) as P. fold (w (passBuffer image i)) in P.
    destruct (iapProgram _ _ _ _ _ s) as [s1 st]. destruct P as (P1 & _ & P3 & _). rewrite sec_nat in *.
    destruct (IH (i + SEC)%nat s1) as [A B]; [rewrite Nat2Z.inj_add, Z2Nat.id, <- Z.add_mod_idemp_r, Z_mod_same_full, Z.add_0_r by lia; exact M|]. cbv zeta in *. pose proof (taken_lt i L M). split; [|congruence].
    intros a N. rewrite A by lia. apply P1. destruct (within _ _ a) eqn:W; auto. apply within_spec in W. lia.
  Qed.

  (** The byte the loop puts at an address *)
  Definition goal (a : Z) : Z := rd (passBuffer image (Z.to_nat (a / 4096 * 4096))) (Z.to_nat (a mod 4096)).
  Lemma passes_good : healthy wd -> sane wd -> p mod 4 = 0 -> Forall is_byte image -> taken (length image) <= sectors wd ->
    forall n i s, Z.of_nat i mod 4096 = 0 -> (forall a, Z.of_nat i <= a < taken (length image) * 4096 -> cells (hw s) a = 0xff) ->
    forall a, Z.of_nat i <= a < Z.min (Z.of_nat i + Z.of_nat n * 4096) (taken (length image) * 4096) -> cells (hw (passes w clk p image n i s)) a = goal a.
  Proof.
    intros Hh Hs Hp Hb Ht. induction n as [|n IH]; intros i s M E a L; [lia|]. cbn [passes].
    destruct (Nat.ltb_spec i (length image)) as [Li|Li]; [|exfalso; unfold taken in L; Z.div_mod_to_equations; lia].
    pose proof (taken_lt i Li M) as T.
    pose proof (program_sound (with_buffer wd p (passBuffer image i)) clk (Z.of_nat i) p FLASH_SECTOR_SIZE s) as P. fold (w (passBuffer image i)) in P.
    destruct (iapProgram _ _ _ _ _ s) as [s1 st]. destruct P as (P1 & _ & _ & _ & P5). rewrite sec_nat in *.
    destruct P5 as (Q & _).
    { apply with_healthy; auto. } { apply with_sane; auto. apply pass_Forall; auto. } { exact Hp. } { clear - M. Z.div_mod_to_equations. lia. } { cbn [In]. auto. } { lia. } { cbn [sectors with_buffer]. lia. }
    assert (M' : Z.of_nat (i + SEC) mod 4096 = 0) by (rewrite Nat2Z.inj_add, Z2Nat.id, <- Z.add_mod_idemp_r, Z_mod_same_full, Z.add_0_r by lia; exact M).
    destruct (Z.lt_ge_cases a (Z.of_nat i + 4096)) as [La|La].
    - destruct (passes_any n (i + SEC)%nat s1 M') as [A _]. rewrite A by lia. assert (W : within (Z.of_nat i) 4096 a = true) by (apply within_spec; lia). rewrite (Q a W), E by lia.
      rewrite with_ram by (rewrite pass_length; lia). unfold goal. assert (D : a / 4096 * 4096 = Z.of_nat i /\ a mod 4096 = a - Z.of_nat i) by (clear - M La L; Z.div_mod_to_equations; lia). destruct D as [-> ->]. rewrite Nat2Z.id.
      pose proof (pass_byte image i (Z.to_nat (a - Z.of_nat i)) Hb ltac:(lia)) as B. change 255 with (Z.ones 8). rewrite Z.land_comm, Z.land_ones by lia. apply Z.mod_small. exact B.
    - apply IH; auto; [|lia]. intros x Lx. rewrite P1; [apply E; lia|]. destruct (within _ _ x) eqn:W; auto. apply within_spec in W. lia.
  Qed.

  Lemma end_sector : (0 < length image)%nat -> Z.of_nat (length image) < 2147483648 -> iapSectorOfAddress (u32 (0 + u32 (Z.of_nat (length image)) - 1)) = taken (length image) - 1.
  Proof.
    intros A B. replace (u32 (0 + u32 (Z.of_nat (length image)) - 1)) with (Z.of_nat (length image) - 1) by (unfold u32; rewrite !Z.mod_small; rewrite ?Z.mod_small; lia).
    rewrite sector_of by lia. unfold taken. Z.div_mod_to_equations. lia.
  Qed.
  Lemma erase_any s : (0 < length image)%nat -> Z.of_nat (length image) < 2147483648 ->
    let s' := erase w clk image s in (forall a, ~ (0 <= a < taken (length image) * 4096) -> cells (hw s') a = cells (hw s) a) /\ exposed (hw s') = exposed (hw s) /\
    (healthy wd -> taken (length image) <= sectors wd -> forall a, 0 <= a < taken (length image) * 4096 -> cells (hw s') a = 0xff).
  Proof.
    intros A B. unfold erase. rewrite end_sector by auto. change (iapSectorOfAddress 0) with 0.
    pose proof (erase_sound (with_buffer wd p []) clk 0 (taken (length image) - 1) s) as P. fold (w []) in P. destruct (iapEraseSectorRange _ _ _ _ s) as [s1 st]. destruct P as (P1 & P2 & P3 & _ & P5). cbn [fst]. cbv zeta.
    assert (T : 1 <= taken (length image)) by (unfold taken; Z.div_mod_to_equations; lia).
    split; [intros a N; apply P1; destruct (within _ _ a) eqn:W; auto; apply within_spec in W; lia|]. split; auto.
    intros Hh Ht a L. apply P2; [|apply within_spec; lia]. apply P5; [exact Hh|]. unfold sectorsOk. cbn [sectors with_buffer]. lia.
  Qed.

  Lemma upto_any n s : (0 < length image)%nat -> Z.of_nat (length image) < 2147483648 ->
    let s' := update_upto w clk p image n s in (forall a, ~ (0 <= a < taken (length image) * 4096) -> cells (hw s') a = cells (hw s) a) /\ exposed (hw s') = exposed (hw s).
  Proof.
    intros A B. unfold update_upto. destruct (erase_any s A B) as (E1 & E2 & _). destruct (passes_any n 0 (erase w clk image s) eq_refl) as [F1 F2]. cbv zeta in *. split; [|congruence].
    intros a N. rewrite F1 by (cbn; lia). auto.
  Qed.
  Lemma upto_good n s : healthy wd -> sane wd -> p mod 4 = 0 -> Forall is_byte image -> (0 < length image)%nat -> taken (length image) <= sectors wd ->
    forall a, 0 <= a < taken (length image) * 4096 -> cells (hw (update_upto w clk p image n s)) a = if a <? Z.of_nat n * 4096 then goal a else 0xff.
  Proof.
    intros Hh Hs Hp Hb Hl Ht a L. assert (B : Z.of_nat (length image) < 2147483648) by (destruct Hs as [Hs _]; unfold taken in Ht; Z.div_mod_to_equations; lia).
    destruct (erase_any s Hl B) as (E1 & _ & E3). specialize (E3 Hh Ht). unfold update_upto. destruct (Z.ltb_spec a (Z.of_nat n * 4096)) as [La|La].
    - apply passes_good; auto. cbn. lia.
    - rewrite <- (E3 a L). clear E1 E3. revert La. generalize (erase w clk image s). intros s1 La.
      assert (G : forall m i q, Z.of_nat i mod 4096 = 0 -> Z.of_nat i + Z.of_nat m * 4096 <= a -> cells (hw (passes w clk p image m i q)) a = cells (hw q) a).
      { clear - a. induction m as [|m IH]; intros i q M G; cbn [passes]; auto. destruct (Nat.ltb i (length image)); auto.
        pose proof (program_sound (with_buffer wd p (passBuffer image i)) clk (Z.of_nat i) p FLASH_SECTOR_SIZE q) as P. fold (w (passBuffer image i)) in P. destruct (iapProgram _ _ _ _ _ q) as [q1 st]. destruct P as (P1 & _). rewrite sec_nat in *.
        rewrite IH; [|rewrite Nat2Z.inj_add, Z2Nat.id, <- Z.add_mod_idemp_r, Z_mod_same_full, Z.add_0_r by lia; exact M|lia]. apply P1. destruct (within _ _ a) eqn:W; auto. apply within_spec in W. lia. }
      apply G; [reflexivity|cbn; lia].
  Qed.

  Lemma goal_image a : 0 <= a -> ~ (28 <= a < 32) -> goal a = nth (Z.to_nat a) image 0xff.
  Proof.
    intros A N. unfold goal. pose proof (Z.mod_pos_bound a 4096 ltac:(lia)). pose proof (Z.div_mod a 4096 ltac:(lia)). assert (0 <= a / 4096) by (apply Z.div_pos; lia). rewrite pass_nth; [f_equal; lia|lia|lia].
  Qed.
  Lemma goal_first a : 0 <= a < 4096 -> goal a = rd (passBuffer image 0) (Z.to_nat a).
  Proof. intros A. unfold goal. rewrite Z.div_small, Z.mod_small by lia. reflexivity. Qed.
  Lemma goal_accepted f : (forall a, 0 <= a < 4096 -> f a = goal a) -> accepted f.
  Proof.
    intros H. assert (H' : forall a, 0 <= a < 4096 -> f a = rd (passBuffer image 0) (Z.to_nat a)) by (intros a L; rewrite H, goal_first by lia; reflexivity). clear H.
    unfold accepted. etransitivity; [|apply (pass_sum image)]. cbv zeta. f_equal. unfold entry, le. rewrite !H' by lia. change (2 ^ 8) with 256. change (2 ^ 16) with 65536. change (2 ^ 24) with 16777216.
    set (b := rd (passBuffer image 0)). 
    repeat match goal with |- context [b (Z.to_nat ?z)] => let x := eval vm_compute in (Z.to_nat z) in change (Z.to_nat z) with x end.
    repeat match goal with |- context [b (?u + ?v)%nat] => let x := eval vm_compute in (u + v)%nat in change (u + v)%nat with x end.
    repeat match goal with |- context [b (4 * ?v)%nat] => let x := eval vm_compute in (4 * v)%nat in change (4 * v)%nat with x end.
    lia.
  Qed.
End Run.
