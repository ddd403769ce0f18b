(** Decompressor (C42, C43). *)
From Verif Require Import Base Bits CRC_Model CRC_Spec CRC_Proofs Boot_Model Boot_Spec Boot_Proofs Boot_Theorems.

(** ** Command bytes *)
Lemma bits_64 n : 0 <= n < 64 ->
  Z.land n 63 = n /\ Z.land (64 + n) 63 = n /\ Z.land (128 + n) 63 = n /\ Z.land (192 + n) 63 = n /\
  Z.land n 64 = 0 /\ Z.land (64 + n) 64 = 64 /\ Z.land (128 + n) 64 = 0 /\ Z.land (192 + n) 64 = 64 /\
  Z.land n 128 = 0 /\ Z.land (64 + n) 128 = 0 /\ Z.land (128 + n) 128 = 128 /\ Z.land (192 + n) 128 = 128.
Proof.
  intros H.
  set (f := fun n => (Z.land n 63 =? n) && (Z.land (64 + n) 63 =? n) && (Z.land (128 + n) 63 =? n) && (Z.land (192 + n) 63 =? n) &&
    (Z.land n 64 =? 0) && (Z.land (64 + n) 64 =? 64) && (Z.land (128 + n) 64 =? 0) && (Z.land (192 + n) 64 =? 64) &&
    (Z.land n 128 =? 0) && (Z.land (64 + n) 128 =? 0) && (Z.land (128 + n) 128 =? 128) && (Z.land (192 + n) 128 =? 128)).
  assert (E : f n = true) by (revert n H; change 64 with (Z.of_nat 64) at 1; apply range_forall; vm_compute; reflexivity).
  unfold f in E. rewrite !andb_true_iff, !Z.eqb_eq in E. tauto.
Qed.
Lemma bits_128 x : 0 <= x < 128 -> Z.land x 128 = 0 /\ Z.land (128 + x) 128 = 128 /\ Z.land x 127 = x /\ Z.land (128 + x) 127 = x.
Proof.
  intros H.
  set (f := fun x => (Z.land x 128 =? 0) && (Z.land (128 + x) 128 =? 128) && (Z.land x 127 =? x) && (Z.land (128 + x) 127 =? x)).
  assert (E : f x = true) by (revert x H; change 128 with (Z.of_nat 128) at 1; apply range_forall; vm_compute; reflexivity).
  unfold f in E. rewrite !andb_true_iff, !Z.eqb_eq in E. tauto.
Qed.
Lemma land_ff y : is_byte y -> Z.land y 255 = y.
Proof. intros H. rewrite land_255. apply Z.mod_small. auto. Qed.
Lemma addr_value x y z : 0 <= x < 128 -> is_byte y -> is_byte z ->
  Z.lor (Z.lor (Z.shiftl x 16) (Z.shiftl y 8)) z = 65536 * x + 256 * y + z.
Proof.
  intros Hx Hy Hz. unfold is_byte in *. rewrite <- Z.lor_assoc. rewrite (lor_shiftl_add y z 8) by lia.
  rewrite (lor_shiftl_add x _ 16) by lia. lia.
Qed.

(** ** One piece *)
Record fed (d d' : decomp) (out : list Z) : Prop := {
  fd_state : dst_ d' = EXPECT_COMMAND_BYTE;
  fd_cmd : length (cmdBuffer d') = 5%nat;
  fd_pad : scratchpad d' = wr_range (scratchpad d) (Z.to_nat (bytesToFlash d)) out;
  fd_btf : bytesToFlash d' = bytesToFlash d + Z.of_nat (length out);
  fd_old : oldPages d' = oldPages d;
  fd_page : pageAddr d' = pageAddr d;
  fd_rom : romStart d' = romStart d
}.
Lemma wr_range_cons (l : list Z) i x r : wr_range l i (x :: r) = wr_range (wr l i x) (S i) r.
Proof. reflexivity. Qed.
Lemma raw_loop L f l : forall d, dst_ d = EXPECT_RAW_DATA -> l <> [] -> length (cmdBuffer d) = 5%nat ->
  getLength (cmdBuffer d) = rawLength d + Z.of_nat (length l) -> 0 <= bytesToFlash d ->
  bytesToFlash d + Z.of_nat (length l) <= 256 ->
  exists d', putBytes L f l d = Some d' /\ fed d d' l.
Proof.
  induction l as [|b l IH]; intros d Hs Hl Hc Hg H0 Hb; [congruence|].
  cbn [length] in *. cbn [putBytes]. unfold putByte. rewrite Hs. cbv zeta.
  destruct (Z.leb_spec 256 (bytesToFlash d)); [lia|].
  destruct (Z.leb_spec (getLength (cmdBuffer d)) (rawLength d + 1)) as [Hend|Hmore].
  - assert (l = []) by (destruct l; auto; cbn [length] in *; lia). subst l. eexists. split; [reflexivity|].
    constructor; cbn; auto.
  - set (d1 := mkDec _ _ _ _ _ _ _ _ _ _).
    destruct (IH d1) as (d' & E & [F1 F2 F3 F4 F5 F6 F7]); unfold d1; cbn; auto; try lia.
    { intros ->. cbn [length] in *. lia. }
    exists d'. split; auto. unfold d1 in *. cbn in *. constructor; auto.
    + rewrite F3. replace (Z.to_nat (bytesToFlash d + 1)) with (S (Z.to_nat (bytesToFlash d))) by lia. reflexivity.
    + rewrite F4. cbn [length]. lia.
Qed.
Lemma five (l : list Z) : length l = 5%nat -> exists a b c d e, l = [a; b; c; d; e].
Proof. intros H. do 5 (destruct l as [|? l]; [discriminate|]). destruct l; [|discriminate]. eauto 10. Qed.

Lemma bytes_at_old old a n : 0 <= a -> 0 <= n -> a + n <= Z.of_nat (length old) ->
  bytes_at (at_ old) a n = firstn (Z.to_nat n) (skipn (Z.to_nat a) old).
Proof.
  intros Ha Hn Hl. apply (list_ext _ _ _ 0).
  - rewrite bytes_at_length, firstn_length, skipn_length. lia.
  - rewrite bytes_at_length. intros i Hi. rewrite nth_bytes_at by auto. rewrite nth_firstn, nth_skipn by auto.
    unfold at_, rd. f_equal. lia.
Qed.
(** all parameters of a copy command have arrived *)
Lemma copy_done L f d cmd n a src : 
  dst_ d = EXPECT_COMMAND_PARAMS -> True -> length cmd = 5%nat -> getLength cmd = n -> getCopyAddress cmd = a -> 
  0 <= bytesToFlash d -> 0 <= n -> bytesToFlash d + n <= 256 -> Z.land (rd cmd 0) 128 = 128 ->
  (if isCopyFromRam cmd then a + n <= 512 /\ src = bytes_at (at_ (oldPages d)) a n
   else romStart d + a + n <= flash_top L /\ src = bytes_at f (romStart d + a) n) ->
  forall data k, cmd = wr (cmdBuffer d) (Z.to_nat k) data -> k = cmdBufferLength d -> k < 5 -> expectedCmdLength d = k + 1 ->
  exists d', putByte L f data d = Some d' /\ fed d d' src.
Proof.
  intros Hs _ Hc Hn Ha H0 Hn0 Hb H80 Hsrc data k -> -> Hk He. unfold putByte. rewrite Hs. cbv zeta.
  set (cmd := wr (cmdBuffer d) (Z.to_nat (cmdBufferLength d)) data) in *.
  destruct (Z.leb_spec 5 (cmdBufferLength d)); [lia|].
  destruct (Z.leb_spec (expectedCmdLength d) (cmdBufferLength d + 1)); [|lia]. cbn [negb].
  rewrite H80. change (128 =? 128) with true. cbv iota. rewrite Hn, Ha.
  destruct (Z.ltb_spec 256 (bytesToFlash d + n)); [lia|].
  assert (Hlen : Z.of_nat (length src) = n).
  { destruct (isCopyFromRam cmd); destruct Hsrc as [_ ->]; rewrite bytes_at_length; lia. }
  destruct (isCopyFromRam cmd); destruct Hsrc as [S1 S2].
  - destruct (Z.ltb_spec 512 (a + n)); [lia|]. eexists. split; [reflexivity|]. subst src. constructor; cbn; auto. lia.
  - destruct (Z.ltb_spec (flash_top L) (romStart d + a + n)); [lia|]. eexists. split; [reflexivity|]. subst src. constructor; cbn; auto. lia.
Qed.

Lemma feed_piece L f p l d : encoded p l -> dst_ d = EXPECT_COMMAND_BYTE -> length (cmdBuffer d) = 5%nat ->
  length (oldPages d) = 512%nat -> 0 <= bytesToFlash d ->
  inside (flash_top L - romStart d) p ->
  bytesToFlash d + Z.of_nat (length (bytes_of (fun o => f (romStart d + o)) (oldPages d) p)) <= 256 ->
  exists d', putBytes L f l d = Some d' /\ fed d d' (bytes_of (fun o => f (romStart d + o)) (oldPages d) p).
Proof.
  intros HE Hs Hc Ho H0 Hin Hfit. destruct (five _ Hc) as (c0 & c1 & c2 & c3 & c4 & Ec).
  destruct HE as [data Hd | data hi lo Hd Hhi Hlo Hlen | a n x y z Hn Hx Hy Hz Ha | a hi lo x y z Hhi Hlo Hx Hy Hz Ha
                 | a n x y z Hn Hx Hy Hz Ha | a hi lo x y z Hhi Hlo Hx Hy Hz Ha].
  - (* raw, short *)
    destruct (bits_64 (Z.of_nat (length data)) ltac:(lia)) as (B1 & _ & _ & _ & B2 & _ & _ & _ & B3 & _).
    cbn [putBytes]. unfold putByte. rewrite Hs. cbv zeta. rewrite B2, B3. cbn [Z.eqb].
    change (1 <? 1 + 0 + 0) with false. cbv iota.
    set (d1 := mkDec _ _ _ _ _ _ _ _ _ _). cbn [bytes_of] in *.
    destruct (raw_loop L f data d1) as (d' & E & [F1 F2 F3 F4 F5 F6 F7]); unfold d1; cbn; auto; try lia.
    { intros ->. simpl in Hd. lia. }
    { rewrite wr_length. auto. }
    { rewrite Ec. cbn. unfold getLength, isLong. cbn. rewrite B1, B2. cbn. lia. }
    exists d'. split; auto. constructor; auto.
  - (* raw, long *)
    destruct (bits_64 hi Hhi) as (_ & B1 & _ & _ & _ & B2 & _ & _ & _ & B3 & _).
    cbn [putBytes]. unfold putByte at 1. rewrite Hs. cbv zeta. rewrite B2, B3.
    change (64 =? 64) with true. change (0 =? 128) with false. cbv iota. change (1 <? 1 + 0 + 1) with true. cbv iota.
    unfold putByte at 1. cbn [dst_ cmdBufferLength cmdBuffer expectedCmdLength]. cbv zeta.
    change (5 <=? 1) with false. change (1 + 1) with 2. change (1 + 0 + 1) with 2. change (negb (2 <=? 2)) with false. cbv iota.
    rewrite Ec. change (Z.to_nat 1) with 1%nat. cbn [wr rd nth]. rewrite B3. change (0 =? 128) with false. cbv iota.
    set (d1 := mkDec _ _ _ _ _ _ _ _ _ _). cbn [bytes_of] in *.
    destruct (raw_loop L f data d1) as (d' & E & [F1 F2 F3 F4 F5 F6 F7]); unfold d1; cbn; auto; try lia.
    { intros ->. simpl in Hd. lia. }
    { unfold getLength, isLong. cbn. rewrite B1, B2. cbn. rewrite land_ff by auto. rewrite word_bytes by auto. lia. }
    exists d'. split; auto. constructor; auto.
  - (* rom, short *)
    destruct (bits_64 n Hn) as (_ & _ & B1 & _ & _ & _ & B2 & _ & _ & _ & B3 & _).
    destruct (bits_128 x Hx) as (X1 & _ & X2 & _). cbn [inside bytes_of] in *.
    cbn [putBytes]. unfold putByte at 1. rewrite Hs. cbv zeta. rewrite B2, B3, Ec.
    change (128 =? 128) with true. change (0 =? 64) with false. cbv iota. change (1 <? 1 + 3 + 0) with true. cbv iota.
    unfold putByte at 1. cbn [dst_ cmdBufferLength cmdBuffer expectedCmdLength]. cbv zeta. change (1 + 3 + 0) with 4. change (1 + 1) with 2.
    change (5 <=? 1) with false. change (negb (4 <=? 2)) with true. cbv iota. change (Z.to_nat 1) with 1%nat. cbn [wr].
    unfold putByte at 1. cbn [dst_ cmdBufferLength cmdBuffer expectedCmdLength]. cbv zeta. change (2 + 1) with 3.
    change (5 <=? 2) with false. change (negb (4 <=? 3)) with true. cbv iota. change (Z.to_nat 2) with 2%nat. cbn [wr].
    set (d1 := mkDec _ _ _ _ _ _ _ _ _ _).
    rewrite map_length, seq_length in Hfit.
    assert (CD : exists d', putByte L f z d1 = Some d' /\ fed d1 d' (bytes_at f (romStart d + a) n)).
    { apply (copy_done L f d1 [128 + n; x; y; z; c4] n a (bytes_at f (romStart d + a) n)) with (data := z) (k := 3); unfold d1; cbn; auto; try lia.
    { unfold getLength, isLong. cbn. rewrite B1, B2. reflexivity. }
    { unfold getCopyAddress, isLong. cbn. rewrite B2. cbn. rewrite X2, !land_ff by auto. rewrite addr_value by auto. auto. }
    { unfold isCopyFromRam, isLong. cbn. rewrite B2. cbn. rewrite X1. cbn. split; auto. lia. }
    }
    destruct CD as (d' & E & [F1 F2 F3 F4 F5 F6 F7]).
    rewrite E. exists d'. split; auto. unfold d1 in *. cbn in *.
    assert (EB : bytes_at f (romStart d + a) n = map (fun i : nat => f (romStart d + (a + Z.of_nat i))) (seq 0 (Z.to_nat n))).
    { unfold bytes_at. apply map_ext. intros. f_equal. lia. }
    rewrite EB in *. constructor; auto.
  - (* rom, long *)
    destruct (bits_64 hi Hhi) as (_ & _ & _ & B1 & _ & _ & _ & B2 & _ & _ & _ & B3).
    destruct (bits_128 x Hx) as (X1 & _ & X2 & _). cbn [inside bytes_of] in *.
    cbn [putBytes]. unfold putByte at 1. rewrite Hs. cbv zeta. rewrite B2, B3, Ec.
    change (128 =? 128) with true. change (64 =? 64) with true. cbv iota. change (1 <? 1 + 3 + 1) with true. cbv iota.
    unfold putByte at 1. cbn [dst_ cmdBufferLength cmdBuffer expectedCmdLength]. cbv zeta. change (1 + 3 + 1) with 5. change (1 + 1) with 2.
    change (5 <=? 1) with false. change (negb (5 <=? 2)) with true. cbv iota. change (Z.to_nat 1) with 1%nat. cbn [wr].
    unfold putByte at 1. cbn [dst_ cmdBufferLength cmdBuffer expectedCmdLength]. cbv zeta. change (2 + 1) with 3.
    change (5 <=? 2) with false. change (negb (5 <=? 3)) with true. cbv iota. change (Z.to_nat 2) with 2%nat. cbn [wr].
    unfold putByte at 1. cbn [dst_ cmdBufferLength cmdBuffer expectedCmdLength]. cbv zeta. change (3 + 1) with 4.
    change (5 <=? 3) with false. change (negb (5 <=? 4)) with true. cbv iota. change (Z.to_nat 3) with 3%nat. cbn [wr].
    set (d1 := mkDec _ _ _ _ _ _ _ _ _ _). set (n := 256 * hi + lo) in *. unfold is_byte in Hlo.
    rewrite map_length, seq_length in Hfit.
    assert (CD : exists d', putByte L f z d1 = Some d' /\ fed d1 d' (bytes_at f (romStart d + a) n)).
    { apply (copy_done L f d1 [192 + hi; lo; x; y; z] n a (bytes_at f (romStart d + a) n)) with (data := z) (k := 4); unfold d1; cbn; auto; try lia.
    { unfold getLength, isLong. cbn. rewrite B1, B2. cbn. rewrite land_ff by auto. rewrite word_bytes by auto. unfold n; lia. }
    { unfold getCopyAddress, isLong. cbn. rewrite B2. cbn. rewrite X2, !land_ff by auto. rewrite addr_value by auto. auto. }
    { unfold isCopyFromRam, isLong. cbn. rewrite B2. cbn. rewrite X1. cbn. split; auto. lia. }
    }
    destruct CD as (d' & E & [F1 F2 F3 F4 F5 F6 F7]).
    rewrite E. exists d'. split; auto. unfold d1 in *. cbn in *.
    assert (EB : bytes_at f (romStart d + a) n = map (fun i : nat => f (romStart d + (a + Z.of_nat i))) (seq 0 (Z.to_nat n))).
    { unfold bytes_at. apply map_ext. intros. f_equal. lia. }
    rewrite EB in *. constructor; auto.
  - (* ram, short *)
    destruct (bits_64 n Hn) as (_ & _ & B1 & _ & _ & _ & B2 & _ & _ & _ & B3 & _).
    destruct (bits_128 x Hx) as (_ & X1 & _ & X2). cbn [inside bytes_of] in *.
    cbn [putBytes]. unfold putByte at 1. rewrite Hs. cbv zeta. rewrite B2, B3, Ec.
    change (128 =? 128) with true. change (0 =? 64) with false. cbv iota. change (1 <? 1 + 3 + 0) with true. cbv iota.
    unfold putByte at 1. cbn [dst_ cmdBufferLength cmdBuffer expectedCmdLength]. cbv zeta. change (1 + 3 + 0) with 4. change (1 + 1) with 2.
    change (5 <=? 1) with false. change (negb (4 <=? 2)) with true. cbv iota. change (Z.to_nat 1) with 1%nat. cbn [wr].
    unfold putByte at 1. cbn [dst_ cmdBufferLength cmdBuffer expectedCmdLength]. cbv zeta. change (2 + 1) with 3.
    change (5 <=? 2) with false. change (negb (4 <=? 3)) with true. cbv iota. change (Z.to_nat 2) with 2%nat. cbn [wr].
    set (d1 := mkDec _ _ _ _ _ _ _ _ _ _).
    rewrite <- bytes_at_old in * by lia. rewrite bytes_at_length in Hfit.
    assert (CD : exists d', putByte L f z d1 = Some d' /\ fed d1 d' (bytes_at (at_ (oldPages d)) a n)).
    { apply (copy_done L f d1 [128 + n; 128 + x; y; z; c4] n a (bytes_at (at_ (oldPages d)) a n)) with (data := z) (k := 3); unfold d1; cbn; auto; try lia.
    { unfold getLength, isLong. cbn. rewrite B1, B2. reflexivity. }
    { unfold getCopyAddress, isLong. cbn. rewrite B2. cbn. rewrite X2, !land_ff by auto. rewrite addr_value by auto. auto. }
    { unfold isCopyFromRam, isLong. cbn. rewrite B2. cbn. rewrite X1. cbn. split; auto. lia. }
    }
    destruct CD as (d' & E & [F1 F2 F3 F4 F5 F6 F7]).
    rewrite E. exists d'. split; auto. unfold d1 in *. cbn in *. constructor; auto.
  - (* ram, long *)
    destruct (bits_64 hi Hhi) as (_ & _ & _ & B1 & _ & _ & _ & B2 & _ & _ & _ & B3).
    destruct (bits_128 x Hx) as (_ & X1 & _ & X2). cbn [inside bytes_of] in *.
    cbn [putBytes]. unfold putByte at 1. rewrite Hs. cbv zeta. rewrite B2, B3, Ec.
    change (128 =? 128) with true. change (64 =? 64) with true. cbv iota. change (1 <? 1 + 3 + 1) with true. cbv iota.
    unfold putByte at 1. cbn [dst_ cmdBufferLength cmdBuffer expectedCmdLength]. cbv zeta. change (1 + 3 + 1) with 5. change (1 + 1) with 2.
    change (5 <=? 1) with false. change (negb (5 <=? 2)) with true. cbv iota. change (Z.to_nat 1) with 1%nat. cbn [wr].
    unfold putByte at 1. cbn [dst_ cmdBufferLength cmdBuffer expectedCmdLength]. cbv zeta. change (2 + 1) with 3.
    change (5 <=? 2) with false. change (negb (5 <=? 3)) with true. cbv iota. change (Z.to_nat 2) with 2%nat. cbn [wr].
    unfold putByte at 1. cbn [dst_ cmdBufferLength cmdBuffer expectedCmdLength]. cbv zeta. change (3 + 1) with 4.
    change (5 <=? 3) with false. change (negb (5 <=? 4)) with true. cbv iota. change (Z.to_nat 3) with 3%nat. cbn [wr].
    set (d1 := mkDec _ _ _ _ _ _ _ _ _ _). set (n := 256 * hi + lo) in *. unfold is_byte in Hlo.
    rewrite <- bytes_at_old in * by lia. rewrite bytes_at_length in Hfit.
    assert (CD : exists d', putByte L f z d1 = Some d' /\ fed d1 d' (bytes_at (at_ (oldPages d)) a n)).
    { apply (copy_done L f d1 [192 + hi; lo; 128 + x; y; z] n a (bytes_at (at_ (oldPages d)) a n)) with (data := z) (k := 4); unfold d1; cbn; auto; try lia.
    { unfold getLength, isLong. cbn. rewrite B1, B2. cbn. rewrite land_ff by auto. rewrite word_bytes by auto. unfold n; lia. }
    { unfold getCopyAddress, isLong. cbn. rewrite B2. cbn. rewrite X2, !land_ff by auto. rewrite addr_value by auto. auto. }
    { unfold isCopyFromRam, isLong. cbn. rewrite B2. cbn. rewrite X1. cbn. split; auto. lia. }
    }
    destruct CD as (d' & E & [F1 F2 F3 F4 F5 F6 F7]).
    rewrite E. exists d'. split; auto. unfold d1 in *. cbn in *. constructor; auto.
Qed.

(** ** Streams *)
Lemma wr_comm_range (b : list Z) : forall l i j x, (i < j)%nat -> wr_range (wr l i x) j b = wr (wr_range l j b) i x.
Proof.
  induction b as [|y b IH]; intros l i j x H; simpl; auto.
  rewrite <- IH by lia. f_equal.
  revert i j H; induction l as [|h l IHl]; intros [|i] [|j] H; simpl; auto; try lia. f_equal. apply IHl. lia.
Qed.
Lemma wr_range_app (a b : list Z) : forall l i, wr_range (wr_range l i a) (i + length a) b = wr_range l i (a ++ b).
Proof.
  induction a as [|x a IH]; intros l i; simpl.
  - f_equal. lia.
  - rewrite <- IH. f_equal. lia.
Qed.
Lemma feed_pieces L f ps l : encodes ps l -> forall d, dst_ d = EXPECT_COMMAND_BYTE -> length (cmdBuffer d) = 5%nat ->
  length (oldPages d) = 512%nat -> 0 <= bytesToFlash d -> Forall (inside (flash_top L - romStart d)) ps ->
  bytesToFlash d + Z.of_nat (length (expand (fun o => f (romStart d + o)) (oldPages d) ps)) <= 256 ->
  exists d', putBytes L f l d = Some d' /\ fed d d' (expand (fun o => f (romStart d + o)) (oldPages d) ps).
Proof.
  induction 1 as [|p ps l ls Hp Hps IH]; intros d Hs Hc Ho H0 Hin Hfit.
  - exists d. split; [reflexivity|]. constructor; auto. cbn. lia.
  - inversion Hin as [|? ? Hin1 Hin2]; subst. cbn [expand flat_map] in *. rewrite app_length in Hfit.
    destruct (feed_piece L f p l d Hp Hs Hc Ho H0 Hin1) as (d1 & E1 & [F1 F2 F3 F4 F5 F6 F7]); [lia|].
    destruct (IH d1) as (d2 & E2 & [G1 G2 G3 G4 G5 G6 G7]); auto; try congruence; try lia.
    { rewrite F5, F7, F4. fold (expand (fun o => f (romStart d + o)) (oldPages d) ps) in Hfit. lia. }
    rewrite F5, F7 in *. exists d2. split.
    + assert (A : forall u v d, putBytes L f (u ++ v) d = match putBytes L f u d with Some d' => putBytes L f v d' | None => None end).
      { induction u; cbn; intros; auto. destruct (putByte L f a d0); auto. }
      rewrite A, E1. exact E2.
    + constructor; auto; try congruence.
      * rewrite G3, F3, F4. rewrite Z2Nat.inj_add, Nat2Z.id by lia. apply wr_range_app.
      * rewrite G4, F4, app_length. unfold expand. lia.
Qed.
Lemma putBytes_app L f u : forall v d, putBytes L f (u ++ v) d = match putBytes L f u d with Some d' => putBytes L f v d' | None => None end.
Proof. induction u; cbn; intros; auto. destruct (putByte L f a d); auto. Qed.

(** the telegrams of one page *)
Lemma feed_telegrams L es : forall s d', unlocked s = true ->
  putBytes L (fl s) (concat (map (fun x => snd x) es)) (dec s) = Some d' ->
  Forall (fun x : env * list Z => (1 <= length (snd x) <= 254)%nat) es ->
  exists talk, run L s (map (fun x => (fst x, 0xec :: snd x)) es) = Some (set_dec d' s, talk) /\
               Forall (fun x => snd x = error_reply 0x7f) talk.
Proof.
  induction es as [|[e t] es IH]; intros s d' HU HP HF; cbn [map concat run] in *.
  - cbn in HP. injection HP as <-. exists []. split; [|constructor]. destruct s; reflexivity.
  - inversion HF as [|? ? H1 H2]; subst. cbn [snd fst] in *.
    rewrite putBytes_app in HP. destruct (putBytes L (fl s) t (dec s)) as [d1|] eqn:E1; [|discriminate].
    rewrite (handle_unlocked L e 236 t s 1 254) by (auto; try reflexivity; try (red; lia); lia).
    change (dispatch L e 236 t s) with (match putBytes L (fl s) t (dec s) with
                            | None => None
                            | Some d => Some (set_dec d s, lastError UDP_IAP_SUCCESS)
                            end). rewrite E1.
    destruct (IH (set_dec d1 s) d' HU HP H2) as (talk & -> & HT).
    eexists. split; [reflexivity|]. constructor; auto.
Qed.

(** ** Programming the page *)
Lemma firstn_pad out : (length out <= 256)%nat ->
  firstn (length out) (wr_range (repeat 0 256) 0 out) = out /\
  (forall i, rd (wr_range (repeat 0 256) 0 out) i = rd out i).
Proof.
  intros H. assert (Hl : length (repeat 0 256) = 256%nat) by apply repeat_length. split.
  - pose proof (firstn_wr_range (repeat 0 256) out 0) as E. rewrite Nat.add_0_l in E. rewrite E by lia. reflexivity.
  - intros i. unfold rd. rewrite nth_wr_range by lia.
    destruct (Nat.ltb_spec i (0 + length out)); cbn [Nat.leb andb].
    + f_equal. lia.
    + rewrite (nth_overflow out) by lia. destruct (Nat.lt_ge_cases i 256).
      * apply nth_repeat.
      * apply nth_overflow. lia.
Qed.
Record at_page (L : layout) (rom a : Z) (old : list Z) (s : upd) : Prop := {
  ap_inv : inv L s;
  ap_unl : unlocked s = true;
  ap_state : dst_ (dec s) = EXPECT_COMMAND_BYTE;
  ap_btf : bytesToFlash (dec s) = 0;
  ap_pad : scratchpad (dec s) = repeat 0 256;
  ap_old : oldPages (dec s) = old;
  ap_addr : pageAddr (dec s) = a;
  ap_rom : romStart (dec s) = rom
}.
Lemma holds_bytes f a out : holds f a out <-> bytes_at f a (Z.of_nat (length out)) = out.
Proof.
  split.
  - intros H. apply (list_ext _ _ _ 0).
    + rewrite bytes_at_length. lia.
    + rewrite bytes_at_length. intros i Hi. rewrite nth_bytes_at by auto. apply H. lia.
  - intros H i Hi. unfold rd. rewrite <- H at 1. rewrite nth_bytes_at by lia. reflexivity.
Qed.
Lemma complete_page L d w out : layout_ok L -> small_flash L -> Forall iap_ok (snd w) -> all_ok (snd w) ->
  scratchpad d = wr_range (repeat 0 256) 0 out -> (1 <= length out <= 256)%nat -> Forall is_byte out ->
  bytesToFlash d = Z.of_nat (length out) -> pageAddr d mod 256 = 0 -> appFirst L <= pageAddr d -> pageAddr d + 256 <= flash_top L ->
  exists w', pageCompletedDoFlash L d w =
      Some (0x7f, mkDec (cmdBuffer d) (expectedCmdLength d) (cmdBufferLength d) (repeat 0 256)
                        (skipn 256 (oldPages d) ++ content (fst w) (pageAddr d) (pageAddr d + 255)) 0 (rawLength d) (dst_ d)
                        (pageAddr d + 256) (romStart d), w') /\
    page_programmed (pageAddr d) out (fst w) (fst w').
Proof.
  intros HL HSM Hi HN Hpad Hlen Hob Hbtf Hal Hap Htop.
  pose proof HL as (K1 & K2 & K3 & K4 & _). unfold small_flash in HSM. pose proof (appFirst_bounds L) as AB.
  destruct (firstn_pad out) as [P1 P2]; [lia|].
  assert (EC : content (fst w) (pageAddr d) (pageAddr d + 255) = bytes_at (fst w) (pageAddr d) 256).
  { unfold content, bytes_at. do 3 f_equal. lia. }
  unfold pageCompletedDoFlash. destruct (Z.ltb_spec (flash_top L) (pageAddr d + 256)); [lia|].
  rewrite EC, Hbtf, Nat2Z.id, Hpad, P1. set (z := repeat 0 256) in *.
  destruct (list_eq_dec Z.eq_dec (bytes_at (fst w) (pageAddr d) (Z.of_nat (length out))) out) as [EQ|NE].
  - exists w. split; [reflexivity|]. apply holds_bytes in EQ. split; [auto|tauto].
  - destruct (erasePageRange L (flashPageNumber d) (flashPageNumber d) w) as [r1 w1] eqn:E1.
    assert (EP : flashPageNumber d = pageAddr d / 256) by (unfold flashPageNumber; apply u8_id; red; zd).
    rewrite EP in E1. apply erase_pages in E1; auto; try zd.
    destruct E1 as [A1 A2 A3 A4]. destruct (A4 HN) as [-> A5].
    destruct (executeProgramFlash L (pageAddr d) (at_ (wr_range z 0 out)) 256 false w1) as [r2 w2] eqn:E2.
    apply exec_spec in E2; auto; try lia. 2:{ left; auto. }
    destruct E2 as (B1 & B2 & _ & _ & B5). destruct (B5 A5) as [_ B6].
    assert (r2 = 0x7f) as ->.
    { apply B6.
      - intros x Hx. apply A2; auto. zd.
      - intros j. apply at_byte. apply Forall_wr_range; auto. apply Forall_repeat_. red; lia. }
    exists w2. split; [reflexivity|]. rewrite <- holds_bytes in NE. split; [tauto|]. intros _ x.
    destruct (Z.leb_spec (pageAddr d) x), (Z.ltb_spec x (pageAddr d + 256)); cbn [andb].
    + rewrite B2 by (auto; lia). unfold at_. apply P2.
    + rewrite B1 by lia. apply A1. zd.
    + rewrite B1 by lia. apply A1. zd.
    + rewrite B1 by lia. apply A1. zd.
Qed.
Lemma program_page L e cs s d out : layout_ok L -> small_flash L -> inv L s -> env_ok e -> no_failure e -> unlocked s = true ->
  dec s = d -> dst_ d = EXPECT_COMMAND_BYTE -> scratchpad d = wr_range (repeat 0 256) 0 out -> (1 <= length out <= 256)%nat ->
  bytesToFlash d = Z.of_nat (length out) -> pageAddr d mod 256 = 0 -> appFirst L <= pageAddr d -> pageAddr d + 256 <= flash_top L ->
  length cs = 4%nat -> Forall is_byte cs -> is_crc32 out (num32 cs) ->
  exists s', handle L e (0xeb :: cs) s = Some (s', error_reply 0x7f) /\
    page_programmed (pageAddr d) out (fl s) (fl s') /\
    at_page L (romStart d) (pageAddr d + 256) (skipn 256 (oldPages d) ++ content (fl s) (pageAddr d) (pageAddr d + 255)) s'.
Proof.
  intros HL HSM I HE HN HU Hd Hst Hpad Hlen Hbtf Hal Hap Htop Hcl Hcs Hcrc. pose proof HE as [He Hb].
  pose proof HL as (K1 & K2 & K3 & K4 & _). pose proof (appFirst_bounds L) as AB.
  destruct (firstn_pad out) as [P1 P2]; [lia|].
  assert (Hob : Forall is_byte out).
  { rewrite <- P1, <- Hpad. apply Forall_firstn. subst d. apply (i_dec _ _ I). }
  pose proof (handle_step L (e, 0xeb :: cs)) as ST.
  pose proof (handle_unlocked L e 235 cs s 4 4) as EH.
  change (dispatch L e 235 cs s) with (updProgramDecompressed L e cs s) in EH. unfold updProgramDecompressed in EH.
  rewrite Hd in EH.
  assert (EA : addressAllowedToProgram L (pageAddr d) (bytesToFlash d) false = true).
  { unfold addressAllowedToProgram. rewrite aligned_256, Hal. cbn. destruct (Z.eqb_spec (bytesToFlash d) 0); [lia|].
    unfold flashLast. rewrite u32_id by (red; lia). lia. }
  rewrite EA in EH. cbn [negb] in EH.
  assert (EC : decCrc32 d = le32 (at_ cs) 0).
  { unfold decCrc32. rewrite Hbtf, Nat2Z.id, Hpad, P1. rewrite le32_0 by auto. apply crc32_iff; auto. apply num32_u32; auto. }
  rewrite EC, Z.eqb_refl in EH. cbn [negb] in EH.
  destruct (complete_page L d (fl s, e_iap e) out) as (w' & E & PP); auto. rewrite E in EH. cbn [fst] in *.
  set (z := repeat 0 256) in *.
  assert (EH' := EH ltac:(red; lia) HU eq_refl ltac:(lia)). clear EH.
  eexists. split; [exact EH'|]. split; [exact PP|].
  constructor; cbn [dec unlocked dst_ bytesToFlash scratchpad oldPages pageAddr romStart]; auto.
  refine (st_inv _ _ _ _ _ (ST s _ _ HL _ I EH')). split; auto. constructor; auto. red; lia.
Qed.

(** ** The whole download *)
Lemma run_app L h1 : forall s h2, run L s (h1 ++ h2) =
  match run L s h1 with
  | None => None
  | Some (s1, t1) => match run L s1 h2 with None => None | Some (s2, t2) => Some (s2, t1 ++ t2) end
  end.
Proof.
  induction h1 as [|[e m] h1 IH]; intros s h2; cbn [run app].
  - destruct (run L s h2) as [[? ?]|]; reflexivity.
  - destruct (handle L e m s) as [[s1 r]|]; auto. rewrite IH. destruct (run L s1 h1) as [[s2 t2]|]; auto.
    destruct (run L s2 h2) as [[s3 t3]|]; auto.
Qed.
Lemma run_keeps L h s s' t : layout_ok L -> Forall event_ok h -> inv L s -> run L s h = Some (s', t) -> inv L s'.
Proof.
  intros HL. revert s t. induction h as [|[e m] h IH]; intros s t Hh I; cbn [run].
  - intros [= <- <-]. auto.
  - inversion Hh as [|? ? He Hh']; subst. destruct (handle L e m s) as [[s1 r]|] eqn:E; [|discriminate].
    pose proof (handle_step L (e, m) s s1 r HL He I E) as [S1 _ _].
    destruct (run L s1 h) as [[s2 t2]|] eqn:E2; [|discriminate]. intros [= <- <-]. eauto.
Qed.
Lemma expand_ext (g g' : Z -> Z) old ps : (forall o, g o = g' o) -> expand g old ps = expand g' old ps.
Proof.
  intros H. unfold expand. induction ps as [|p ps IH]; cbn [flat_map]; auto. f_equal; auto.
  destruct p; cbn [bytes_of]; auto. apply map_ext. auto.
Qed.
Lemma content_ext f g a b : (forall x, f x = g x) -> content f a b = content g a b.
Proof. intros H. apply map_ext. auto. Qed.
Lemma holds_dec f a out : holds f a out \/ ~ holds f a out.
Proof. rewrite holds_bytes. destruct (list_eq_dec Z.eq_dec (bytes_at f a (Z.of_nat (length out))) out); auto. Qed.
Lemma programmed_fun a out f g f' g' : (forall x, f x = g x) -> page_programmed a out f f' -> page_programmed a out g g' ->
  forall x, f' x = g' x.
Proof.
  intros H [A1 A2] [B1 B2] x.
  assert (HH : holds f a out <-> holds g a out).
  { split; intros W i Hi; specialize (W i Hi); rewrite <- W; rewrite H || rewrite <- H; auto. }
  destruct (holds_dec f a out) as [Y|N].
  - rewrite A1, B1 by tauto. auto.
  - rewrite A2, B2 by tauto. destruct (_ && _); auto.
Qed.
Lemma patch_chain L rom a old f pages f'' : layout_ok L -> small_flash L -> patches (flash_top L) rom a old f pages f'' ->
  forall s h, at_page L rom a old s -> (forall x, fl s x = f x) -> a mod 256 = 0 -> appFirst L <= a ->
  map snd h = flat_map messages pages -> Forall (fun x => env_ok (fst x) /\ no_failure (fst x)) h ->
  exists s' talk, run L s h = Some (s', talk) /\ Forall (fun x => snd x = error_reply 0x7f) talk /\ (forall x, fl s' x = f'' x).
Proof.
  intros HL HSM HP. induction HP as [a old f f' Hf|a old f p ps f' f'' out He Ht Hin Hlen Htop Hcl Hcs Hcrc Hpp HP IH];
    intros s h AP Hfl Hal Hap Hh Hev.
  - destruct h; [|discriminate]. exists s, []. cbn. split; auto. split; [constructor|]. intros x. rewrite Hf. auto.
  - cbn [flat_map] in Hh. unfold messages in Hh. rewrite <- app_assoc in Hh.
    apply map_eq_app in Hh. destruct Hh as (h1 & h2 & -> & E1 & E2).
    destruct h2 as [|[e m] h2]; [discriminate|]. cbn [map app snd] in E2. injection E2 as -> E2.
    apply Forall_app in Hev. destruct Hev as [Hev1 Hev2]. inversion Hev2 as [|? ? [Hee Hen] Hev3]; subst. cbn [fst] in *.
    set (es := map (fun x : env * list Z => (fst x, tl (snd x))) h1).
    assert (Ees : map (fun x => snd x) es = telegrams p).
    { unfold es. rewrite map_map. cbn [snd]. rewrite <- (map_map snd (@tl Z)), E1, map_map. apply map_id. }
    assert (Eh1 : map (fun x => (fst x, 0xec :: snd x)) es = h1).
    { unfold es. rewrite map_map. cbn [fst snd]. clear - E1. revert E1. generalize (telegrams p).
      induction h1 as [|[e m] h1 IH]; intros [|t ts]; cbn [map]; auto; try discriminate. intros [= -> E]. cbn. f_equal. eauto. }
    destruct AP as [A1 A2 A3 A4 A5 A6 A7 A8].
    destruct (i_dec _ _ A1) as (D1 & D2 & D3 & _).
    assert (Eout : expand (fun o => fl s (romStart (dec s) + o)) (oldPages (dec s)) (pieces p) = out).
    { unfold out. rewrite A6, A8. apply expand_ext. auto. }
    destruct (feed_pieces L (fl s) (pieces p) _ He (dec s)) as (d' & EP & FD); auto; try congruence; try lia.
    { rewrite Eout. lia. }
    destruct (feed_telegrams L es s d' A2) as (talk1 & R1 & T1).
    { rewrite Ees. exact EP. }
    { apply Forall_map with (f := snd) (P := fun t => (1 <= length t <= 254)%nat). 
      change (map snd es) with (map (fun x => snd x) es). rewrite Ees. eapply Forall_impl; [|exact Ht]. intros t [Q _]. exact Q. }
    rewrite Eh1 in R1. rewrite Eout in FD. destruct FD as [F1 F2 F3 F4 F5 F6 F7].
    assert (I1 : inv L (set_dec d' s)).
    { eapply run_keeps; [exact HL| |exact A1|exact R1]. rewrite <- Eh1. apply Forall_map. apply Forall_forall. intros [e0 t0] Hx.
      split; cbn [fst snd].
      - rewrite Forall_forall in Hev1. unfold es in Hx. apply in_map_iff in Hx. destruct Hx as (y & [= <- <-] & Hy).
        apply (Hev1 _ Hy).
      - constructor; [red; lia|]. rewrite Forall_forall in Ht. apply (Ht t0). rewrite <- Ees. apply (in_map snd _ _ Hx). }
    destruct (program_page L e (checksum p) (set_dec d' s) d' out) as (s2 & EH & PP & AP2); auto; try congruence; try lia.
    { rewrite F3, A4, A5. reflexivity. }
    cbn [fl set_dec] in *. rewrite F5, F6, F7, A6, A7, A8 in *.
    rewrite (content_ext (fl s) f) in AP2 by auto.
    destruct (IH s2 h2) as (s3 & talk3 & R3 & T3 & E3); auto; try lia.
    { eapply programmed_fun; [|exact PP|exact Hpp]. auto. }
    { rewrite Z.add_mod, Hal by lia. reflexivity. }
    exists s3. eexists. split; [|split; [|exact E3]].
    + rewrite run_app, R1. cbn [run]. rewrite EH, R3. reflexivity.
    + apply Forall_app. split; auto.
Qed.

(** ** Messages outside a difference download leave the decompressor alone *)
Lemma dec_same L e m s s' r : Forall is_byte m -> ~ diff_message m -> handle L e m s = Some (s', r) -> dec s' = dec s.
Proof.
  intros Hm HD. destruct m as [|c d]. { cbn. intros [= <- <-]. auto. }
  inversion Hm; subst. rewrite handle_eq by auto. destruct (data_length c) as [[lo hi]|]; [|intros [= <- <-]; auto].
  cbv zeta. destruct ((_ <? lo) || _); [intros [= <- <-]; auto|]. destruct (negb (unlocked s) && _); [intros [= <- <-]; auto|].
  unfold diff_message in HD. cbn [hd] in HD.
  unfold dispatch.
  destruct (c =? 191). { unfold updUnlockDevice. destruct (negb _); [intros [= <- <-]; auto|].
    destruct (list_eq_dec _ _ _); [intros [= <- <-]; auto|]. destruct (list_eq_dec _ _ _); intros [= <- <-]; auto. }
  destruct (c =? 190); [intros [= <- <-]; auto|]. destruct (c =? 188); [intros [= <- <-]; auto|].
  destruct (c =? 239). { unfold updSendData. destruct (_ <? _); intros [= <- <-]; auto. }
  destruct (c =? 238).
  { unfold updProgram. cbv zeta.
    destruct (negb (addressAllowedToProgram _ _ _ _)); [intros [= <- <-]; auto|].
    destruct (bufferSize <? _); [intros [= <- <-]; auto|]. destruct (_ <? pos s); [intros [= <- <-]; auto|].
    destruct (pos s <? _); [intros [= <- <-]; auto|]. destruct (negb (_ =? _)); [intros [= <- <-]; auto|].
    destruct (progOuter _ _ _ _ _) as [?|]; [intros [= <- <-]; auto|discriminate]. }
  destruct (Z.eqb_spec c 236); [tauto|]. destruct (Z.eqb_spec c 235); [tauto|].
  destruct (c =? 234). { unfold updEraseFullFlash. destruct (eraseFullFlash _ _) as [? ?]. intros [= <- <-]; auto. }
  destruct (c =? 233). { unfold updEraseAddressRange. cbv zeta. destruct (eraseAddressRange _ _ _ _ _) as [? ?]. intros [= <- <-]; auto. }
  destruct (c =? 231); [intros [= <- <-]; auto|]. destruct (c =? 223); [intros [= <- <-]; auto|].
  destruct (c =? 237).
  { unfold updUpdateBootDescriptorBlock. cbv zeta.
    destruct (bufferSize <? _); [intros [= <- <-]; auto|]. destruct (negb (crc32 _ _ =? _)); [intros [= <- <-]; auto|].
    destruct (list_eq_dec _ _ _); [intros [= <- <-]; auto|]. destruct (erasePageRange _ _ _ _) as [? ?].
    destruct (negb (_ =? _)); [intros [= <- <-]; auto|]. destruct (executeProgramFlash _ _ _ _ _ _) as [? ?].
    destruct (_ =? _); intros [= <- <-]; auto. }
  destruct (c =? 186). { unfold udpRequestBootDescriptionBlock. cbv zeta. intros [= <- <-]; auto. }
  destruct (c =? 184). { unfold updRequestBootloaderIdentity. destruct (_ || _); intros [= <- <-]; auto. }
  destruct (c =? 232); intros [= <- <-]; auto.
Qed.
Lemma dec_same_run L h : forall s s' t, Forall event_ok h -> Forall (fun x => ~ diff_message (snd x)) h ->
  run L s h = Some (s', t) -> dec s' = dec s.
Proof.
  induction h as [|[e m] h IH]; intros s s' t Hh Hd; cbn [run].
  - intros [= <- <-]. auto.
  - inversion Hh as [|? ? [_ He] Hh']; inversion Hd; subst. cbn [snd] in *. destruct (handle L e m s) as [[s1 r]|] eqn:E; [|discriminate].
    apply dec_same in E; auto. destruct (run L s1 h) as [[s2 t2]|] eqn:E2; [|discriminate]. intros [= <- <-].
    apply IH in E2; auto. congruence.
Qed.
Lemma firmware_start L f rom : layout_ok L -> flash_ok f -> firmware_at L f rom -> getFirmwareStartAddress L f = rom.
Proof.
  intros HL Hf H. unfold getFirmwareStartAddress. pose proof (check_startable L f HL Hf) as C.
  destruct H as [[S ->]|[S ->]].
  - rewrite (proj2 C S). rewrite le32_word by (intros; apply Hf). unfold desc_start, word_at, descriptor, bootDescAddr. repeat (f_equal; try lia).
  - destruct (checkApplication _ _ _); auto. tauto.
Qed.

(** C42 *)
Lemma whole_download L f0 rom h0 s0 talk0 e u h pages f' : layout_ok L -> small_flash L -> flash_ok f0 ->
  firmware_at L f0 rom -> rom mod 256 = 0 ->
  Forall event_ok h0 -> Forall (fun x => ~ diff_message (snd x)) h0 -> run L (updInit L f0) h0 = Some (s0, talk0) ->
  env_ok e -> msg_ok u -> correct_unlock L u ->
  patches (flash_top L) rom rom (repeat 0 512) (fl s0) pages f' ->
  map snd h = flat_map messages pages -> Forall (fun x => env_ok (fst x) /\ no_failure (fst x)) h ->
  exists s talk, run L (updInit L f0) (h0 ++ (e, u) :: h) = Some (s, talk0 ++ talk) /\
    Forall (fun x => snd x = error_reply 0x7f) talk /\ (forall x, fl s x = f' x).
Proof.
  intros HL HSM Hf HR Hal Hh0 Hd0 E0 He Hu HC HP Hh Hev.
  assert (I0 : inv L s0) by exact (run_keeps L h0 (updInit L f0) s0 talk0 HL Hh0 (init_inv L f0 HL Hf) E0).
  destruct (unlock_works L e u s0 HL Hu HC) as (s1 & E1 & U1 & F1).
  pose proof (handle_step L (e, u) s0 s1 _ HL (conj He Hu) I0 E1) as [I1 _ _].
  assert (D1 : dec s1 = decInit rom).
  { rewrite <- (firmware_start L f0 rom) by auto. change (decInit (getFirmwareStartAddress L f0)) with (dec (updInit L f0)).
    apply dec_same in E1; auto. 2:{ destruct HC as (k & -> & _). unfold diff_message. cbn. lia. }
    rewrite E1. eapply dec_same_run; eauto. }
  rewrite <- F1 in HP.
  destruct (patch_chain L rom rom (repeat 0 512) (fl s1) pages f' HL HSM HP s1 h) as (s & talk & R & T & FF); auto.
  { constructor; auto; rewrite D1; reflexivity. }
  { destruct HR as [[S ->]|[_ ->]]; [apply S|lia]. }
  exists s. eexists. split; [|split; [|exact FF]].
  - rewrite run_app, E0. cbn [run]. rewrite E1, R. reflexivity.
  - constructor; auto.
Qed.
