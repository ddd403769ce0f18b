From Verif Require Import Base Bits CRC_Model CRC_Spec.

(** ** Shift register on bit lists *)
Definition xor2 (a b : list bool) : list bool := map (fun p => xorb (fst p) (snd p)) (combine a b).
Definition lstep (g r : list bool) (b : bool) : list bool :=
  match r with
  | [] => []
  | r0 :: rt => if xorb r0 b then xor2 (rt ++ [false]) g else rt ++ [false]
  end.

Lemma xor2_length a b : length (xor2 a b) = Nat.min (length a) (length b).
Proof. unfold xor2. rewrite map_length, combine_length. auto. Qed.
Lemma lstep_length g r b : length g = length r -> length (lstep g r b) = length r.
Proof.
  intros L. destruct r; simpl in *; auto. destruct (xorb _ _); rewrite ?xor2_length, ?app_length; simpl; lia.
Qed.
Lemma lsteps_length g m : forall r, length g = length r -> length (fold_left (lstep g) m r) = length r.
Proof. induction m; intros; simpl; auto. rewrite IHm; rewrite lstep_length; auto. Qed.

Lemma add_front_xor2 m a b : length a = length b -> add_front m (xor2 a b) = add_front (add_front m a) b.
Proof.
  revert a b. induction m as [|x m IH]; intros [|a0 a] [|b0 b] L; simpl in *; try lia; auto.
  unfold xor2 in *. simpl. rewrite IH by lia. f_equal. apply xorb_assoc_reverse || (destruct x, a0, b0; auto).
Qed.
Lemma add_front_app_false m a : add_front m (a ++ [false]) = add_front m a.
Proof.
  revert a. induction m as [|x m IH]; intros [|a0 a]; simpl; auto.
  - rewrite xorb_false_r. destruct m; auto.
  - rewrite IH. auto.
Qed.

Lemma add_front_length m a : length (add_front m a) = length m.
Proof. revert a; induction m; intros [|]; simpl; auto. Qed.

Lemma division_lfsr g : forall msg r, length r = length g -> (0 < length g)%nat ->
  long_division g (length msg) (add_front (msg ++ zeros (length g)) r) = add_front (zeros (length g)) (fold_left (lstep g) msg r).
Proof.
  induction msg as [|b msg IH]; intros r L P; simpl; auto.
  destruct r as [|r0 rt]; simpl in *; [lia|].
  rewrite <- IH; auto.
  2:{ destruct (xorb r0 b); rewrite ?xor2_length, ?app_length; simpl; lia. }
  f_equal. rewrite (xorb_comm b r0). destruct (xorb r0 b).
  - rewrite add_front_xor2 by (rewrite app_length; simpl; lia). rewrite add_front_app_false. auto.
  - rewrite add_front_app_false. auto.
Qed.
Lemma add_front_zeros n r : length r = n -> add_front (zeros n) r = r.
Proof. revert r; induction n; intros [|] L; simpl in *; try lia; auto. f_equal; [destruct b; auto | apply IHn; lia]. Qed.

Lemma crc_poly_lfsr g init msg : length init = length g -> (0 < length g)%nat ->
  crc_poly g init msg = fold_left (lstep g) msg init.
Proof.
  intros L P. unfold crc_poly. rewrite division_lfsr by auto. apply add_front_zeros.
  rewrite lsteps_length; lia.
Qed.

(** ** Bursts *)
Lemma last_snoc (l : list bool) x d : List.last (l ++ [x]) d = x.
Proof. apply last_last. Qed.
Lemma xor2_last a b d : length a = length b -> a <> [] -> List.last (xor2 a b) (xorb d d) = xorb (List.last a d) (List.last b d).
Proof.
  revert b. induction a as [|x a IH]; intros [|y b] L N; simpl in *; try lia; try congruence.
  unfold xor2 in *. simpl. destruct a as [|x' a], b as [|y' b]; simpl in *; try lia; auto.
  apply (IH (y' :: b)); [simpl; lia|congruence].
Qed.
Definition fbit (r : list bool) (b : bool) : bool := match r with [] => false | r0 :: _ => xorb r0 b end.

Lemma lstep_last g r b : length g = length r -> r <> [] -> List.last g false = true -> List.last (lstep g r b) false = fbit r b.
Proof.
  intros L N G. destruct r as [|r0 rt]; [congruence|]. simpl. destruct (xorb r0 b).
  - change false with (xorb false false) at 2. rewrite xor2_last.
    + rewrite last_snoc, G. auto.
    + rewrite app_length. simpl in *. lia.
    + destruct rt; simpl; congruence.
  - apply last_snoc.
Qed.
Lemma xor2_cancel a a' b : length a = length b -> length a' = length b -> xor2 a b = xor2 a' b -> a = a'.
Proof.
  revert a' b. induction a as [|x a IH]; intros [|x' a'] [|y b] L L' H; simpl in *; try lia; auto.
  unfold xor2 in *. simpl in H. inversion H. f_equal.
  - destruct x, x', y; auto.
  - apply (IH a' b); [lia|lia|auto].
Qed.
Lemma skipn_xor2 k a b : skipn k (xor2 a b) = xor2 (skipn k a) (skipn k b).
Proof.
  unfold xor2. revert a b. induction k; intros a b; simpl; auto. destruct a, b; simpl; auto.
  rewrite combine_nil. destruct (skipn k a); auto.
Qed.
Lemma skipn_last (l : list bool) k d : (k < length l)%nat -> List.last (skipn k l) d = List.last l d.
Proof.
  revert k; induction l as [|x l IH]; intros [|k] H; simpl in *; auto; try lia.
  rewrite IH by lia. destruct l; simpl in *; auto; lia.
Qed.

(** registers that agree from position k on after a step agree from k+1 on before it, and fed back the same bit *)
Lemma step_back g r1 r2 b1 b2 k : length r1 = length g -> length r2 = length g -> List.last g false = true ->
  (k < length g)%nat -> skipn k (lstep g r1 b1) = skipn k (lstep g r2 b2) ->
  fbit r1 b1 = fbit r2 b2 /\ skipn (S k) r1 = skipn (S k) r2.
Proof.
  intros L1 L2 G K H.
  assert (N1 : r1 <> []) by (destruct r1; simpl in *; [lia|congruence]).
  assert (N2 : r2 <> []) by (destruct r2; simpl in *; [lia|congruence]).
  assert (F : fbit r1 b1 = fbit r2 b2).
  { rewrite <- (lstep_last g r1 b1), <- (lstep_last g r2 b2) by auto.
    rewrite <- (skipn_last (lstep g r1 b1) k), <- (skipn_last (lstep g r2 b2) k) by (rewrite lstep_length; lia).
    rewrite H. auto. }
  split; auto. destruct r1 as [|x1 t1], r2 as [|x2 t2]; try congruence. simpl in *.
  rewrite F in H.
  assert (E : skipn k (t1 ++ [false]) = skipn k (t2 ++ [false])).
  { destruct (xorb x2 b2); auto. rewrite !skipn_xor2 in H. eapply xor2_cancel; [..|exact H];
      rewrite !skipn_length, app_length; simpl; lia. }
  rewrite !skipn_app in E. replace (k - length t1)%nat with 0%nat in E by lia. replace (k - length t2)%nat with 0%nat in E by lia.
  simpl in E. apply app_inj_tail in E. apply E.
Qed.

Lemma lstep_inj g r1 r2 b : length r1 = length g -> length r2 = length g -> List.last g false = true -> (0 < length g)%nat ->
  lstep g r1 b = lstep g r2 b -> r1 = r2.
Proof.
  intros L1 L2 G K H. destruct (step_back g r1 r2 b b 0 L1 L2 G K H) as [F S].
  destruct r1 as [|x1 t1], r2 as [|x2 t2]; simpl in *; try lia. rewrite S. f_equal. destruct x1, x2, b; simpl in *; congruence.
Qed.
Lemma lsteps_inj g m : forall r1 r2, length r1 = length g -> length r2 = length g -> List.last g false = true -> (0 < length g)%nat ->
  fold_left (lstep g) m r1 = fold_left (lstep g) m r2 -> r1 = r2.
Proof.
  induction m as [|b m IH]; intros r1 r2 L1 L2 G K H; simpl in H; auto.
  apply lstep_inj with g b; auto. apply IH; auto; rewrite lstep_length; auto.
Qed.

(** the sequence of fed back bits *)
Fixpoint fbits (g r m : list bool) : list bool :=
  match m with [] => [] | b :: m' => fbit r b :: fbits g (lstep g r b) m' end.
Lemma fbits_inj g : forall m1 m2 r, length m1 = length m2 -> length r = length g -> (0 < length g)%nat ->
  fbits g r m1 = fbits g r m2 -> m1 = m2.
Proof.
  induction m1 as [|b1 m1 IH]; intros [|b2 m2] r L LR P H; simpl in *; try lia; auto.
  inversion H. assert (b1 = b2) as ->. { destruct r as [|x r]; simpl in *; [lia|]. destruct x, b1, b2; simpl in *; congruence. }
  f_equal. apply (IH m2 (lstep g r b2)); [lia|rewrite lstep_length; lia|lia|auto].
Qed.
Lemma window_back g : forall m1 m2 r1 r2 k, length m1 = length m2 -> length r1 = length g -> length r2 = length g ->
  List.last g false = true -> (0 < length g)%nat -> (k + length m1 <= length g)%nat ->
  skipn k (fold_left (lstep g) m1 r1) = skipn k (fold_left (lstep g) m2 r2) ->
  fbits g r1 m1 = fbits g r2 m2 /\ skipn (k + length m1) r1 = skipn (k + length m1) r2.
Proof.
  induction m1 as [|b1 m1 IH]; intros [|b2 m2] r1 r2 k L L1 L2 G P K H; simpl in *; try lia.
  - rewrite Nat.add_0_r. auto.
  - destruct (IH m2 (lstep g r1 b1) (lstep g r2 b2) k) as [F S]; auto; try (rewrite lstep_length; auto; fail); try lia.
    destruct (step_back g r1 r2 b1 b2 (k + length m1)) as [F1 S1]; auto; try lia.
    rewrite F, F1. split; auto. replace (k + Datatypes.S (length m1))%nat with (Datatypes.S (k + length m1))%nat by lia. auto.
Qed.

Lemma burst_detected g init a b : length init = length g -> List.last g false = true -> (0 < length g)%nat ->
  burst (length g) a b -> crc_poly g init a <> crc_poly g init b.
Proof.
  intros L G P (p & x & y & q & -> & -> & LX & LW & NE) H. rewrite !crc_poly_lfsr in H by auto.
  rewrite !fold_left_app in H. set (r := fold_left (lstep g) p init) in *.
  assert (LR : length r = length g) by (unfold r; rewrite lsteps_length; auto).
  apply lsteps_inj in H; auto; try (rewrite lsteps_length; auto; fail).
  apply NE. destruct (window_back g x y r r 0 LX LR LR G P LW H) as [F _].
  apply (fbits_inj g x y r); auto.
Qed.

(** ** Registers held in integers *)
Lemma bits_lsb_length w z : length (bits_lsb w z) = w.
Proof. unfold bits_lsb. rewrite map_length, seq_length. auto. Qed.
Lemma bits_msb_length w z : length (bits_msb w z) = w.
Proof. unfold bits_msb. rewrite rev_length. apply bits_lsb_length. Qed.
Lemma bits_lsb_S w z : bits_lsb (S w) z = Z.testbit z 0 :: bits_lsb w (Z.shiftr z 1).
Proof.
  unfold bits_lsb. simpl. f_equal. rewrite <- seq_shift, map_map. apply map_ext. intros i.
  rewrite Z.shiftr_spec by lia. f_equal. lia.
Qed.
Lemma bits_lsb_xor w a b : bits_lsb w (Z.lxor a b) = xor2 (bits_lsb w a) (bits_lsb w b).
Proof.
  unfold bits_lsb, xor2. induction (seq 0 w); simpl; auto. rewrite IHl, Z.lxor_spec. auto.
Qed.
Lemma bits_lsb_snoc w z : bits_lsb (S w) z = bits_lsb w z ++ [Z.testbit z (Z.of_nat w)].
Proof. unfold bits_lsb. rewrite seq_S, map_app. auto. Qed.
Lemma bits_inj w a b : 0 <= a < 2 ^ Z.of_nat w -> 0 <= b < 2 ^ Z.of_nat w -> bits_lsb w a = bits_lsb w b -> a = b.
Proof.
  intros Ha Hb H. apply Z.bits_inj'. intros n Hn. destruct (Z.lt_ge_cases n (Z.of_nat w)).
  - apply (f_equal (fun l => nth (Z.to_nat n) l false)) in H. unfold bits_lsb in H.
    assert (X : forall z, nth (Z.to_nat n) (map (fun i => Z.testbit z (Z.of_nat i)) (seq 0 w)) false = Z.testbit z n).
    { intros z. rewrite nth_indep with (d' := Z.testbit z (Z.of_nat 0)) by (rewrite map_length, seq_length; lia).
      rewrite (map_nth (fun i => Z.testbit z (Z.of_nat i))), seq_nth by lia. f_equal. lia. }
    rewrite !X in H. auto.
  - rewrite !(bits_above_lt _ (Z.of_nat w)) by lia. auto.
Qed.

(** reflected register: one step on integers *)
Definition zstep (poly z : Z) (b : bool) : Z :=
  if xorb (Z.testbit z 0) b then Z.lxor (Z.shiftr z 1) poly else Z.shiftr z 1.
Lemma zstep_bits w poly z b : 0 <= z < 2 ^ Z.of_nat w -> (0 < w)%nat ->
  bits_lsb w (zstep poly z b) = lstep (bits_lsb w poly) (bits_lsb w z) b.
Proof.
  intros Hz P. destruct w as [|w]; [lia|]. rewrite (bits_lsb_S w z). simpl lstep.
  assert (E : bits_lsb (S w) (Z.shiftr z 1) = bits_lsb w (Z.shiftr z 1) ++ [false]).
  { rewrite bits_lsb_snoc. f_equal. f_equal. rewrite Z.shiftr_spec by lia. apply (bits_above_lt _ (Z.of_nat (S w))); lia. }
  unfold zstep. destruct (xorb _ b).
  - rewrite bits_lsb_xor, E. auto.
  - auto.
Qed.
Lemma shiftr1_range z w : 0 <= z < 2 ^ w -> 0 < w -> 0 <= Z.shiftr z 1 < 2 ^ w.
Proof. intros. rewrite Z.shiftr_div_pow2 by lia. change (2^1) with 2. split. apply Z.div_pos; lia. apply Z.div_lt_upper_bound; lia. Qed.
Lemma zstep_range w poly z b : 0 <= z < 2 ^ w -> 0 <= poly < 2 ^ w -> 0 < w -> 0 <= zstep poly z b < 2 ^ w.
Proof.
  intros. unfold zstep. pose proof (shiftr1_range z w). destruct (xorb _ _); auto. apply lxor_lt_pow2; auto. lia.
Qed.
Lemma zsteps_range w poly m : forall z, 0 <= z < 2 ^ w -> 0 <= poly < 2 ^ w -> 0 < w -> 0 <= fold_left (zstep poly) m z < 2 ^ w.
Proof. induction m; intros; simpl; auto. apply IHm; auto. apply zstep_range; auto. Qed.
Lemma zsteps_bits w poly m : forall z, 0 <= z < 2 ^ Z.of_nat w -> 0 <= poly < 2 ^ Z.of_nat w -> (0 < w)%nat ->
  bits_lsb w (fold_left (zstep poly) m z) = fold_left (lstep (bits_lsb w poly)) m (bits_lsb w z).
Proof.
  induction m as [|b m IH]; intros; simpl; auto. rewrite IH; auto. rewrite zstep_bits; auto. apply zstep_range; auto. lia.
Qed.

(** feeding the bits of a byte = xor the byte, then zeros *)
Lemma zstep_even poly a r b : zstep poly (Z.lxor a (Z.shiftl r 1)) b = Z.lxor (zstep poly a b) r.
Proof.
  unfold zstep. rewrite Z.lxor_spec, Z.shiftl_spec_low by lia. rewrite xorb_false_r.
  rewrite Z.shiftr_lxor, Z.shiftr_shiftl_l by lia. change (1 - 1) with 0. rewrite Z.shiftl_0_r.
  destruct (xorb _ b); auto. rewrite !Z.lxor_assoc. f_equal. apply Z.lxor_comm.
Qed.
Lemma zstep_bit poly z b : zstep poly z b = zstep poly (Z.lxor z (Z.b2z b)) false.
Proof.
  unfold zstep. rewrite Z.lxor_spec. rewrite xorb_false_r.
  assert (Z.testbit (Z.b2z b) 0 = b) as -> by (destruct b; auto).
  rewrite Z.shiftr_lxor. assert (Z.shiftr (Z.b2z b) 1 = 0) as -> by (destruct b; auto). rewrite Z.lxor_0_r. auto.
Qed.
Definition zz (poly : Z) (n : nat) (z : Z) : Z := fold_left (zstep poly) (repeat false n) z.
Lemma split_low z : z = Z.lxor (Z.b2z (Z.testbit z 0)) (Z.shiftl (Z.shiftr z 1) 1).
Proof.
  apply Z.bits_inj'. intros n Hn. rewrite Z.lxor_spec. destruct (Z.eq_dec n 0) as [->|].
  - rewrite Z.shiftl_spec_low by lia. rewrite xorb_false_r. destruct (Z.testbit z 0); auto.
  - rewrite Z.shiftl_spec by lia. rewrite Z.shiftr_spec by lia. replace (n - 1 + 1) with n by lia.
    assert (Z.testbit (Z.b2z (Z.testbit z 0)) n = false) as ->.
    { destruct (Z.testbit z 0). simpl. apply (bits_above_lt 1 1); lia. apply Z.bits_0. }
    destruct (Z.testbit z n); auto.
Qed.
Lemma zsteps_byte poly : forall n z x, 0 <= x < 2 ^ Z.of_nat n ->
  fold_left (zstep poly) (bits_lsb n x) z = zz poly n (Z.lxor z x).
Proof.
  induction n as [|n IH]; intros z x Hx.
  - assert (x = 0) as -> by (change (2 ^ Z.of_nat 0) with 1 in Hx; lia). rewrite Z.lxor_0_r. reflexivity.
  - rewrite bits_lsb_S. simpl. rewrite IH.
    2:{ rewrite Z.shiftr_div_pow2 by lia. change (2^1) with 2. rewrite Nat2Z.inj_succ, Z.pow_succ_r in Hx by lia.
        split; [apply Z.div_pos; lia|apply Z.div_lt_upper_bound; lia]. }
    unfold zz. simpl. f_equal. rewrite zstep_bit, <- zstep_even. f_equal. rewrite Z.lxor_assoc. f_equal. symmetry. apply split_low.
Qed.
Lemma zz_high poly : forall n a r, zz poly n (Z.lxor a (Z.shiftl r (Z.of_nat n))) = Z.lxor (zz poly n a) r.
Proof.
  induction n as [|n IH]; intros a r.
  - unfold zz. simpl. change (Z.of_nat 0) with 0. rewrite Z.shiftl_0_r. auto.
  - unfold zz in *. simpl.
    replace (Z.shiftl r (Z.of_nat (S n))) with (Z.shiftl (Z.shiftl r (Z.of_nat n)) 1).
    2:{ rewrite Z.shiftl_shiftl by lia. f_equal. lia. }
    rewrite zstep_even. apply IH.
Qed.
Lemma split8 z : z = Z.lxor (Z.land z 255) (Z.shiftl (Z.shiftr z 8) 8).
Proof.
  apply Z.bits_inj'. intros n Hn. rewrite Z.lxor_spec, Z.land_spec. change 255 with (Z.ones 8).
  destruct (Z.lt_ge_cases n 8).
  - rewrite Z.shiftl_spec_low, Z.ones_spec_low by lia. rewrite andb_true_r, xorb_false_r. auto.
  - rewrite Z.shiftl_spec, Z.shiftr_spec, Z.ones_spec_high by lia. rewrite andb_false_r, xorb_false_l. f_equal. lia.
Qed.
Lemma zz8 poly z : zz poly 8 z = Z.lxor (zz poly 8 (Z.land z 255)) (Z.shiftr z 8).
Proof. rewrite (split8 z) at 1. apply (zz_high poly 8). Qed.

(** ** CRC-32 *)
Lemma sh31_land crc n k : 0 <= n -> n + k = 31 -> 0 <= k -> sh31 crc n = - Z.b2z (Z.testbit crc k).
Proof.
  intros Hn E Hk. unfold sh31, s32. set (u := u32 (Z.shiftl crc n)).
  assert (U : 0 <= u < 2 ^ 32) by apply u32_u32.
  assert (B : Z.testbit u 31 = Z.testbit crc k).
  { unfold u, u32. change 4294967296 with (2 ^ 32). rewrite Z.mod_pow2_bits_low by lia. rewrite Z.shiftl_spec by lia. f_equal. lia. }
  rewrite <- B. rewrite Z.shiftr_div_pow2 by lia.
  assert (T : Z.b2z (Z.testbit u 31) = u / 2 ^ 31).
  { rewrite Z.testbit_spec' by lia. apply Z.mod_small. split. apply Z.div_pos; lia. apply Z.div_lt_upper_bound; lia. }
  rewrite T. change 2147483648 with (2 ^ 31). change 4294967296 with (2 * 2 ^ 31).
  destruct (Z.ltb_spec u (2 ^ 31)).
  - rewrite Z.div_small by lia. auto.
  - assert (u / 2 ^ 31 = 1). { symmetry. apply (Z.div_unique_pos u (2^31) 1 (u - 2^31)); lia. }
    rewrite H0. symmetry. apply (Z.div_unique_pos (u - 2 * 2 ^ 31) (2 ^ 31) (-1) (u - 2 ^ 31)); lia.
Qed.
Lemma land_mask b p : Z.land (- Z.b2z b) p = if b then p else 0.
Proof. destruct b. apply Z.land_m1_l. apply Z.land_0_l. Qed.
Lemma crc32Byte_split crc byte :
  crc32Byte crc byte = Z.lxor (crc32Byte (Z.land (Z.lxor crc byte) 255) 0) (Z.shiftr (Z.lxor crc byte) 8).
Proof.
  unfold crc32Byte. rewrite Z.lxor_0_r. set (z := Z.lxor crc byte).
  rewrite (sh31_land z 31 0), (sh31_land z 30 1), (sh31_land z 29 2), (sh31_land z 28 3), (sh31_land z 27 4), (sh31_land z 26 5),
    (sh31_land z 25 6), (sh31_land z 24 7) by lia.
  rewrite (sh31_land (Z.land z 255) 31 0), (sh31_land (Z.land z 255) 30 1), (sh31_land (Z.land z 255) 29 2), (sh31_land (Z.land z 255) 28 3),
    (sh31_land (Z.land z 255) 27 4), (sh31_land (Z.land z 255) 26 5), (sh31_land (Z.land z 255) 25 6), (sh31_land (Z.land z 255) 24 7) by lia.
  rewrite !Z.land_spec. change (Z.testbit 255 0) with true. change (Z.testbit 255 1) with true. change (Z.testbit 255 2) with true.
  change (Z.testbit 255 3) with true. change (Z.testbit 255 4) with true. change (Z.testbit 255 5) with true. change (Z.testbit 255 6) with true.
  change (Z.testbit 255 7) with true. rewrite !andb_true_r.
  assert (Z.shiftr (Z.land z 255) 8 = 0) as ->.
  { rewrite Z.shiftr_land. change (Z.shiftr 255 8) with 0. apply Z.land_0_r. }
  rewrite Z.lxor_0_l, Z.lxor_comm. auto.
Qed.
Lemma byte_land z : is_byte (Z.land z 255).
Proof. rewrite land_255. apply Z.mod_pos_bound. lia. Qed.
Lemma crc32Byte_ok crc byte : is_byte byte -> crc32Byte crc byte = fold_left (zstep 0xEDB88320) (bits_lsb 8 byte) crc.
Proof.
  intros B. rewrite zsteps_byte by (exact B). rewrite zz8, crc32Byte_split. f_equal.
  pose proof (byte_forall (fun l => crc32Byte l 0 =? zz 0xEDB88320 8 l) ltac:(vm_cast_no_check (eq_refl true)) _ (byte_land (Z.lxor crc byte))) as E.
  apply Z.eqb_eq in E. exact E.
Qed.
Lemma msg_fold f g (m : list Z) : (forall c b, is_byte b -> f c b = fold_left g (bits_lsb 8 b) c) -> Forall is_byte m ->
  forall c : Z, fold_left f m c = fold_left g (msg_lsb m) c.
Proof.
  intros E F. induction F as [|b m B F IH]; intros c; [reflexivity|]. 
  assert (X : msg_lsb (b :: m) = bits_lsb 8 b ++ msg_lsb m) by reflexivity. rewrite X, fold_left_app, <- E by auto. apply IH.
Qed.
(** a reflected CRC routine that works bit by bit (or equivalently) computes the remainder *)
Lemma reflected_crc w poly gen f start m : (forall c b, is_byte b -> f c b = fold_left (zstep poly) (bits_lsb 8 b) c) ->
  (0 < w)%nat -> 0 <= poly < 2 ^ Z.of_nat w -> bits_lsb w poly = gen -> 0 <= start < 2 ^ Z.of_nat w -> Forall is_byte m ->
  bits_lsb w (fold_left f m start) = crc_poly gen (bits_lsb w start) (msg_lsb m) /\
  0 <= fold_left f m start < 2 ^ Z.of_nat w.
Proof.
  intros E W P <- S M. rewrite (msg_fold f _ m E M). split.
  - rewrite zsteps_bits by auto. rewrite crc_poly_lfsr; auto; rewrite !bits_lsb_length; auto.
  - apply zsteps_range; auto. lia.
Qed.

Lemma bits_lnot w z : bits_lsb w (Z.lnot z) = map negb (bits_lsb w z).
Proof. unfold bits_lsb. rewrite map_map. apply map_ext. intros i. apply Z.lnot_spec. lia. Qed.
Lemma bits_mod w z : bits_lsb w (z mod 2 ^ Z.of_nat w) = bits_lsb w z.
Proof.
  unfold bits_lsb. apply map_ext_in. intros i I. apply in_seq in I. apply Z.mod_pow2_bits_low. lia.
Qed.
Lemma crc32_remainder start m : is_u32 start -> Forall is_byte m ->
  bits_lsb 32 (crc32 start m) = map negb (crc_poly gen_crc32 (bits_lsb 32 start) (msg_lsb m)) /\ is_u32 (crc32 start m).
Proof.
  intros S M. destruct (reflected_crc 32 0xEDB88320 gen_crc32 crc32Byte start m crc32Byte_ok) as [E _]; auto; try lia; try reflexivity.
  rewrite <- E. split; [|apply u32_u32]. unfold crc32, u32. change 4294967296 with (2 ^ Z.of_nat 32). rewrite bits_mod. apply bits_lnot.
Qed.
Lemma negb_inj a b : map negb a = map negb b -> a = b.
Proof. revert b; induction a as [|[] a IH]; intros [|[] b] H; simpl in *; inversion H; f_equal; auto. Qed.
Lemma crc32_burst start a b : is_u32 start -> Forall is_byte a -> Forall is_byte b -> burst 32 (msg_lsb a) (msg_lsb b) ->
  crc32 start a <> crc32 start b.
Proof.
  intros S A B U H. destruct (crc32_remainder start a S A) as [EA _]. destruct (crc32_remainder start b S B) as [EB _].
  rewrite H, EB in EA. apply negb_inj in EA. symmetry in EA. revert EA. apply burst_detected; auto; try (simpl; lia).
Qed.
(** the checksum of a concatenation can be computed in two parts *)
Lemma lnot_lnot32 z : is_u32 z -> u32 (Z.lnot (u32 (Z.lnot z))) = z.
Proof.
  intros H. unfold is_u32 in H. unfold Z.lnot, u32.
  replace (Z.pred (- z)) with ((4294967295 - z) + (-1) * 4294967296) by lia. rewrite Z.mod_add by lia. rewrite (Z.mod_small (4294967295 - z)) by lia.
  replace (Z.pred (- (4294967295 - z))) with (z + (-1) * 4294967296) by lia. rewrite Z.mod_add, Z.mod_small by lia. auto.
Qed.
Lemma crc32_app start a b : is_u32 start -> Forall is_byte a -> Forall is_byte b ->
  crc32 start (a ++ b) = crc32 (u32 (Z.lnot (crc32 start a))) b.
Proof.
  intros S A B. unfold crc32. rewrite fold_left_app. rewrite lnot_lnot32; auto.
  apply (reflected_crc 32 0xEDB88320 gen_crc32 crc32Byte start a crc32Byte_ok); auto; try lia; reflexivity.
Qed.

(** ** One-wire CRC-8 *)
Lemma land1_eqb z : (Z.land z 1 =? 0) = negb (Z.testbit z 0).
Proof. change 1 with (Z.ones 1). rewrite Z.land_ones by lia. change (2^1) with 2. rewrite Z.bit0_odd, Zmod_odd. destruct (Z.odd z); auto. Qed.
Lemma crc8Bits_ok n : forall c b, crc8Bits n c b = fold_left (zstep 0x8C) (bits_lsb n b) c.
Proof.
  induction n as [|n IH]; intros c b; [reflexivity|]. rewrite bits_lsb_S. simpl. rewrite IH. f_equal.
  rewrite land1_eqb, Z.lxor_spec. unfold zstep. destruct (xorb _ _); auto.
Qed.
Lemma crc8_remainder m : Forall is_byte m ->
  bits_lsb 8 (OneWireCRC8 m) = crc_poly gen_dallas8 (zeros 8) (msg_lsb m) /\ is_byte (OneWireCRC8 m).
Proof. intros M. apply (reflected_crc 8 0x8C gen_dallas8 (crc8Bits 8) 0 m); auto; try lia; try reflexivity. intros. apply crc8Bits_ok. Qed.
Lemma crc8_burst a b : Forall is_byte a -> Forall is_byte b -> burst 8 (msg_lsb a) (msg_lsb b) -> OneWireCRC8 a <> OneWireCRC8 b.
Proof.
  intros A B U H. destruct (crc8_remainder a A) as [EA _]. destruct (crc8_remainder b B) as [EB _].
  rewrite H, EB in EA. symmetry in EA. revert EA. apply burst_detected; auto; simpl; lia.
Qed.
Lemma crc8_check m b : Forall is_byte m -> is_byte b -> (OneWireCRC8 (m ++ [b]) = 0 <-> b = OneWireCRC8 m).
Proof.
  intros M B. destruct (crc8_remainder m M) as [_ R]. unfold OneWireCRC8 in *. rewrite fold_left_app. set (c := fold_left _ m 0) in *.
  change (crc8Bits 8 c b = 0 <-> b = c). rewrite crc8Bits_ok, zsteps_byte by exact B. split.
  - intros H. pose proof (byte_forall (fun l => implb (zz 0x8C 8 l =? 0) (l =? 0)) ltac:(vm_cast_no_check (eq_refl true)) _ (lxor_byte c b R B)) as E.
    cbv beta in E. rewrite H in E. simpl in E. apply Z.eqb_eq, Z.lxor_eq in E. auto.
  - intros ->. rewrite Z.lxor_nilpotent. reflexivity.
Qed.
Lemma ds2482_ok m : Forall is_byte m -> ds2482_crc8 m = OneWireCRC8 m.
Proof.
  intros M. unfold ds2482_crc8, OneWireCRC8.
  enough (forall c, is_byte c -> fold_left (fun crc b => rd dscrc_table (Z.to_nat (Z.lxor crc b))) m c = fold_left (crc8Bits 8) m c) by (apply H; red; lia).
  induction M as [|b m B M IH]; intros c C; [reflexivity|]. cbn [fold_left].
  assert (E : rd dscrc_table (Z.to_nat (Z.lxor c b)) = crc8Bits 8 c b).
  { rewrite crc8Bits_ok, zsteps_byte by exact B.
    pose proof (byte_forall (fun l => rd dscrc_table (Z.to_nat l) =? zz 0x8C 8 l) ltac:(vm_cast_no_check (eq_refl true)) _ (lxor_byte c b C B)) as E.
    apply Z.eqb_eq in E. exact E. }
  rewrite E. apply IH. rewrite crc8Bits_ok. apply (zsteps_range 8); auto; lia.
Qed.

(** ** One-wire CRC-16 *)
Definition t16 (cdata : Z) : Z :=
  let c := if Z.lxor (rd oddparity (Z.to_nat (Z.land cdata 0x0F))) (rd oddparity (Z.to_nat (Z.shiftr cdata 4))) =? 0 then 0 else 0xC001 in
  Z.lxor c (Z.lxor (u16 (Z.shiftl cdata 6)) (u16 (Z.shiftl (u16 (Z.shiftl cdata 6)) 1))).
Lemma crc16Byte_ok c b : is_byte b -> crc16Byte c b = fold_left (zstep 0xA001) (bits_lsb 8 b) c.
Proof.
  intros B. rewrite zsteps_byte by (exact B). rewrite zz8.
  assert (S8 : Z.shiftr (Z.lxor c b) 8 = Z.shiftr c 8).
  { rewrite Z.shiftr_lxor. assert (Z.shiftr b 8 = 0) as ->. { rewrite Z.shiftr_div_pow2 by lia. apply Z.div_small. exact B. } apply Z.lxor_0_r. }
  rewrite S8.
  pose proof (byte_forall (fun l => t16 l =? zz 0xA001 8 l) ltac:(vm_cast_no_check (eq_refl true)) _ (byte_land (Z.lxor c b))) as E.
  apply Z.eqb_eq in E. rewrite <- E. unfold crc16Byte, t16. rewrite (Z.lxor_comm b c). change 0xff with 255.
  set (l := Z.land (Z.lxor c b) 255). destruct (_ =? 0).
  - rewrite Z.lxor_0_l, Z.lxor_assoc. apply Z.lxor_comm.
  - rewrite !Z.lxor_assoc. rewrite (Z.lxor_comm (Z.shiftr c 8)), !Z.lxor_assoc. auto.
Qed.
Lemma crc16_remainder start m : is_u16 start -> Forall is_byte m ->
  bits_lsb 16 (OneWireCRC16 m start) = crc_poly gen_dallas16 (bits_lsb 16 start) (msg_lsb m) /\ is_u16 (OneWireCRC16 m start).
Proof. intros S M. apply (reflected_crc 16 0xA001 gen_dallas16 crc16Byte start m crc16Byte_ok); auto; try lia; reflexivity. Qed.
Lemma crc16_burst start a b : is_u16 start -> Forall is_byte a -> Forall is_byte b -> burst 16 (msg_lsb a) (msg_lsb b) ->
  OneWireCRC16 a start <> OneWireCRC16 b start.
Proof.
  intros S A B U H. destruct (crc16_remainder start a S A) as [EA _]. destruct (crc16_remainder start b S B) as [EB _].
  rewrite H, EB in EA. symmetry in EA. revert EA. apply burst_detected; auto; simpl; lia.
Qed.
Lemma word_lsb v : is_u16 v -> msg_lsb [Z.land v 255; Z.shiftr v 8] = bits_lsb 16 v.
Proof.
  intros V. unfold msg_lsb. cbn [flat_map]. rewrite app_nil_r.
  assert (bits_lsb 16 v = map (fun i => Z.testbit v (Z.of_nat i)) (seq 0 8) ++ map (fun i => Z.testbit v (Z.of_nat i)) (seq 8 8)) as -> by (rewrite <- map_app; auto).
  f_equal.
  - unfold bits_lsb. apply map_ext_in. intros i I. apply in_seq in I. rewrite Z.land_spec. change 255 with (Z.ones 8).
    rewrite Z.ones_spec_low by lia. apply andb_true_r.
  - unfold bits_lsb. assert (seq 8 8 = map (Nat.add 8) (seq 0 8)) as -> by reflexivity. rewrite map_map. apply map_ext. intros i.
    rewrite Z.shiftr_spec by lia. f_equal. lia.
Qed.

Lemma check16 m i0 i1 crc : is_u16 crc -> Forall is_byte m -> is_byte i0 -> is_byte i1 ->
  OneWireCheckCRC16 m [i0; i1] crc = true <-> msg_lsb [i0; i1] = map negb (crc_poly gen_dallas16 (bits_lsb 16 crc) (msg_lsb m)).
Proof.
  intros C M I0 I1. destruct (crc16_remainder crc m C M) as [E R]. rewrite <- E, <- bits_lnot. unfold OneWireCheckCRC16.
  set (v := u16 (Z.lnot (OneWireCRC16 m crc))). assert (V : is_u16 v) by apply u16_u16.
  rewrite <- (bits_mod 16). change (2 ^ Z.of_nat 16) with 65536. fold (u16 (Z.lnot (OneWireCRC16 m crc))). fold v.
  rewrite <- (word_lsb v V). change (rd [i0; i1] 0) with i0. change (rd [i0; i1] 1) with i1. change 0xFF with 255.
  assert (VH : is_byte (Z.shiftr v 8)).
  { rewrite Z.shiftr_div_pow2 by lia. change (2^8) with 256. unfold is_u16 in V. red. split; [apply Z.div_pos|apply Z.div_lt_upper_bound]; lia. }
  rewrite andb_true_iff, !Z.eqb_eq. split.
  - intros [-> ->]. auto.
  - intros H.
    assert (X : forall x y, msg_lsb [x; y] = bits_lsb 8 x ++ bits_lsb 8 y) by (intros; unfold msg_lsb; cbn [flat_map]; rewrite app_nil_r; auto).
    rewrite !X in H.
    assert (HL : firstn 8 (bits_lsb 8 i0 ++ bits_lsb 8 i1) = firstn 8 (bits_lsb 8 (Z.land v 255) ++ bits_lsb 8 (Z.shiftr v 8))) by (f_equal; auto).
    assert (HR : skipn 8 (bits_lsb 8 i0 ++ bits_lsb 8 i1) = skipn 8 (bits_lsb 8 (Z.land v 255) ++ bits_lsb 8 (Z.shiftr v 8))) by (f_equal; auto).
    rewrite !firstn_app, !bits_lsb_length in HL. rewrite !skipn_app, !bits_lsb_length in HR.
    split; apply (bits_inj 8); auto; try apply byte_land.
Qed.

(** ** Registers shifted left *)
Definition mstep (w : nat) (poly z : Z) (b : bool) : Z :=
  let s := Z.shiftl z 1 mod 2 ^ Z.of_nat w in
  if xorb (Z.testbit z (Z.of_nat w - 1)) b then Z.lxor s poly else s.
Lemma combine_app (a a' b b' : list bool) : length a = length b -> combine (a ++ a') (b ++ b') = combine a b ++ combine a' b'.
Proof. revert b. induction a as [|x a IH]; intros [|y b] L; simpl in *; try lia; auto. rewrite IH by lia. auto. Qed.
Lemma xor2_rev a b : length a = length b -> rev (xor2 a b) = xor2 (rev a) (rev b).
Proof.
  unfold xor2. revert b. induction a as [|x a IH]; intros [|y b] L; simpl in *; try lia; auto.
  rewrite IH by lia. rewrite combine_app by (rewrite !rev_length; lia). rewrite map_app. auto.
Qed.
Lemma bits_msb_S w z : bits_msb (S w) z = Z.testbit z (Z.of_nat w) :: bits_msb w z.
Proof. unfold bits_msb. rewrite bits_lsb_snoc, rev_app_distr. auto. Qed.
Lemma mstep_bits w poly z b : (0 < w)%nat -> bits_msb w (mstep w poly z b) = lstep (bits_msb w poly) (bits_msb w z) b.
Proof.
  intros P. destruct w as [|w]; [lia|]. rewrite (bits_msb_S w z). simpl lstep. unfold mstep.
  replace (Z.of_nat (S w) - 1) with (Z.of_nat w) by lia.
  assert (E : bits_msb (S w) (Z.shiftl z 1 mod 2 ^ Z.of_nat (S w)) = bits_msb w z ++ [false]).
  { unfold bits_msb. rewrite bits_mod. rewrite bits_lsb_S. rewrite Z.shiftl_spec_low by lia.
    rewrite Z.shiftr_shiftl_l by lia. change (1 - 1) with 0. rewrite Z.shiftl_0_r. auto. }
  destruct (xorb _ b); auto. rewrite <- E. unfold bits_msb. rewrite bits_lsb_xor. apply xor2_rev. rewrite !bits_lsb_length. auto.
Qed.
Lemma mstep_range w poly z b : 0 <= poly < 2 ^ Z.of_nat w -> 0 <= mstep w poly z b < 2 ^ Z.of_nat w.
Proof.
  intros P. unfold mstep. assert (0 <= Z.shiftl z 1 mod 2 ^ Z.of_nat w < 2 ^ Z.of_nat w) by (apply Z.mod_pos_bound; apply Z.pow_pos_nonneg; lia).
  destruct (xorb _ _); auto. apply lxor_lt_pow2; auto; lia.
Qed.
Lemma add_front_xor2_comm a g x : length a = length g -> add_front (xor2 a g) x = xor2 (add_front a x) g.
Proof.
  unfold xor2. revert g x. induction a as [|a0 a IH]; intros [|g0 g] [|x0 x] L; simpl in *; try lia; auto.
  rewrite IH by lia. f_equal. destruct a0, g0, x0; auto.
Qed.
Lemma add_front_snoc a y x : (length x <= length a)%nat -> add_front (a ++ [y]) x = add_front a x ++ [y].
Proof. revert x. induction a as [|a0 a IH]; intros [|x0 x] L; simpl in *; try lia; auto. rewrite IH by lia. auto. Qed.
Lemma lsteps_feed g : forall x r, length r = length g -> (length x <= length r)%nat ->
  fold_left (lstep g) x r = fold_left (lstep g) (repeat false (length x)) (add_front r x).
Proof.
  induction x as [|b x IH]; intros r L X; [destruct r; reflexivity|]. destruct r as [|r0 rt]; simpl in X; [lia|].
  cbn [fold_left length repeat add_front].
  rewrite IH; [|rewrite lstep_length; simpl in *; lia|rewrite lstep_length by (simpl in *; lia); simpl; lia]. f_equal.
  simpl. rewrite xorb_false_r. simpl in L. destruct (xorb r0 b).
  - rewrite add_front_xor2_comm by (rewrite app_length; simpl; lia). rewrite add_front_snoc by lia. auto.
  - apply add_front_snoc. lia.
Qed.
Lemma add_front_full a b : length a = length b -> add_front a b = xor2 a b.
Proof. unfold xor2. revert b. induction a as [|x a IH]; intros [|y b] L; simpl in *; try lia; auto. rewrite IH by lia. auto. Qed.
Lemma add_front_pad a b n : add_front a (b ++ zeros n) = add_front a b.
Proof.
  revert b. induction a as [|x a IH]; intros b; auto. destruct b as [|y b]; simpl.
  - destruct n; simpl; auto. rewrite xorb_false_r. specialize (IH []). f_equal.
    clear IH. revert n. induction a as [|x' a IH]; intros [|n]; simpl; auto. rewrite xorb_false_r. f_equal. apply IH.
  - rewrite IH. auto.
Qed.
Lemma bits_msb_top w k z b : bits_msb (k + w) (Z.lxor z (Z.shiftl b (Z.of_nat w))) = add_front (bits_msb (k + w) z) (bits_msb k b).
Proof.
  rewrite <- (add_front_pad _ _ w), add_front_full.
  2:{ rewrite app_length, !bits_msb_length. unfold zeros. rewrite repeat_length. auto. }
  unfold bits_msb. rewrite bits_lsb_xor, xor2_rev by (rewrite !bits_lsb_length; auto). f_equal.
  assert (E : bits_lsb (k + w) (Z.shiftl b (Z.of_nat w)) = zeros w ++ bits_lsb k b).
  { rewrite Nat.add_comm. clear z. induction w as [|w IH].
    - simpl. change (Z.of_nat 0) with 0. rewrite Z.shiftl_0_r. auto.
    - simpl Nat.add. rewrite bits_lsb_S. rewrite Z.shiftl_spec_low by lia. rewrite Z.shiftr_shiftl_l by lia.
      replace (Z.of_nat (S w) - 1) with (Z.of_nat w) by lia. rewrite IH. auto. }
  rewrite E, rev_app_distr. f_equal. unfold zeros. clear. induction w; auto. simpl. rewrite IHw. symmetry. apply (repeat_cons w false).
Qed.
Lemma msteps_bits w poly m : (0 < w)%nat -> forall z,
  bits_msb w (fold_left (mstep w poly) m z) = fold_left (lstep (bits_msb w poly)) m (bits_msb w z).
Proof. intros W. induction m as [|b m IH]; intros z; [reflexivity|]. cbn [fold_left]. rewrite IH, mstep_bits; auto. Qed.
Lemma bits_msb_inj w a b : 0 <= a < 2 ^ Z.of_nat w -> 0 <= b < 2 ^ Z.of_nat w -> bits_msb w a = bits_msb w b -> a = b.
Proof. intros A B H. apply (bits_inj w); auto. unfold bits_msb in H. rewrite <- (rev_involutive (bits_lsb w a)), H. apply rev_involutive. Qed.

Lemma msb_crc k poly gen f start m :
  let w := (8 + k)%nat in
  (forall c b, is_byte b -> 0 <= c < 2 ^ Z.of_nat w -> f c b = fold_left (mstep w poly) (repeat false 8) (Z.lxor c (Z.shiftl b (Z.of_nat k)))) ->
  0 <= poly < 2 ^ Z.of_nat w -> bits_msb w poly = gen -> 0 <= start < 2 ^ Z.of_nat w -> Forall is_byte m ->
  bits_msb w (fold_left f m start) = crc_poly gen (bits_msb w start) (msg_msb m) /\
  0 <= fold_left f m start < 2 ^ Z.of_nat w.
Proof.
  intros w E P <- S M. rewrite crc_poly_lfsr by (rewrite !bits_msb_length; lia). revert start S.
  induction M as [|b m B M IH]; intros start S; [split; [reflexivity|exact S]|].
  cbn [fold_left]. assert (X : msg_msb (b :: m) = bits_msb 8 b ++ msg_msb m) by reflexivity. rewrite X, fold_left_app.
  assert (Y : bits_msb w (f start b) = fold_left (lstep (bits_msb w poly)) (bits_msb 8 b) (bits_msb w start)).
  { rewrite E by auto. rewrite msteps_bits by (unfold w; lia). rewrite (lsteps_feed _ (bits_msb 8 b)) by (rewrite !bits_msb_length; unfold w; lia). rewrite bits_msb_length.
    f_equal. apply (bits_msb_top k 8). }
  rewrite <- Y. apply IH. rewrite E by auto. cbn [repeat fold_left]. apply mstep_range. auto.
Qed.

Lemma sensirionBits_ok c : sensirionBits 8 c = fold_left (mstep 8 0x31) (repeat false 8) c.
Proof.
  assert (A : forall c, u8 (if Z.land c 0x80 =? 0 then Z.shiftl c 1 else Z.lxor (Z.shiftl c 1) 0x31) = mstep 8 0x31 c false).
  { intros z. unfold mstep, u8. change (2 ^ Z.of_nat 8) with (2 ^ 8). change 256 with (2 ^ 8). change (Z.of_nat 8 - 1) with 7. rewrite xorb_false_r.
    assert ((Z.land z 128 =? 0) = negb (Z.testbit z 7)) as ->.
    { destruct (Z.testbit z 7) eqn:T; simpl.
      - apply Z.eqb_neq. intros H. apply (f_equal (fun v => Z.testbit v 7)) in H. rewrite Z.land_spec, T, Z.bits_0 in H. discriminate.
      - apply Z.eqb_eq. apply Z.bits_inj'. intros n Hn. rewrite Z.land_spec, Z.bits_0. change 128 with (2 ^ 7). rewrite Z.pow2_bits_eqb by lia.
        destruct (Z.eqb_spec 7 n); [subst; rewrite T; auto|apply andb_false_r]. }
    destruct (Z.testbit z 7); simpl negb; cbv iota; auto.
    rewrite <- !Z.land_ones by lia. apply Z.bits_inj'. intros n Hn. rewrite Z.land_spec, !Z.lxor_spec, Z.land_spec.
    destruct (Z.lt_ge_cases n 8).
    - rewrite Z.ones_spec_low by lia. rewrite !andb_true_r. auto.
    - rewrite Z.ones_spec_high by lia. rewrite !andb_false_r. rewrite xorb_false_l. symmetry. apply (bits_above_lt 0x31 8); lia. }
  assert (B : forall n c, sensirionBits n c = fold_left (mstep 8 0x31) (repeat false n) c).
  { induction n as [|n IH]; intros z; [reflexivity|]. cbn [sensirionBits repeat fold_left]. rewrite A. apply IH. }
  apply B.
Qed.
Lemma sensirion_remainder start m : is_byte start -> Forall is_byte m ->
  bits_msb 8 (sensirion_crc8 start m) = crc_poly gen_dallas8 (bits_msb 8 start) (msg_msb m) /\ is_byte (sensirion_crc8 start m).
Proof.
  intros S M. apply (msb_crc 0 0x31 gen_dallas8); auto; try lia; try reflexivity.
  intros c b _ _. rewrite sensirionBits_ok. change (Z.of_nat 0) with 0. rewrite Z.shiftl_0_r. reflexivity.
Qed.
Lemma sensirion_burst start a b : is_byte start -> Forall is_byte a -> Forall is_byte b -> burst 8 (msg_msb a) (msg_msb b) ->
  sensirion_crc8 start a <> sensirion_crc8 start b.
Proof.
  intros S A B U H. destruct (sensirion_remainder start a S A) as [EA _]. destruct (sensirion_remainder start b S B) as [EB _].
  rewrite H, EB in EA. symmetry in EA. revert EA. apply burst_detected; auto; simpl; lia.
Qed.
Lemma systembBits_ok c : systembBits 8 c = fold_left (mstep 16 0x1021) (repeat false 8) c.
Proof.
  assert (A : forall c, u16 (if Z.land c 0x8000 =? 0 then Z.shiftl c 1 else Z.lxor (Z.shiftl c 1) 0x1021) = mstep 16 0x1021 c false).
  { intros z. unfold mstep, u16. change (2 ^ Z.of_nat 16) with (2 ^ 16). change 65536 with (2 ^ 16). change (Z.of_nat 16 - 1) with 15. rewrite xorb_false_r.
    assert ((Z.land z 0x8000 =? 0) = negb (Z.testbit z 15)) as ->.
    { destruct (Z.testbit z 15) eqn:T; simpl.
      - apply Z.eqb_neq. intros H. apply (f_equal (fun v => Z.testbit v 15)) in H. rewrite Z.land_spec, T, Z.bits_0 in H. discriminate.
      - apply Z.eqb_eq. apply Z.bits_inj'. intros n Hn. rewrite Z.land_spec, Z.bits_0. change 0x8000 with (2 ^ 15). rewrite Z.pow2_bits_eqb by lia.
        destruct (Z.eqb_spec 15 n); [subst; rewrite T; auto|apply andb_false_r]. }
    destruct (Z.testbit z 15); simpl negb; cbv iota; auto.
    rewrite <- !Z.land_ones by lia. apply Z.bits_inj'. intros n Hn. rewrite Z.land_spec, !Z.lxor_spec, Z.land_spec.
    destruct (Z.lt_ge_cases n 16).
    - rewrite Z.ones_spec_low by lia. rewrite !andb_true_r. auto.
    - rewrite Z.ones_spec_high by lia. rewrite !andb_false_r. rewrite xorb_false_l. symmetry. apply (bits_above_lt 0x1021 16); lia. }
  assert (B : forall n c, systembBits n c = fold_left (mstep 16 0x1021) (repeat false n) c).
  { induction n as [|n IH]; intros z; [reflexivity|]. cbn [systembBits repeat fold_left]. rewrite A. apply IH. }
  apply B.
Qed.
Lemma systemb_remainder m : Forall is_byte m ->
  bits_msb 16 (systemb_crc16 m) = crc_poly gen_ccitt (bits_msb 16 0x1D0F) (msg_msb m) /\ is_u16 (systemb_crc16 m).
Proof.
  intros M. apply (msb_crc 8 0x1021 gen_ccitt); auto; try lia; try reflexivity. intros c b _ _. apply systembBits_ok.
Qed.
Lemma systemb_burst a b : Forall is_byte a -> Forall is_byte b -> burst 16 (msg_msb a) (msg_msb b) -> systemb_crc16 a <> systemb_crc16 b.
Proof.
  intros A B U H. destruct (systemb_remainder a A) as [EA _]. destruct (systemb_remainder b B) as [EB _].
  rewrite H, EB in EA. symmetry in EA. revert EA. apply burst_detected; auto; simpl; lia.
Qed.
