(** Bit-level lemmas on Z used by several proofs (no model content). *)
From Verif Require Import Base.

Lemma lor_add_disjoint a b : Z.land a b = 0 -> Z.lor a b = a + b.
Proof. intros H. rewrite Z.add_nocarry_lxor by auto. symmetry. now apply Z.lxor_lor. Qed.

Lemma land_shiftl_small h l n : 0 <= n -> 0 <= l < 2 ^ n -> Z.land (Z.shiftl h n) l = 0.
Proof.
  intros Hn Hl. apply Z.bits_inj'. intros m Hm. rewrite Z.land_spec, Z.bits_0.
  destruct (Z.lt_ge_cases m n).
  - rewrite Z.shiftl_spec_low by lia. reflexivity.
  - destruct (Z.eq_dec l 0) as [->|].
    + rewrite Z.bits_0. apply andb_false_r.
    + rewrite (Z.bits_above_log2 l); [apply andb_false_r|lia|].
      apply Z.log2_lt_pow2; try lia. apply Z.lt_le_trans with (2^n); [lia|].
      apply Z.pow_le_mono_r; lia.
Qed.

Lemma lor_shiftl_add h l n : 0 <= n -> 0 <= l < 2 ^ n -> Z.lor (Z.shiftl h n) l = h * 2 ^ n + l.
Proof.
  intros. rewrite lor_add_disjoint by (apply land_shiftl_small; auto).
  rewrite Z.shiftl_mul_pow2 by lia. reflexivity.
Qed.

Lemma word_bytes h l : is_byte l -> Z.lor (Z.shiftl h 8) l = h * 256 + l.
Proof. intros H. rewrite lor_shiftl_add; unfold is_byte in H; lia. Qed.

Lemma land_255 v : Z.land v 255 = v mod 256.
Proof. change 255 with (Z.ones 8). rewrite Z.land_ones by lia. reflexivity. Qed.
Lemma land_15 v : Z.land v 15 = v mod 16.
Proof. change 15 with (Z.ones 4). rewrite Z.land_ones by lia. reflexivity. Qed.
Lemma land_ffff v : Z.land v 65535 = v mod 65536.
Proof. change 65535 with (Z.ones 16). rewrite Z.land_ones by lia. reflexivity. Qed.
Lemma land_127 v : Z.land v 127 = v mod 128.
Proof. change 127 with (Z.ones 7). rewrite Z.land_ones by lia. reflexivity. Qed.

Lemma land_byte_l a b : is_byte a -> is_byte (Z.land a b).
Proof.
  intros H. unfold is_byte in *. split.
  - apply Z.land_nonneg; lia.
  - assert (Z.land a b = Z.land (Z.land a 255) b) as ->.
    { rewrite land_255, Z.mod_small by lia. reflexivity. }
    rewrite <- Z.land_assoc, (Z.land_comm 255), Z.land_assoc, land_255. apply Z.mod_pos_bound; lia.
Qed.
Lemma land_byte_r a b : is_byte b -> is_byte (Z.land a b).
Proof. rewrite Z.land_comm. apply land_byte_l. Qed.

Lemma byte_bits_above a n : is_byte a -> 8 <= n -> Z.testbit a n = false.
Proof.
  intros H Hn. destruct (Z.eq_dec a 0) as [->|]. apply Z.bits_0.
  apply Z.bits_above_log2; unfold is_byte in H; try lia.
  apply Z.log2_lt_pow2; try lia. apply Z.lt_le_trans with (2^8); [lia|]. apply Z.pow_le_mono_r; lia.
Qed.

Lemma bits_above_lt a n m : 0 <= a < 2 ^ n -> 0 <= n <= m -> Z.testbit a m = false.
Proof.
  intros H Hn. destruct (Z.eq_dec a 0) as [->|]. apply Z.bits_0.
  apply Z.bits_above_log2; try lia.
  apply Z.log2_lt_pow2; try lia. apply Z.lt_le_trans with (2^n); [lia|]. apply Z.pow_le_mono_r; lia.
Qed.

Lemma lt_pow2_bits a n : 0 <= a -> 0 <= n -> (forall m, n <= m -> Z.testbit a m = false) -> a < 2 ^ n.
Proof.
  intros Ha Hn H. destruct (Z.eq_dec a 0) as [->|]; [apply Z.pow_pos_nonneg; lia|].
  apply Z.log2_lt_pow2; try lia.
  destruct (Z.lt_ge_cases (Z.log2 a) n); auto.
  specialize (H _ H0). rewrite Z.bit_log2 in H by lia. discriminate.
Qed.

Lemma lor_lt_pow2 a b n : 0 <= n -> 0 <= a < 2 ^ n -> 0 <= b < 2 ^ n -> 0 <= Z.lor a b < 2 ^ n.
Proof.
  intros Hn Ha Hb. split. { apply Z.lor_nonneg; lia. }
  apply lt_pow2_bits; auto. { apply Z.lor_nonneg; lia. }
  intros m Hm. rewrite Z.lor_spec, !(bits_above_lt _ n) by lia. reflexivity.
Qed.
Lemma lxor_lt_pow2 a b n : 0 <= n -> 0 <= a < 2 ^ n -> 0 <= b < 2 ^ n -> 0 <= Z.lxor a b < 2 ^ n.
Proof.
  intros Hn Ha Hb. split. { apply Z.lxor_nonneg; lia. }
  apply lt_pow2_bits; auto. { apply Z.lxor_nonneg; lia. }
  intros m Hm. rewrite Z.lxor_spec, !(bits_above_lt _ n) by lia. reflexivity.
Qed.
Lemma lor_byte a b : is_byte a -> is_byte b -> is_byte (Z.lor a b).
Proof. intros. apply (lor_lt_pow2 a b 8); auto; lia. Qed.
Lemma lxor_byte a b : is_byte a -> is_byte b -> is_byte (Z.lxor a b).
Proof. intros. apply (lxor_lt_pow2 a b 8); auto; lia. Qed.
