(** Proofs for C51 *)
From Verif Require Import Base Bits DPT9_Model DPT9_Spec.

Lemma shlLoop_spec n : forall v, - 2^31 <= v * 2 ^ Z.of_nat n < 2^31 -> shlLoop n v = v * 2 ^ Z.of_nat n.
Proof.
  induction n as [|n IH]; intros v H; cbn [shlLoop]; [change (2 ^ Z.of_nat 0) with 1; lia|].
  replace (Z.of_nat (S n)) with (1 + Z.of_nat n) in * by lia. rewrite Z.pow_add_r in * by lia. change (2 ^ 1) with 2 in *.
  rewrite Z.shiftl_mul_pow2 by lia. change (2 ^ 1) with 2. pose proof (Z.pow_pos_nonneg 2 (Z.of_nat n) ltac:(lia) ltac:(lia)).
  assert (E : s32 (v * 2) = v * 2).
  { unfold s32, u32. change (2^31) with 2147483648 in *. assert (-2147483648 <= v * 2 < 2147483648) by nia.
    destruct (Z.ltb_spec ((v * 2) mod 4294967296) 2147483648); Z.div_mod_to_equations; lia. }
  rewrite E, IH; [ring|]. replace (v * 2 * 2 ^ Z.of_nat n) with (v * (2 * 2 ^ Z.of_nat n)) by ring. exact H.
Qed.
Lemma sign_extend code : is_u16 code -> s32 (Z.lor code (u32 (Z.land (-1) (Z.lnot 2047)))) = code mod 2048 - 2048.
Proof.
  intros H. unfold is_u16 in H. change (u32 (Z.land (-1) (Z.lnot 2047))) with (Z.shiftl (Z.ones 21) 11).
  assert (C : code = Z.lor (Z.shiftl (code / 2048) 11) (code mod 2048)).
  { rewrite lor_shiftl_add; [|lia|change (2^11) with 2048; Z.div_mod_to_equations; lia]. change (2^11) with 2048. Z.div_mod_to_equations; lia. }
  rewrite C at 1. rewrite <- Z.lor_assoc, (Z.lor_comm (code mod 2048)), Z.lor_assoc, <- Z.shiftl_lor.
  assert (Q : 0 <= code / 2048 <= 31) by (Z.div_mod_to_equations; lia).
  rewrite Z.lor_ones_low; [|lia|pose proof (Z.log2_le_mono (code / 2048) 31 ltac:(lia)) as L; change (Z.log2 31) with 4 in L; lia].
  rewrite lor_shiftl_add; [|lia|change (2^11) with 2048; Z.div_mod_to_equations; lia]. change (Z.ones 21 * 2 ^ 11) with 4294965248.
  assert (0 <= code mod 2048 < 2048) by (apply Z.mod_pos_bound; lia).
  unfold s32, u32. rewrite Z.mod_small by lia. destruct (Z.ltb_spec (4294965248 + code mod 2048) 2147483648); lia.
Qed.
Lemma decode_spec code : is_u16 code -> dpt9ToFloat code = match dpt9_value code with Some v => v | None => INVALID_DPT_FLOAT end.
Proof.
  intros H. unfold dpt9ToFloat, dpt9_value. destruct (Z.eqb_spec code 32767); auto.
  assert (E : Z.land (Z.shiftr code 11) 15 = exponent code).
  { rewrite land_15, Z.shiftr_div_pow2 by lia. reflexivity. }
  rewrite E. assert (X : 0 <= exponent code < 16) by (apply Z.mod_pos_bound; lia). unfold is_u16 in H.
  assert (M : (if 32768 <=? code then s32 (Z.lor code (u32 (Z.land (-1) (Z.lnot 2047)))) else Z.land code 2047) = mantissa code).
  { unfold mantissa. destruct (Z.leb_spec 32768 code).
    - rewrite sign_extend by exact H. Z.div_mod_to_equations; lia.
    - change 2047 with (Z.ones 11). rewrite Z.land_ones by lia. change (2 ^ 11) with 2048. Z.div_mod_to_equations; lia. }
  rewrite M, shlLoop_spec; rewrite Z2Nat.id by lia; auto.
  assert (-2048 <= mantissa code <= 2047) by (unfold mantissa; Z.div_mod_to_equations; lia).
  assert (0 < 2 ^ exponent code <= 2 ^ 15) by (split; [apply Z.pow_pos_nonneg; lia|apply Z.pow_le_mono_r; lia]).
  change (2^15) with 32768 in *. change (2^31) with 2147483648. nia.
Qed.

Lemma posLoop_spec fuel : forall v e, 0 <= v < 2048 * 2 ^ Z.of_nat fuel -> 0 <= e ->
  exists k, 0 <= k <= Z.of_nat fuel /\ posLoop fuel v e = Some (v / 2 ^ k, e + k) /\ 0 <= v / 2 ^ k <= 2047 /\ (0 < k -> 1024 <= v / 2 ^ k).
Proof.
  induction fuel as [|fuel IH]; intros v e Hv He; cbn [posLoop].
  - change (2 ^ Z.of_nat 0) with 1 in Hv. destruct (Z.ltb_spec 2047 v); [lia|]. exists 0. rewrite Z.add_0_r. change (2 ^ 0) with 1. rewrite Z.div_1_r. repeat split; lia.
  - destruct (Z.ltb_spec 2047 v).
    + rewrite Z.shiftr_div_pow2 by lia. change (2 ^ 1) with 2.
      replace (Z.of_nat (S fuel)) with (1 + Z.of_nat fuel) in Hv by lia. rewrite Z.pow_add_r in Hv by lia. change (2 ^ 1) with 2 in Hv.
      destruct (IH (v / 2) (e + 1)) as (k & K1 & K2 & K3 & K4); [split; [apply Z.div_pos; lia|apply Z.div_lt_upper_bound; lia]|lia|].
      assert (D : v / 2 / 2 ^ k = v / 2 ^ (k + 1)) by (rewrite Z.div_div by (try apply Z.pow_pos_nonneg; lia); rewrite Z.pow_add_r by lia; f_equal; change (2^1) with 2; lia).
      rewrite D in *. exists (k + 1). split; [lia|]. split; [rewrite K2; do 2 f_equal; lia|]. split; [lia|]. intros _.
      destruct (Z.eq_dec k 0) as [->|]; [|apply K4; lia]. cbn [Z.add]. change (2 ^ (0 + 1)) with 2. Z.div_mod_to_equations; lia.
    + exists 0. rewrite Z.add_0_r. change (2 ^ 0) with 1. rewrite Z.div_1_r. repeat split; lia.
Qed.
Lemma negLoop_spec fuel : forall v e, - 2048 * 2 ^ Z.of_nat fuel <= v < 0 -> 0 <= e ->
  exists k, 0 <= k <= Z.of_nat fuel /\ negLoop fuel v e = Some (v / 2 ^ k, e + k) /\ -2048 <= v / 2 ^ k < 0 /\ (0 < k -> v / 2 ^ k <= -1025).
Proof.
  induction fuel as [|fuel IH]; intros v e Hv He; cbn [negLoop].
  - change (2 ^ Z.of_nat 0) with 1 in Hv. destruct (Z.ltb_spec v (-2048)); [lia|]. exists 0. rewrite Z.add_0_r. change (2 ^ 0) with 1. rewrite Z.div_1_r. repeat split; lia.
  - destruct (Z.ltb_spec v (-2048)).
    + rewrite Z.shiftr_div_pow2 by lia. change (2 ^ 1) with 2.
      replace (Z.of_nat (S fuel)) with (1 + Z.of_nat fuel) in Hv by lia. rewrite Z.pow_add_r in Hv by lia. change (2 ^ 1) with 2 in Hv.
      destruct (IH (v / 2) (e + 1)) as (k & K1 & K2 & K3 & K4); [split; [apply Z.div_le_lower_bound; lia|apply Z.div_lt_upper_bound; lia]|lia|].
      assert (D : v / 2 / 2 ^ k = v / 2 ^ (k + 1)) by (rewrite Z.div_div by (try apply Z.pow_pos_nonneg; lia); rewrite Z.pow_add_r by lia; f_equal; change (2^1) with 2; lia).
      rewrite D in *. exists (k + 1). split; [lia|]. split; [rewrite K2; do 2 f_equal; lia|]. split; [lia|]. intros _.
      destruct (Z.eq_dec k 0) as [->|]; [|apply K4; lia]. change (2 ^ (0 + 1)) with 2. Z.div_mod_to_equations; lia.
    + exists 0. rewrite Z.add_0_r. change (2 ^ 0) with 1. rewrite Z.div_1_r. repeat split; lia.
Qed.

(** [m] * 2^[k] is [v] rounded down with the smallest exponent that makes the mantissa fit *)
Definition norm (v m k : Z) : Prop :=
  0 <= k /\ m = v / 2 ^ k /\ (0 <= v -> 0 <= m <= 2047 /\ (0 < k -> 1024 <= m)) /\ (v < 0 -> -2048 <= m < 0 /\ (0 < k -> m <= -1025)).
Lemma norm_bounds v m k : norm v m k -> v - 2 ^ k < m * 2 ^ k <= v.
Proof.
  intros (Hk & -> & _). pose proof (Z.pow_pos_nonneg 2 k ltac:(lia) Hk). pose proof (Z.div_mod v (2 ^ k)). pose proof (Z.mod_pos_bound v (2 ^ k)). nia.
Qed.
Lemma norm_mono v m k v' m' k' : norm v m k -> norm v' m' k' -> v <= v' -> m * 2 ^ k <= m' * 2 ^ k'.
Proof.
  intros (Hk & Em & P & N) (Hk' & Em' & P' & N') L.
  pose proof (Z.pow_pos_nonneg 2 k ltac:(lia) Hk). pose proof (Z.pow_pos_nonneg 2 k' ltac:(lia) Hk').
  assert (DBL : forall a b, 0 <= a -> a < b -> 2 * 2 ^ a <= 2 ^ b).
  { intros a b Ha Hb. change 2 with (2 ^ 1) at 1. rewrite <- Z.pow_add_r by lia. apply Z.pow_le_mono_r; lia. }
  destruct (Z.lt_ge_cases v 0) as [V|V], (Z.lt_ge_cases v' 0) as [V'|V'].
  - destruct (N V) as [B1 B2]. destruct (N' V') as [B1' B2'].
    destruct (Z.lt_trichotomy k k') as [K|[->|K]].
    + specialize (B2' ltac:(lia)). specialize (DBL k k' Hk K).
      (* v' would be below v *) exfalso. pose proof (Z.div_mod v' (2 ^ k')). pose proof (Z.mod_pos_bound v' (2 ^ k')).
      pose proof (Z.div_mod v (2 ^ k)). pose proof (Z.mod_pos_bound v (2 ^ k)). nia.
    + assert (m <= m') by (subst; apply Z.div_le_mono; lia). nia.
    + specialize (B2 ltac:(lia)). specialize (DBL k' k Hk' K). nia.
  - destruct (N V) as [B1 B2]. destruct (P' V') as [B1' B2']. nia.
  - lia.
  - destruct (P V) as [B1 B2]. destruct (P' V') as [B1' B2'].
    destruct (Z.lt_trichotomy k k') as [K|[->|K]].
    + specialize (B2' ltac:(lia)). specialize (DBL k k' Hk K). nia.
    + assert (m <= m') by (subst; apply Z.div_le_mono; lia). nia.
    + specialize (B2 ltac:(lia)). specialize (DBL k' k Hk' K). exfalso. pose proof (Z.div_mod v' (2 ^ k')). pose proof (Z.mod_pos_bound v' (2 ^ k')).
      pose proof (Z.div_mod v (2 ^ k)). pose proof (Z.mod_pos_bound v (2 ^ k)). nia.
Qed.
Lemma norm_exists v : -67108864 <= v <= 67076096 -> exists m k, norm v m k /\ 0 <= k <= 15 /\
  floatToDpt9 v = Some ((if v <? 0 then 32768 + (m + 2048) else m) + 2048 * k).
Proof.
  intros H. unfold floatToDpt9. destruct (Z.ltb_spec v (-67108864)); [lia|]. destruct (Z.ltb_spec 67076096 v); [lia|]. cbn [orb].
  assert (Q : forall k, 15 < k -> 65536 <= 2 ^ k) by (intros k Hk; change 65536 with (2 ^ 16); apply Z.pow_le_mono_r; lia).
  destruct (Z.ltb_spec v 0).
  - destruct (negLoop_spec 32 v 0) as (k & K1 & K2 & K3 & K4); [change (2 ^ Z.of_nat 32) with 4294967296; lia|lia|].
    rewrite K2. exists (v / 2 ^ k), k.
    assert (k <= 15). { destruct (Z.le_gt_cases k 15); auto. specialize (Q k ltac:(lia)). specialize (K4 ltac:(lia)).
      pose proof (Z.div_mod v (2 ^ k)). pose proof (Z.mod_pos_bound v (2 ^ k)). nia. }
    split; [repeat split; auto; try lia|]. split; [lia|]. f_equal. set (m := v / 2 ^ k) in *. clearbody m.
    assert (E : Z.land (u32 m) 2047 = m + 2048).
    { change 2047 with (Z.ones 11). rewrite Z.land_ones by lia. change (2 ^ 11) with 2048. unfold u32. Z.div_mod_to_equations; lia. }
    rewrite E. replace (0 + k) with k by lia. rewrite Z.shiftl_mul_pow2 by lia. change (2 ^ 11) with 2048.
    assert (B1 : Z.lor 32768 (m + 2048) = 32768 + (m + 2048)).
    { change 32768 with (Z.shiftl 1 15) at 1. rewrite lor_shiftl_add; [|lia|change (2^15) with 32768; lia]. reflexivity. }
    assert (B2 : Z.lor (Z.lor 32768 (m + 2048)) (k * 2048) = 32768 + (m + 2048) + 2048 * k).
    { rewrite (Z.lor_comm 32768), <- Z.lor_assoc. replace (Z.lor 32768 (k * 2048)) with (Z.shiftl (16 + k) 11).
      - rewrite Z.lor_comm, lor_shiftl_add; [|lia|change (2^11) with 2048; lia]. change (2^11) with 2048. lia.
      - rewrite Z.shiftl_mul_pow2 by lia. change (2^11) with 2048. change 32768 with (Z.shiftl 1 15).
        rewrite lor_shiftl_add; [|lia|change (2^15) with 32768; lia]. change (2^15) with 32768. lia. }
    rewrite B2. unfold u16. apply Z.mod_small. lia.
  - destruct (posLoop_spec 32 v 0) as (k & K1 & K2 & K3 & K4); [change (2 ^ Z.of_nat 32) with 4294967296; lia|lia|].
    rewrite K2. exists (v / 2 ^ k), k.
    assert (k <= 15). { destruct (Z.le_gt_cases k 15); auto. specialize (Q k ltac:(lia)). specialize (K4 ltac:(lia)).
      pose proof (Z.div_mod v (2 ^ k)). pose proof (Z.mod_pos_bound v (2 ^ k)). nia. }
    split; [repeat split; auto; try lia|]. split; [lia|]. f_equal. set (m := v / 2 ^ k) in *. clearbody m.
    replace (0 + k) with k by lia. rewrite Z.lor_comm, lor_shiftl_add; [|lia|change (2^11) with 2048; lia]. change (2^11) with 2048.
    unfold u16. rewrite Z.mod_small by lia. lia.
Qed.
(** decoding the encoded value gives the normalised one *)
Lemma encode_decode v : -67108864 <= v < 67076096 -> exists m k code, norm v m k /\ 0 <= k <= 15 /\ floatToDpt9 v = Some code /\ is_u16 code /\ dpt9_value code = Some (m * 2 ^ k) /\ exponent code = k.
Proof.
  intros H. destruct (norm_exists v ltac:(lia)) as (m & k & N & K & E). pose proof N as (_ & Em & P & Q). eexists m, k, _. split; auto. split; auto. split; [exact E|].
  destruct (Z.ltb_spec v 0) as [V|V].
  - destruct (Q V) as [B _]. assert (X : exponent (32768 + (m + 2048) + 2048 * k) = k) by (unfold exponent; Z.div_mod_to_equations; lia).
    split; [red; lia|]. split; auto. unfold dpt9_value. destruct (Z.eqb_spec (32768 + (m + 2048) + 2048 * k) 32767); [lia|].
    rewrite X. f_equal. f_equal. unfold mantissa. Z.div_mod_to_equations; lia.
  - destruct (P V) as [B _]. assert (X : exponent (m + 2048 * k) = k) by (unfold exponent; Z.div_mod_to_equations; lia).
    split; [red; lia|]. split; auto. unfold dpt9_value. destruct (Z.eqb_spec (m + 2048 * k) 32767).
    + exfalso. assert (m = 2047 /\ k = 15) as [-> ->] by lia. pose proof (norm_bounds _ _ _ N). change (2 ^ 15) with 32768 in *. lia.
    + rewrite X. f_equal. f_equal. unfold mantissa. Z.div_mod_to_equations; lia.
Qed.
(** representable numbers are normalised without rounding *)
Lemma norm_exact v m k m0 k0 : norm v m k -> v = m0 * 2 ^ k0 -> 0 <= k0 -> -2048 <= m0 <= 2047 -> m * 2 ^ k = v.
Proof.
  intros (Hk & Em & P & N) Ev Hk0 Hm0.
  assert (k <= k0).
  { destruct (Z.le_gt_cases k k0); auto. exfalso. assert (D : 2 * 2 ^ k0 <= 2 ^ k).
    { change 2 with (2 ^ 1) at 1. rewrite <- Z.pow_add_r by lia. apply Z.pow_le_mono_r; lia. }
    pose proof (Z.pow_pos_nonneg 2 k0 ltac:(lia) Hk0).
    pose proof (Z.div_mod v (2 ^ k)). pose proof (Z.mod_pos_bound v (2 ^ k)).
    destruct (Z.lt_ge_cases v 0) as [V|V].
    - destruct (N V) as [_ B]. specialize (B ltac:(lia)). nia.
    - destruct (P V) as [_ B]. specialize (B ltac:(lia)). nia. }
  subst v m. replace k0 with ((k0 - k) + k) by lia. rewrite Z.pow_add_r by lia. rewrite Z.mul_assoc, Z.div_mul; auto.
  pose proof (Z.pow_pos_nonneg 2 k). lia.
Qed.
Lemma value_range code v : is_u16 code -> dpt9_value code = Some v -> -67108864 <= v < 67076096.
Proof.
  unfold dpt9_value, is_u16. intros H E. destruct (Z.eqb_spec code 32767); [discriminate|]. injection E as <-.
  assert (X : 0 <= exponent code < 16) by (apply Z.mod_pos_bound; lia).
  assert (B : -2048 <= mantissa code <= 2047) by (unfold mantissa; Z.div_mod_to_equations; lia).
  assert (0 < 2 ^ exponent code <= 2 ^ 15) by (split; [apply Z.pow_pos_nonneg; lia|apply Z.pow_le_mono_r; lia]). change (2^15) with 32768 in *.
  destruct (Z.eq_dec (exponent code) 15) as [E15|N15].
  - rewrite E15. change (2^15) with 32768. assert (mantissa code <> 2047) by (unfold mantissa, exponent in *; Z.div_mod_to_equations; lia). lia.
  - assert (2 ^ exponent code <= 2 ^ 14) by (apply Z.pow_le_mono_r; lia). change (2^14) with 16384 in *. nia.
Qed.
Lemma representable_exact v m k : representable v -> norm v m k -> m * 2 ^ k = v.
Proof.
  intros (c & Hc & E) N. unfold dpt9_value in E. destruct (Z.eqb_spec c 32767); [discriminate|]. injection E as E.
  apply (norm_exact v m k (mantissa c) (exponent c)); auto.
  - apply Z.mod_pos_bound. lia.
  - unfold is_u16 in Hc. unfold mantissa. Z.div_mod_to_equations; lia.
Qed.
