(** Proofs for C125: rounding *)
From Verif Require Export Base Flt_Model Flt_Spec Text_Proofs.
Open Scope Z_scope.

Lemma ulp_pos a : 0 < ulp a.
Proof. unfold ulp. apply Z.pow_pos_nonneg; lia. Qed.
Lemma ulp_mono a b : a <= b -> ulp a <= ulp b.
Proof. intros H. unfold ulp. apply Z.pow_le_mono_r; [lia|]. pose proof (Z.log2_le_mono a b H). lia. Qed.
Lemma rne_err n d : 0 < d -> 2 * Z.abs (rne n d * d - n) <= d.
Proof.
  intros D. pose proof (Z.div_mod n d ltac:(lia)) as E. pose proof (Z.mod_pos_bound n d D) as M. unfold rne. cbv zeta. set (f := n / d) in *. set (r := n mod d) in *. clearbody f r. subst n.
  destruct (Z.ltb_spec (2 * r) d); [replace (f * d - (d * f + r)) with (- r) by ring; lia|]. assert (G : (f + 1) * d - (d * f + r) = d - r) by ring. destruct (Z.ltb_spec d (2 * r)); [rewrite G; lia|].
  destruct (Z.even f); [replace (f * d - (d * f + r)) with (- r) by ring; lia|rewrite G; lia].
Qed.
Lemma rne_mul c d : 0 < d -> rne (c * d) d = c.
Proof. intros D. unfold rne. cbv zeta. rewrite Z.div_mul, Z.mod_mul by lia. destruct (Z.ltb_spec (2 * 0) d); [reflexivity|lia]. Qed.
Lemma rne_scale n d c : 0 < d -> 0 < c -> rne (n * c) (d * c) = rne n d.
Proof.
  intros D C. unfold rne. cbv zeta. rewrite Z.div_mul_cancel_r, Z.mul_mod_distr_r by lia. set (r := n mod d). rewrite Z.mul_assoc.
  assert (A : (2 * r * c <? d * c) = (2 * r <? d)) by (apply Bool.eq_iff_eq_true; rewrite !Z.ltb_lt; symmetry; apply Z.mul_lt_mono_pos_r; lia).
  assert (B : (d * c <? 2 * r * c) = (d <? 2 * r)) by (apply Bool.eq_iff_eq_true; rewrite !Z.ltb_lt; symmetry; apply Z.mul_lt_mono_pos_r; lia).
  rewrite A, B. reflexivity.
Qed.
Lemma flq_scale p q c : 0 < q -> 0 < c -> flq (p * c) (q * c) = flq p q.
Proof.
  intros Q C. unfold flq. cbv zeta. assert (E : Z.abs (p * c) / (q * c) = Z.abs p / q) by (rewrite Z.abs_mul, (Z.abs_eq c) by lia; apply Z.div_mul_cancel_r; lia). rewrite E. set (u := ulp (Z.abs p / q)). pose proof (ulp_pos (Z.abs p / q)) as U. fold u in U. replace (q * c * u) with (q * u * c) by ring. rewrite rne_scale; [reflexivity|apply Z.mul_pos_pos; lia|lia].
Qed.
Lemma fl_err n : 2 * Z.abs (flq n 1 - n) <= ulp (Z.abs n).
Proof. unfold flq. cbv zeta. rewrite Z.div_1_r. rewrite Z.mul_1_l. apply rne_err, ulp_pos. Qed.

(** floats and multiples of their distance *)
Lemma log2_pos_bound a : 0 < a -> 2 ^ Z.log2 a <= a < 2 ^ (Z.log2 a + 1).
Proof. intros H. pose proof (Z.log2_spec a H) as S. rewrite Z.add_1_r. exact S. Qed.
Lemma float_multiple k : is_float k -> exists c, k = c * ulp (Z.abs k).
Proof.
  intros (m & e & He & M & ->). destruct (Z.eq_dec m 0) as [->|N]; [exists 0; ring|].
  assert (P : 0 < 2 ^ e) by (apply Z.pow_pos_nonneg; lia). rewrite Z.abs_mul, (Z.abs_eq (2 ^ e)) by lia. unfold ulp.
  rewrite Z.log2_mul_pow2 by lia. assert (L : Z.log2 (Z.abs m) <= 23). { pose proof (Z.log2_lt_pow2 (Z.abs m) 24 ltac:(lia)) as G. apply Z.lt_succ_r. change (Z.succ 23) with 24. apply G, M. }
  set (x := Z.max 0 _). assert (X : 0 <= x <= e) by lia. exists (m * 2 ^ (e - x)). rewrite <- Z.mul_assoc, <- Z.pow_add_r by lia. f_equal. f_equal. lia.
Qed.
Lemma fl_id k : is_float k -> flq k 1 = k.
Proof.
  intros F. destruct (float_multiple k F) as (c & E). pose proof (ulp_pos (Z.abs k)) as U. unfold flq. cbv zeta. rewrite Z.div_1_r, Z.mul_1_l. set (u := ulp (Z.abs k)) in *. rewrite E, rne_mul by exact U. reflexivity.
Qed.
Lemma rne_bound n d b : 0 < d -> 0 <= b -> Z.abs n <= b * d -> Z.abs (rne n d) <= b.
Proof.
  intros D B H. pose proof (rne_err n d D) as R. set (r := rne n d) in *. clearbody r. assert (G : Z.abs (r * d) <= Z.abs n + Z.abs (r * d - n)) by lia. rewrite Z.abs_mul, (Z.abs_eq d) in G by lia.
  destruct (Z.le_gt_cases (Z.abs r) b) as [|N]; [assumption|exfalso]. assert ((b + 1) * d <= Z.abs r * d) by (apply Z.mul_le_mono_nonneg_r; lia). lia.
Qed.
Lemma fl_float n : Z.abs n < 2 ^ 276 -> is_float (flq n 1).
Proof.
  intros H. unfold flq. cbv zeta. rewrite Z.div_1_r, Z.mul_1_l. destruct (Z.eq_dec n 0) as [->|N]; [exists 0, 0; split; [lia|]; split; [reflexivity|reflexivity]|].
  pose proof (log2_pos_bound (Z.abs n) ltac:(lia)) as [L1 L2]. unfold ulp. set (l := Z.log2 (Z.abs n)) in *. assert (L0 : 0 <= l) by apply Z.log2_nonneg.
  assert (L : l < 276) by (apply (Z.pow_lt_mono_r_iff 2); lia). set (e := Z.max 0 (l - 23)) in *. assert (P : 0 < 2 ^ e) by (apply Z.pow_pos_nonneg; lia).
  assert (B : Z.abs (rne n (2 ^ e)) <= 2 ^ 24). { apply rne_bound; [exact P|lia|]. rewrite <- Z.pow_add_r by lia. assert (2 ^ (l + 1) <= 2 ^ (24 + e)) by (apply Z.pow_le_mono_r; lia). lia. }
  set (m := rne n (2 ^ e)) in *. destruct (Z.eq_dec (Z.abs m) (2 ^ 24)) as [E|E].
  - exists (Z.sgn m * 2 ^ 23), (1 + e). split; [lia|]. split; [destruct m; vm_compute; reflexivity|]. rewrite Z.pow_add_r by lia. transitivity (Z.sgn m * 2 ^ 24 * 2 ^ e); [|change (2 ^ 24) with (2 ^ 23 * 2 ^ 1); ring]. rewrite <- E. rewrite (Z.mul_comm (Z.sgn m)), Z.abs_sgn. reflexivity.
  - exists m, e. split; [lia|]. split; [lia|reflexivity].
Qed.
(** the next float below a bound *)
Lemma float_below k B h : is_float k -> 23 <= h -> 2 ^ h + 2 ^ (h - 23) <= B -> (2 ^ (h - 23) | B) -> k < B -> k <= B - 2 ^ (h - 23).
Proof.
  intros F Hh HB (b & Db) L. assert (P : 0 < 2 ^ (h - 23)) by (apply Z.pow_pos_nonneg; lia). destruct (Z.lt_ge_cases k (2 ^ h)) as [|G]; [lia|].
  destruct (float_multiple k F) as (c & E). assert (P0 : 0 < 2 ^ h) by (apply Z.pow_pos_nonneg; lia). rewrite Z.abs_eq in E by lia.
  assert (Lg : h <= Z.log2 k) by (apply Z.log2_le_pow2; lia). unfold ulp in E. set (x := Z.max 0 _) in E. assert (X : h - 23 <= x) by lia.
  replace x with ((x - (h - 23)) + (h - 23)) in E by lia. rewrite Z.pow_add_r, Z.mul_assoc in E by lia. set (cc := c * 2 ^ (x - (h - 23))) in E. clearbody cc. rewrite E, Db in L |- *.
  apply Z.mul_lt_mono_pos_r in L; [|exact P]. replace (b * 2 ^ (h - 23) - 2 ^ (h - 23)) with ((b - 1) * 2 ^ (h - 23)) by ring. apply Z.mul_le_mono_nonneg_r; lia.
Qed.

(** ** the digits behind the point *)
Lemma fmul10 f : fmul f (10 * ONE) = flq (f * 10) 1.
Proof. unfold fmul. replace (f * (10 * ONE)) with (f * 10 * ONE) by ring. rewrite <- (Z.mul_1_l ONE) at 2. apply flq_scale; [lia|reflexivity]. Qed.
Fixpoint drift (i : nat) : Z := match i with O => 0 | S i => 10 * drift i + ulp (10 ^ Z.of_nat (S i) * ONE) end.
Definition high (i : nat) : Z := nth i [148; 152; 155; 158; 162; 165; 168] 0.
Lemma scaled f : is_float f -> 0 <= f < ONE -> forall i, (i <= 7)%nat ->
  let x := scale i f in is_float x /\ 0 <= x < 10 ^ Z.of_nat i * ONE /\ 2 * Z.abs (x - 10 ^ Z.of_nat i * f) <= drift i.
Proof.
  intros F B. induction i as [|i IH]; intros Hi; cbv zeta.
  - cbn [scale drift]. change (10 ^ Z.of_nat 0) with 1. split; [exact F|]. split; [lia|]. rewrite Z.mul_1_l, Z.sub_diag. reflexivity.
  - specialize (IH ltac:(lia)). cbv zeta in IH. cbn [scale]. set (x := scale i f) in *. clearbody x. destruct IH as (Fx & Bx & Ex). rewrite fmul10. pose proof (fl_err (x * 10)) as Er. rewrite (Z.abs_eq (x * 10)) in Er by lia.
    assert (T : 10 ^ Z.of_nat (S i) = 10 * 10 ^ Z.of_nat i) by (rewrite Nat2Z.inj_succ, Z.pow_succ_r by lia; reflexivity).
    assert (U : ulp (x * 10) <= ulp (10 ^ Z.of_nat (S i) * ONE)) by (apply ulp_mono; rewrite T; lia).
    assert (W : x <= 10 ^ Z.of_nat i * ONE - 2 ^ (high i - 23) /\ ulp (10 ^ Z.of_nat (S i) * ONE) < 20 * 2 ^ (high i - 23)).
    { split; [apply float_below; [exact Fx| | | |lia]|]; do 7 (destruct i as [|i]; [first [vm_compute; discriminate|vm_compute; reflexivity|apply Z.mod_divide; [vm_compute; discriminate|vm_compute; reflexivity]]|]); lia. }
    destruct W as [W1 W2]. set (u := ulp (10 ^ Z.of_nat (S i) * ONE)) in *. set (w := 2 ^ (high i - 23)) in *. cbn [drift]. fold u. clearbody u w. set (y := flq (x * 10) 1) in *.
    split; [apply fl_float|split].
    + rewrite Z.abs_eq by lia. apply Z.lt_trans with (10 ^ Z.of_nat (S i) * ONE); [rewrite T; lia|]. clear - Hi. do 7 (destruct i as [|i]; [reflexivity|]). lia.
    + split; [|rewrite T; lia]. unfold y, flq. cbv zeta. rewrite Z.div_1_r. rewrite Z.mul_1_l. set (v := ulp (Z.abs (x * 10))). pose proof (ulp_pos (Z.abs (x * 10))) as V. fold v in V. pose proof (rne_err (x * 10) v V) as R. clearbody v. set (r := rne (x * 10) v) in *. clearbody r. apply Z.mul_nonneg_nonneg; [|lia].
      destruct (Z.le_gt_cases 0 r) as [|Rn]; [assumption|exfalso]. assert (r * v <= (-1) * v) by (apply Z.mul_le_mono_nonneg_r; lia). lia.
    + rewrite T. assert (A : Z.abs (y - 10 * 10 ^ Z.of_nat i * f) <= Z.abs (y - x * 10) + 10 * Z.abs (x - 10 ^ Z.of_nat i * f)) by (replace (10 * 10 ^ Z.of_nat i * f) with (10 * (10 ^ Z.of_nat i * f)) by ring; lia). lia.
Qed.
(** numbers with few binary places are not rounded *)
Lemma float_small m e : 0 <= e <= 253 -> Z.abs m < 2 ^ 24 -> is_float (m * 2 ^ e).
Proof. intros E M. exists m, e. auto. Qed.
Lemma scaled_exact p b : (p <= 7)%nat -> 0 <= b < 2 ^ Z.of_nat p -> forall i, (i <= p)%nat ->
  scale i (b * 2 ^ (149 - Z.of_nat p)) = 10 ^ Z.of_nat i * (b * 2 ^ (149 - Z.of_nat p)).
Proof.
  intros Hp Hb. induction i as [|i IH]; intros Hi; [cbn [scale]; change (10 ^ Z.of_nat 0) with 1; lia|].
  cbn [scale]. rewrite IH by lia. rewrite fmul10. rewrite Nat2Z.inj_succ, Z.pow_succ_r by lia.
  replace (10 ^ Z.of_nat i * (b * 2 ^ (149 - Z.of_nat p)) * 10) with (10 * 10 ^ Z.of_nat i * (b * 2 ^ (149 - Z.of_nat p))) by ring. apply fl_id.
  rewrite <- Z.pow_succ_r, <- Nat2Z.inj_succ by lia. change 10 with (2 * 5) at 1. rewrite Z.pow_mul_l. replace (2 ^ Z.of_nat (S i) * 5 ^ Z.of_nat (S i) * (b * 2 ^ (149 - Z.of_nat p))) with (5 ^ Z.of_nat (S i) * b * (2 ^ Z.of_nat (S i) * 2 ^ (149 - Z.of_nat p))) by ring.
  rewrite <- Z.pow_add_r by lia. apply float_small; [lia|]. rewrite Z.abs_eq by (apply Z.mul_nonneg_nonneg; [apply Z.pow_nonneg; lia|lia]).
  assert (A : 5 ^ Z.of_nat (S i) <= 5 ^ 7) by (apply Z.pow_le_mono_r; lia). assert (C : 2 ^ Z.of_nat p <= 2 ^ 7) by (apply Z.pow_le_mono_r; lia). assert (D : 5 ^ Z.of_nat (S i) * b <= 5 ^ 7 * b) by (apply Z.mul_le_mono_nonneg_r; lia). change (5 ^ 7) with 78125 in *. change (2 ^ 7) with 128 in C. change (2 ^ 24) with 16777216. lia.
Qed.

(** ** the number before the point and the rest are exact *)
Lemma ONE_pos : 0 < ONE. Proof. reflexivity. Qed.
Lemma float_parts v : is_float v -> is_float (Z.quot v ONE * ONE) /\ is_float (Z.rem v ONE).
Proof.
  intros (m & e & He & M & ->). destruct (Z.le_gt_cases 149 e) as [G|G].
  - assert (E : m * 2 ^ e = m * 2 ^ (e - 149) * ONE) by (unfold ONE; rewrite <- Z.mul_assoc, <- Z.pow_add_r by lia; f_equal; f_equal; lia). rewrite E, Z.quot_mul, Z.rem_mul by discriminate. rewrite <- E. split; [exists m, e; auto|exists 0, 0; split; [lia|split; [reflexivity|reflexivity]]].
  - assert (P : 0 < 2 ^ e) by (apply Z.pow_pos_nonneg; lia). assert (P' : 0 < 2 ^ (149 - e)) by (apply Z.pow_pos_nonneg; lia). assert (E : ONE = 2 ^ (149 - e) * 2 ^ e) by (unfold ONE; rewrite <- Z.pow_add_r by lia; f_equal; lia). rewrite E. rewrite Z.quot_mul_cancel_r, Z.mul_rem_distr_r by lia.
    set (d := 2 ^ (149 - e)) in *. split.
    + exists (Z.quot m d), 149. split; [lia|]. split; [|rewrite <- E; reflexivity]. apply Z.le_lt_trans with (Z.abs m); [|exact M]. rewrite <- Z.quot_abs by lia. rewrite (Z.abs_eq d) by lia. apply Z.quot_le_upper_bound; [lia|]. assert (1 * Z.abs m <= d * Z.abs m) by (apply Z.mul_le_mono_nonneg_r; lia). lia.
    + exists (Z.rem m d), e. split; [lia|]. split; [|reflexivity]. apply Z.le_lt_trans with (Z.abs m); [|exact M]. rewrite <- Z.rem_abs by lia. rewrite (Z.abs_eq d) by lia. apply Z.rem_le; lia.
Qed.
Lemma parts v : is_float v -> Z.abs v < 2 ^ 31 * ONE ->
  exists number, toInt v = Some number /\ -2 ^ 31 < number < 2 ^ 31 /\ Z.abs number = Z.abs v / ONE /\ (number < 0 <-> v <= - ONE) /\ absMacro (fsub v (ofInt number)) = Z.abs v mod ONE /\ is_float (Z.abs v mod ONE).
Proof.
  intros F B. destruct (float_parts v F) as [F1 F2]. pose proof ONE_pos as O.
  assert (A : Z.abs (Z.quot v ONE) = Z.abs v / ONE) by (rewrite <- Z.quot_abs by lia; rewrite (Z.abs_eq ONE) by lia; apply Z.quot_div_nonneg; lia).
  assert (R : Z.abs (Z.rem v ONE) = Z.abs v mod ONE) by (rewrite <- Z.rem_abs by lia; rewrite (Z.abs_eq ONE) by lia; apply Z.rem_mod_nonneg; lia).
  assert (L : Z.abs v / ONE < 2 ^ 31) by (apply Z.div_lt_upper_bound; lia). exists (Z.quot v ONE). split; [unfold toInt; cbv zeta; destruct (Z.leb_spec (- 2 ^ 31) (Z.quot v ONE)), (Z.ltb_spec (Z.quot v ONE) (2 ^ 31)); try reflexivity; lia|]. split; [lia|]. split; [exact A|]. pose proof (Z.quot_rem' v ONE) as Q. split.
  - split; intros H.
    + assert (v < 0) by (destruct (Z.le_gt_cases 0 v) as [G|G]; [pose proof (Z.quot_pos v ONE G O); lia|lia]). assert (ONE * Z.quot v ONE <= ONE * (-1)) by (apply Z.mul_le_mono_nonneg_l; lia). pose proof (Z.rem_nonpos v ONE ltac:(lia) ltac:(lia)). lia.
    + assert (1 <= Z.abs v / ONE) by (apply Z.div_le_lower_bound; lia). destruct (Z.le_gt_cases 0 (Z.quot v ONE)) as [G|G]; [|exact G]. pose proof (Z.rem_nonpos v ONE ltac:(lia) ltac:(lia)). assert (0 <= ONE * Z.quot v ONE) by (apply Z.mul_nonneg_nonneg; lia). pose proof (Z.rem_bound_abs v ONE ltac:(lia)). lia.
  - unfold ofInt. rewrite (fl_id (Z.quot v ONE * ONE)) by exact F1. replace (fsub v (Z.quot v ONE * ONE)) with (Z.rem v ONE) by (unfold fsub; replace (v - Z.quot v ONE * ONE) with (Z.rem v ONE) by lia; symmetry; apply fl_id, F2).
    split; [rewrite <- R; unfold absMacro; destruct (Z.ltb_spec 0 (Z.rem v ONE)); lia|]. rewrite <- R. destruct F2 as (m & e & He & M & ->). exists (Z.abs m), e. split; [exact He|]. split; [lia|]. rewrite Z.abs_mul, (Z.abs_eq (2 ^ e)); [reflexivity|apply Z.pow_nonneg; lia].
Qed.
Lemma printInt_whole n : -2 ^ 31 < n < 2 ^ 31 -> exists t, printInt n 10 (-1) = Some ((if n <? 0 then [45] else []) ++ t) /\ denotes 10 t = Some (Z.abs n) /\ padded 1 t.
Proof.
  intros H. unfold printInt. destruct (Z.ltb_spec n 0) as [N|N].
  - destruct (Z.eqb_spec n (-2 ^ 31)); [lia|]. change (-1 =? -2 ^ 31) with false. cbn [orb]. destruct (printUInt_spec (- n) 10 (-1 - 1)) as (t & E & D & P); [unfold is_u32; lia|lia|lia|]. rewrite E. exists t. split; [reflexivity|]. rewrite Z.abs_neq by lia. split; [exact D|exact P].
  - destruct (printUInt_spec n 10 (-1)) as (t & E & D & P); [unfold is_u32; lia|lia|lia|]. rewrite E. exists t. split; [reflexivity|]. rewrite Z.abs_eq by lia. split; [exact D|exact P].
Qed.
Lemma printInt_places d p : (1 <= p <= 7)%nat -> 0 <= d < 10 ^ Z.of_nat p -> exists t, printInt d 10 (Z.of_nat p) = Some t /\ denotes 10 t = Some d /\ length t = p.
Proof.
  intros Hp H. unfold printInt. destruct (Z.ltb_spec d 0); [lia|]. assert (T : 10 ^ Z.of_nat p <= 10 ^ 7) by (apply Z.pow_le_mono_r; lia). change (10 ^ 7) with 10000000 in T. destruct (printUInt_spec d 10 (Z.of_nat p)) as (t & E & D & P); [unfold is_u32; lia|lia|lia|]. exists t. split; [exact E|]. split; [exact D|].
  destruct P as [P|[P N]]; [lia|exfalso]. destruct t as [|c t]; [cbn in P; lia|]. cbn [hd] in N. unfold denotes in D. apply denotes_cons_inv in D. destruct D as (x & Dx & Bx & D). apply denotes_chars in D; [|lia|lia].
  assert (X : x <> 0). { intros ->. apply N. apply (digit_value_inj c 48 0); [exact Dx|reflexivity]. }
  assert (10 ^ Z.of_nat p <= 10 ^ Z.of_nat (length t)) by (apply Z.pow_le_mono_r; cbn [length] in P; lia). assert (1 * 10 ^ Z.of_nat (length t) <= (0 * 10 + x) * 10 ^ Z.of_nat (length t)) by (apply Z.mul_le_mono_nonneg_r; [apply Z.pow_nonneg; lia|lia]). lia.
Qed.
(** what is printed, by the scaled fraction *)
Lemma printFloat_text v precision p : is_float v -> Z.abs v < 2 ^ 31 * ONE -> 1 <= precision -> p = Z.to_nat (Z.min 7 precision) ->
  let x := scale p (Z.abs v mod ONE) in
  exists t, printFloat v precision = Some ((if v <=? - ONE then [45] else []) ++ t) /\ shows t p (Z.abs v / ONE * 10 ^ Z.of_nat p + x / ONE).
Proof.
  intros F B Pr Ep x. destruct (parts v F B) as (n & E & Bn & An & Sn & Ef & Ff). destruct (printInt_whole n Bn) as (i & Ei & Di & Pi). pose proof (Z.mod_pos_bound (Z.abs v) ONE ONE_pos) as Bf.
  assert (P7 : (1 <= p <= 7)%nat) by lia. destruct (scaled (Z.abs v mod ONE) Ff Bf p ltac:(lia)) as (_ & Bx & _). fold x in Bx.
  assert (Bd : 0 <= x / ONE < 10 ^ Z.of_nat p) by (split; [apply Z.div_pos; [lia|apply ONE_pos]|apply Z.div_lt_upper_bound; [apply ONE_pos|lia]]). destruct (printInt_places (x / ONE) p P7 Bd) as (t & Et & Dt & Lt).
  exists (i ++ 46 :: t). split.
  - unfold printFloat. rewrite E, Ef. cbv zeta. rewrite Ei. destruct (Z.ltb_spec precision 1); [lia|]. assert (M : minMacro 7 precision = Z.of_nat p) by (unfold minMacro; destruct (Z.ltb_spec 7 precision); lia). rewrite M, Nat2Z.id. fold x.
    assert (Ex : toInt x = Some (x / ONE)). { unfold toInt. cbv zeta. rewrite Z.quot_div_nonneg by (try apply ONE_pos; lia). assert (T : 10 ^ Z.of_nat p <= 10 ^ 7) by (apply Z.pow_le_mono_r; lia). change (10 ^ 7) with 10000000 in T. destruct (Z.leb_spec (- 2 ^ 31) (x / ONE)), (Z.ltb_spec (x / ONE) (2 ^ 31)); try reflexivity; lia. }
    rewrite Ex, Et. assert (G : (n <? 0) = (v <=? - ONE)) by (apply Bool.eq_iff_eq_true; rewrite Z.ltb_lt, Z.leb_le; exact Sn). rewrite G, <- app_assoc. reflexivity.
  - exists i, t, (Z.abs v / ONE), (x / ONE). split; [reflexivity|]. rewrite <- An. split; [exact Di|]. split; [exact Pi|]. split; [exact Dt|]. split; [exact Lt|reflexivity].
Qed.
