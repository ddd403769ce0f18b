(** Proofs for C126 *)
From Verif Require Export Base Sfc_Model Sfc_Spec Flt_Proofs.
Open Scope Z_scope.

Lemma flq_err p q : 0 < q -> 2 * Z.abs (flq p q * q - p) <= q * ulp (Z.abs p / q).
Proof.
  intros Q. unfold flq. cbv zeta. set (u := ulp (Z.abs p / q)). pose proof (ulp_pos (Z.abs p / q)) as U. fold u in U. pose proof (rne_err p (q * u) ltac:(apply Z.mul_pos_pos; lia)) as R. replace (rne p (q * u) * u * q) with (rne p (q * u) * (q * u)) by ring. exact R.
Qed.
(** with a bound on the magnitude *)
Lemma flq_err_le p q B : 0 < q -> Z.abs p <= B * q -> 2 * Z.abs (flq p q * q - p) <= q * ulp B.
Proof.
  intros Q H. pose proof (flq_err p q Q) as E. assert (L : Z.abs p / q <= B) by (apply Z.lt_succ_r, Z.div_lt_upper_bound; [lia|]; lia). pose proof (ulp_mono _ _ L) as M. assert (q * ulp (Z.abs p / q) <= q * ulp B) by (apply Z.mul_le_mono_nonneg_l; lia). lia.
Qed.
(** relative, for all but the smallest *)
Lemma flq_rel p q : 0 < q -> 0 <= p -> p = 0 \/ 2 ^ 23 * q <= p -> (2 ^ 24 - 1) * p <= 2 ^ 24 * (flq p q * q) <= (2 ^ 24 + 1) * p.
Proof.
  intros Q P [->|N].
  - assert (F0 : flq 0 q = 0) by (unfold flq; cbv zeta; set (u := ulp (Z.abs 0 / q)); assert (U : 0 < u) by apply ulp_pos; pose proof (rne_mul 0 (q * u) ltac:(apply Z.mul_pos_pos; lia)) as R; rewrite Z.mul_0_l in R; rewrite R; reflexivity). rewrite F0. lia.
  - pose proof (flq_err p q Q) as E. rewrite (Z.abs_eq p) in E by lia. assert (G : 2 ^ 23 <= p / q) by (apply Z.div_le_lower_bound; lia). assert (L : 23 <= Z.log2 (p / q)) by (apply Z.log2_le_pow2; lia).
    assert (U : 2 ^ 23 * ulp (p / q) <= p / q). { unfold ulp. rewrite Z.max_r by lia. rewrite <- Z.pow_add_r by lia. replace (23 + (Z.log2 (p / q) - 23)) with (Z.log2 (p / q)) by lia. apply Z.log2_spec. lia. }
    pose proof (Z.mul_div_le p q Q) as M. assert (W : q * (2 ^ 23 * ulp (p / q)) <= p) by (apply Z.le_trans with (q * (p / q)); [apply Z.mul_le_mono_nonneg_l; lia|exact M]). replace (q * (2 ^ 23 * ulp (p / q))) with (2 ^ 23 * (q * ulp (p / q))) in W by ring. change (2 ^ 23) with 8388608 in *. change (2 ^ 24) with 16777216. lia.
Qed.
Lemma flq_exact k q : is_float k -> 0 < q -> flq (k * q) q = k.
Proof. intros F Q. rewrite <- (Z.mul_1_l q) at 2. rewrite flq_scale by lia. apply fl_id, F. Qed.

(** rounding does not change the order *)
Lemma rne_mono n1 n2 d : 0 < d -> n1 <= n2 -> rne n1 d <= rne n2 d.
Proof.
  intros D L. destruct (Z.eq_dec n1 n2) as [->|N]; [lia|]. pose proof (rne_err n1 d D) as R1. pose proof (rne_err n2 d D) as R2. set (a := rne n1 d) in *. set (b := rne n2 d) in *. clearbody a b. destruct (Z.le_gt_cases a b) as [|G]; [assumption|exfalso]. assert ((b + 1) * d <= a * d) by (apply Z.mul_le_mono_nonneg_r; lia). lia.
Qed.
Lemma rne_opp n d : 0 < d -> rne (- n) d = - rne n d.
Proof.
  intros D. unfold rne. cbv zeta. destruct (Z.eq_dec (n mod d) 0) as [Z0|N].
  - rewrite Z.div_opp_l_z, Z.mod_opp_l_z, Z0 by lia. destruct (Z.ltb_spec (2 * 0) d); [reflexivity|lia].
  - rewrite Z.div_opp_l_nz, Z.mod_opp_l_nz by lia. pose proof (Z.mod_pos_bound n d D) as M. set (r := n mod d) in *. set (f := n / d). clearbody r f. assert (E : Z.even (- f - 1) = negb (Z.even f)). { replace (- f - 1) with (- (Z.succ f)) by lia. rewrite Z.even_opp, Z.even_succ, <- Z.negb_even. reflexivity. } rewrite E.
    destruct (Z.ltb_spec (2 * r) d), (Z.ltb_spec d (2 * r)), (Z.ltb_spec (2 * (d - r)) d), (Z.ltb_spec d (2 * (d - r))); try lia. destruct (Z.even f); cbn [negb]; lia.
Qed.
Lemma flq_opp p q : 0 < q -> flq (- p) q = - flq p q.
Proof. intros Q. unfold flq. cbv zeta. rewrite Z.abs_opp. rewrite rne_opp; [ring|]. apply Z.mul_pos_pos; [lia|apply ulp_pos]. Qed.
Lemma flq_nonneg p q : 0 < q -> 0 <= p -> 0 <= flq p q.
Proof.
  intros Q P. unfold flq. cbv zeta. set (u := ulp _). assert (U : 0 < u) by apply ulp_pos. apply Z.mul_nonneg_nonneg; [|lia]. replace 0 with (rne 0 (q * u)); [apply rne_mono; [apply Z.mul_pos_pos; lia|lia]|]. change 0 with (0 * (q * u)) at 1. apply rne_mul, Z.mul_pos_pos; lia.
Qed.
Lemma flq_mono_pos p1 p2 q : 0 < q -> 0 <= p1 <= p2 -> flq p1 q <= flq p2 q.
Proof.
  intros Q [P L]. unfold flq. cbv zeta. rewrite !Z.abs_eq by lia. assert (D : p1 / q <= p2 / q) by (apply Z.div_le_mono; lia). pose proof (Z.log2_le_mono _ _ D) as G. unfold ulp.
  destruct (Z.eq_dec (Z.max 0 (Z.log2 (p1 / q) - 23)) (Z.max 0 (Z.log2 (p2 / q) - 23))) as [E|N].
  - rewrite E. set (u := 2 ^ _). assert (U : 0 < u) by (apply Z.pow_pos_nonneg; lia). apply Z.mul_le_mono_nonneg_r; [lia|]. apply rne_mono; [apply Z.mul_pos_pos; lia|exact L].
  - set (l := Z.log2 (p2 / q)) in *. assert (A2 : 0 < p2 / q) by (destruct (Z.le_gt_cases (p2 / q) 0) as [G0|]; [unfold l in *; rewrite !Z.log2_nonpos in N by lia; lia|assumption]). assert (H1 : p1 / q < 2 ^ l). { destruct (Z.lt_ge_cases (p1 / q) (2 ^ l)) as [|G1]; [assumption|]. apply Z.log2_le_mono in G1. rewrite Z.log2_pow2 in G1 by (apply Z.log2_nonneg). lia. }
    pose proof (Z.log2_nonneg (p1 / q)) as L1. set (l1 := Z.log2 (p1 / q)) in *. set (e1 := Z.max 0 (l1 - 23)) in *. assert (L23 : 0 <= l - 23) by lia. replace (Z.max 0 (l - 23)) with (l - 23) in * by lia.
    assert (B2 : 2 ^ l <= p2 / q) by (apply Z.log2_spec; exact A2). pose proof (Z.mul_div_le p2 q Q) as M2. pose proof (Z.mul_succ_div_gt p1 q Q) as M1.
    assert (P1 : p1 <= 2 ^ l * q) by (assert (q * Z.succ (p1 / q) <= q * 2 ^ l) by (apply Z.mul_le_mono_nonneg_l; lia); lia). assert (P2 : 2 ^ l * q <= p2) by (assert (q * 2 ^ l <= q * (p2 / q)) by (apply Z.mul_le_mono_nonneg_l; lia); lia).
    apply Z.le_trans with (2 ^ l).
    + assert (U : 0 < 2 ^ e1) by (apply Z.pow_pos_nonneg; lia). assert (R : Z.abs (rne p1 (q * 2 ^ e1)) <= 2 ^ (l - e1)). { apply rne_bound; [apply Z.mul_pos_pos; lia|apply Z.pow_nonneg; lia|]. rewrite Z.abs_eq by lia. replace (2 ^ (l - e1) * (q * 2 ^ e1)) with (2 ^ (l - e1) * 2 ^ e1 * q) by ring. rewrite <- Z.pow_add_r by lia. replace (l - e1 + e1) with l by lia. exact P1. }
      apply Z.le_trans with (2 ^ (l - e1) * 2 ^ e1); [apply Z.mul_le_mono_nonneg_r; lia|]. rewrite <- Z.pow_add_r by lia. replace (l - e1 + e1) with l by lia. lia.
    + assert (U : 0 < 2 ^ (l - 23)) by (apply Z.pow_pos_nonneg; lia). assert (R : 2 ^ 23 <= rne p2 (q * 2 ^ (l - 23))). { rewrite <- (rne_mul (2 ^ 23) (q * 2 ^ (l - 23))) at 1 by (apply Z.mul_pos_pos; lia). apply rne_mono; [apply Z.mul_pos_pos; lia|]. replace (2 ^ 23 * (q * 2 ^ (l - 23))) with (2 ^ 23 * 2 ^ (l - 23) * q) by ring. rewrite <- Z.pow_add_r by lia. replace (23 + (l - 23)) with l by lia. exact P2. }
      apply Z.le_trans with (2 ^ 23 * 2 ^ (l - 23)); [rewrite <- Z.pow_add_r by lia; replace (23 + (l - 23)) with l by lia; lia|]. apply Z.mul_le_mono_nonneg_r; lia.
Qed.
Lemma flq_mono p1 p2 q : 0 < q -> p1 <= p2 -> flq p1 q <= flq p2 q.
Proof.
  intros Q L. destruct (Z.le_gt_cases 0 p1) as [A|A]; [apply flq_mono_pos; lia|]. destruct (Z.le_gt_cases 0 p2) as [B|B].
  - pose proof (flq_nonneg p2 q Q B) as H2. pose proof (flq_nonneg (- p1) q Q ltac:(lia)) as H. rewrite flq_opp in H by exact Q. lia.
  - pose proof (flq_mono_pos (- p2) (- p1) q Q ltac:(lia)) as H. rewrite !flq_opp in H by exact Q. lia.
Qed.

(** operations on whole numbers *)
Lemma int_float n : Z.abs n < 2 ^ 24 -> is_float (n * ONE).
Proof. intros H. exists n, 149. split; [lia|]. split; [exact H|reflexivity]. Qed.
Lemma ofInt_exact n : Z.abs n < 2 ^ 24 -> ofInt n = n * ONE.
Proof. intros H. apply fl_id, int_float, H. Qed.
Lemma lit_exact n : Z.abs n < 2 ^ 24 -> lit n 1 = n * ONE.
Proof. intros H. apply fl_id, int_float, H. Qed.
Lemma fmul_int a n : fmul a (n * ONE) = flq (a * n) 1.
Proof. unfold fmul. rewrite Z.mul_assoc. rewrite <- (Z.mul_1_l ONE) at 2. apply flq_scale; [lia|reflexivity]. Qed.
Lemma fdiv_int a n : 0 < n -> fdiv a (n * ONE) = flq a n.
Proof. intros H. unfold fdiv. apply flq_scale; [exact H|reflexivity]. Qed.

(** ** SHT4x *)
Lemma sht4 n k c : 0 <= n < 65536 -> 0 < k < 256 -> 0 <= c < 256 -> fsub (fdiv (fmul (ofInt n) (lit k 1)) (lit 65535 1)) (lit c 1) = flq (flq (n * k * ONE) 65535 - c * ONE) 1.
Proof.
  intros Hn Hk Hc. rewrite ofInt_exact, !lit_exact by lia. rewrite fmul_int. replace (n * ONE * k) with (n * k * ONE) by ring. rewrite fl_id by (apply int_float; nia). rewrite fdiv_int by lia. reflexivity.
Qed.
Lemma near_sht4 n k c : 0 <= n < 65536 -> 0 < k < 256 -> 0 <= c < 256 -> c <= k -> near 16 (flq (flq (n * k * ONE) 65535 - c * ONE) 1) (n * k - c * 65535) 65535.
Proof.
  intros Hn Hk Hc Hck. assert (NK : 0 <= n * k <= 65535 * k) by nia. pose proof ONE_pos as O. pose proof (flq_err_le (n * k * ONE) 65535 (255 * ONE) ltac:(lia)) as E1. rewrite Z.abs_eq in E1 by nia. specialize (E1 ltac:(nia)). change (ulp (255 * ONE)) with (2 ^ 133) in E1.
  assert (X0 : 0 <= flq (n * k * ONE) 65535) by (apply flq_nonneg; nia). set (x := flq (n * k * ONE) 65535) in *. clearbody x.
  assert (XL : x <= k * ONE + 2 ^ 133). { assert (n * k * ONE <= 65535 * k * ONE) by (apply Z.mul_le_mono_nonneg_r; lia). change (2 ^ 133) with 10889035741470030830827987437816582766592 in *. lia. }
  pose proof (flq_err_le (x - c * ONE) 1 (255 * ONE + 2 ^ 133) ltac:(lia)) as E2. assert (AB : Z.abs (x - c * ONE) <= (255 * ONE + 2 ^ 133) * 1). { assert (k * ONE <= 255 * ONE) by (apply Z.mul_le_mono_nonneg_r; lia). assert (c * ONE <= 255 * ONE) by (apply Z.mul_le_mono_nonneg_r; lia). change (2 ^ 133) with 10889035741470030830827987437816582766592 in *. lia. }
  specialize (E2 AB). change (ulp (255 * ONE + 2 ^ 133)) with (2 ^ 133) in E2. rewrite Z.mul_1_r in E2. set (y := flq (x - c * ONE) 1) in *. clearbody y. unfold near. change (2 ^ 149) with ONE.
  replace (y * 65535 - (n * k - c * 65535) * ONE) with (65535 * (y - (x - c * ONE)) + (x * 65535 - n * k * ONE)) by ring. set (a := y - (x - c * ONE)) in *. set (b := x * 65535 - n * k * ONE) in *. clearbody a b. change ONE with (2 ^ 16 * 2 ^ 133). change (2 ^ 16) with 65536. set (u := 2 ^ 133) in *. lia.
Qed.
Lemma mono_sht4 n m k c : 0 <= n <= m -> 0 < k -> flq (flq (n * k * ONE) 65535 - c * ONE) 1 <= flq (flq (m * k * ONE) 65535 - c * ONE) 1.
Proof. intros H K. pose proof ONE_pos as O. apply flq_mono; [lia|]. apply Z.sub_le_mono_r. apply flq_mono; [lia|]. apply Z.mul_le_mono_nonneg_r; [lia|]. apply Z.mul_le_mono_nonneg_r; lia. Qed.
(** ** SGP4x: x * 65535 / k *)
Lemma ticks_exact x k : 0 < k < 256 -> fdiv (fmul x (ofInt 65535)) (ofInt k) = flq (flq (x * 65535) 1) k.
Proof. intros K. rewrite !ofInt_exact by lia. rewrite fmul_int, fdiv_int by lia. reflexivity. Qed.
Lemma ticks_bounds x k : 0 < k < 256 -> 0 <= x <= k * ONE -> let b := flq (flq (x * 65535) 1) k in 0 <= b <= 65535 * ONE /\ 2 * Z.abs (b * k - x * 65535) <= ONE + k * 2 ^ 141.
Proof.
  intros K X b. pose proof ONE_pos as O. assert (A0 : 0 <= flq (x * 65535) 1) by (apply flq_nonneg; lia).
  assert (A1 : flq (x * 65535) 1 <= 65535 * k * ONE). { rewrite <- (fl_id (65535 * k * ONE)) by (apply int_float; lia). apply flq_mono; lia. }
  assert (E1 : 2 * Z.abs (flq (x * 65535) 1 - x * 65535) <= ONE). { pose proof (flq_err_le (x * 65535) 1 (65535 * 255 * ONE) ltac:(lia)) as E. rewrite Z.mul_1_r in E. rewrite (Z.abs_eq (x * 65535)) in E by lia. change (ulp (65535 * 255 * ONE)) with ONE in E. rewrite Z.mul_1_l in E. rewrite Z.mul_1_r in E. apply E. assert (k * ONE <= 255 * ONE) by (apply Z.mul_le_mono_nonneg_r; lia). lia. }
  set (a := flq (x * 65535) 1) in *. assert (B0 : 0 <= b) by (apply flq_nonneg; lia). split; [split; [exact B0|]|].
  - unfold b. rewrite <- (flq_exact (65535 * ONE) k) by (try (apply int_float; lia); lia). apply flq_mono; [lia|]. replace (65535 * ONE * k) with (65535 * k * ONE) by ring. exact A1.
  - pose proof (flq_err_le a k (65535 * ONE) ltac:(lia)) as E. rewrite (Z.abs_eq a) in E by lia. specialize (E ltac:(lia)). change (ulp (65535 * ONE)) with (2 ^ 141) in E. fold b in E. clearbody a b. set (u := k * 2 ^ 141) in *. lia.
Qed.
Lemma toU16_floor b : 0 <= b <= 65535 * ONE -> toU16 b = Some (b / ONE).
Proof.
  intros H. pose proof ONE_pos as O. unfold toU16. cbv zeta. rewrite Z.quot_div_nonneg by lia. assert (0 <= b / ONE) by (apply Z.div_pos; lia). assert (b / ONE < 65536) by (apply Z.div_lt_upper_bound; lia). destruct (Z.leb_spec 0 (b / ONE)), (Z.ltb_spec (b / ONE) 65536); try lia. reflexivity.
Qed.
