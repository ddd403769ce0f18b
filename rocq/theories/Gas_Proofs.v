(** Lemmas for C127 *)
From Verif Require Export Gas_Model Gas_Spec Sfc_Proofs Flt_Proofs.
Open Scope Z_scope.

(** bounds which are floats survive rounding *)
Lemma flq_le p q B : 0 < q -> is_float B -> p <= B * q -> flq p q <= B.
Proof. intros Q F H. rewrite <- (flq_exact B q F Q). apply flq_mono; assumption. Qed.
Lemma flq_ge p q B : 0 < q -> is_float B -> B * q <= p -> B <= flq p q.
Proof. intros Q F H. rewrite <- (flq_exact B q F Q). apply flq_mono; assumption. Qed.
Lemma fin_some x : Z.abs x < 2 ^ 277 -> fin x = Some x.
Proof. intros H. unfold fin. destruct (Z.ltb_spec (Z.abs x) (2 ^ 277)); [reflexivity|lia]. Qed.
Lemma fin_inv x y : fin x = Some y -> y = x /\ Z.abs x < 2 ^ 277.
Proof. unfold fin. destruct (Z.ltb_spec (Z.abs x) (2 ^ 277)); intros [= <-]; auto. Qed.
Lemma both_some f a b y : both f a b = Some y -> exists u v, a = Some u /\ b = Some v /\ f u v = Some y.
Proof. destruct a as [u|], b as [v|]; try discriminate. intros H. exists u, v. auto. Qed.
Lemma big : 2 ^ 277 = 242833611528216133864932738352939863330300854881517440156476551217363035650651062272. Proof. reflexivity. Qed.
Lemma one : ONE = 713623846352979940529142984724747568191373312. Proof. reflexivity. Qed.
Lemma lit_int n : Z.abs n < 2 ^ 24 -> lit n 1 = n * ONE.
Proof. apply lit_exact. Qed.

Lemma oadd_some a b : Z.abs (fadd a b) < 2 ^ 277 -> oadd (Some a) (Some b) = Some (fadd a b).
Proof. intros H. unfold oadd, both. apply fin_some, H. Qed.
Lemma osub_some a b : Z.abs (fsub a b) < 2 ^ 277 -> osub (Some a) (Some b) = Some (fsub a b).
Proof. intros H. unfold osub, both. apply fin_some, H. Qed.
Lemma omul_some a b : Z.abs (fmul a b) < 2 ^ 277 -> omul (Some a) (Some b) = Some (fmul a b).
Proof. intros H. unfold omul, both. apply fin_some, H. Qed.
Lemma odiv_some a b : 0 < b -> Z.abs (fdiv a b) < 2 ^ 277 -> odiv (Some a) (Some b) = Some (fdiv a b).
Proof. intros B H. unfold odiv, both. destruct (Z.eqb_spec b 0); [lia|]. destruct (Z.ltb_spec b 0); [lia|]. apply fin_some, H. Qed.
Lemma oadd_inv a b y : oadd a b = Some y -> exists u v, a = Some u /\ b = Some v /\ y = fadd u v.
Proof. intros E. apply both_some in E. destruct E as (u & v & A & B & E). apply fin_inv in E. exists u, v. intuition. Qed.
Lemma osub_inv a b y : osub a b = Some y -> exists u v, a = Some u /\ b = Some v /\ y = fsub u v.
Proof. intros E. apply both_some in E. destruct E as (u & v & A & B & E). apply fin_inv in E. exists u, v. intuition. Qed.
Lemma omul_inv a b y : omul a b = Some y -> exists u v, a = Some u /\ b = Some v /\ y = fmul u v.
Proof. intros E. apply both_some in E. destruct E as (u & v & A & B & E). apply fin_inv in E. exists u, v. intuition. Qed.
Lemma K_int n : Z.abs n < 2 ^ 24 -> K n 1 = Some (n * ONE).
Proof. intros H. unfold K. rewrite lit_int by exact H. reflexivity. Qed.

(** ** a low pass: between the bounds it stays between them. H: 500.4 *)
Definition H : Z := 2502 * (ONE / 5) + 2502.
Lemma H_bounds : 500 * ONE < H < 501 * ONE /\ 0 < H.
Proof. split; [split; reflexivity|reflexivity]. Qed.
Lemma mixv_bounds a x s : ONE <= 503 * a -> a <= ONE -> 0 <= x <= H -> 0 <= s <= 500 * ONE ->
  0 <= fsub ONE a <= ONE /\ 0 <= fmul (fsub ONE a) x <= H + 2 ^ 133 /\ 0 <= fmul a s <= 500 * ONE /\ 0 <= fadd (fmul (fsub ONE a) x) (fmul a s) <= H.
Proof.
  intros A1 A2 X S. set (c := fsub ONE a). set (p := fmul c x). set (q := fmul a s). pose proof ONE_pos as O. destruct H_bounds as [[HB1 HB2] HB0]. assert (A0 : 0 < a) by lia.
  assert (F1 : is_float ONE) by (rewrite <- (Z.mul_1_l ONE); apply int_float; lia).
  assert (C0 : 0 <= c) by (apply flq_nonneg; lia). assert (C1 : c <= ONE) by (apply flq_le; [lia|exact F1|lia]).
  assert (CE : 2 * (c - (ONE - a)) <= 2 ^ 126). { pose proof (flq_err_le (ONE - a) 1 ONE ltac:(lia) ltac:(lia)) as E. change (ulp ONE) with (2 ^ 126) in E. fold (fsub ONE a) in E. fold c in E. lia. }
  assert (P0 : 0 <= p) by (apply flq_nonneg; [lia|apply Z.mul_nonneg_nonneg; lia]).
  assert (CX : 0 <= c * x <= c * H) by (split; [apply Z.mul_nonneg_nonneg; lia|apply Z.mul_le_mono_nonneg_l; lia]).
  assert (CH : c * H <= ONE * H) by (apply Z.mul_le_mono_nonneg_r; lia).
  assert (PE : 2 * (p * ONE - c * x) <= ONE * 2 ^ 134). { pose proof (flq_err_le (c * x) ONE (501 * ONE) ltac:(lia)) as E. change (ulp (501 * ONE)) with (2 ^ 134) in E. fold (fmul c x) in E. fold p in E. assert (H * ONE <= 501 * ONE * ONE) by (apply Z.mul_le_mono_nonneg_r; lia). specialize (E ltac:(lia)). lia. }
  assert (AS : 0 <= a * s <= a * (500 * ONE)) by (split; [apply Z.mul_nonneg_nonneg; lia|apply Z.mul_le_mono_nonneg_l; lia]).
  assert (Q0 : 0 <= q) by (apply flq_nonneg; lia).
  assert (Q1 : q <= 500 * ONE). { apply flq_le; [lia|apply int_float; lia|]. assert (a * (500 * ONE) <= ONE * (500 * ONE)) by (apply Z.mul_le_mono_nonneg_r; lia). lia. }
  assert (QE : 2 * (q * ONE - a * s) <= ONE * 2 ^ 134). { pose proof (flq_err_le (a * s) ONE (501 * ONE) ltac:(lia)) as E. change (ulp (501 * ONE)) with (2 ^ 134) in E. fold (fmul a s) in E. fold q in E. assert (a * (500 * ONE) <= ONE * (500 * ONE)) by (apply Z.mul_le_mono_nonneg_r; lia). specialize (E ltac:(lia)). lia. }
  assert (PH : p <= H + 2 ^ 133). { apply Z.mul_le_mono_pos_r with (p := ONE); [exact O|]. change (2 ^ 134) with (2 * 2 ^ 133) in PE. lia. }
  (* the sum before the last rounding *)
  assert (T : (p + q) * ONE <= (ONE - a) * H + 2 ^ 125 * H + a * (500 * ONE) + ONE * 2 ^ 134). { assert (c * H <= (ONE - a + 2 ^ 125) * H) by (apply Z.mul_le_mono_nonneg_r; [lia|]; change (2 ^ 126) with (2 * 2 ^ 125) in CE; lia). lia. }
  split; [lia|]. split; [lia|]. split; [lia|]. unfold fadd. split; [apply flq_nonneg; lia|].
  assert (T2 : p + q <= H - 2 ^ 133).
  { clear - T A1 O. apply Z.mul_le_mono_pos_r with (p := ONE); [exact O|].
    assert (G : ONE * (H - 500 * ONE) <= 503 * (a * (H - 500 * ONE))). { replace (503 * (a * (H - 500 * ONE))) with (503 * a * (H - 500 * ONE)) by ring. apply Z.mul_le_mono_nonneg_r; [discriminate|exact A1]. }
    replace ((ONE - a) * H + 2 ^ 125 * H + a * (500 * ONE) + ONE * 2 ^ 134) with (ONE * H - a * (H - 500 * ONE) + (2 ^ 125 * H + ONE * 2 ^ 134)) in T by ring.
    assert (N : 503 * (2 ^ 125 * H + ONE * 2 ^ 134 + 2 ^ 133 * ONE) <= ONE * (H - 500 * ONE)) by (vm_compute; discriminate).
    set (w := a * (H - 500 * ONE)) in *. set (k := 2 ^ 125 * H + ONE * 2 ^ 134) in *. set (h := ONE * (H - 500 * ONE)) in *. clearbody w k h. set (z := 2 ^ 133) in *. clearbody z. rewrite Z.mul_sub_distr_r. set (o := (p + q) * ONE) in *. set (i := H * ONE) in *. rewrite (Z.mul_comm ONE H) in T. fold i in T. set (j := z * ONE) in *. clearbody o i j. lia. }
  pose proof (flq_err_le (p + q) 1 (501 * ONE) ltac:(lia) ltac:(lia)) as E. change (ulp (501 * ONE)) with (2 * 2 ^ 133) in E. lia.
Qed.
Lemma mixed_some a x s : ONE <= 503 * a -> a <= ONE -> 0 <= x <= H -> 0 <= s <= 500 * ONE -> exists y, mixed a x s = Some y /\ 0 <= y <= H.
Proof.
  intros A1 A2 X S. destruct (mixv_bounds a x s A1 A2 X S) as (C & P & Q & M). destruct H_bounds as [HB _].
  assert (B : 502 * ONE < 2 ^ 277) by reflexivity. assert (B2 : 2 ^ 133 < ONE) by reflexivity.
  exists (fadd (fmul (fsub ONE a) x) (fmul a s)). split; [|exact M]. unfold mixed. rewrite K_int by lia. rewrite Z.mul_1_l. rewrite osub_some by lia. rewrite omul_some by lia. rewrite omul_some by lia. apply oadd_some. lia.
Qed.

(** the share of a new value *)
Lemma share_bounds si tau D : usual_interval si -> 0 <= tau <= 500 * ONE -> D = fadd si tau -> si <= D <= 502 * si /\ ONE <= 503 * fdiv si D /\ fdiv si D <= ONE.
Proof.
  intros [F S] T ED. change (2 ^ 149) with ONE in S. pose proof ONE_pos as O. assert (F1 : is_float ONE) by (rewrite <- (Z.mul_1_l ONE); apply int_float; lia).
  assert (D1 : si <= D) by (subst D; apply flq_ge; [lia|exact F|lia]).
  assert (D2 : 2 ^ 24 * D <= (2 ^ 24 + 1) * 501 * si). { pose proof (flq_rel (si + tau) 1 ltac:(lia) ltac:(lia)) as R. assert (G : 2 ^ 23 * 1 <= si + tau) by (assert (2 ^ 23 * 1 <= ONE) by discriminate; lia). specialize (R (or_intror G)). fold (fadd si tau) in R. rewrite <- ED in R. clear - R S T O. lia. }
  assert (D3 : D <= 502 * si) by lia.
  split; [lia|]. split.
  - pose proof (flq_rel (si * ONE) D ltac:(lia) ltac:(apply Z.mul_nonneg_nonneg; lia)) as R. assert (G : 2 ^ 23 * D <= si * ONE). { apply Z.le_trans with (si * (2 ^ 23 * 502)); [lia|]. apply Z.mul_le_mono_nonneg_l; [lia|discriminate]. } specialize (R (or_intror G)). fold (fdiv si D) in R. set (a := fdiv si D) in *.
    assert (A0 : 0 <= a) by (apply flq_nonneg; [lia|apply Z.mul_nonneg_nonneg; lia]). clearbody a.
    assert (M : 2 ^ 24 * (a * D) <= a * ((2 ^ 24 + 1) * 501) * si). { replace (2 ^ 24 * (a * D)) with (a * (2 ^ 24 * D)) by ring. rewrite <- Z.mul_assoc. apply Z.mul_le_mono_nonneg_l; [exact A0|exact D2]. }
    assert (N : (2 ^ 24 - 1) * ONE * si <= a * ((2 ^ 24 + 1) * 501) * si) by lia. apply Z.mul_le_mono_pos_r in N; [|lia]. clear - N O A0. lia.
  - apply flq_le; [lia|exact F1|]. rewrite Z.mul_comm. apply Z.mul_le_mono_nonneg_l; lia.
Qed.
Definition good_share (a : Z) : Prop := ONE <= 503 * a /\ a <= ONE.
Definition LInv (l : lowpass) : Prop := good_share (lowA1 l) /\ good_share (lowA2 l) /\ (linit l = true -> 0 <= lowX1 l <= H /\ 0 <= lowX2 l <= H /\ 0 <= lowX3 l <= H).
Lemma share_some si tau : usual_interval si -> 0 <= tau <= 500 * ONE -> odiv (Some si) (oadd (Some si) (Some tau)) = Some (fdiv si (fadd si tau)) /\ good_share (fdiv si (fadd si tau)).
Proof.
  intros U T. destruct (share_bounds si tau _ U T eq_refl) as (D & A1 & A2). destruct U as [_ S]. change (2 ^ 149) with ONE in S. pose proof ONE_pos as O. assert (B : 502 * (3600 * ONE) < 2 ^ 277) by reflexivity.
  split; [|split; assumption]. rewrite oadd_some by lia. apply odiv_some; lia.
Qed.
Lemma fadd_comm a b : fadd a b = fadd b a.
Proof. unfold fadd. f_equal. lia. Qed.
Lemma oadd_comm a b : oadd (Some a) (Some b) = oadd (Some b) (Some a).
Proof. unfold oadd, both. rewrite fadd_comm. reflexivity. Qed.
Lemma lowpass_params C l : usual_interval (interval C) -> exists l', lowpassSetParameters C l = Some l' /\ LInv l' /\ linit l' = false.
Proof.
  intros U. unfold lowpassSetParameters. cbv zeta. rewrite !K_int by lia. rewrite !(oadd_comm _ (interval C)). pose proof ONE_pos as O.
  destruct (share_some (interval C) (20 * ONE) U ltac:(lia)) as [-> G1]. destruct (share_some (interval C) (500 * ONE) U ltac:(lia)) as [-> G2].
  eexists. split; [reflexivity|]. split; [|reflexivity]. split; [exact G1|]. split; [exact G2|]. discriminate.
Qed.
Lemma lowpass_step E C l s : exponential (expf E) -> usual_interval (interval C) -> LInv l -> 0 <= s <= 500 * ONE ->
  exists l' y, lowpassProcess E C l s = Some (l', y) /\ LInv l' /\ 0 <= y <= H.
Proof.
  intros EX U ([a1 a1'] & [a2 a2'] & X) S. unfold lowpassProcess. pose proof ONE_pos as O. destruct H_bounds as [HB HB0].
  assert (Y : exists x1 x2 x3, (if linit l then (lowX1 l, lowX2 l, lowX3 l) else (s, s, s)) = (x1, x2, x3) /\ 0 <= x1 <= H /\ 0 <= x2 <= H /\ 0 <= x3 <= H). { destruct (linit l); [destruct (X eq_refl) as (X1 & X2 & X3); eauto 10|]. exists s, s, s. repeat split; lia. }
  destruct Y as (x1 & x2 & x3 & -> & X1 & X2 & X3).
  destruct (mixed_some (lowA1 l) x1 s a1 a1' X1 S) as (y1 & -> & Y1). destruct (mixed_some (lowA2 l) x2 s a2 a2' X2 S) as (y2 & -> & Y2).
  assert (DB : - (501 * ONE) <= fsub y1 y2 <= 501 * ONE). { split; [rewrite <- Z.mul_opp_l; apply flq_ge; [lia|apply int_float; lia|lia]|apply flq_le; [lia|apply int_float; lia|lia]]. }
  assert (B : 502 * ONE < 2 ^ 277) by reflexivity. rewrite osub_some by lia.
  assert (DD : exists d, (if fsub y1 y2 <? 0 then omul (K (-1) 1) (Some (fsub y1 y2)) else Some (fsub y1 y2)) = Some d /\ 0 <= d <= 501 * ONE).
  { set (d := fsub y1 y2) in *. clearbody d. destruct (Z.ltb_spec d 0); [|exists d; split; [reflexivity|lia]]. rewrite K_int by lia. assert (M : 0 <= fmul (-1 * ONE) d <= 501 * ONE). { unfold fmul. replace (-1 * ONE * d) with (- d * ONE) by ring. split; [apply flq_nonneg; [lia|apply Z.mul_nonneg_nonneg; lia]|apply flq_le; [lia|apply int_float; lia|apply Z.mul_le_mono_nonneg_r; lia]]. } exists (fmul (-1 * ONE) d). split; [|exact M]. apply omul_some. lia. }
  destruct DD as (d & -> & D). unfold K at 1. assert (L : - ONE <= lit (-2) 10 <= 0) by (split; vm_compute; discriminate). set (k := lit (-2) 10) in *. clearbody k.
  assert (KD : - (501 * ONE) * ONE <= k * d <= 0) by (clear - L D O; nia).
  assert (M : - (501 * ONE) <= fmul k d <= 0). { split; [rewrite <- Z.mul_opp_l; apply flq_ge; [lia|apply int_float; lia|lia]|apply (flq_le _ _ 0); [lia|exact (int_float 0 ltac:(lia))|lia]]. }
  rewrite omul_some by lia. set (arg := fmul k d) in *. clearbody arg. unfold oexp. destruct (EX arg) as (E0 & E1 & _). specialize (E1 ltac:(lia)). change (2 ^ 149) with ONE in E1. set (F1 := expf E arg) in *. clearbody F1. rewrite fin_some by lia.
  rewrite !K_int by lia. assert (M480 : fsub (500 * ONE) (20 * ONE) = 480 * ONE) by reflexivity. rewrite osub_some by (rewrite M480; lia). rewrite M480.
  assert (T1 : 0 <= fmul (480 * ONE) F1 <= 480 * ONE). { unfold fmul. split; [apply flq_nonneg; [lia|apply Z.mul_nonneg_nonneg; lia]|apply flq_le; [lia|apply int_float; lia|apply Z.mul_le_mono_nonneg_l; lia]]. }
  rewrite omul_some by lia. set (t := fmul (480 * ONE) F1) in *. clearbody t.
  assert (T2 : 0 <= fadd t (20 * ONE) <= 500 * ONE). { unfold fadd. split; [apply flq_nonneg; lia|apply flq_le; [lia|apply int_float; lia|lia]]. }
  rewrite oadd_some by lia. set (tau := fadd t (20 * ONE)) in *. clearbody tau. destruct (share_some (interval C) tau U T2) as [-> [A3 A3']].
  destruct (mixed_some _ x3 s A3 A3' X3 S) as (y3 & -> & Y3). eexists. exists y3. split; [reflexivity|]. split; [|exact Y3]. split; [split; assumption|]. split; [split; assumption|]. intros _. cbn [lowX1 lowX2 lowX3]. auto.
Qed.
