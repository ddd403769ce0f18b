(** Lemmas for C127, continued: initialisation, sequences of calls, reset *)
From Verif Require Export Gas_Proofs2.
Open Scope Z_scope.

Lemma small_quotient a b B : 0 <= a <= B * ONE -> ONE <= b -> 0 <= B < 2 ^ 24 -> odiv (Some a) (Some b) = Some (fdiv a b) /\ 0 <= fdiv a b <= B * ONE.
Proof.
  intros A Hb HB. pose proof ONE_pos as O. assert (V : 0 <= fdiv a b <= B * ONE). { unfold fdiv. split; [apply flq_nonneg; [lia|apply Z.mul_nonneg_nonneg; lia]|apply flq_le; [lia|apply int_float; lia|]]. apply Z.le_trans with (B * ONE * ONE); [apply Z.mul_le_mono_nonneg_r; lia|apply Z.mul_le_mono_nonneg_l; [apply Z.mul_nonneg_nonneg; lia|lia]]. }
  split; [|exact V]. assert (2 ^ 24 * ONE < 2 ^ 277) by reflexivity. assert (B * ONE <= 2 ^ 24 * ONE) by (apply Z.mul_le_mono_nonneg_r; lia). apply odiv_some; lia.
Qed.
Lemma small_product k a B : 0 <= a <= B * ONE -> 0 <= k -> 0 <= B -> k * B < 2 ^ 24 -> omul (Some (k * ONE)) (Some a) = Some (fmul (k * ONE) a) /\ 0 <= fmul (k * ONE) a <= k * B * ONE.
Proof.
  intros A Hk HB L. pose proof ONE_pos as O. assert (KB : 0 <= k * B) by (apply Z.mul_nonneg_nonneg; lia). assert (V : 0 <= fmul (k * ONE) a <= k * B * ONE). { unfold fmul. split; [apply flq_nonneg; [lia|apply Z.mul_nonneg_nonneg; lia]|apply flq_le; [lia|apply int_float; lia|]]. replace (k * B * ONE * ONE) with (k * ONE * (B * ONE)) by ring. apply Z.mul_le_mono_nonneg_l; lia. }
  split; [|exact V]. assert (2 ^ 24 * ONE < 2 ^ 277) by reflexivity. assert (k * B * ONE <= 2 ^ 24 * ONE) by (apply Z.mul_le_mono_nonneg_r; lia). apply omul_some; lia.
Qed.
Lemma small_sum k a B : 0 <= a <= B * ONE -> 1 <= k -> 0 <= B -> k + B < 2 ^ 24 -> oadd (Some (k * ONE)) (Some a) = Some (fadd (k * ONE) a) /\ ONE <= fadd (k * ONE) a.
Proof.
  intros A Hk HB L. pose proof ONE_pos as O. assert (V : k * ONE <= fadd (k * ONE) a <= (k + B) * ONE). { unfold fadd. split; [apply flq_ge; [lia|apply int_float; lia|lia]|apply flq_le; [lia|apply int_float; lia|lia]]. }
  assert (2 ^ 24 * ONE < 2 ^ 277) by reflexivity. assert ((k + B) * ONE <= 2 ^ 24 * ONE) by (apply Z.mul_le_mono_nonneg_r; lia). assert (1 * ONE <= k * ONE) by (apply Z.mul_le_mono_nonneg_r; lia). split; [apply oadd_some; lia|lia].
Qed.
Lemma cfg_taus nox si : tauMean (config nox si) = 12 * ONE /\ tauVariance (config nox si) = 12 * ONE /\ isNox (config nox si) = nox.
Proof. destruct nox; repeat split; vm_compute; reflexivity. Qed.
Lemma k512 : omul (K 8 1) (K 64 1) = Some (512 * ONE). Proof. vm_compute. reflexivity. Qed.
Lemma estimator_init nox si : usual_interval si -> exists e, estimatorSetParameters (config nox si) = Some e /\ emean e = 0 /\ eoffset e = 0 /\ einit e = false.
Proof.
  intros [F U]. change (2 ^ 149) with ONE in U. pose proof ONE_pos as O. unfold estimatorSetParameters. cbv zeta. destruct (cfg_taus nox si) as (-> & -> & ->). rewrite cfg_interval, k512, !K_int by lia.
  destruct (small_quotient si (3600 * ONE) 3600 ltac:(lia) ltac:(lia) ltac:(lia)) as [-> Hh]. set (h := fdiv si (3600 * ONE)) in *. clearbody h.
  destruct (small_product 512 h 3600 Hh ltac:(lia) ltac:(lia) ltac:(lia)) as [-> P1]. destruct (small_product 64 h 3600 Hh ltac:(lia) ltac:(lia) ltac:(lia)) as [-> P2]. destruct (small_sum 12 h 3600 Hh ltac:(lia) ltac:(lia) ltac:(lia)) as [-> S1].
  destruct (small_quotient _ _ (512 * 3600) P1 S1 ltac:(lia)) as [-> _]. destruct (small_quotient _ _ (64 * 3600) P2 S1 ltac:(lia)) as [-> _].
  destruct (small_product 512 si 3600 ltac:(lia) ltac:(lia) ltac:(lia) ltac:(lia)) as [-> P3]. destruct (small_product 64 si 3600 ltac:(lia) ltac:(lia) ltac:(lia) ltac:(lia)) as [-> P4].
  destruct (small_sum 1200 si 3600 ltac:(lia) ltac:(lia) ltac:(lia) ltac:(lia)) as [-> S2]. destruct (small_sum 20 si 3600 ltac:(lia) ltac:(lia) ltac:(lia) ltac:(lia)) as [-> S3]. destruct (small_sum 2500 si 3600 ltac:(lia) ltac:(lia) ltac:(lia) ltac:(lia)) as [-> S4].
  destruct (small_quotient _ _ (512 * 3600) P3 S2 ltac:(lia)) as [Q1 _]. destruct (small_quotient _ _ (512 * 3600) P3 S3 ltac:(lia)) as [Q2 _]. destruct (small_quotient _ _ (64 * 3600) P4 S4 ltac:(lia)) as [-> _].
  destruct nox; rewrite ?Q1, ?Q2; eexists; (split; [reflexivity|]); repeat split.
Qed.
Lemma init_some nox si l up raw : usual_interval si -> exists g e, initInstances (config nox si) l up raw 0 = Some g /\ estimatorSetParameters (config nox si) = Some e /\ GInv nox si g /\ uptime g = up /\ sraw g = raw /\ gest g = e /\ gmox g = mkMox (getStd e) 0 /\ gasIndex g = 0 /\ eoffset e = 0 /\ einit e = false /\
  exists l', lowpassSetParameters (config nox si) l = Some l' /\ glow g = l'.
Proof.
  intros U. unfold initInstances. destruct (estimator_init nox si U) as (e & -> & M & Of & I). unfold getMean. rewrite M, Of. assert (Z0 : oadd (Some 0) (Some 0) = Some 0) by (vm_compute; reflexivity). rewrite Z0.
  destruct (lowpass_params (config nox si) l ltac:(rewrite cfg_interval; exact U)) as (l' & LE & L' & LI). rewrite LE. destruct (cfg_taus nox si) as (_ & _ & ->).
  eexists. exists e. split; [reflexivity|]. cbn [gcfg uptime gest gmox glow sraw gsig gasIndex]. split; [reflexivity|]. split; [|repeat (split; [first [reflexivity|assumption]|]); exists l'; auto]. split; [reflexivity|]. split; [destruct nox; reflexivity|]. split; [exact L'|]. reflexivity.
Qed.

(** ** sequences of calls *)
Lemma run_late E nox si vs : exponential (expf E) -> usual_interval si -> forall g g' ns, GInv nox si g -> 45 * ONE < uptime g -> indices E g vs = Some (g', ns) -> GInv nox si g' /\ uptime g' = uptime g /\ Forall index_value ns /\ length ns = length vs.
Proof.
  intros EX U. induction vs as [|v vs IH]; intros g g' ns G T R; cbn [indices] in R.
  - injection R as <- <-. auto.
  - destruct (process E g v) as [[g1 n]|] eqn:P; [|discriminate]. destruct (process_late E nox si g v g1 n EX U G T P) as (G1 & T1 & N & _). destruct (indices E g1 vs) as [[g2 ms]|] eqn:Q; [|discriminate]. injection R as <- <-. destruct (IH g1 g2 ms G1 ltac:(lia) Q) as (G2 & T2 & A & B). split; [exact G2|]. split; [congruence|]. split; [constructor; [exact N|exact A]|cbn; congruence].
Qed.
Lemma run_any E nox si vs : exponential (expf E) -> usual_interval si -> forall g g' ns (j : Z), GInv nox si g -> 0 <= j -> j * ONE <= uptime g -> indices E g vs = Some (g', ns) ->
  GInv nox si g' /\ length ns = length vs /\ exists k rest, ns = repeat 0 k ++ rest /\ Forall index_value rest /\ (Z.of_nat k <= Z.max 0 (46 - j)) /\ (si = ONE -> uptime g = j * ONE -> j <= 46 -> rest <> [] -> Z.of_nat k = 46 - j).
Proof.
  intros EX U. pose proof ONE_pos as O. pose proof U as [F UI]. change (2 ^ 149) with ONE in UI. induction vs as [|v vs IH]; intros g g' ns j G J T R; cbn [indices] in R.
  - injection R as <- <-. split; [exact G|]. split; [reflexivity|]. exists 0%nat, []. repeat split; [constructor|lia|congruence].
  - destruct (Z.le_gt_cases (uptime g) (45 * ONE)) as [A|A].
    + assert (T0 : 0 <= uptime g) by (assert (0 <= j * ONE) by (apply Z.mul_nonneg_nonneg; lia); lia). destruct (process_early E nox si g v U G A T0) as (g1 & P & G1 & T1 & _). rewrite P in R. destruct (indices E g1 vs) as [[g2 ms]|] eqn:Q; [|discriminate]. injection R as <- <-.
      assert (JB : j <= 45) by (apply Z.mul_le_mono_pos_r with (p := ONE); [exact O|lia]).
      assert (T2 : (j + 1) * ONE <= uptime g1). { rewrite T1. unfold fadd. apply flq_ge; [lia|apply int_float; lia|lia]. }
      destruct (IH g1 g2 ms (j + 1) G1 ltac:(lia) T2 Q) as (G2 & LN & k & rest & -> & A2 & K1 & K2). split; [exact G2|]. split; [cbn; congruence|]. exists (S k), rest. split; [reflexivity|]. split; [exact A2|]. split; [lia|].
      intros S1 S2 S3 S4. assert (T3 : uptime g1 = (j + 1) * ONE). { rewrite T1, S1, S2. unfold fadd. replace (j * ONE + ONE) with ((j + 1) * ONE) by ring. apply fl_id, int_float. lia. } specialize (K2 S1 T3 ltac:(lia) S4). lia.
    + pose proof (run_late E nox si (v :: vs) EX U g g' ns G A R) as (G2 & _ & A2 & B). split; [exact G2|]. split; [exact B|]. exists 0%nat, ns. split; [reflexivity|]. split; [exact A2|]. split; [lia|]. intros _ S2 S3 _. assert (45 < j) by (apply Z.mul_lt_mono_pos_r with (p := ONE); [exact O|lia]). lia.
Qed.
(** while only zeros are shown nothing is learnt *)
Lemma run_zeros E nox si vs : exponential (expf E) -> usual_interval si -> forall g g' ns, GInv nox si g -> 0 <= uptime g -> indices E g vs = Some (g', ns) -> Forall (fun n => n = 0) ns -> gest g' = gest g /\ gmox g' = gmox g.
Proof.
  intros EX U. pose proof U as [F UI]. change (2 ^ 149) with ONE in UI. pose proof ONE_pos as O. induction vs as [|v vs IH]; intros g g' ns G T R Z0; cbn [indices] in R.
  - injection R as <- <-. auto.
  - destruct (Z.le_gt_cases (uptime g) (45 * ONE)) as [A|A].
    + destruct (process_early E nox si g v U G A T) as (g1 & P & G1 & T1 & E1 & M1 & _). rewrite P in R. destruct (indices E g1 vs) as [[g2 ms]|] eqn:Q; [|discriminate]. injection R as <- <-. inversion Z0; subst. assert (0 <= uptime g1) by (rewrite T1; apply flq_nonneg; lia). destruct (IH g1 g2 ms G1 ltac:(assumption) Q ltac:(assumption)) as [B C]. rewrite B, C. auto.
    + pose proof (run_late E nox si (v :: vs) EX U g g' ns G A R) as (_ & _ & A2 & B). destruct ns as [|n ns]; [discriminate|]. inversion A2; subst. inversion Z0; subst. unfold index_value in *. lia.
Qed.

(** ** what the low pass holds before its first value does not matter *)
Definition same (g h : gas) : Prop :=
  gcfg g = gcfg h /\ uptime g = uptime h /\ sraw g = sraw h /\ gasIndex g = gasIndex h /\ gest g = gest h /\ gmox g = gmox h /\ gsig g = gsig h /\
  lowA1 (glow g) = lowA1 (glow h) /\ lowA2 (glow g) = lowA2 (glow h) /\ linit (glow g) = linit (glow h) /\ (linit (glow g) = true -> glow g = glow h).
Lemma same_process E g h v : same g h -> match process E g v, process E h v with Some (g', n), Some (h', m) => same g' h' /\ n = m | None, None => True | _, _ => False end.
Proof.
  intros (A1 & A2 & A3 & A4 & A5 & A6 & A7 & A8 & A9 & A10 & A11). unfold process. rewrite A1, A2, A3, A4. destruct (uptime h <=? lit 45 1).
  - destruct (oadd _ _); [|exact I]. destruct (shown _); [|exact I]. split; [|reflexivity]. unfold same. cbn [gcfg uptime sraw gasIndex gest gmox gsig glow]. auto 12.
  - assert (RI : forall r, rawIndex E g r = rawIndex E h r) by (intros r; unfold rawIndex; rewrite A1, A5, A6, A7; reflexivity). rewrite RI. destruct (rawIndex E h _) as [i|]; [|exact I].
    assert (LP : lowpassProcess E (gcfg h) (glow g) i = lowpassProcess E (gcfg h) (glow h) i). { destruct (linit (glow g)) eqn:LG; [rewrite (A11 eq_refl); reflexivity|]. unfold lowpassProcess. rewrite LG, <- A10, A8, A9. reflexivity. } rewrite LP. clear LP. destruct (lowpassProcess E (gcfg h) (glow h) i) as [[l y]|]; [|exact I].
    assert (LE : forall r x, learn E g r x = learn E h r x) by (intros r x; unfold learn; rewrite A1, A5, A6; reflexivity). rewrite LE. destruct (learn E h _ _) as [[e m]|]; [|exact I]. destruct (shown _); [|exact I].
    split; [|reflexivity]. unfold same. cbn [gcfg uptime sraw gasIndex gest gmox gsig glow]. auto 12.
Qed.
Lemma same_indices E vs : forall g h, same g h -> option_map snd (indices E g vs) = option_map snd (indices E h vs).
Proof.
  induction vs as [|v vs IH]; intros g h R; [reflexivity|]. cbn [indices]. pose proof (same_process E g h v R) as P. destruct (process E g v) as [[g1 n]|], (process E h v) as [[h1 m]|]; try contradiction; [|reflexivity]. destruct P as [R1 <-]. specialize (IH g1 h1 R1). destruct (indices E g1 vs) as [[g2 ns]|], (indices E h1 vs) as [[h2 ms]|]; try discriminate; [|reflexivity]. cbn in *. congruence.
Qed.
Lemma init_same nox si l1 l2 g1 g2 : initInstances (config nox si) l1 0 0 0 = Some g1 -> initInstances (config nox si) l2 0 0 0 = Some g2 -> same g1 g2.
Proof.
  unfold initInstances, lowpassSetParameters. destruct (estimatorSetParameters _) as [e|]; [|discriminate]. destruct (getMean e); [|discriminate]. cbv zeta. destruct (odiv _ (oadd (K 20 1) _)); [|discriminate]. destruct (odiv _ (oadd (K 500 1) _)); [|discriminate].
  intros [= <-] [= <-]. unfold same. cbn [gcfg uptime sraw gasIndex gest gmox gsig glow lowA1 lowA2 linit]. repeat split; discriminate.
Qed.
