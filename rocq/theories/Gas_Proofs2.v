(** Lemmas for C127, continued: the sigmoid and the whole step *)
From Verif Require Export Gas_Proofs.
Open Scope Z_scope.

Lemma logistic E x : exponential (expf E) -> x <= 50 * ONE -> exists d, oadd (K 1 1) (oexp E (Some x)) = Some d /\ ONE <= d.
Proof.
  intros EX X. destruct (EX x) as (E0 & _ & E2). change (2 ^ 149) with ONE in E2. specialize (E2 X). pose proof ONE_pos as O. assert (B : 2 ^ 73 * ONE + ONE < 2 ^ 223) by reflexivity. assert (B' : 2 ^ 223 < 2 ^ 277) by reflexivity.
  unfold oexp. set (e := expf E x) in *. clearbody e. rewrite fin_some by lia. rewrite K_int by lia. rewrite Z.mul_1_l.
  assert (F : is_float ONE) by (rewrite <- (Z.mul_1_l ONE); apply int_float; lia).
  assert (G : is_float (2 ^ 223)) by (exists 1, 223; split; [lia|]; split; [lia|reflexivity]).
  assert (D : ONE <= fadd ONE e <= 2 ^ 223). { unfold fadd. split; [apply flq_ge; [lia|exact F|lia]|apply flq_le; [lia|exact G|lia]]. }
  exists (fadd ONE e). split; [apply oadd_some; lia|lia].
Qed.
Lemma quotient d : ONE <= d -> exists v, odiv (K 500 1) (Some d) = Some v /\ 0 <= v <= 500 * ONE.
Proof.
  intros D. pose proof ONE_pos as O. rewrite K_int by lia. assert (V : 0 <= fdiv (500 * ONE) d <= 500 * ONE). { unfold fdiv. split; [apply flq_nonneg; [lia|apply Z.mul_nonneg_nonneg; lia]|apply flq_le; [lia|apply int_float; lia|apply Z.mul_le_mono_nonneg_l; lia]]. }
  exists (fdiv (500 * ONE) d). split; [|exact V]. assert (B : 500 * ONE < 2 ^ 277) by reflexivity. apply odiv_some; lia.
Qed.
Definition sig_of (nox : bool) : sigm := if nox then mkSigm (lit (-101) 10000) (lit 614 1) (lit 1 1) else mkSigm (lit (-65) 10000) (lit 213 1) (lit 100 1).
(** with the usual offset there is no shift *)
Lemma no_shift nox si : (if sigDefault (sig_of nox) =? lit 1 1 then omul (odiv (K 500 1) (K 499 1)) (osub (K 1 1) (Some (indexOffset (config nox si)))) else odiv (osub (K 500 1) (omul (K 5 1) (Some (indexOffset (config nox si))))) (K 4 1)) = Some 0.
Proof. destruct nox; vm_compute; reflexivity. Qed.
Lemma no_factor nox si : odiv (Some (indexOffset (config nox si))) (Some (sigDefault (sig_of nox))) = Some ONE.
Proof. destruct nox; vm_compute; reflexivity. Qed.
Lemma plus_zero : oadd (K 500 1) (Some 0) = K 500 1. Proof. vm_compute. reflexivity. Qed.
Lemma sigmoid_some E nox si sample x : exponential (expf E) -> omul (Some (sigK (sig_of nox))) (osub (Some sample) (Some (sigX0 (sig_of nox)))) = Some x ->
  exists y, sigmoidScaled E (config nox si) (sig_of nox) sample = Some y /\ 0 <= y <= 500 * ONE.
Proof.
  intros EX HX. unfold sigmoidScaled. rewrite HX. pose proof ONE_pos as O. rewrite (lit_int 50), (lit_int (-50)) by lia. rewrite !no_shift, no_factor, plus_zero.
  destruct (Z.ltb_spec x (-50 * ONE)) as [L|L]. { rewrite K_int by lia. exists (500 * ONE). split; [reflexivity|lia]. }
  destruct (Z.ltb_spec (50 * ONE) x) as [G|G]. { rewrite K_int by lia. exists (0 * ONE). split; [reflexivity|lia]. }
  destruct (logistic E x EX G) as (d & -> & D). destruct (quotient d D) as (v & -> & V). assert (B : 500 * ONE < 2 ^ 277) by reflexivity.
  destruct (0 <=? sample).
  - assert (S : 0 <= fsub v 0 <= 500 * ONE). { unfold fsub. rewrite Z.sub_0_r. split; [apply flq_nonneg; lia|apply flq_le; [lia|apply int_float; lia|lia]]. } exists (fsub v 0). split; [apply osub_some; lia|exact S].
  - assert (S : 0 <= fmul ONE v <= 500 * ONE). { unfold fmul. rewrite Z.mul_comm. split; [apply flq_nonneg; [lia|apply Z.mul_nonneg_nonneg; lia]|apply flq_le; [lia|apply int_float; lia|apply Z.mul_le_mono_nonneg_r; lia]]. } exists (fmul ONE v). split; [apply omul_some; lia|exact S].
Qed.
(** the number shown *)
Lemma shown_range i : ONE / 2 <= i <= H -> exists n, shown i = Some n /\ 1 <= n <= 500.
Proof.
  intros I. pose proof ONE_pos as O. unfold shown, K. assert (L : lit 5 10 = 2 ^ 148) by (vm_compute; reflexivity). rewrite L. change (ONE / 2) with (2 ^ 148) in I.
  assert (S : 2 ^ 148 + 2 ^ 148 = ONE) by reflexivity. assert (Q : 0 <= 2 ^ 148) by discriminate. assert (B : H + 2 ^ 148 <= 8015 * 2 ^ 145) by (vm_compute; discriminate). assert (B2 : 8015 * 2 ^ 145 < 501 * ONE) by (vm_compute; reflexivity). assert (B3 : 501 * ONE < 2 ^ 277) by (vm_compute; reflexivity).
  assert (F : is_float ONE) by (rewrite <- (Z.mul_1_l ONE); apply int_float; lia). assert (G : is_float (8015 * 2 ^ 145)) by (apply float_small; lia).
  assert (V : ONE <= fadd i (2 ^ 148) <= 8015 * 2 ^ 145). { unfold fadd. split; [apply flq_ge; [lia|exact F|lia]|apply flq_le; [lia|exact G|lia]]. }
  rewrite oadd_some by lia. set (v := fadd i (2 ^ 148)) in *. clearbody v. unfold toInt. cbv zeta. rewrite Z.quot_div_nonneg by lia.
  assert (N : 1 <= v / ONE <= 500) by (split; [apply Z.div_le_lower_bound; lia|apply Z.lt_succ_r, Z.div_lt_upper_bound; lia]).
  exists (v / ONE). split; [|exact N]. destruct (Z.leb_spec (-2 ^ 31) (v / ONE)); [|lia]. destruct (Z.ltb_spec (v / ONE) (2 ^ 31)); [reflexivity|lia].
Qed.

(** ** states *)
Definition GInv (nox : bool) (si : Z) (g : gas) : Prop := gcfg g = config nox si /\ gsig g = sig_of nox /\ LInv (glow g) /\ (uptime g <= 45 * ONE -> gasIndex g = 0).
Lemma cfg_interval nox si : interval (config nox si) = si. Proof. destruct nox; reflexivity. Qed.
Lemma offset_range nox si : 0 <= indexOffset (config nox si) <= 500 * ONE.
Proof. destruct nox; split; vm_compute; discriminate. Qed.
Lemma raw_range E nox si g raw i : exponential (expf E) -> GInv nox si g -> rawIndex E g raw = Some i -> 0 <= i <= 500 * ONE.
Proof.
  intros EX (C & S & _). unfold rawIndex. rewrite C, S. destruct (_ || _).
  - destruct (moxProcess _ _ _) as [x|]; [|discriminate]. intros R. destruct (omul (Some (sigK (sig_of nox))) (osub (Some x) (Some (sigX0 (sig_of nox))))) as [y|] eqn:Y.
    + destruct (sigmoid_some E nox si x y EX Y) as (z & Z1 & Z2). rewrite Z1 in R. injection R as <-. exact Z2.
    + unfold sigmoidScaled in R. rewrite Y in R. discriminate.
  - intros [= <-]. apply offset_range.
Qed.
Lemma half : lit 5 10 = ONE / 2. Proof. vm_compute. reflexivity. Qed.
(** one call *)
Lemma process_early E nox si g v : usual_interval si -> GInv nox si g -> uptime g <= 45 * ONE -> 0 <= uptime g ->
  exists g', process E g v = Some (g', 0) /\ GInv nox si g' /\ uptime g' = fadd (uptime g) si /\ gest g' = gest g /\ gmox g' = gmox g /\ sraw g' = sraw g /\ glow g' = glow g.
Proof.
  intros [F U] (C & S & L & I) T T0. change (2 ^ 149) with ONE in U. pose proof ONE_pos as O. unfold process. rewrite lit_int by lia. destruct (Z.leb_spec (uptime g) (45 * ONE)) as [_|]; [|lia]. rewrite C, cfg_interval.
  assert (B : 3645 * ONE < 2 ^ 277) by reflexivity. assert (A : 0 <= fadd (uptime g) si <= 3645 * ONE). { unfold fadd. split; [apply flq_nonneg; lia|apply flq_le; [lia|apply int_float; lia|lia]]. }
  rewrite oadd_some by lia. rewrite (I T). assert (N : shown 0 = Some 0) by (vm_compute; reflexivity). rewrite N. eexists. split; [reflexivity|]. cbn [gcfg uptime gest gmox glow sraw gsig gasIndex]. split; [|auto].
  split; [reflexivity|]. split; [exact S|]. split; [exact L|]. intros _. reflexivity.
Qed.
Lemma process_late E nox si g v g' n : exponential (expf E) -> usual_interval si -> GInv nox si g -> 45 * ONE < uptime g -> process E g v = Some (g', n) ->
  GInv nox si g' /\ uptime g' = uptime g /\ 1 <= n <= 500 /\ sraw g' = takeSraw (config nox si) (sraw g) v.
Proof.
  intros EX U G T. pose proof G as (C & S & L & I). unfold process. rewrite lit_int by lia. destruct (Z.leb_spec (uptime g) (45 * ONE)) as [|_]; [lia|]. rewrite C.
  destruct (rawIndex E g _) as [i|] eqn:R; [|discriminate]. pose proof (raw_range E nox si g _ i EX G R) as IR.
  destruct (lowpass_step E (config nox si) (glow g) i EX ltac:(rewrite cfg_interval; exact U) L IR) as (l' & y & LE & L' & Y). rewrite LE. rewrite half.
  set (idx := if y <? ONE / 2 then ONE / 2 else y). assert (X : ONE / 2 <= idx <= H) by (unfold idx; assert (ONE / 2 <= H) by (vm_compute; discriminate); destruct (Z.ltb_spec y (ONE / 2)); lia). clearbody idx.
  destruct (learn E g _ idx) as [[e m]|]; [|discriminate]. destruct (shown_range idx X) as (k & -> & N). intros [= <- <-]. cbn [uptime sraw].
  split; [|auto]. split; [reflexivity|]. split; [exact S|]. split; [exact L'|]. cbn [uptime]. intros; lia.
Qed.
(** a call fails only in the estimate of mean and variance, or if the distance to the mean is beyond all bounds *)
Lemma process_total E nox si g v : exponential (expf E) -> usual_interval si -> GInv nox si g -> 0 <= uptime g ->
  rawIndex E g (takeSraw (config nox si) (sraw g) v) <> None -> (forall index, 0 < index < 501 * ONE -> learn E g (takeSraw (config nox si) (sraw g) v) index <> None) -> process E g v <> None.
Proof.
  intros EX U G T R LE. destruct (Z.le_gt_cases (uptime g) (45 * ONE)) as [A|A].
  - destruct (process_early E nox si g v U G A T) as (g' & -> & _). discriminate.
  - pose proof G as (C & S & L & I). unfold process. rewrite lit_int by lia. destruct (Z.leb_spec (uptime g) (45 * ONE)) as [|_]; [lia|]. rewrite C.
    destruct (rawIndex E g _) as [i|] eqn:RI; [|congruence]. pose proof (raw_range E nox si g _ i EX G RI) as IR.
    destruct (lowpass_step E (config nox si) (glow g) i EX ltac:(rewrite cfg_interval; exact U) L IR) as (l' & y & -> & L' & Y). rewrite half.
    set (idx := if y <? ONE / 2 then ONE / 2 else y). assert (X : ONE / 2 <= idx <= H) by (unfold idx; assert (ONE / 2 <= H) by (vm_compute; discriminate); destruct (Z.ltb_spec y (ONE / 2)); lia). clearbody idx.
    specialize (LE idx ltac:(destruct H_bounds; assert (0 < ONE / 2) by reflexivity; lia)). destruct (learn E g _ idx) as [[e m]|]; [|congruence]. destruct (shown_range idx X) as (k & -> & N). discriminate.
Qed.
