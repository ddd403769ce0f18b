(** C126: conversions of the sensors in floats *)
From Verif Require Export Sfc_Proofs Bits.
Open Scope Z_scope.

(** SHT4x: temperature and humidity differ from the formulas of the data sheet by at most 2^-16, a higher reading is never shown as a lower value, and the ends of the ranges are exact. *)
Theorem C126_sht4_celsius n : 0 <= n < 65536 -> near 16 (convertTicksToCelsius n) (n * 175 - 45 * 65535) 65535 /\ - 45 * 2 ^ 149 <= convertTicksToCelsius n <= 130 * 2 ^ 149 /\ (forall m, n <= m < 65536 -> convertTicksToCelsius n <= convertTicksToCelsius m).
Proof.
  intros H. assert (M : forall a b, 0 <= a <= b -> b < 65536 -> convertTicksToCelsius a <= convertTicksToCelsius b) by (intros a b H1 H2; unfold convertTicksToCelsius; rewrite !sht4 by lia; apply mono_sht4; lia).
  split; [unfold convertTicksToCelsius; rewrite sht4 by lia; apply near_sht4; lia|]. split; [|intros m Hm; apply M; lia]. split; [replace (- 45 * 2 ^ 149) with (convertTicksToCelsius 0) by reflexivity; apply M; lia|replace (130 * 2 ^ 149) with (convertTicksToCelsius 65535) by reflexivity; apply M; lia].
Qed.
Print Assumptions C126_sht4_celsius.
Theorem C126_sht4_humidity n : 0 <= n < 65536 -> near 16 (convertTicksToPercentRH n) (n * 125 - 6 * 65535) 65535 /\ - 6 * 2 ^ 149 <= convertTicksToPercentRH n <= 119 * 2 ^ 149 /\ (forall m, n <= m < 65536 -> convertTicksToPercentRH n <= convertTicksToPercentRH m).
Proof.
  intros H. assert (M : forall a b, 0 <= a <= b -> b < 65536 -> convertTicksToPercentRH a <= convertTicksToPercentRH b) by (intros a b H1 H2; unfold convertTicksToPercentRH; rewrite !sht4 by lia; apply mono_sht4; lia).
  split; [unfold convertTicksToPercentRH; rewrite sht4 by lia; apply near_sht4; lia|]. split; [|intros m Hm; apply M; lia]. split; [replace (- 6 * 2 ^ 149) with (convertTicksToPercentRH 0) by reflexivity; apply M; lia|replace (119 * 2 ^ 149) with (convertTicksToPercentRH 65535) by reflexivity; apply M; lia].
Qed.
Print Assumptions C126_sht4_humidity.
(** 26214 ticks: 25.0 degrees; 13107: 19.0 percent *)
Example C126_sht4_example : near 16 (convertTicksToCelsius 26214) 25 1 /\ near 16 (convertTicksToPercentRH 13107) 19 1 /\ convertTicksToCelsius 26213 < convertTicksToCelsius 26214.
Proof. split; [vm_compute; discriminate|]. split; [vm_compute; discriminate|reflexivity]. Qed.

(** SGP4x: a humidity from 0 to 100 and a temperature from -45 to 130 degrees are told to the sensor in ticks, off by less than 1.01 ticks (rounded down), and the conversion to 16 bits is defined. *)
Theorem C126_sgp_humidity_partial rh : 0 <= rh <= 100 * 2 ^ 149 -> exists n, relativeHumidityTicks rh = Some n /\ is_u16 n /\ off_by_less 101 100 n (rh * 65535) 100.
Proof.
  change (2 ^ 149) with ONE. intros H. unfold relativeHumidityTicks. rewrite ticks_exact by lia. destruct (ticks_bounds rh 100 ltac:(lia) ltac:(lia)) as [B E]. set (b := flq (flq (rh * 65535) 1) 100) in *. exists (b / ONE). split; [apply toU16_floor, B|]. pose proof ONE_pos as O. pose proof (Z.div_mod b ONE ltac:(lia)) as D. pose proof (Z.mod_pos_bound b ONE O) as M. set (q := b / ONE) in *. set (r := b mod ONE) in *. clearbody b q r.
  split; [unfold is_u16; change ONE with 713623846352979940529142984724747568191373312 in *; lia|]. unfold off_by_less. change (2 ^ 149) with ONE. change (2 ^ 141) with 2787593149816327892691964784081045188247552 in E. change ONE with 713623846352979940529142984724747568191373312 in *. lia.
Qed.
Print Assumptions C126_sgp_humidity_partial.
Lemma plus45 t : - 45 * ONE <= t <= 130 * ONE -> let s := fadd t (lit 45 1) in 0 <= s <= 175 * ONE /\ 2 * Z.abs (s - (t + 45 * ONE)) <= 2 ^ 133.
Proof.
  intros H s. unfold s, fadd. rewrite lit_exact by lia. pose proof ONE_pos as O. split.
  - split; [apply flq_nonneg; lia|]. rewrite <- (fl_id (175 * ONE)) by (apply int_float; lia). apply flq_mono; lia.
  - pose proof (flq_err_le (t + 45 * ONE) 1 (175 * ONE) ltac:(lia)) as E. rewrite (Z.abs_eq (t + 45 * ONE)) in E by lia. specialize (E ltac:(lia)). change (ulp (175 * ONE)) with (2 ^ 133) in E. rewrite Z.mul_1_r in E. lia.
Qed.
Theorem C126_sgp_temperature_partial t : - 45 * 2 ^ 149 <= t <= 130 * 2 ^ 149 -> exists n, temperatureTicks t = Some n /\ is_u16 n /\ off_by_less 101 100 n ((t + 45 * 2 ^ 149) * 65535) 175.
Proof.
  change (2 ^ 149) with ONE. intros H. unfold temperatureTicks. destruct (plus45 t H) as [S Es]. set (s := fadd t (lit 45 1)) in *. rewrite ticks_exact by lia. destruct (ticks_bounds s 175 ltac:(lia) S) as [B E]. set (b := flq (flq (s * 65535) 1) 175) in *. exists (b / ONE). split; [apply toU16_floor, B|]. pose proof ONE_pos as O. pose proof (Z.div_mod b ONE ltac:(lia)) as D. pose proof (Z.mod_pos_bound b ONE O) as M. set (q := b / ONE) in *. set (r := b mod ONE) in *. clearbody b q r s.
  split; [unfold is_u16; change ONE with 713623846352979940529142984724747568191373312 in *; lia|]. unfold off_by_less. change (2 ^ 149) with ONE. change (2 ^ 141) with 2787593149816327892691964784081045188247552 in E. change (2 ^ 133) with 10889035741470030830827987437816582766592 in Es. change ONE with 713623846352979940529142984724747568191373312 in *. lia.
Qed.
Print Assumptions C126_sgp_temperature_partial.
(** 50 percent and 25 degrees give nearly the values of the data sheet for no compensation, 0x8000 and 0x6666 *)
Example C126_sgp_example : relativeHumidityTicks (50 * 2 ^ 149) = Some 0x7FFF /\ temperatureTicks (25 * 2 ^ 149) = Some 0x6666.
Proof. split; reflexivity. Qed.

(** The temperature measured by an SHT4x and handed to an SGP4x arrives there as the same number of ticks or one less. *)
Theorem C126_chain n : 0 <= n < 65536 -> exists m, temperatureTicks (convertTicksToCelsius n) = Some m /\ (m = n \/ m = n - 1).
Proof.
  intros H. destruct (C126_sht4_celsius n H) as (N & B & _). change (2 ^ 149) with ONE in B. set (t := convertTicksToCelsius n) in *. unfold temperatureTicks. destruct (plus45 t B) as [S Es]. set (s := fadd t (lit 45 1)) in *. rewrite ticks_exact by lia. destruct (ticks_bounds s 175 ltac:(lia) S) as [Bb E]. set (b := flq (flq (s * 65535) 1) 175) in *. exists (b / ONE). split; [apply toU16_floor, Bb|].
  pose proof ONE_pos as O. pose proof (Z.div_mod b ONE ltac:(lia)) as D. pose proof (Z.mod_pos_bound b ONE O) as M. set (q := b / ONE) in *. set (r := b mod ONE) in *. clearbody b q r s t. unfold near in N. change (2 ^ 149) with ONE in N. change (2 ^ 16) with 65536 in N. change (2 ^ 141) with 2787593149816327892691964784081045188247552 in E. change (2 ^ 133) with 10889035741470030830827987437816582766592 in Es. change ONE with 713623846352979940529142984724747568191373312 in *. lia.
Qed.
Print Assumptions C126_chain.
Example C126_chain_example : temperatureTicks (convertTicksToCelsius 26214) = Some 26214 /\ temperatureTicks (convertTicksToCelsius 5) = Some 4.
Proof. split; reflexivity. Qed.

(** Missing: the humidities of an SHT4x go from -6 to 119; those from -1/655.35 down and above 100 make the conversion for the SGP4x undefined. *)
Theorem C126_sgp_refuted : relativeHumidityTicks (convertTicksToPercentRH 0) = None /\ relativeHumidityTicks (convertTicksToPercentRH 65535) = None.
Proof. split; reflexivity. Qed.
Print Assumptions C126_sgp_refuted.

(** BH1750: the light level is the one of the data sheet up to the fraction 2^-21, for every setting of the measurement time. *)
Theorem C126_light hi lo mtreg mode2 : is_byte hi -> is_byte lo -> 1 <= mtreg < 256 ->
  near_rel 21 (lightLevel hi lo mtreg mode2) ((hi * 256 + lo) * 69 * 10) (mtreg * 12 * (if mode2 then 2 else 1)).
Proof.
  intros Bh Bl Mt. unfold lightLevel. rewrite word_bytes by exact Bl. unfold is_byte in *. set (raw := hi * 256 + lo). assert (Raw : 0 <= raw < 65536) by (unfold raw; lia). clearbody raw. cbv zeta. rewrite !ofInt_exact by lia. pose proof ONE_pos as O.
  assert (S1 : exists x1, (if negb (mtreg =? 69) then fmul (raw * ONE) (fdiv (69 * ONE) (mtreg * ONE)) else raw * ONE) = x1 /\ (raw = 0 /\ x1 = 0 \/ 1 <= raw /\ 2 ^ 100 <= x1) /\ (2 ^ 24 - 1) * (2 ^ 24 - 1) * (raw * 69 * ONE) <= 2 ^ 24 * 2 ^ 24 * (x1 * mtreg) <= (2 ^ 24 + 1) * (2 ^ 24 + 1) * (raw * 69 * ONE)).
  { eexists. split; [reflexivity|]. destruct (Z.eqb_spec mtreg 69) as [->|N]; cbn [negb].
    - split; [destruct (Z.eq_dec raw 0) as [->|]; [left; lia|right; split; [lia|]; change (2 ^ 100) with 1267650600228229401496703205376; change ONE with 713623846352979940529142984724747568191373312; lia]|]. replace (raw * 69 * ONE) with (raw * ONE * 69) by ring. assert (0 <= raw * ONE * 69) by (repeat apply Z.mul_nonneg_nonneg; lia). lia.
    - rewrite fdiv_int by lia. destruct (flq_rel (69 * ONE) mtreg ltac:(lia) ltac:(lia) ltac:(right; change (2 ^ 23) with 8388608; change ONE with 713623846352979940529142984724747568191373312; lia)) as [F1 F2]. set (F := flq (69 * ONE) mtreg) in *.
      assert (F0 : 2 ^ 101 <= F) by (clearbody F; change (2 ^ 101) with 2535301200456458802993406410752; change (2 ^ 24) with 16777216 in *; change ONE with 713623846352979940529142984724747568191373312 in *; clear - F1 Mt; nia). clearbody F.
      assert (Ex : fmul (raw * ONE) F = flq (raw * F) 1). { unfold fmul. replace (raw * ONE * F) with (raw * F * ONE) by ring. rewrite <- (Z.mul_1_l ONE) at 2. apply flq_scale; [lia|reflexivity]. } rewrite Ex.
      assert (RF : raw * F = 0 \/ 2 ^ 101 <= raw * F) by (destruct (Z.eq_dec raw 0) as [->|]; [left; ring|right; change (2 ^ 101) with 2535301200456458802993406410752 in *; nia]).
      assert (RF0 : 0 <= raw * F) by (change (2 ^ 101) with 2535301200456458802993406410752 in *; destruct RF; lia).
      destruct (flq_rel (raw * F) 1 ltac:(lia) RF0 ltac:(change (2 ^ 101) with 2535301200456458802993406410752 in *; change (2 ^ 23) with 8388608; destruct RF; [left|right]; lia)) as [X1 X2]. rewrite Z.mul_1_r in X1, X2. set (x := flq (raw * F) 1) in *. clearbody x. split.
      + destruct (Z.eq_dec raw 0) as [->|Nr]; [left; split; [reflexivity|]; rewrite Z.mul_0_l in X1, X2; change (2 ^ 24) with 16777216 in *; lia|right; split; [lia|]]. destruct RF as [RF|RF]; [change (2 ^ 101) with 2535301200456458802993406410752 in *; nia|]. change (2 ^ 101) with 2535301200456458802993406410752 in *. change (2 ^ 100) with 1267650600228229401496703205376. change (2 ^ 24) with 16777216 in *. lia.
      + change (2 ^ 24 - 1) with 16777215 in *. change (2 ^ 24 + 1) with 16777217 in *. change (2 ^ 24) with 16777216 in *. clear - X1 X2 F1 F2 Raw Mt. assert (A1 : raw * (16777215 * (69 * ONE)) <= raw * (16777216 * (F * mtreg))) by (apply Z.mul_le_mono_nonneg_l; lia). assert (A2 : raw * (16777216 * (F * mtreg)) <= raw * (16777217 * (69 * ONE))) by (apply Z.mul_le_mono_nonneg_l; lia). assert (A3 : mtreg * (16777215 * (raw * F)) <= mtreg * (16777216 * x)) by (apply Z.mul_le_mono_nonneg_l; lia). assert (A4 : mtreg * (16777216 * x) <= mtreg * (16777217 * (raw * F))) by (apply Z.mul_le_mono_nonneg_l; lia).
        set (P := raw * 69 * ONE). set (R := mtreg * (raw * F)). set (T := x * mtreg). replace (raw * (16777215 * (69 * ONE))) with (16777215 * P) in A1 by (unfold P; ring). replace (raw * (16777216 * (F * mtreg))) with (16777216 * R) in A1, A2 by (unfold R; ring). replace (raw * (16777217 * (69 * ONE))) with (16777217 * P) in A2 by (unfold P; ring). replace (mtreg * (16777215 * (raw * F))) with (16777215 * R) in A3 by (unfold R; ring). replace (mtreg * (16777216 * x)) with (16777216 * T) in A3, A4 by (unfold T; ring). replace (mtreg * (16777217 * (raw * F))) with (16777217 * R) in A4 by (unfold R; ring). clearbody P R T. lia. }
  destruct S1 as (x1 & E1 & P1 & B1). rewrite E1. clear E1. set (k := if mode2 then 2 else 1).
  assert (S2 : exists x2, (if mode2 then fdiv x1 (2 * ONE) else x1) = x2 /\ (x1 = 0 /\ x2 = 0 \/ 2 ^ 98 <= x2) /\ (2 ^ 24 - 1) * x1 <= 2 ^ 24 * (x2 * k) <= (2 ^ 24 + 1) * x1).
  { eexists. split; [reflexivity|]. change (2 ^ 98) with 316912650057057350374175801344. change (2 ^ 100) with 1267650600228229401496703205376 in P1. destruct mode2; unfold k.
    - rewrite fdiv_int by lia. destruct (flq_rel x1 2 ltac:(lia) ltac:(lia) ltac:(change (2 ^ 23) with 8388608; destruct P1 as [[_ P1]|P1]; [left|right]; lia)) as [X1 X2]. split; [|split; assumption]. set (x := flq x1 2) in *. clearbody x. change (2 ^ 24) with 16777216 in *. destruct P1 as [[_ P1]|P1]; [left|right]; lia.
    - split; [destruct P1 as [[_ P1]|P1]; [left|right]; lia|]. rewrite Z.mul_1_r. change (2 ^ 24) with 16777216. lia. }
  destruct S2 as (x2 & E2 & P2 & B2). rewrite E2. clear E2. unfold fdiv. assert (C12 : lit 12 10 = 10066330 * 2 ^ 126) by reflexivity. rewrite C12. assert (X20 : 0 <= x2) by (change (2 ^ 98) with 316912650057057350374175801344 in P2; lia).
  destruct (flq_rel (x2 * ONE) (10066330 * 2 ^ 126) ltac:(reflexivity) ltac:(apply Z.mul_nonneg_nonneg; lia) ltac:(destruct P2 as [[_ ->]|P2]; [left; reflexivity|right; change (2 ^ 98) with 316912650057057350374175801344 in P2; change (2 ^ 23 * (10066330 * 2 ^ 126)) with 7183573133258392564746727901424268188111866911784960; change ONE with 713623846352979940529142984724747568191373312; lia])) as [X1 X2].
  set (x3 := flq (x2 * ONE) (10066330 * 2 ^ 126)) in *. clearbody x3. assert (K : 0 < mtreg * k) by (unfold k; destruct mode2; lia).
  unfold near_rel. change (2 ^ 149) with ONE. set (W := raw * 69 * 10 * ONE). set (V := x3 * (mtreg * 12 * k)). change ONE with (8388608 * 2 ^ 126) in X1, X2. rewrite (Z.mul_assoc x3), (Z.mul_assoc x2) in X1, X2. set (u := 2 ^ 126) in *. assert (U : 0 < u) by reflexivity.
  assert (Y1 : (2 ^ 24 - 1) * (x2 * 8388608) <= 2 ^ 24 * (x3 * 10066330)) by (apply (Z.mul_le_mono_pos_r _ _ u U); lia). assert (Y2 : 2 ^ 24 * (x3 * 10066330) <= (2 ^ 24 + 1) * (x2 * 8388608)) by (apply (Z.mul_le_mono_pos_r _ _ u U); lia). clear X1 X2.
  change (2 ^ 24 - 1) with 16777215 in *. change (2 ^ 24 + 1) with 16777217 in *. change (2 ^ 24) with 16777216 in *. change (2 ^ 21) with 2097152.
  assert (Z1 : 16777215 * (x2 * 8388608) * (mtreg * k) <= 16777216 * (x3 * 10066330) * (mtreg * k)) by (apply Z.mul_le_mono_nonneg_r; lia). assert (Z2 : 16777216 * (x3 * 10066330) * (mtreg * k) <= 16777217 * (x2 * 8388608) * (mtreg * k)) by (apply Z.mul_le_mono_nonneg_r; lia).
  assert (T1 : 16777215 * x1 * mtreg <= 16777216 * (x2 * k) * mtreg) by (apply Z.mul_le_mono_nonneg_r; lia). assert (T2 : 16777216 * (x2 * k) * mtreg <= 16777217 * x1 * mtreg) by (apply Z.mul_le_mono_nonneg_r; lia).
  set (G := x2 * k * mtreg). set (H := x1 * mtreg). replace (16777215 * (x2 * 8388608) * (mtreg * k)) with (16777215 * 8388608 * G) in Z1 by (unfold G; ring). replace (16777217 * (x2 * 8388608) * (mtreg * k)) with (16777217 * 8388608 * G) in Z2 by (unfold G; ring). replace (16777215 * x1 * mtreg) with (16777215 * H) in T1 by (unfold H; ring). replace (16777217 * x1 * mtreg) with (16777217 * H) in T2 by (unfold H; ring). replace (16777216 * (x2 * k) * mtreg) with (16777216 * G) in T1, T2 by (unfold G; ring).
  fold H in B1. replace (raw * 69 * ONE) with (raw * 69 * ONE * 1) in B1 by ring. set (P := raw * 69 * ONE) in *. replace W with (10 * P) by (unfold W, P; ring). set (Y := x3 * mtreg * k). replace V with (12 * Y) by (unfold V, Y; ring). replace (16777216 * (x3 * 10066330) * (mtreg * k)) with (16777216 * 10066330 * Y) in Z1, Z2 by (unfold Y; ring). clearbody P Y G H. clear - Z1 Z2 T1 T2 B1. lia.
Qed.
Print Assumptions C126_light.
(** reading 0x8000, measurement time doubled, high resolution 2: 32768 * 69 / 138 / 2 / 1.2 = 6826.667 lux *)
Example C126_light_example : is_byte 0x80 /\ near_rel 21 (lightLevel 0x80 0 138 true) (32768 * 69 * 10) (138 * 12 * 2).
Proof. split; [split; [discriminate|reflexivity]|]. apply (C126_light 0x80 0 138 true); [split; [discriminate|reflexivity]|split; [discriminate|reflexivity]|lia]. Qed.

(** SHT1x: the temperature differs from the formula of the data sheet (val / 100 - 39.7) by at most 2^-15 degrees, the hundredths kept by at most one. *)
Theorem C126_sht1_partial val : 0 <= val <= 16383 -> near 15 (fst (sht1Temperature val)) (val - 3970) 100 /\ exists h, snd (sht1Temperature val) = Some h /\ Z.abs (h - (val - 3970)) <= 1.
Proof.
  intros H. unfold sht1Temperature, convertRawTemperature. cbv zeta. cbn [fst snd]. rewrite !ofInt_exact by lia. change (lit 1 100) with (10737418 * 2 ^ 119). change (lit (-397) 10) with (-10407117 * 2 ^ 131). rewrite fmul_int.
  assert (Em : fmul (val * ONE) (10737418 * 2 ^ 119) = flq (val * (10737418 * 2 ^ 119)) 1). { unfold fmul. replace (val * ONE * (10737418 * 2 ^ 119)) with (val * (10737418 * 2 ^ 119) * ONE) by ring. rewrite <- (Z.mul_1_l ONE) at 2. apply flq_scale; [lia|reflexivity]. } rewrite Em. clear Em.
  pose proof (flq_err_le (val * (10737418 * 2 ^ 119)) 1 (164 * ONE) ltac:(lia)) as E1. rewrite (Z.abs_eq (val * (10737418 * 2 ^ 119))) in E1 by (apply Z.mul_nonneg_nonneg; [lia|discriminate]). change (ulp (164 * ONE)) with (2 ^ 133) in E1. rewrite !Z.mul_1_r in E1. set (m := flq (val * (10737418 * 2 ^ 119)) 1) in *. clearbody m.
  change (2 ^ 119) with 664613997892457936451903530140172288 in *. change (2 ^ 133) with 10889035741470030830827987437816582766592 in *. change ONE with 713623846352979940529142984724747568191373312 in *. specialize (E1 ltac:(lia)).
  unfold fadd. change (2 ^ 131) with 2722258935367507707706996859454145691648. pose proof (flq_err_le (m + -10407117 * 2722258935367507707706996859454145691648) 1 (125 * ONE) ltac:(lia)) as E2. change (ulp (125 * ONE)) with 5444517870735015415413993718908291383296 in E2. rewrite !Z.mul_1_r in E2. change ONE with 713623846352979940529142984724747568191373312 in E2. specialize (E2 ltac:(lia)). set (t := flq (m + -10407117 * 2722258935367507707706996859454145691648) 1) in *. clearbody t.
  split; [unfold near; change (2 ^ 149) with 713623846352979940529142984724747568191373312; change (2 ^ 15) with 32768; lia|].
  pose proof (flq_err_le (t * 100) 1 (12500 * ONE) ltac:(lia)) as E3. change (ulp (12500 * ONE)) with (2 ^ 139) in E3. rewrite !Z.mul_1_r in E3. change ONE with 713623846352979940529142984724747568191373312 in E3. specialize (E3 ltac:(lia)). change (2 ^ 139) with 696898287454081973172991196020261297061888 in E3. set (h := flq (t * 100) 1) in *. clearbody h.
  pose proof (Z.quot_rem' h ONE) as Q. pose proof (Z.rem_bound_abs h ONE ltac:(discriminate)) as R. assert (SG : 0 <= h -> 0 <= Z.rem h ONE) by (intros; apply Z.rem_nonneg; [discriminate|assumption]). assert (SG' : h <= 0 -> Z.rem h ONE <= 0) by (intros; apply Z.rem_nonpos; [discriminate|assumption]). unfold toS16f. cbv zeta. set (z := Z.quot h ONE) in *. set (r := Z.rem h ONE) in *. clearbody z r. change ONE with 713623846352979940529142984724747568191373312 in *. change (Z.abs 713623846352979940529142984724747568191373312) with 713623846352979940529142984724747568191373312 in R.
  assert (A : Z.abs (z - (val - 3970)) <= 1) by lia. exists z. split; [|exact A]. destruct (Z.leb_spec (-32768) z), (Z.ltb_spec z 32768); try reflexivity; lia.
Qed.
Print Assumptions C126_sht1_partial.
Example C126_sht1_example : snd (sht1Temperature 6002) = Some 2032.
Proof. reflexivity. Qed.
(** Missing: the hundredths are not always those of the formula: a reading of 4000 (0.30 degrees) is kept as 0.29. *)
Theorem C126_sht1_refuted : exists val, 0 <= val <= 16383 /\ snd (sht1Temperature val) = Some (val - 3970 - 1).
Proof. exists 4000. split; [lia|reflexivity]. Qed.
Print Assumptions C126_sht1_refuted.

(** DS18x20 and DHT: degrees Fahrenheit and Kelvin of every temperature from -200 to 200 degrees are those of the definitions up to 2^-13, in the same order; degrees Celsius are unchanged. *)
Theorem C126_scales t : - 200 * 2 ^ 149 <= t <= 200 * 2 ^ 149 ->
  near_to 13 (ConvertTemperature t FARENHEIT) (9 * t + 5 * 32 * 2 ^ 149) 5 /\ near_to 13 (ConvertTemperature t KELVIN) (100 * t + 27315 * 2 ^ 149) 100 /\ ConvertTemperature t CELSIUS = t /\
  (forall t' s, t <= t' -> ConvertTemperature t s <= ConvertTemperature t' s).
Proof.
  change (2 ^ 149) with ONE. intros H. pose proof ONE_pos as O. unfold ConvertTemperature, fadd. rewrite !ofInt_exact by lia. rewrite fmul_int, fdiv_int by lia. split; [|split; [|split]].
  - pose proof (flq_err_le (t * 9) 1 (1800 * ONE) ltac:(lia) ltac:(lia)) as E1. change (ulp (1800 * ONE)) with (2 ^ 136) in E1. rewrite !Z.mul_1_r in E1. change (2 ^ 136) with 87112285931760246646623899502532662132736 in *. set (a := flq (t * 9) 1) in *. clearbody a. change ONE with 713623846352979940529142984724747568191373312 in *.
    pose proof (flq_err_le a 5 (361 * ONE) ltac:(lia)) as E2. change (ulp (361 * ONE)) with 21778071482940061661655974875633165533184 in E2. change ONE with 713623846352979940529142984724747568191373312 in E2. specialize (E2 ltac:(lia)). set (b := flq a 5) in *. clearbody b.
    pose proof (flq_err_le (b + 32 * ONE) 1 (400 * ONE) ltac:(lia)) as E3. change (ulp (400 * ONE)) with 21778071482940061661655974875633165533184 in E3. change ONE with 713623846352979940529142984724747568191373312 in E3. rewrite !Z.mul_1_r in E3. specialize (E3 ltac:(lia)). set (c := flq (b + 32 * 713623846352979940529142984724747568191373312) 1) in *. clearbody c. unfold near_to. change (2 ^ 149) with 713623846352979940529142984724747568191373312. change (2 ^ 13) with 8192. lia.
  - change (lit 27315 100) with (8950579 * 21778071482940061661655974875633165533184). change ONE with 713623846352979940529142984724747568191373312 in *. pose proof (flq_err_le (t + 8950579 * 21778071482940061661655974875633165533184) 1 (480 * ONE) ltac:(lia)) as E. change (ulp (480 * ONE)) with 21778071482940061661655974875633165533184 in E. change ONE with 713623846352979940529142984724747568191373312 in E. rewrite !Z.mul_1_r in E. specialize (E ltac:(lia)). set (c := flq (t + 8950579 * 21778071482940061661655974875633165533184) 1) in *. clearbody c. unfold near_to. change (2 ^ 149) with 713623846352979940529142984724747568191373312. change (2 ^ 13) with 8192. lia.
  - reflexivity.
  - intros t' s L. destruct s; [|apply flq_mono; lia|exact L]. rewrite fmul_int, fdiv_int by lia. apply flq_mono; [lia|]. apply Z.add_le_mono_r. apply flq_mono; [lia|]. apply flq_mono; lia.
Qed.
Print Assumptions C126_scales.
(** 21.5 degrees Celsius: 70.7 degrees Fahrenheit *)
Example C126_scales_example : near_to 13 (ConvertTemperature (43 * 2 ^ 148) FARENHEIT) (707 * 2 ^ 149) 10.
Proof. vm_compute. discriminate. Qed.
