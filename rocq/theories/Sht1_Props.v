(** C121: the temperature and humidity sensor SHT1x (SHT1x.cpp) *)
From Verif Require Export Sht1_Proofs.
Open Scope Z_scope.

(** A sensor at 20.3 degrees and 64 percent that needs 320 ms and 80 ms; the pins after the constructor; one without sensor; one below zero; one in dry air; one that needs 360 ms for the temperature *)
Definition mild : nature := mkNature 6000 2000 320000 80000 0x5a 9000 true.
Definition none : nature := mkNature 0 0 1 1 0 0 false.
Definition frost : nature := mkNature 3000 2000 320000 80000 0x5a 0 true.
Definition dry : nature := mkNature 6470 0 320000 80000 0x5a 0 true.
Definition slow : nature := mkNature 6000 2000 360000 80000 0x5a 9000 true.
Definition up (st : Z) : pins chip := mkPins true true false (mkChip Idle 0 true false st).
Definition began (k : nature) : pins chip := fst (construct (sensor k) (up 5)).

(** The constructor leaves both ends at rest. *)
Theorem C121_construct k m : doing (world m) = Idle -> oc (world m) = clk m -> start (world m) = 0%nat ->
  let '(m', d) := construct (sensor k) m in resting m' /\ clk m' = false /\ status (world m') = status (world m) /\ d = mkSht (-27300) 0.
Proof. intros D C ST. destruct m as [c o la [dg sr ocl odl st]]. cbn [world doing oc clk start] in *. subst dg ocl sr. destruct c, o, la, odl; vm_compute; repeat split. Qed.
Print Assumptions C121_construct.
Example C121_construct_example : doing (world (up 5)) = Idle /\ oc (world (up 5)) = clk (up 5) /\ began mild = mkPins false false false (mkChip Idle 0 false true 5).
Proof. vm_compute. repeat split. Qed.

(** The temperature: if the sensor is ready within 340 ms and the line rises within 96 ms, the call returns the measurement, as it is and in hundredths of a degree, and both ends are at rest again
    (so this holds for any number of calls). If it is later, the call fails, and the last temperature is invalid. *)
Theorem C121_temperature k m d : regular k -> resting m -> 0 < timeT k ->
  (rise k <= 96000 -> timeT k <= 340000 ->
    exists m' t, readTemperatureC (sensor k) m d = Some (m', mkSht (T k - 3970) (lastHumidity d), Some t) /\ (t == celsius (T k))%Q /\ resting m' /\ status (world m') = status (world m)) /\
  (96000 < rise k \/ 340000 < timeT k -> exists m', readTemperatureC (sensor k) m d = Some (m', mkSht (-27300) (lastHumidity d), None)).
Proof.
  intros (TH & TR & HR & CR) R TP. destruct (ask_ok k m 3 (timeT k) (T k) (crc k) (status (world m)) TH R ltac:(cbn; auto) eq_refl ltac:(lia) CR TP) as (A & B). split.
  - intros R1 T1. specialize (A R1 T1). unfold readTemperatureC, readTemperatureRaw. change sht1xMeasureTemperature with 3. rewrite A. assert (S16 : s16 (T k) = T k) by (unfold s16, u16; rewrite Z.mod_small by lia; destruct (Z.ltb_spec (T k) 32768); lia). rewrite S16.
    unfold toS16. rewrite (towards0_int _ _ (hundredth (T k))). cbv zeta. replace ((-32768 <=? T k - 3970) && (T k - 3970 <=? 32767)) with true by (symmetry; apply andb_true_iff; rewrite !Z.leb_le; lia).
    do 2 eexists. split; [reflexivity|]. split; [apply celsius_ok|]. repeat split.
  - intros L. specialize (B L). unfold readTemperatureC, readTemperatureRaw. change sht1xMeasureTemperature with 3. destruct (ask (sensor k) m 3) as [m' r]. cbn [snd] in B. subst r. eauto.
Qed.
Print Assumptions C121_temperature.
Example C121_temperature_example : regular mild /\ resting (began mild) /\ 0 < timeT mild <= 340000 /\ rise mild <= 96000 /\ regular slow /\ 340000 < timeT slow /\
  match readTemperatureC (sensor mild) (began mild) (mkSht 0 0) with Some (_, d, Some t) => d = mkSht 2030 0 /\ (t == 203 # 10)%Q | _ => False end.
Proof. split; [unfold regular; cbn; lia|]. split; [repeat split|]. split; [cbn; lia|]. split; [cbn; lia|]. split; [unfold regular; cbn; lia|]. split; [cbn; lia|]. vm_compute. repeat split. Qed.

(** No sensor: all functions say so. *)
Theorem C121_absent k m d : there k = false -> resting m ->
  (exists m', readTemperatureC (sensor k) m d = Some (m', mkSht (-27300) (lastHumidity d), None) /\ resting m') /\ (exists m', readHumidity (sensor k) m d = Some (m', mkSht (-27300) 0, None) /\ resting m') /\
  (exists m', GetTemperature (sensor k) m d = Some (m', mkSht (-27300) (lastHumidity d), -27300)) /\ (exists m', GetHumidity (sensor k) m d = Some (m', mkSht (-27300) 0, 0)) /\
  (forall s, snd (setStatusRegister (sensor k) m s) = false) /\ snd (softReset (sensor k) m) = false.
Proof.
  intros TH R. destruct (ask_absent k m 3 TH R ltac:(cbn; auto)) as (m' & E & R' & _). unfold GetHumidity, readHumidity, GetTemperature, readTemperatureC, readTemperatureRaw. change sht1xMeasureTemperature with 3. rewrite E.
  split; [eauto|]. split; [eauto|]. split; [eauto|]. split; [eauto|]. split.
  - intros s. destruct (send_absent k m 6 TH R ltac:(cbn; auto)) as (m2 & E2 & _). unfold setStatusRegister. change sht1xWriteStatusRegister with 6. rewrite E2. reflexivity.
  - destruct (send_absent k m 0x1e TH R ltac:(cbn; auto 10)) as (m2 & E2 & _). unfold softReset. change sht1xSoftReset with 0x1e. rewrite E2. reflexivity.
Qed.
Print Assumptions C121_absent.
Example C121_absent_example : there none = false /\ resting (began none) /\ match GetTemperature (sensor none) (began none) (mkSht 1 2) with Some (_, d, v) => d = mkSht (-27300) 2 /\ v = -27300 | None => False end.
Proof. split; [reflexivity|]. split; [repeat split|]. vm_compute. repeat split. Qed.

(** GetTemperature(). Wanted: the temperature in hundredths of a degree. Missing: temperatures below zero (next theorem). *)
Theorem C121_GetTemperature_partial k m d : regular k -> resting m -> 0 < timeT k <= 340000 -> rise k <= 96000 -> 3970 <= T k -> exists m' d', GetTemperature (sensor k) m d = Some (m', d', T k - 3970) /\ lastTemperatureC d' = T k - 3970 /\ resting m'.
Proof.
  intros RG R TT RI P. destruct (proj1 (C121_temperature k m d RG R (proj1 TT)) RI (proj2 TT)) as (m' & t & E & TE & R' & _). unfold GetTemperature. rewrite E. unfold toU16. destruct RG as (_ & TR & _).
  rewrite (towards0_int (t * 100) (T k - 3970)) by (rewrite TE, <- celsius_ok; apply hundredth). cbv zeta. replace ((0 <=? T k - 3970) && (T k - 3970 <=? 65535)) with true by (symmetry; apply andb_true_iff; rewrite !Z.leb_le; lia).
  exists m', (mkSht (T k - 3970) (lastHumidity d)). split; [|split; [reflexivity|exact R']]. do 2 f_equal. unfold s16, u16. rewrite Z.mod_small by lia. destruct (Z.ltb_spec (T k - 3970) 32768); lia.
Qed.
Print Assumptions C121_GetTemperature_partial.
Example C121_GetTemperature_example : regular mild /\ 0 < timeT mild <= 340000 /\ rise mild <= 96000 /\ 3970 <= T mild /\ match GetTemperature (sensor mild) (began mild) (mkSht 1 2) with Some (_, _, v) => v = 2030 | None => False end.
Proof. split; [unfold regular; cbn; lia|]. split; [cbn; lia|]. split; [cbn; lia|]. split; [cbn; lia|]. vm_compute. reflexivity. Qed.
(** Below zero the negative number is converted to uint16_t, which is undefined, at every such temperature. *)
Theorem C121_GetTemperature_refuted k m d : regular k -> resting m -> 0 < timeT k <= 340000 -> rise k <= 96000 -> T k < 3970 -> GetTemperature (sensor k) m d = None.
Proof.
  intros RG R TT RI P. destruct (proj1 (C121_temperature k m d RG R (proj1 TT)) RI (proj2 TT)) as (m' & t & E & TE & R' & _). unfold GetTemperature. rewrite E. unfold toU16.
  rewrite (towards0_int (t * 100) (T k - 3970)) by (rewrite TE, <- celsius_ok; apply hundredth). cbv zeta. replace (0 <=? T k - 3970) with false by (symmetry; apply Z.leb_gt; lia). reflexivity.
Qed.
Print Assumptions C121_GetTemperature_refuted.
Example C121_GetTemperature_refuted_example : regular frost /\ resting (began frost) /\ T frost < 3970 /\ (celsius (T frost) == -97 # 10)%Q.
Proof. split; [unfold regular; cbn; lia|]. split; [repeat split|]. split; [cbn; lia|]. vm_compute. reflexivity. Qed.

(** readTemperatureF(). Wanted: the temperature of readTemperatureC() in degrees Fahrenheit, 9/5 of it and 32. It is always 0.24 degrees less. *)
Theorem C121_fahrenheit_refuted k m d : regular k -> resting m -> 0 < timeT k <= 340000 -> rise k <= 96000 ->
  exists m' t, readTemperatureF (sensor k) m d = Some (m', mkSht (T k - 3970) (lastHumidity d), Some t) /\ (t == celsius (T k) * (9 # 5) + 32 - (24 # 100))%Q.
Proof.
  intros (TH & TR & HR & CR) R TT RI. destruct (ask_ok k m 3 (timeT k) (T k) (crc k) (status (world m)) TH R ltac:(cbn; auto) eq_refl ltac:(lia) CR (proj1 TT)) as (A & _). specialize (A RI (proj2 TT)).
  unfold readTemperatureF, readTemperatureRaw. change sht1xMeasureTemperature with 3. rewrite A. assert (S16 : s16 (T k) = T k) by (unfold s16, u16; rewrite Z.mod_small by lia; destruct (Z.ltb_spec (T k) 32768); lia). rewrite S16.
  unfold toS16. rewrite (towards0_int _ _ (hundredth (T k))). cbv zeta. replace ((-32768 <=? T k - 3970) && (T k - 3970 <=? 32767)) with true by (symmetry; apply andb_true_iff; rewrite !Z.leb_le; lia).
  do 2 eexists. split; [reflexivity|]. unfold convertRawTemperature, celsius, Qeq, inject_Z. cbn [Qplus Qminus Qmult Qopp Qnum Qden]. lia.
Qed.
Print Assumptions C121_fahrenheit_refuted.
Example C121_fahrenheit_refuted_example : regular mild /\ resting (began mild) /\ match readTemperatureF (sensor mild) (began mild) (mkSht 1 2) with Some (_, _, Some t) => (t == 683 # 10)%Q | _ => False end.
Proof. split; [unfold regular; cbn; lia|]. split; [repeat split|]. vm_compute. reflexivity. Qed.

(** The humidity. Wanted: the relative humidity, corrected by the temperature, and in hundredths. Missing: results below zero (next theorem). *)
Theorem C121_humidity_partial k m d : regular k -> resting m -> 0 < timeT k <= 340000 -> 0 < timeH k <= 340000 -> rise k <= 96000 -> (0 <= humidity (T k) (H k))%Q ->
  exists m' h, readHumidity (sensor k) m d = Some (m', mkSht (T k - 3970) (Qfloor (humidity (T k) (H k) * 100)), Some h) /\ (h == humidity (T k) (H k))%Q /\ resting m' /\ status (world m') = status (world m) /\
    exists m2, GetHumidity (sensor k) m d = Some (m2, mkSht (T k - 3970) (Qfloor (humidity (T k) (H k) * 100)), Qfloor (humidity (T k) (H k) * 100)) /\ resting m2.
Proof.
  intros RG R TT TH RI P. destruct (proj1 (C121_temperature k m (mkSht (lastTemperatureC d) INVALID_HUMIDITY) RG R (proj1 TT)) RI (proj2 TT)) as (m1 & t & E & TE & R1 & S1). pose proof RG as (TR & T1 & H1 & CR).
  destruct (ask_ok k m1 5 (timeH k) (H k) (crc k) (status (world m1)) TR R1 ltac:(cbn; auto) eq_refl ltac:(lia) CR (proj1 TH)) as (A & _). specialize (A RI (proj2 TH)).
  set (h := ((t - 25) * ((1 # 100) + (8 # 100000) * inject_Z (H k)) + ((-20468 # 10000) + (367 # 10000) * inject_Z (H k) + (-15955 # 10000000000) * inject_Z (H k) * inject_Z (H k)))%Q).
  assert (HE : (h == humidity (T k) (H k))%Q).
  { unfold h, humidity. rewrite TE. set (c := celsius (T k)). assert (E1 : (H k * 8 # 100000 == (8 # 100000) * inject_Z (H k))%Q) by (unfold Qeq, inject_Z; cbn [Qmult Qnum Qden]; lia). assert (E2 : (H k * 367 # 10000 == (367 # 10000) * inject_Z (H k))%Q) by (unfold Qeq, inject_Z; cbn [Qmult Qnum Qden]; lia).
    assert (E3 : (H k * H k * 15955 # 10000000000 == (15955 # 10000000000) * inject_Z (H k) * inject_Z (H k))%Q) by (unfold Qeq, inject_Z; cbn [Qmult Qnum Qden]; lia). rewrite E1, E2, E3. ring. }
  assert (UP : (humidity (T k) (H k) * 100 < 65536)%Q).
  { clear - T1 H1. unfold humidity, celsius, Qlt. cbn [Qplus Qminus Qmult Qopp Qnum Qden]. nia. }
  assert (FL : Qfloor (h * 100) = Qfloor (humidity (T k) (H k) * 100)) by (apply Qfloor_comp; rewrite HE; reflexivity).
  assert (F0 : 0 <= Qfloor (humidity (T k) (H k) * 100)) by (change 0 with (Qfloor 0); apply Qfloor_resp_le; lra).
  assert (F1 : Qfloor (humidity (T k) (H k) * 100) < 65536) by (rewrite Zlt_Qlt; exact (Qle_lt_trans _ _ _ (Qfloor_le _) UP)).
  assert (U : toU16 (h * 100) = Some (Qfloor (humidity (T k) (H k) * 100))).
  { unfold toU16. rewrite towards0_pos by (rewrite HE; lra). rewrite FL. cbv zeta. replace ((0 <=? Qfloor (humidity (T k) (H k) * 100)) && (Qfloor (humidity (T k) (H k) * 100) <=? 65535)) with true by (symmetry; apply andb_true_iff; rewrite !Z.leb_le; lia). reflexivity. }
  assert (RH : readHumidity (sensor k) m d = Some (mkPins false false true (mkChip Idle 0 false true (status (world m1))), mkSht (T k - 3970) (Qfloor (humidity (T k) (H k) * 100)), Some h)).
  { unfold readHumidity. cbv zeta. rewrite E. change sht1xMeasureRelativeHumidity with 5. rewrite A. fold h. rewrite U. reflexivity. }
  do 2 eexists. split; [exact RH|]. split; [exact HE|]. split; [repeat split|]. split; [exact S1|]. unfold GetHumidity. rewrite RH, U. eexists. split; [reflexivity|]. repeat split.
Qed.
Print Assumptions C121_humidity_partial.
Example C121_humidity_example : regular mild /\ resting (began mild) /\ 0 < timeT mild <= 340000 /\ 0 < timeH mild <= 340000 /\ rise mild <= 96000 /\ (0 <= humidity (T mild) (H mild))%Q /\
  match GetHumidity (sensor mild) (began mild) (mkSht 1 2) with Some (_, d, v) => d = mkSht 2030 6417 /\ v = 6417 | None => False end.
Proof. split; [unfold regular; cbn; lia|]. split; [repeat split|]. split; [cbn; lia|]. split; [cbn; lia|]. split; [cbn; lia|]. split; [vm_compute; discriminate|]. vm_compute. repeat split. Qed.
(** In dry air the result is below zero, and its conversion to uint16_t is undefined. *)
Theorem C121_humidity_refuted : regular dry /\ resting (began dry) /\ 0 < timeT dry <= 340000 /\ 0 < timeH dry <= 340000 /\ rise dry <= 96000 /\ forall d, readHumidity (sensor dry) (began dry) d = None.
Proof. split; [unfold regular; cbn; lia|]. split; [repeat split|]. split; [cbn; lia|]. split; [cbn; lia|]. split; [cbn; lia|]. intros d. vm_compute. reflexivity. Qed.
Print Assumptions C121_humidity_refuted.

(** setStatusRegister() and softReset(): the sensor has the low byte, and 0. *)
Theorem C121_set k m s : regular k -> resting m -> rise k <= 96000 ->
  (exists m', setStatusRegister (sensor k) m s = (m', true) /\ status (world m') = s mod 256 /\ resting m') /\ (exists m', softReset (sensor k) m = (m', true) /\ status (world m') = 0 /\ resting m').
Proof.
  intros (TH & _) R RI. split.
  - unfold setStatusRegister. change sht1xWriteStatusRegister with 6. rewrite (send_cmd k m 6 TH R ltac:(cbn; auto)). change (next k (world m) false 6) with (Taking true 0 0, status (world m)). cbv iota. rewrite ack_rises by (reflexivity || exact RI). cbn [negb].
    destruct (send_contents k (Z.odd 6) false (status (world m)) (u8 s) TH (u8_byte s)) as (l & E). unfold acked at 1. rewrite E, ack_rises by (reflexivity || exact RI). eexists. split; [reflexivity|]. repeat split.
  - unfold softReset. change sht1xSoftReset with 0x1e. rewrite (send_cmd k m 0x1e TH R ltac:(cbn; auto 10)). change (next k (world m) false 0x1e) with (Idle, 0). cbv iota. rewrite ack_rises by (reflexivity || exact RI). eexists. split; [reflexivity|]. repeat split.
Qed.
Print Assumptions C121_set.
Example C121_set_example : regular mild /\ resting (began mild) /\ match setStatusRegister (sensor mild) (began mild) 0x177 with (m, b) => status (world m) = 0x77 /\ b = true end.
Proof. split; [unfold regular; cbn; lia|]. split; [repeat split|]. vm_compute. split; reflexivity. Qed.

(** getStatusRegister(). Wanted: the status register. The call fails with every sensor that shows the first bit of the register when its acknowledgement ends: first the line must be high (its end),
    then low (a result), without a clock between. *)
Theorem C121_status_refuted k m : regular k -> resting m -> snd (getStatusRegister (sensor k) m) = None.
Proof. intros (TH & _) R. apply status_never; assumption. Qed.
Print Assumptions C121_status_refuted.
Example C121_status_refuted_example : regular mild /\ resting (began mild) /\ status (world (began mild)) = 5.
Proof. split; [unfold regular; cbn; lia|]. split; [repeat split|]. reflexivity. Qed.

(** Wanted: after a measurement that came too late, softReset() resets the sensor. It does not: the sensor holds the line low. *)
Theorem C121_late_refuted : regular slow /\ resting (began slow) /\
  let '(m, _, r) := readTemperatureRaw (sensor slow) (began slow) (mkSht 0 0) in r = None /\ let '(m2, ok) := softReset (sensor slow) (pass (sensor slow) m 11000) in ok = false /\ status (world m2) = 5.
Proof. split; [unfold regular; cbn; lia|]. split; [repeat split|]. vm_compute. repeat split. Qed.
Print Assumptions C121_late_refuted.
