(** Property theorems C54, C63, C64, C65: the DS3231 real-time clock *)
From Verif Require Import Base Bits RTC_Model RTC_Spec RTC_Proofs.

(** ** C54: Time and date survive the register encoding; values out of range are refused. *)
(** Whenever setting the time reports success, reading it back gives the same time, and the registers hold it in the chip's
    packed decimal format; no other register changed. *)
Theorem C54_time_round_trip n n1 n2 t c c' : (19 <= length c)%nat -> 0 <= seconds t -> 0 <= minutes t -> 0 <= hours t ->
  setTime n t c = (true, c') -> (1 <= n1)%nat -> (3 <= n2)%nat ->
  time_ok t /\ same_outside 0 3 c c' /\ rd c' 0 = bcd (seconds t) /\ rd c' 1 = bcd (minutes t) /\
  exists t', getTime n1 n2 c' = Some t' /\ seconds t' = seconds t /\ minutes t' = minutes t /\ hours t' = hours t /\ mode t' = mode t /\
    (mode t = true -> am_pm t' = am_pm t).
Proof.
  intros L P1 P2 P3 E N1 N2. assert (T : time_ok t).
  { assert (D : time_ok t \/ ~ time_ok t). { unfold time_ok. destruct (mode t); lia. } destruct D as [D|D]; auto. rewrite setTime_bad in E by auto. discriminate. }
  split; auto. pose proof (setTime_outside n t c L) as O. rewrite E in O. split; [exact O|].
  rewrite (setTime_ok n t c T (setTime_true _ _ _ _ E)) in E. injection E as <-.
  set (ds := [bcd (seconds t); bcd (minutes t); hreg false (mode t) (am_pm t) (hours t)]).
  split; [exact (rd_sent c 0 ds 0 ltac:(cbn; lia) ltac:(cbn; lia))|]. split; [exact (rd_sent c 0 ds 1 ltac:(cbn; lia) ltac:(cbn; lia))|].
  apply getTime_set; auto.
Qed.
Print Assumptions C54_time_round_trip.
(** A time out of range is refused and no register is touched; a time in range is accepted if the transfer succeeds. *)
Theorem C54_time_accepted n t c : 0 <= seconds t -> 0 <= minutes t -> 0 <= hours t -> (4 <= n)%nat ->
  (time_ok t -> fst (setTime n t c) = true) /\ (~ time_ok t -> setTime n t c = (false, c)).
Proof. intros P1 P2 P3 Hn. split; intros H; [rewrite setTime_ok by auto; reflexivity|apply setTime_bad; auto]. Qed.
Print Assumptions C54_time_accepted.
Theorem C54_calendar_round_trip n n1 n2 k c c' : (19 <= length c)%nat -> 0 <= year k ->
  setCalendar n k c = (true, c') -> (1 <= n1)%nat -> (4 <= n2)%nat ->
  cal_ok k /\ same_outside 3 4 c c' /\ getCalendar n1 n2 c' = Some k /\ map (rd c') [3; 4; 5; 6]%nat = [bcd (day k); bcd (date k); bcd (month k); bcd (year k)].
Proof.
  intros L P E N1 N2. assert (T : cal_ok k).
  { assert (D : cal_ok k \/ ~ cal_ok k). { unfold cal_ok. lia. } destruct D as [D|D]; auto. rewrite setCalendar_bad in E by auto. discriminate. }
  split; auto. pose proof (setCalendar_outside n k c L) as O. rewrite E in O. split; [exact O|].
  rewrite (setCalendar_ok n k c T (setCalendar_true _ _ _ _ E)) in E. assert (c' = wr_range c 3 (cal_regs k)) by congruence. subst c'. split; [apply getCalendar_set; auto|].
  assert (R : forall i, (i < 4)%nat -> rd (wr_range c 3 (cal_regs k)) (3 + i) = rd (cal_regs k) i) by (intros i Hi; apply rd_sent; [cbn; lia|exact Hi]).
  pose proof (R 0%nat ltac:(lia)) as R0. pose proof (R 1%nat ltac:(lia)) as R1. pose proof (R 2%nat ltac:(lia)) as R2. pose proof (R 3%nat ltac:(lia)) as R3.
  cbn [Nat.add] in *. cbn [map]. rewrite R0, R1, R2, R3. reflexivity.
Qed.
Print Assumptions C54_calendar_round_trip.
Theorem C54_calendar_accepted n k c : 0 <= year k -> (5 <= n)%nat ->
  (cal_ok k -> fst (setCalendar n k c) = true) /\ (~ cal_ok k -> setCalendar n k c = (false, c)).
Proof. intros P Hn. split; intros H; [rewrite setCalendar_ok by auto; reflexivity|apply setCalendar_bad; auto]. Qed.
Print Assumptions C54_calendar_accepted.

Example C54_example : let c := repeat 0 19 in let t := mkTime 45 59 11 true true in
  fst (setTime 4 t c) = true /\ map (rd (snd (setTime 4 t c))) [0; 1; 2]%nat = [69; 89; 113] /\ getTime 1 3 (snd (setTime 4 t c)) = Some t /\
  (19 <= length c)%nat /\ fst (setTime 3 t c) = false /\ fst (setTime 4 (mkTime 60 0 0 false false) c) = false.
Proof. vm_compute. repeat apply conj; auto. Qed.
Example C54_example_calendar : let c := repeat 0 19 in let k := mkCal 5 29 2 24 in
  fst (setCalendar 5 k c) = true /\ getCalendar 1 4 (snd (setCalendar 5 k c)) = Some k /\ fst (setCalendar 5 (mkCal 0 29 2 24) c) = false.
Proof. vm_compute. auto. Qed.
(** In 24-hour mode the AM/PM field read back is the tens bit of the hour, not a value that was set. *)
Example C54_example_am_pm : option_map am_pm (getTime 1 3 (snd (setTime 4 (mkTime 0 0 20 false false) (repeat 0 19)))) = Some true.
Proof. vm_compute. reflexivity. Qed.

(** ** C63: An alarm read back is the alarm set; the clock and the other alarm are not touched.
    Partial: the structure passed to the read function must have its day/date selector cleared. *)
Theorem C63_alarm_round_trip_partial n n1 n2 a a0 one c c' : (19 <= length c)%nat -> 0 <= a_seconds a -> 0 <= a_minutes a -> 0 <= a_hours a ->
  setAlarm n a one c = (true, c') -> dy_dt a0 = false -> (1 <= n1)%nat -> (4 <= n2)%nat ->
  alarm_ok one a /\ same_outside (if one then 7%nat else 11%nat) (if one then 4%nat else 3%nat) c c' /\
  exists a', getAlarm n1 n2 a0 one c' = Some a' /\
    (one = true -> a_seconds a' = a_seconds a /\ am1 a' = am1 a) /\ a_minutes a' = a_minutes a /\ a_hours a' = a_hours a /\ a_mode a' = a_mode a /\
    (a_mode a = true -> a_am_pm a' = a_am_pm a) /\ am2 a' = am2 a /\ am3 a' = am3 a /\ am4 a' = am4 a /\ dy_dt a' = dy_dt a /\
    (if dy_dt a then a_day a' = a_day a else a_date a' = a_date a).
Proof.
  intros L P1 P2 P3 E D N1 N2. assert (T : alarm_ok one a).
  { assert (X : alarm_ok one a \/ ~ alarm_ok one a). { unfold alarm_ok. destruct one, (a_mode a); lia. } destruct X as [X|X]; auto. rewrite setAlarm_bad in E by auto. discriminate. }
  split; auto. pose proof (setAlarm_outside n a one c L) as O. rewrite E in O. split; [exact O|].
  rewrite (setAlarm_len n a one c T (setAlarm_true _ _ _ _ _ E)) in E. injection E as <-. apply getAlarm_set; auto.
Qed.
Print Assumptions C63_alarm_round_trip_partial.
Theorem C63_alarm_accepted n a one c : 0 <= a_seconds a -> 0 <= a_minutes a -> 0 <= a_hours a -> (5 <= n)%nat ->
  (alarm_ok one a -> fst (setAlarm n a one c) = true) /\ (~ alarm_ok one a -> setAlarm n a one c = (false, c)).
Proof. intros P1 P2 P3 Hn. split; intros H; [rewrite setAlarm_ok by auto; reflexivity|apply setAlarm_bad; auto]. Qed.
Print Assumptions C63_alarm_accepted.
Definition ex_alarm : alarm := mkAlarm 30 15 11 7 28 true false true false true true true.
Definition zero_alarm : alarm := mkAlarm 0 0 0 0 0 false false false false false false false.
Example C63_example : alarm_ok true ex_alarm /\ fst (setAlarm 5 ex_alarm true (repeat 0 19)) = true /\ dy_dt zero_alarm = false /\
  getAlarm 1 4 zero_alarm true (snd (setAlarm 5 ex_alarm true (repeat 0 19))) = Some (mkAlarm 30 15 11 7 0 true false true false true true true).
Proof. split; [unfold alarm_ok, ex_alarm; cbn; lia|]. vm_compute. auto. Qed.
(** With the selector left over from an earlier read, a date alarm is reported as a day alarm. *)
Theorem C63_stale_selector_refuted : exists a a0 c c', alarm_ok true a /\ dy_dt a = false /\ setAlarm 5 a true c = (true, c') /\
  option_map dy_dt (getAlarm 1 4 a0 true c') = Some true.
Proof.
  exists (mkAlarm 30 15 11 7 28 true false true false true true false), ex_alarm, (repeat 0 19).
  eexists. split; [unfold alarm_ok; cbn; lia|]. split; [reflexivity|]. split; vm_compute; reflexivity.
Qed.
Print Assumptions C63_stale_selector_refuted.

(** ** C64: Resetting an alarm clears that alarm's flag and interrupt enable and nothing else. *)
Lemma setCtrl_all n ct st c : (3 <= n)%nat -> (19 <= length c)%nat ->
  setCtrlStatReg n ct st true true c = (true, wr_range c 14 [ct; st]).
Proof. intros Hn L. unfold setCtrlStatReg. cbn [app firstn]. rewrite send_count_ge by (cbn; lia). reflexivity. Qed.
Lemma getCtrl_all n1 n2 c : (1 <= n1)%nat -> (2 <= n2)%nat -> getCtrlStatReg n1 n2 c = Some (rd c 14, rd c 15).
Proof. intros H1 H2. unfold getCtrlStatReg. rewrite send_count_ge by (cbn; lia). cbn [fst length Nat.eqb]. unfold masterRead. destruct (Nat.ltb_spec n2 2); [lia|]. reflexivity. Qed.
Theorem C64_reset_alarm n1 n2 n3 (one : bool) c : (19 <= length c)%nat -> Forall is_byte c -> (1 <= n1)%nat -> (2 <= n2)%nat -> (3 <= n3)%nat ->
  exists c', resetAlarm n1 n2 n3 one c = (true, c') /\ same_outside 14 2 c c' /\
    (forall r i, (r = 14 \/ r = 15)%nat -> 0 <= i < 8 -> Z.testbit (rd c' r) i = Z.testbit (rd c r) i && negb (i =? if one then 0 else 1)) /\
    checkAlarm n1 n2 one c' = false /\ checkAlarm n1 n2 (negb one) c' = checkAlarm n1 n2 (negb one) c.
Proof.
  intros L B H1 H2 H3. unfold resetAlarm. rewrite getCtrl_all by auto. rewrite setCtrl_all by auto. eexists. split; [reflexivity|].
  set (m := if one then 254 else 253). set (ds := [Z.land (rd c 14) m; Z.land (rd c 15) m]).
  pose proof (rd_sent c 14 ds 0 ltac:(cbn; lia) ltac:(cbn; lia)) as R0. pose proof (rd_sent c 14 ds 1 ltac:(cbn; lia) ltac:(cbn; lia)) as R1.
  cbn [Nat.add ds rd nth] in R0, R1. change (nth 14 (wr_range c 14 ds) 0) with (rd (wr_range c 14 ds) 14) in R0.
  change (nth 15 (wr_range c 14 ds) 0) with (rd (wr_range c 14 ds) 15) in R1. change (nth 14 c 0) with (rd c 14) in *. change (nth 15 c 0) with (rd c 15) in *.
  split.
  { split; [apply wr_range_length|]. intros i Hi. unfold rd. rewrite nth_wr_range by (cbn; lia). cbn [ds length].
    destruct (Nat.leb_spec 14 i), (Nat.ltb_spec i (14 + 2)); cbn [andb]; auto; lia. }
  assert (T : forall i, 0 <= i < 8 -> Z.testbit m i = negb (i =? if one then 0 else 1)).
  { intros i Hi. assert (X : i = 0 \/ i = 1 \/ i = 2 \/ i = 3 \/ i = 4 \/ i = 5 \/ i = 6 \/ i = 7) by lia.
    unfold m. destruct one; decompose [or] X; subst; reflexivity. }
  split.
  { intros r i [-> | ->] Hi; [rewrite R0|rewrite R1]; rewrite Z.land_spec, T by auto; reflexivity. }
  unfold checkAlarm. rewrite !getCtrl_all by auto. rewrite R1. unfold m, tst. split.
  - destruct one; rewrite <- Z.land_assoc; rewrite Z.land_0_r; reflexivity.
  - destruct one; cbn [negb]; rewrite <- Z.land_assoc; reflexivity.
Qed.
Print Assumptions C64_reset_alarm.
Example C64_example : snd (resetAlarm 1 2 3 true (repeat 0 14 ++ [31; 139; 0; 0; 0])) = repeat 0 14 ++ [30; 138; 0; 0; 0].
Proof. vm_compute. reflexivity. Qed.
(** Turning an alarm on never turns it on: if its interrupt enable bit was 0 it stays 0 (the code masks instead of setting). *)
Theorem C64_turn_on_never_sets_refuted n1 n2 n3 (one : bool) c : (19 <= length c)%nat -> (1 <= n1)%nat -> (2 <= n2)%nat -> (3 <= n3)%nat ->
  Z.testbit (rd c 14) (if one then 0 else 1) = false ->
  exists c', turnOnAlarm n1 n2 n3 one c = (true, c') /\ Z.testbit (rd c' 14) (if one then 0 else 1) = false.
Proof.
  intros L H1 H2 H3 H. unfold turnOnAlarm. rewrite getCtrl_all by auto. rewrite setCtrl_all by auto. eexists. split; [reflexivity|].
  set (m := if one then 5 else 6). set (ds := [Z.land (rd c 14) m; Z.land (rd c 15) m]).
  pose proof (rd_sent c 14 ds 0 ltac:(cbn; lia) ltac:(cbn; lia)) as R0. change (14 + 0)%nat with 14%nat in R0. rewrite R0.
  change (rd ds 0) with (Z.land (rd c 14) m). rewrite Z.land_spec, H. reflexivity.
Qed.
Print Assumptions C64_turn_on_never_sets_refuted.
Example C64_example_turn_on : Z.testbit (rd (repeat 0 19) 14) 0 = false /\ (19 <= length (repeat 0 19))%nat.
Proof. vm_compute. auto. Qed.
(** Switching the oscillator writes zero to the whole status register, so pending alarm flags are lost. *)
Theorem C64_oscillator_clears_status_refuted n1 n2 n3 tf bat rs c : (19 <= length c)%nat -> (1 <= n1)%nat -> (2 <= n2)%nat -> (3 <= n3)%nat ->
  exists c', enableOscillator n1 n2 n3 tf bat rs c = (true, c') /\ rd c' 15 = 0.
Proof.
  intros L H1 H2 H3. unfold enableOscillator. rewrite getCtrl_all by auto. unfold setCtrlStatReg. cbn [app firstn].
  rewrite send_count_ge by (cbn; lia). eexists. split; [reflexivity|].
  match goal with |- rd (wr_range c _ ?ds) _ = _ => pose proof (rd_sent c 14 ds 1 ltac:(cbn; lia) ltac:(cbn; lia)) as R1 end. exact R1.
Qed.
Print Assumptions C64_oscillator_clears_status_refuted.
Example C64_example_oscillator : rd (snd (enableOscillator 1 2 3 true false 0 (repeat 0 14 ++ [28; 3; 0; 0; 0]))) 15 = 0 /\ checkAlarm 1 2 true (repeat 0 14 ++ [28; 3; 0; 0; 0]) = true.
Proof. vm_compute. auto. Qed.

(** ** C65: The hour used for the epoch time is the hour of the day shown by the clock.
    Partial: false from 12:00 AM to 12:59 AM in 12-hour mode. *)
Theorem C65_epoch_hour_partial t : time_ok t -> ~ (mode t = true /\ am_pm t = false /\ hours t = 12) -> epoch_hour t = hour_of_day t.
Proof.
  intros (_ & _ & H) N. unfold epoch_hour, hour_of_day. destruct (mode t); auto. destruct (Z.eqb_spec (hours t) 12), (am_pm t); cbn [andb negb]; try lia.
Qed.
Print Assumptions C65_epoch_hour_partial.
Theorem C65_epoch_midnight_refuted : exists t, time_ok t /\ 1 <= hours t /\ epoch_hour t <> hour_of_day t.
Proof. exists (mkTime 0 30 12 false true). split; [unfold time_ok; cbn; lia|]. split; [cbn; lia|]. vm_compute. discriminate. Qed.
Print Assumptions C65_epoch_midnight_refuted.
Example C65_example : time_ok (mkTime 0 0 12 true true) /\ epoch_hour (mkTime 0 0 12 true true) = 12 /\ epoch_hour (mkTime 0 0 11 true true) = 23.
Proof. split; [unfold time_ok; cbn; lia|]. vm_compute. auto. Qed.
