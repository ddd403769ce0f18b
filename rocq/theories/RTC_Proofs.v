(** Proofs for C54, C63-C65 *)
From Verif Require Import Base Bits RTC_Model RTC_Spec.

Lemma send_count_ge n a ds c : (S (length ds) <= n)%nat -> masterSend n (a :: ds) c = (S (length ds), wr_range c (Z.to_nat a) ds).
Proof. intros H. unfold masterSend. cbn [length]. rewrite Nat.min_r by lia. cbn [tl]. rewrite firstn_all. reflexivity. Qed.
Lemma send_outside n a ds c : (Z.to_nat a + length ds <= length c)%nat -> same_outside (Z.to_nat a) (length ds) c (snd (masterSend n (a :: ds) c)).
Proof.
  intros H. unfold masterSend. cbn [snd]. destruct (Nat.min n (length (a :: ds))) as [|k]; [split; auto|]. cbn [tl]. split; [apply wr_range_length|].
  assert (L : (length (firstn k ds) <= length ds)%nat) by (rewrite firstn_length; lia).
  intros i Hi. unfold rd. rewrite nth_wr_range by lia. destruct (Nat.leb_spec (Z.to_nat a) i), (Nat.ltb_spec i (Z.to_nat a + length (firstn k ds))); cbn [andb]; auto; lia.
Qed.
Lemma rd_sent c a ds i : (a + length ds <= length c)%nat -> (i < length ds)%nat -> rd (wr_range c a ds) (a + i) = rd ds i.
Proof.
  intros H Hi. unfold rd. rewrite nth_wr_range by lia. destruct (Nat.leb_spec a (a + i)), (Nat.ltb_spec (a + i) (a + length ds)); cbn [andb]; try lia. f_equal. lia.
Qed.

(** register fields, by enumeration of the field values *)
Lemma enum60 (f : Z -> bool) : forallb f (range_Z 60) = true -> forall v, 0 <= v <= 59 -> f v = true.
Proof. intros H v Hv. apply (range_forall 60 f H). change (Z.of_nat 60) with 60. lia. Qed.
Lemma enum100 (f : Z -> bool) : forallb f (range_Z 100) = true -> forall v, 0 <= v <= 99 -> f v = true.
Proof. intros H v Hv. apply (range_forall 100 f H). change (Z.of_nat 100) with 100. lia. Qed.
Lemma field100 v : 0 <= v <= 99 -> u8 (uchar_2_bcd v) = bcd v /\ bcd_2_uchar (bcd v) = v.
Proof.
  intros H. assert (X : ((u8 (uchar_2_bcd v) =? bcd v) && (bcd_2_uchar (bcd v) =? v)) = true).
  { revert v H. apply enum100. vm_compute. reflexivity. }
  apply andb_true_iff in X. destruct X as [A B]. apply Z.eqb_eq in A, B. auto.
Qed.
Lemma field_flag v b : 0 <= v <= 59 -> bcd_2_uchar (Z.land (Z.lor (bit_if b ALRM_MASK) (u8 (uchar_2_bcd v))) 127) = v /\ tst (Z.lor (bit_if b ALRM_MASK) (u8 (uchar_2_bcd v))) ALRM_MASK = b.
Proof.
  intros H. assert (X : ((bcd_2_uchar (Z.land (Z.lor (bit_if b ALRM_MASK) (u8 (uchar_2_bcd v))) 127) =? v) && Bool.eqb (tst (Z.lor (bit_if b ALRM_MASK) (u8 (uchar_2_bcd v))) ALRM_MASK) b) = true).
  { revert v H. apply enum60. destruct b; vm_compute; reflexivity. }
  apply andb_true_iff in X. destruct X as [A B]. apply Z.eqb_eq in A. apply Bool.eqb_prop in B. auto.
Qed.
Definition hreg (f md ap : bool) (h : Z) : Z := Z.lor (Z.lor (Z.lor (bit_if f ALRM_MASK) (bit_if md MODE)) (bit_if (md && ap) AM_PM)) (u8 (uchar_2_bcd h)).
Lemma hreg_time md ap h : Z.lor (Z.lor (u8 (uchar_2_bcd h)) (bit_if md MODE)) (bit_if (md && ap) AM_PM) = hreg false md ap h.
Proof. unfold hreg. cbn [bit_if]. rewrite Z.lor_0_l. rewrite <- Z.lor_assoc. apply Z.lor_comm. Qed.
Lemma field_hour (f md ap : bool) (h : Z) : 0 <= h <= (if md then 12 else 23) ->
  tst (hreg f md ap h) MODE = md /\ (if md then bcd_2_uchar (Z.land (hreg f md ap h) 31) else bcd_2_uchar (Z.land (hreg f md ap h) 63)) = h /\
  (md = true -> tst (hreg f md ap h) AM_PM = ap) /\ tst (hreg f md ap h) ALRM_MASK = f.
Proof.
  intros H. assert (X : implb (h <=? if md then 12 else 23) (Bool.eqb (tst (hreg f md ap h) MODE) md && ((if md then bcd_2_uchar (Z.land (hreg f md ap h) 31) else bcd_2_uchar (Z.land (hreg f md ap h) 63)) =? h) &&
    (implb md (Bool.eqb (tst (hreg f md ap h) AM_PM) ap)) && Bool.eqb (tst (hreg f md ap h) ALRM_MASK) f) = true).
  { assert (K : 0 <= h <= 59) by (destruct md; lia). clear H. revert h K. apply enum60. destruct f, md, ap; vm_compute; reflexivity. }
  destruct (Z.leb_spec h (if md then 12 else 23)); [|lia]. cbn [implb] in X. rewrite !andb_true_iff in X. destruct X as [[[A B] C] D].
  apply Bool.eqb_prop in A, D. apply Z.eqb_eq in B. repeat apply conj; auto. intros ->. apply Bool.eqb_prop in C. auto.
Qed.
Lemma field_day f v : 1 <= v <= 7 -> let w := Z.lor (Z.lor (bit_if f ALRM_MASK) DY_DT) (u8 (uchar_2_bcd v)) in
  tst w DY_DT = true /\ bcd_2_uchar (Z.land w 15) = v /\ tst w ALRM_MASK = f.
Proof.
  intros H w. assert (X : implb ((1 <=? v) && (v <=? 7)) (tst w DY_DT && (bcd_2_uchar (Z.land w 15) =? v) && Bool.eqb (tst w ALRM_MASK) f) = true).
  { assert (K : 0 <= v <= 59) by lia. clear H. unfold w. clear w. revert v K. apply enum60. destruct f; vm_compute; reflexivity. }
  replace ((1 <=? v) && (v <=? 7)) with true in X by lia. cbn [andb implb] in X. rewrite !andb_true_iff in X. destruct X as [[A B] C].
  apply Z.eqb_eq in B. apply Bool.eqb_prop in C. auto.
Qed.
Lemma field_date f v : 1 <= v <= 31 -> let w := Z.lor (bit_if f ALRM_MASK) (u8 (uchar_2_bcd v)) in
  tst w DY_DT = false /\ bcd_2_uchar (Z.land w 63) = v /\ tst w ALRM_MASK = f.
Proof.
  intros H w. assert (X : implb ((1 <=? v) && (v <=? 31)) (negb (tst w DY_DT) && (bcd_2_uchar (Z.land w 63) =? v) && Bool.eqb (tst w ALRM_MASK) f) = true).
  { assert (K : 0 <= v <= 59) by lia. clear H. unfold w. clear w. revert v K. apply enum60. destruct f; vm_compute; reflexivity. }
  replace ((1 <=? v) && (v <=? 31)) with true in X by lia. cbn [andb implb] in X. rewrite !andb_true_iff in X. destruct X as [[A B] C].
  apply Z.eqb_eq in B. apply Bool.eqb_prop in C. apply negb_true_iff in A. auto.
Qed.
Lemma field_month v : 1 <= v <= 12 -> bcd_2_uchar (Z.land (bcd v) 127) = v.
Proof.
  intros H. assert (X : implb ((1 <=? v) && (v <=? 12)) (bcd_2_uchar (Z.land (bcd v) 127) =? v) = true).
  { assert (K : 0 <= v <= 59) by lia. clear H. revert v K. apply enum60. vm_compute; reflexivity. }
  replace ((1 <=? v) && (v <=? 12)) with true in X by lia. apply Z.eqb_eq in X. auto.
Qed.

Ltac range_test := repeat match goal with
  | |- context [?a <? ?b] => destruct (Z.ltb_spec a b); try lia
  end; cbn [orb andb negb]; try reflexivity.

(** ** Time *)
Lemma setTime_ok n t c : time_ok t -> (4 <= n)%nat -> setTime n t c =
  (true, wr_range c 0 [bcd (seconds t); bcd (minutes t); hreg false (mode t) (am_pm t) (hours t)]).
Proof.
  intros (H1 & H2 & H3) Hn. unfold setTime. change (24 / 2) with 12. change (24 - 1) with 23.
  destruct (field100 (seconds t) ltac:(lia)) as [-> _]. destruct (field100 (minutes t) ltac:(lia)) as [-> _]. rewrite hreg_time.
  replace (negb ((59 <? seconds t) || (59 <? minutes t) || ((if mode t then 12 else 23) <? hours t))) with true by (symmetry; range_test).
  rewrite send_count_ge by (cbn; lia). reflexivity.
Qed.
Lemma setTime_bad n t c : 0 <= seconds t -> 0 <= minutes t -> 0 <= hours t -> ~ time_ok t -> setTime n t c = (false, c).
Proof.
  intros P1 P2 P3 H. unfold setTime. change (24 / 2) with 12. change (24 - 1) with 23.
  destruct ((59 <? seconds t) || (59 <? minutes t) || ((if mode t then 12 else 23) <? hours t)) eqn:E; [reflexivity|].
  exfalso. apply H. rewrite !orb_false_iff in E. destruct E as [[A B] C]. apply Z.ltb_ge in A, B, C. repeat split; auto.
Qed.
Lemma setTime_true n t c c' : setTime n t c = (true, c') -> (4 <= n)%nat.
Proof.
  unfold setTime. destruct (negb _); [|discriminate]. unfold masterSend. cbn [length]. intros E. injection E as E _. apply Nat.eqb_eq in E. lia.
Qed.
Lemma setTime_outside n t c : (19 <= length c)%nat -> same_outside 0 3 c (snd (setTime n t c)).
Proof.
  intros H. unfold setTime. destruct (negb _); [|split; auto].
  match goal with |- context [masterSend n (0 :: ?ds) c] => pose proof (send_outside n 0 ds c ltac:(cbn; lia)) as S; destruct (masterSend n (0 :: ds) c); exact S end.
Qed.
Lemma getTime_set n1 n2 t c : time_ok t -> (1 <= n1)%nat -> (3 <= n2)%nat -> (19 <= length c)%nat ->
  exists t', getTime n1 n2 (wr_range c 0 [bcd (seconds t); bcd (minutes t); hreg false (mode t) (am_pm t) (hours t)]) = Some t' /\
    seconds t' = seconds t /\ minutes t' = minutes t /\ hours t' = hours t /\ mode t' = mode t /\ (mode t = true -> am_pm t' = am_pm t).
Proof.
  intros (H1 & H2 & H3) N1 N2 L. unfold getTime. rewrite send_count_ge by (cbn; lia). cbn [fst length Nat.eqb].
  unfold masterRead. destruct (Nat.ltb_spec n2 3); [lia|].
  set (ds := [bcd (seconds t); bcd (minutes t); hreg false (mode t) (am_pm t) (hours t)]).
  eexists. split; [reflexivity|]. cbn [seq map rd nth seconds minutes hours mode am_pm].
  rewrite !rd_sent by (cbn; lia). cbn [ds rd nth]. destruct (field_hour false (mode t) (am_pm t) (hours t) H3) as (A & B & C & D).
  rewrite !A. repeat apply conj; auto; apply field100; lia.
Qed.
(** ** Calendar *)
Definition cal_regs (k : calendar) : list Z := [bcd (day k); bcd (date k); bcd (month k); bcd (year k)].
Lemma setCalendar_ok n k c : cal_ok k -> (5 <= n)%nat -> setCalendar n k c = (true, wr_range c 3 (cal_regs k)).
Proof.
  intros (H1 & H2 & H3 & H4) Hn. unfold setCalendar.
  destruct (field100 (day k) ltac:(lia)) as [-> _]. destruct (field100 (date k) ltac:(lia)) as [-> _].
  destruct (field100 (month k) ltac:(lia)) as [-> _]. destruct (field100 (year k) ltac:(lia)) as [-> _].
  match goal with |- context [negb ?b] => replace (negb b) with true by (symmetry; range_test) end.
  rewrite send_count_ge by (cbn; lia). reflexivity.
Qed.
Lemma setCalendar_bad n k c : 0 <= year k -> ~ cal_ok k -> setCalendar n k c = (false, c).
Proof.
  intros P H. unfold setCalendar. match goal with |- context [negb ?b] => destruct b eqn:E end; [reflexivity|].
  exfalso. apply H. rewrite !orb_false_iff in E. destruct E as [[[[A1 A2] [B1 B2]] [C1 C2]] D]. apply Z.ltb_ge in A1, A2, B1, B2, C1, C2, D. repeat split; auto.
Qed.
Lemma setCalendar_true n k c c' : setCalendar n k c = (true, c') -> (5 <= n)%nat.
Proof.
  unfold setCalendar. destruct (negb _); [|discriminate]. unfold masterSend. cbn [length]. intros E. injection E as E _. apply Nat.eqb_eq in E. lia.
Qed.
Lemma setCalendar_outside n k c : (19 <= length c)%nat -> same_outside 3 4 c (snd (setCalendar n k c)).
Proof.
  intros H. unfold setCalendar. destruct (negb _); [|split; auto].
  match goal with |- context [masterSend n (3 :: ?ds) c] => pose proof (send_outside n 3 ds c ltac:(cbn; lia)) as S; destruct (masterSend n (3 :: ds) c); exact S end.
Qed.
Lemma getCalendar_set n1 n2 k c : cal_ok k -> (1 <= n1)%nat -> (4 <= n2)%nat -> (19 <= length c)%nat ->
  getCalendar n1 n2 (wr_range c 3 (cal_regs k)) = Some k.
Proof.
  intros (H1 & H2 & H3 & H4) N1 N2 L. unfold getCalendar. rewrite send_count_ge by (cbn; lia). cbn [fst length Nat.eqb].
  unfold masterRead. destruct (Nat.ltb_spec n2 4); [lia|]. cbn [seq map rd nth]. rewrite !rd_sent by (cbn; lia). cbn [cal_regs rd nth].
  destruct k as [d e m y]; cbn [day date month year] in *. rewrite field_month by lia. f_equal. f_equal; apply field100; lia.
Qed.
(** ** Alarms *)
Definition alarm_regs (a : alarm) (one : bool) : list Z :=
  (if one then [Z.lor (bit_if (am1 a) ALRM_MASK) (u8 (uchar_2_bcd (a_seconds a)))] else []) ++
  [Z.lor (bit_if (am2 a) ALRM_MASK) (u8 (uchar_2_bcd (a_minutes a))); hreg (am3 a) (a_mode a) (a_am_pm a) (a_hours a);
   if dy_dt a then Z.lor (Z.lor (bit_if (am4 a) ALRM_MASK) DY_DT) (u8 (uchar_2_bcd (a_day a))) else Z.lor (bit_if (am4 a) ALRM_MASK) (u8 (uchar_2_bcd (a_date a)))].
Definition alarm_addr (one : bool) : nat := if one then 7%nat else 11%nat.
Definition alarm_len (one : bool) : nat := if one then 4%nat else 3%nat.
Lemma setAlarm_ok n a one c : alarm_ok one a -> (5 <= n)%nat -> setAlarm n a one c = (true, wr_range c (alarm_addr one) (alarm_regs a one)).
Proof.
  intros (H1 & H2 & H3 & H4 & H5) Hn. unfold setAlarm. change (24 / 2) with 12. change (24 - 1) with 23.
  match goal with |- context [if negb ?b then _ else _] => replace (negb b) with true end.
  - destruct one; rewrite send_count_ge by (cbn; lia); reflexivity.
  - symmetry. destruct one; cbn [andb]; [specialize (H1 eq_refl)|]; range_test.
Qed.
Lemma setAlarm_bad n a one c : 0 <= a_seconds a -> 0 <= a_minutes a -> 0 <= a_hours a -> ~ alarm_ok one a -> setAlarm n a one c = (false, c).
Proof.
  intros P1 P2 P3 H. unfold setAlarm. change (24 / 2) with 12. change (24 - 1) with 23.
  match goal with |- context [if negb ?b then _ else _] => destruct b eqn:E end; [reflexivity|].
  exfalso. apply H. rewrite !orb_false_iff in E. destruct E as [[[[[[A B] C] D1] D2] E1] E2]. apply Z.ltb_ge in B, C, D1, D2, E1, E2.
  repeat apply conj; lia.
Qed.
Lemma setAlarm_true n a one c c' : setAlarm n a one c = (true, c') -> (alarm_len one < n)%nat.
Proof.
  unfold setAlarm. destruct (negb _); [|discriminate]. destruct one; unfold masterSend; cbn [length]; intros E; injection E as E _; apply Nat.eqb_eq in E; cbn; lia.
Qed.
Lemma setAlarm_len n a one c : alarm_ok one a -> (alarm_len one < n)%nat -> setAlarm n a one c = (true, wr_range c (alarm_addr one) (alarm_regs a one)).
Proof.
  intros (H1 & H2 & H3 & H4 & H5) Hn. unfold setAlarm. change (24 / 2) with 12. change (24 - 1) with 23.
  match goal with |- context [if negb ?b then _ else _] => replace (negb b) with true end.
  - destruct one; cbn [alarm_len] in Hn; rewrite send_count_ge by (cbn; lia); reflexivity.
  - symmetry. destruct one; cbn [andb]; [specialize (H1 eq_refl)|]; range_test.
Qed.
Lemma setAlarm_outside n a one c : (19 <= length c)%nat -> same_outside (alarm_addr one) (alarm_len one) c (snd (setAlarm n a one c)).
Proof.
  intros H. unfold setAlarm. destruct (negb _); [|split; auto]. destruct one.
  - match goal with |- context [masterSend n (7 :: ?ds) c] => pose proof (send_outside n 7 ds c ltac:(cbn; lia)) as S; destruct (masterSend n (7 :: ds) c); exact S end.
  - match goal with |- context [masterSend n (11 :: ?ds) c] => pose proof (send_outside n 11 ds c ltac:(cbn; lia)) as S; destruct (masterSend n (11 :: ds) c); exact S end.
Qed.
Lemma getAlarm_set n1 n2 a a0 one c : alarm_ok one a -> dy_dt a0 = false -> (1 <= n1)%nat -> (4 <= n2)%nat -> (19 <= length c)%nat ->
  exists a', getAlarm n1 n2 a0 one (wr_range c (alarm_addr one) (alarm_regs a one)) = Some a' /\
    (one = true -> a_seconds a' = a_seconds a /\ am1 a' = am1 a) /\ a_minutes a' = a_minutes a /\ a_hours a' = a_hours a /\ a_mode a' = a_mode a /\
    (a_mode a = true -> a_am_pm a' = a_am_pm a) /\ am2 a' = am2 a /\ am3 a' = am3 a /\ am4 a' = am4 a /\ dy_dt a' = dy_dt a /\
    (if dy_dt a then a_day a' = a_day a else a_date a' = a_date a).
Proof.
  intros (H1 & H2 & H3 & H4 & H5) Hd N1 N2 L. unfold getAlarm.
  destruct (field_flag (a_minutes a) (am2 a) H2) as [M1 M2]. destruct (field_hour (am3 a) _ (a_am_pm a) _ H3) as (A & B & C & D).
  pose proof (field_day (am4 a) _ H4) as (Y1 & Y2 & Y3). pose proof (field_date (am4 a) _ H5) as (Z1 & Z2 & Z3).
  destruct one; (rewrite send_count_ge by (cbn [length]; exact N1)); cbn [fst length Nat.eqb]; unfold masterRead.
  - destruct (Nat.ltb_spec n2 4); [exfalso; clear -N2 H; lia|]. cbn [seq map Nat.add]. change (alarm_addr true) with 7%nat.
    assert (X : (7 + length (alarm_regs a true) <= length c)%nat) by (cbn [alarm_regs app length]; clear -L; lia).
    assert (R : forall i, (i < 4)%nat -> rd (wr_range c 7 (alarm_regs a true)) (7 + i) = rd (alarm_regs a true) i) by (intros i Hi; apply rd_sent; [exact X|exact Hi]).
    pose proof (R 0%nat ltac:(clear; lia)) as R0. pose proof (R 1%nat ltac:(clear; lia)) as R1. pose proof (R 2%nat ltac:(clear; lia)) as R2. pose proof (R 3%nat ltac:(clear; lia)) as R3.
    cbn [Nat.add] in R0, R1, R2, R3. rewrite R0, R1, R2, R3. clear R R0 R1 R2 R3. cbn [alarm_regs app rd nth].
    destruct (field_flag (a_seconds a) (am1 a) (H1 eq_refl)) as [S1 S2].
    eexists. split; [reflexivity|]. cbn [a_seconds a_minutes a_hours a_day a_date am1 am2 am3 am4 a_am_pm a_mode dy_dt].
    rewrite !A, B, D, M1, M2, S1, S2. destruct (dy_dt a); rewrite ?Y1, ?Y2, ?Y3, ?Z1, ?Z2, ?Z3; repeat apply conj; auto.
  - destruct (Nat.ltb_spec n2 3); [exfalso; clear -N2 H; lia|]. cbn [seq map Nat.add]. change (alarm_addr false) with 11%nat.
    assert (X : (11 + length (alarm_regs a false) <= length c)%nat) by (cbn [alarm_regs app length]; clear -L; lia).
    assert (R : forall i, (i < 3)%nat -> rd (wr_range c 11 (alarm_regs a false)) (11 + i) = rd (alarm_regs a false) i) by (intros i Hi; apply rd_sent; [exact X|exact Hi]).
    pose proof (R 0%nat ltac:(clear; lia)) as R0. pose proof (R 1%nat ltac:(clear; lia)) as R1. pose proof (R 2%nat ltac:(clear; lia)) as R2.
    cbn [Nat.add] in R0, R1, R2. rewrite R0, R1, R2. clear R R0 R1 R2. cbn [alarm_regs app rd nth].
    eexists. split; [reflexivity|]. cbn [a_seconds a_minutes a_hours a_day a_date am1 am2 am3 am4 a_am_pm a_mode dy_dt].
    rewrite !A, B, D, M1, M2. destruct (dy_dt a); rewrite ?Y1, ?Y2, ?Y3, ?Z1, ?Z2, ?Z3; repeat apply conj; auto; discriminate.
Qed.
