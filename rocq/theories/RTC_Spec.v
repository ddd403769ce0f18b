(** Specification for C54, C63-C65 *)
From Verif Require Export Base RTC_Model.

(** Values the driver's documentation allows. *)
Definition time_ok (t : rtc_time) : Prop :=
  0 <= seconds t <= 59 /\ 0 <= minutes t <= 59 /\ 0 <= hours t <= (if mode t then 12 else 23).
Definition cal_ok (k : calendar) : Prop := 1 <= day k <= 7 /\ 1 <= date k <= 31 /\ 1 <= month k <= 12 /\ 0 <= year k <= 99.
Definition alarm_ok (one : bool) (a : alarm) : Prop :=
  (one = true -> 0 <= a_seconds a <= 59) /\ 0 <= a_minutes a <= 59 /\ 0 <= a_hours a <= (if a_mode a then 12 else 23) /\
  1 <= a_day a <= 7 /\ 1 <= a_date a <= 31.
(** Two-digit packed decimal as the chip's data sheet describes registers. *)
Definition bcd (v : Z) : Z := 16 * (v / 10) + v mod 10.
(** Registers outside [a .. a+n-1] are the same. *)
Definition same_outside (a n : nat) (c c' : chip) : Prop := length c' = length c /\ forall i, (i < a \/ a + n <= i)%nat -> rd c' i = rd c i.
(** Hour of the day of a time on the clock. *)
Definition hour_of_day (t : rtc_time) : Z :=
  if mode t then (if hours t =? 12 then 0 else hours t) + (if am_pm t then 12 else 0) else hours t.
