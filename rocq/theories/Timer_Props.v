(** Properties C99 (delays), C100 (timer modes), C101 (pulse measurement). *)
From Verif Require Import Base Timer_Model Timer_Spec Timer_Proofs.

(** ** C99: delays *)
(** The busy wait never returns early: whatever moments its reads are made at (interrupts may stop the program for
    any time), when it returns at least the cycles of [usec] microseconds, less the two taken for the call, have
    passed between its first and its last read. *)
Theorem C99_microseconds_at_least : forall rounds clock load v0 at_ val k usec k',
  0 <= load < 65536 -> moments at_ -> (forall k, val k = counter load v0 (at_ k)) -> 0 <= clock ->
  delayMicroseconds rounds clock load val k usec = Returned k' ->
  exists m, k' = S m /\ (k <= m)%nat /\ cycles clock usec <= at_ m - at_ k /\ usec <= 4000.
Proof. intros. eapply us_at_least; eassumption. Qed.
Print Assumptions C99_microseconds_at_least.

Definition at20 : nat -> Z := fun k => 20 * Z.of_nat k.
Lemma at20_moments : moments at20. Proof. intros k. unfold at20. lia. Qed.
Example C99_microseconds_at_least_example :
  delayMicroseconds 300 48000000 47999 (fun k => counter 47999 100 (at20 k)) 0 100 = Returned 237 /\
  cycles 48000000 100 = 4704 /\ at20 236 = 4720.
Proof. vm_compute. auto. Qed.

(** And it ends: if the reads are never a period or more apart, after at most one more gap between two reads and
    one cycle for every reload of the counter (LOAD is added instead of LOAD + 1). *)
Theorem C99_microseconds_end : forall clock load v0 at_ val gap k usec,
  0 <= load < 65536 -> (forall k, val k = counter load v0 (at_ k)) -> 0 <= clock -> usec <= 4000 ->
  gap <= load -> (forall k, 2 <= at_ (S k) - at_ k <= gap) ->
  exists rounds m, delayMicroseconds rounds clock load val k usec = Returned (S m) /\ (k <= m)%nat /\
    let t := at_ m - at_ k in t <= Z.max 1 (cycles clock usec) + gap + t / (load + 1).
Proof.
  intros clock load v0 at_ val gap k usec L V C U G R.
  assert (C6 : 0 <= clock / 1000000) by (apply Z.div_pos; lia).
  set (ticks := if 2 <? usec then (usec - 2) * (clock / 1000000) else 1).
  assert (T : 0 <= ticks) by (unfold ticks; destruct (Z.ltb_spec 2 usec); nia).
  assert (N : forall i j, (i <= j)%nat -> at_ i <= at_ j).
  { intros i j. induction 1; [lia|]. specialize (R m). lia. }
  destruct (ticks_ends load v0 at_ val L V gap G R (Z.to_nat ticks) k ticks) as (m & E & K & B); [lia|].
  exists (Z.to_nat ticks), m. split.
  - unfold delayMicroseconds, MIN_DELAY_MICROSECONDS, MAX_DELAY_MICROSECONDS.
    rewrite (counter_u16 load v0 at_ val L V). revert E. unfold ticks.
    destruct (Z.ltb_spec 2 usec); [|auto]. destruct (Z.ltb_spec 4000 usec); [lia|auto].
  - split; [exact K|]. cbn zeta.
    destruct (Z_le_gt_dec ticks 0) as [Z0|Z0].
    + assert (m = k).
      { clear - E Z0. destruct (Z.to_nat ticks); cbn [tickLoop] in E;
          (destruct (Z.leb_spec ticks 0); [|lia]); congruence. }
      subst m. rewrite Z.sub_diag. replace (0 / (load + 1)) with 0 by (symmetry; apply Z.div_0_l; lia).
      specialize (R k). lia.
    + specialize (B ltac:(lia)). pose proof (wraps_bound load v0 L (at_ k) (at_ m) (N k m K)).
      assert (ticks <= Z.max 1 (cycles clock usec)) by (unfold ticks, cycles; destruct (Z.ltb_spec 2 usec); lia). lia.
Qed.
Print Assumptions C99_microseconds_end.

Example C99_microseconds_end_example :
  (forall k, 2 <= at20 (S k) - at20 k <= 20) /\
  delayMicroseconds 300 48000000 47999 (fun k => counter 47999 100 (at20 k)) 0 100 = Returned 237 /\
  at20 236 - at20 0 <= Z.max 1 (cycles 48000000 100) + 20 + 4720 / 48000.
Proof. split; [intros k; unfold at20; lia|]. vm_compute. split; [reflexivity|discriminate]. Qed.

(** False without that hypothesis: if interrupts hold the program for exactly a period between two reads, the
    delay never ends; a handler longer than a period makes every delay longer by the periods it hides. *)
Theorem C99_microseconds_starved_refuted :
  ~ (forall clock load v0 at_ val usec, 0 <= load < 65536 -> (forall k, val k = counter load v0 (at_ k)) ->
       0 <= clock -> usec <= 4000 -> (forall k, 2 <= at_ (S k) - at_ k) ->
       exists rounds k', delayMicroseconds rounds clock load val 0 usec = Returned k').
Proof.
  intros H.
  set (at_ := fun k : nat => 48000 * Z.of_nat k).
  destruct (H 48000000 47999 7 at_ (fun k => counter 47999 7 (at_ k)) 10) as (r & k' & E).
  - lia.
  - reflexivity.
  - lia.
  - lia.
  - intros k. unfold at_. lia.
  - assert (V7 : forall k, counter 47999 7 (at_ k) = 7).
    { intros k. unfold counter, at_. change (47999 + 1) with 48000.
      replace (7 - 48000 * Z.of_nat k) with (7 + (- Z.of_nat k) * 48000) by lia. rewrite Z.mod_add by lia. reflexivity. }
    unfold delayMicroseconds in E. rewrite V7 in E. cbn [Z.ltb] in E.
    change (2 <? 10) with true in E. change (4000 <? 10) with false in E.
    change ((10 - MIN_DELAY_MICROSECONDS) * (48000000 / 1000000)) with 384 in E.
    change (MIN_DELAY_MICROSECONDS <? 10) with true in E. change (MAX_DELAY_MICROSECONDS <? 10) with false in E.
    cbv iota in E. change (u16 7) with 7 in E. revert E. generalize 1%nat as k.
    induction r as [|r IH]; intros k; cbn [tickLoop]; [discriminate|]. rewrite V7. exact (IH (S k)).
Qed.
Print Assumptions C99_microseconds_starved_refuted.

(** delay() within an interrupt handler: chunks of four milliseconds, each two microseconds (of its own call) short;
    no other time is lost, whatever the number of milliseconds. *)
Theorem C99_interrupt_at_least : forall chunks rounds enabled tickint clock load v0 at_ val st msec k',
  0 <= load < 65536 -> moments at_ -> (forall k, val k = counter load v0 (at_ k)) -> 0 <= clock -> 0 < msec < 2 ^ 32 ->
  delay chunks rounds enabled tickint true clock load val st msec = Returned k' ->
  exists m, k' = S m /\ (msec * 1000 - 2 * ((msec + 3) / 4)) * (clock / 1000000) <= at_ m - at_ 0%nat.
Proof.
  intros chunks rounds enabled tickint clock load v0 at_ val st msec k' L M V C R E.
  unfold delay in E. destruct (negb enabled && negb tickint); [discriminate|].
  change (2 ^ 32) with 4294967296 in R.
  apply (busy_at_least load v0 at_ val clock L M V C) in E; [|lia]. destruct E as (m & E1 & _ & E3).
  exists m. split; [exact E1|]. replace (msec =? 0) with false in E3 by lia. lia.
Qed.
Print Assumptions C99_interrupt_at_least.

Example C99_interrupt_at_least_example :
  let at1000 := fun k => 1000 * Z.of_nat k in
  delay 3 300 true true true 48000000 47999 (fun k => counter 47999 0 (at1000 k)) (fun _ => 0) 5 = Returned 242 /\
  (5 * 1000 - 2 * ((5 + 3) / 4)) * (48000000 / 1000000) = 239808 /\ at1000 241%nat = 241000.
Proof. vm_compute. auto. Qed.

(** delay() in the main program: when it returns, the interrupt counter has advanced by at least [msec], however the
    reads and the interrupts fall (also across the wrap of the 32-bit counter). *)
Theorem C99_delay_at_least : forall chunks rounds enabled tickint clock load val ticks st msec k',
  moments ticks -> (forall k, st k = u32 (ticks k)) -> 0 < msec < 2 ^ 32 ->
  delay chunks rounds enabled tickint false clock load val st msec = Returned k' ->
  msec <= ticks (Nat.pred k') - ticks 0%nat.
Proof.
  intros chunks rounds enabled tickint clock load val ticks st msec k' M V R E.
  unfold delay in E. destruct (negb enabled && negb tickint); [discriminate|].
  change (2 ^ 32) with 4294967296 in R.
  apply (sleep_at_least ticks st V M) with (l := ticks 0%nat) in E; [|lia|apply V|apply M]. lia.
Qed.
Print Assumptions C99_delay_at_least.

(** So with an interrupt every [period] cycles more than [msec] - 1 periods have passed. *)
Theorem C99_delay_periods : forall chunks rounds enabled tickint clock load val at_ phase period st msec k',
  moments at_ -> 0 < period -> (forall k, st k = u32 ((at_ k + phase) / period)) -> 0 < msec < 2 ^ 32 ->
  delay chunks rounds enabled tickint false clock load val st msec = Returned k' ->
  (msec - 1) * period < at_ (Nat.pred k') - at_ 0%nat.
Proof.
  intros chunks rounds enabled tickint clock load val at_ phase period st msec k' M P V R E.
  apply (C99_delay_at_least _ _ _ _ _ _ _ (fun k => (at_ k + phase) / period)) in E; try assumption.
  - cbn beta in E. set (a := at_ 0%nat) in *. set (b := at_ (Nat.pred k')) in *. clearbody a b.
    pose proof (Z.div_mod (a + phase) period ltac:(lia)). pose proof (Z.mod_pos_bound (a + phase) period P).
    pose proof (Z.div_mod (b + phase) period ltac:(lia)). pose proof (Z.mod_pos_bound (b + phase) period P).
    nia.
  - intros k. apply Z.div_le_mono; [assumption|]. specialize (M k). lia.
Qed.
Print Assumptions C99_delay_periods.

Example C99_delay_example :
  let at_ := fun k => 16001 * Z.of_nat k in
  let st := fun k => u32 ((at_ k + 4294967295 * 48000) / 48000) in
  delay 0 100 true true false 48000000 47999 (fun _ => 0) st 5 = Returned 17 /\ st 0%nat = 4294967295 /\ st 16%nat = 4.
Proof. vm_compute. auto. Qed.

(** And it ends as long as interrupts come: if each is seen by a read of its own, after at most twice the number, and after
    exactly that number if none falls between the two reads of one round of the loop. *)
Theorem C99_delay_ends : forall chunks enabled tickint clock load val ticks st msec,
  steady ticks -> (forall k, st k = u32 (ticks k)) -> 0 <= msec < 2 ^ 32 -> enabled || tickint = true ->
  (forall k, exists k', (k < k')%nat /\ ticks k < ticks k') ->
  exists rounds k', delay chunks rounds enabled tickint false clock load val st msec = Returned (S k') /\
    msec <= ticks k' - ticks 0%nat <= 2 * msec /\
    ((forall i, ticks i < ticks (S i) -> ticks (S (S i)) = ticks (S i)) -> ticks k' - ticks 0%nat = msec).
Proof.
  intros chunks enabled tickint clock load val ticks st msec M V R On G. change (2 ^ 32) with 4294967296 in R.
  destruct (sleep_ends ticks st V M G (Z.to_nat msec) 0%nat (ticks 0%nat)) as (r & k' & K & E & B); [lia|reflexivity|lia|].
  rewrite Z2Nat.id in * by lia.
  exists r, k'. unfold delay. rewrite <- negb_orb, On, V. cbn [negb]. split; [exact E|]. split; [exact B|].
  intros Q. eapply (sleep_exact ticks st V M r 0%nat (ticks 0%nat)); [exact Q|exact R|reflexivity|exact E].
Qed.
Print Assumptions C99_delay_ends.

Example C99_delay_ends_example :
  let ticks := fun k : nat => Z.of_nat k / 3 in
  steady ticks /\ (forall k, exists k', (k < k')%nat /\ ticks k < ticks k') /\
  delay 0 100 true true false 48000000 47999 (fun _ => 0) ticks 5 = Returned 17.
Proof.
  cbn zeta. split; [|split].
  - intros k. rewrite Nat2Z.inj_succ. unfold Z.succ. Z.div_mod_to_equations; lia.
  - intros k. exists (k + 3)%nat. split; [lia|]. rewrite Nat2Z.inj_add. change (Z.of_nat 3) with (1 * 3).
    rewrite Z.div_add by lia. lia.
  - vm_compute. reflexivity.
Qed.

(** False: "delay(1) waits a millisecond": the next interrupt may come at once. *)
Theorem C99_delay_short_refuted :
  ~ (forall chunks rounds clock load val at_ phase period st msec k',
       moments at_ -> 0 < period -> (forall k, st k = u32 ((at_ k + phase) / period)) -> 0 < msec < 2 ^ 32 ->
       delay chunks rounds true true false clock load val st msec = Returned k' ->
       msec * period <= at_ (Nat.pred k') - at_ 0%nat).
Proof.
  intros H.
  specialize (H 0%nat 9%nat 48000000 47999 (fun _ => 0) (fun k => 20 * Z.of_nat k) 47990 48000
                (fun k => u32 ((20 * Z.of_nat k + 47990) / 48000)) 1 3%nat).
  assert (E := H ltac:(intros k; cbn beta; lia) ltac:(lia) ltac:(reflexivity) ltac:(lia) ltac:(vm_compute; reflexivity)).
  vm_compute in E. exact (E eq_refl).
Qed.
Print Assumptions C99_delay_short_refuted.

(** False: "without the SysTick interrupt delay() stops in fatalError": the test asks for the counter and its
    interrupt to be off; with the counter on and the interrupt off (or masked) it waits for ever. *)
Theorem C99_delay_no_interrupt_refuted :
  ~ (forall enabled tickint clock load val st msec,
       (forall k, st k = st 0%nat) \/ enabled && tickint = true ->
       exists chunks rounds, delay chunks rounds enabled tickint false clock load val st msec <> Waiting).
Proof.
  intros H. destruct (H true false 48000000 47999 (fun _ => 0) (fun _ => 42) 1) as (c & r & E); [left; reflexivity|].
  apply E. unfold delay. cbn [negb andb]. apply sleep_stuck; [reflexivity|lia].
Qed.
Print Assumptions C99_delay_no_interrupt_refuted.

(** Calls that cannot be served stop in fatalError: more than four milliseconds of busy wait, no SysTick at all. *)
Theorem C99_fatal : forall chunks rounds inside clock load val st k usec msec,
  (4000 < usec -> delayMicroseconds rounds clock load val k usec = Stopped) /\
  delay chunks rounds false false inside clock load val st msec = Stopped.
Proof.
  intros. split; [|reflexivity]. intros U. unfold delayMicroseconds, MIN_DELAY_MICROSECONDS, MAX_DELAY_MICROSECONDS.
  destruct (Z.ltb_spec 2 usec); [|lia]. destruct (Z.ltb_spec 4000 usec); [reflexivity|lia].
Qed.
Print Assumptions C99_fatal.
Example C99_fatal_example : delayMicroseconds 9 48000000 47999 (fun _ => 0) 0 4001 = Stopped.
Proof. reflexivity. Qed.

(** The system time counts the interrupts, and elapsed() is the number of interrupts since the reference, as long
    as that is less than 2^32 (49.7 days), also across the wrap. *)
Theorem C99_elapsed : forall n m,
  (m < 2 ^ 32)%Z -> 0 <= m ->
  let time := fun c => Nat.iter c SysTick_Handler 0 in
  millis (time n) = u32 (Z.of_nat n) /\
  elapsed (time (n + Z.to_nat m)%nat) (millis (time n)) = m.
Proof.
  intros n m B P. cbv beta zeta.
  assert (T : forall c, Nat.iter c SysTick_Handler 0 = u32 (Z.of_nat c)).
  { induction c; [reflexivity|]. cbn [Nat.iter nat_rect]. unfold Nat.iter in IHc. rewrite IHc.
    unfold SysTick_Handler, u32. rewrite Nat2Z.inj_succ. unfold Z.succ. rewrite Zplus_mod_idemp_l. reflexivity. }
  rewrite !T. unfold millis, elapsed, millis. split; [reflexivity|].
  unfold u32. rewrite <- Zminus_mod. rewrite Nat2Z.inj_add, Z2Nat.id by assumption.
  replace (Z.of_nat n + m - Z.of_nat n) with m by lia. apply Z.mod_small. lia.
Qed.
Print Assumptions C99_elapsed.
Example C99_elapsed_example : elapsed 3 4294967290 = 9 /\ SysTick_Handler 4294967295 = 0.
Proof. vm_compute. auto. Qed.

(** ** C100: timer modes *)
(** matchMode programs exactly its channel: the hardware sees the flags given, all other bits of both registers
    (other channels, output levels) and the other registers stay, and the query gives the flags back. *)
Theorem C100_match : forall t ch mode, 0 <= ch ->
  let t' := matchMode t ch mode in
  let flag i := Z.testbit mode i in
  onMatch (MCR t') (EMR t') ch (flag 0) (flag 1) (flag 2) (flag 4, flag 5) /\
  agreeOutside (MCR t) (MCR t') (3 * ch) 3 /\ agreeOutside (EMR t) (EMR t') (2 * ch + 4) 2 /\
  CCR t' = CCR t /\ CTCR t' = CTCR t /\ TCR t' = TCR t /\
  getMatchMode t' ch = Z.land mode (Z.lor TOGGLE (Z.lor STOP (Z.lor RESET INTERRUPT))).
Proof.
  intros t ch mode C. cbn zeta. unfold matchMode, matchModePinConfig. cbn [MCR EMR CCR CTCR TCR].
  assert (B : forall n, 3 <= n -> Z.testbit (Z.land mode 7) n = false).
  { intros n N. rewrite Z.land_spec, bits7 by lia. replace (n <? 3) with false by lia. apply andb_false_r. }
  assert (F : forall i, 0 <= i < 3 ->
     Z.testbit (setBits (MCR t) 7 (ch * 3) (Z.land mode 7)) (3 * ch + i) = Z.testbit mode i).
  { intros i I. rewrite field3 by assumption. rewrite Z.land_spec, bits7 by lia. replace (i <? 3) with true by lia.
    apply andb_true_r. }
  split; [|split; [apply field3_outside; assumption|split; [apply field2_outside; assumption|]]].
  - unfold onMatch. cbn [fst snd].
    replace (3 * ch) with (3 * ch + 0) at 1 by lia. rewrite !F by lia.
    replace (2 * ch + 4) with (2 * ch + 4 + 0) by lia. replace (2 * ch + 5) with (2 * ch + 4 + 1) by lia.
    rewrite !field2 by lia. auto.
  - do 3 (split; [reflexivity|]). unfold getMatchMode. cbn [MCR EMR].
    apply Z.bits_inj'. intros n N. rewrite Z.lor_spec, !Z.land_spec, !Z.shiftr_spec by lia.
    rewrite (Z.shiftl_mul_pow2 ch 1) by lia. change (2 ^ 1) with 2.
    change (Z.lor TOGGLE (Z.lor STOP (Z.lor RESET INTERRUPT))) with (Z.lor 48 7). rewrite Z.lor_spec, bits7, bits48 by lia.
    replace (n + ch * 3) with (3 * ch + n) by lia.
    destruct (Z.ltb_spec n 3) as [H|H].
    + rewrite F by lia. replace (4 <=? n) with false by lia. cbn [andb orb]. rewrite andb_false_r, orb_false_r. reflexivity.
    + rewrite andb_false_r. cbn [orb]. rewrite orb_false_r.
      destruct (Z.leb_spec 4 n) as [H4|H4]; [|cbn [andb]; rewrite !andb_false_r; reflexivity].
      destruct (Z.ltb_spec n 6) as [H6|H6]; [|cbn [andb]; rewrite !andb_false_r; reflexivity].
      cbn [andb]. rewrite !andb_true_r.
      pose proof (field2 (EMR t) ch mode (n - 4) C ltac:(lia)) as Q.
      rewrite (Z.shiftl_mul_pow2 ch 1) in Q by lia. change (2 ^ 1) with 2 in Q.
      replace (2 * ch + 4 + (n - 4)) with (n + ch * 2) in Q by lia. replace (4 + (n - 4)) with n in Q by lia. exact Q.
Qed.
Print Assumptions C100_match.

Example C100_match_example :
  let t := matchMode (mkTimer (Z.shiftl 5 9) 15 3 0 1) 2 (Z.lor SET (Z.lor RESET INTERRUPT)) in
  MCR t = 2752 /\ EMR t = 527 /\ getMatchMode t 2 = 35 /\ getMatchMode t 3 = 5.
Proof. vm_compute. auto. Qed.

(** captureMode likewise. *)
Theorem C100_capture : forall t ch mode, 0 <= ch ->
  let t' := captureMode t ch mode in
  onCapture (CCR t') ch (Z.testbit mode 6) (Z.testbit mode 7) (Z.testbit mode 0) /\
  agreeOutside (CCR t) (CCR t') (3 * ch) 3 /\
  MCR t' = MCR t /\ EMR t' = EMR t /\ CTCR t' = CTCR t /\ TCR t' = TCR t /\
  getCaptureMode t' ch = Z.land mode (Z.lor FALLING_EDGE (Z.lor RISING_EDGE INTERRUPT)).
Proof.
  intros t ch mode C. cbn zeta. unfold captureMode. cbn [MCR EMR CCR CTCR TCR].
  set (val := if negb (Z.land mode INTERRUPT =? 0) then Z.lor (Z.land (Z.shiftr mode 6) 3) 4 else Z.land (Z.shiftr mode 6) 3).
  assert (I0 : negb (Z.land mode INTERRUPT =? 0) = Z.testbit mode 0).
  { unfold INTERRUPT. change 1 with (Z.ones 1). rewrite Z.land_ones by lia. change (2 ^ 1) with 2.
    rewrite Z.bit0_odd, Zodd_mod. pose proof (Z.mod_pos_bound mode 2). unfold Zeq_bool.
    destruct (Z.eqb_spec (mode mod 2) 0) as [->|N]; [reflexivity|].
    replace (mode mod 2) with 1 by lia. reflexivity. }
  assert (VB : forall n, 0 <= n -> Z.testbit val n =
            (n <? 2) && Z.testbit mode (n + 6) || (n =? 2) && Z.testbit mode 0).
  { intros n N. unfold val. rewrite I0. destruct (Z.testbit mode 0).
    - rewrite Z.lor_spec, Z.land_spec, Z.shiftr_spec, bits3, bits4 by lia. rewrite andb_true_r, andb_comm. reflexivity.
    - rewrite Z.land_spec, Z.shiftr_spec, bits3 by lia. rewrite andb_false_r, orb_false_r, andb_comm. reflexivity. }
  clearbody val.
  assert (F : forall i, 0 <= i < 3 ->
     Z.testbit (setBits (CCR t) 7 (ch * 3) val) (3 * ch + i) =
     (i <? 2) && Z.testbit mode (i + 6) || (i =? 2) && Z.testbit mode 0).
  { intros i I. rewrite field3 by assumption. apply VB. lia. }
  split; [|split].
  - unfold onCapture. replace (3 * ch) with (3 * ch + 0) at 1 by lia. rewrite !F by lia.
    change (0 <? 2) with true. change (1 <? 2) with true. change (2 <? 2) with false.
    change (0 =? 2) with false. change (1 =? 2) with false. change (2 =? 2) with true.
    change (0 + 6) with 6. change (1 + 6) with 7. cbn [andb orb]. rewrite !orb_false_r. auto.
  - apply field3_outside; [assumption|]. intros n N. rewrite VB by lia.
    replace (n <? 2) with false by lia. replace (n =? 2) with false by lia. reflexivity.
  - do 4 (split; [reflexivity|]). unfold getCaptureMode. cbn [CCR].
    set (f := Z.land (Z.shiftr (setBits (CCR t) 7 (ch * 3) val) (ch * 3)) 7).
    assert (FB : forall i, 0 <= i -> Z.testbit f i = (i <? 2) && Z.testbit mode (i + 6) || (i =? 2) && Z.testbit mode 0).
    { intros i I. unfold f. rewrite Z.land_spec, Z.shiftr_spec, bits7 by lia.
      replace (i + ch * 3) with (3 * ch + i) by lia. destruct (Z.ltb_spec i 3) as [H|H].
      - rewrite F by lia. apply andb_true_r.
      - rewrite andb_false_r. replace (i <? 2) with false by lia. replace (i =? 2) with false by lia. reflexivity. }
    clearbody f.
    assert (B256 : negb (Z.land (Z.shiftl f 6) 256 =? 0) = Z.testbit mode 0).
    { transitivity (Z.testbit f 2); [|rewrite FB by lia; reflexivity].
      destruct (Z.testbit f 2) eqn:E2.
      - apply negb_true_iff, Z.eqb_neq. intros X.
        assert (Y : Z.testbit (Z.land (Z.shiftl f 6) 256) 8 = false) by (rewrite X; apply Z.testbit_0_l).
        rewrite Z.land_spec, Z.shiftl_spec in Y by lia. change (8 - 6) with 2 in Y. rewrite E2 in Y. discriminate.
      - apply negb_false_iff, Z.eqb_eq. apply Z.bits_inj'. intros n N. rewrite Z.testbit_0_l, Z.land_spec.
        change 256 with (2 ^ 8). rewrite Z.pow2_bits_eqb by lia.
        destruct (Z.eqb_spec 8 n) as [<-|]; [|apply andb_false_r].
        rewrite Z.shiftl_spec by lia. change (8 - 6) with 2. rewrite E2. reflexivity. }
    rewrite B256.
    assert (M192 : forall n, 0 <= n -> Z.testbit 192 n = (6 <=? n) && (n <? 8)).
    { intros n N. destruct (Z.ltb_spec n 8) as [H|H].
      - assert (n = 0 \/ n = 1 \/ n = 2 \/ n = 3 \/ n = 4 \/ n = 5 \/ n = 6 \/ n = 7) as D by lia.
        repeat (destruct D as [-> |D]; [reflexivity|]). subst. reflexivity.
      - rewrite andb_false_r. apply Z.bits_above_log2; [lia|]. change (Z.log2 192) with 7. lia. }
    assert (M193 : forall n, 0 <= n -> Z.testbit (Z.lor FALLING_EDGE (Z.lor RISING_EDGE INTERRUPT)) n =
                   (6 <=? n) && (n <? 8) || (n =? 0)).
    { intros n N. change (Z.lor FALLING_EDGE (Z.lor RISING_EDGE INTERRUPT)) with (Z.lor 192 1).
      rewrite Z.lor_spec, M192 by lia. change 1 with (2 ^ 0) at 1. rewrite Z.pow2_bits_eqb by lia. rewrite (Z.eqb_sym 0 n). reflexivity. }
    assert (M1 : forall n, 0 <= n -> Z.testbit INTERRUPT n = (n =? 0)).
    { intros n N. unfold INTERRUPT. change 1 with (2 ^ 0). rewrite Z.pow2_bits_eqb by lia. apply Z.eqb_sym. }
    destruct (Z.testbit mode 0) eqn:E0; apply Z.bits_inj'; intros n N;
      [rewrite Z.lor_spec, Z.land_spec, M192, M1 by lia|]; rewrite Z.land_spec, M193, Z.shiftl_spec by lia.
    + destruct (Z.eqb_spec n 0) as [->|N0].
      * rewrite orb_true_r, E0. reflexivity.
      * rewrite !orb_false_r. destruct (Z.leb_spec 6 n) as [H|H]; cbn [andb]; [|rewrite !andb_false_r; reflexivity].
        destruct (Z.ltb_spec n 8) as [H8|H8]; [|rewrite !andb_false_r; reflexivity].
        rewrite !andb_true_r, FB by lia. replace (n - 6 <? 2) with true by lia. replace (n - 6 =? 2) with false by lia.
        cbn [andb]. rewrite orb_false_r. f_equal. lia.
    + destruct (Z.eqb_spec n 0) as [->|N0].
      * rewrite E0. rewrite Z.testbit_neg_r by lia. reflexivity.
      * rewrite orb_false_r. destruct (Z.leb_spec 6 n) as [H|H]; cbn [andb];
          [|rewrite andb_false_r; apply Z.testbit_neg_r; lia].
        rewrite FB by lia. rewrite andb_false_r, orb_false_r. replace (n - 6 + 6) with n by lia.
        destruct (Z.ltb_spec n 8) as [H8|H8].
        -- replace (n - 6 <? 2) with true by lia. rewrite andb_true_r. reflexivity.
        -- replace (n - 6 <? 2) with false by lia. rewrite andb_false_r. reflexivity.
Qed.
Print Assumptions C100_capture.

Example C100_capture_example :
  let t := captureMode (mkTimer 0 0 7 0 1) 1 (Z.lor FALLING_EDGE INTERRUPT) in
  CCR t = 55 /\ getCaptureMode t 1 = 129 /\ getCaptureMode t 0 = 193.
Proof. vm_compute. auto. Qed.

(** counterMode: the counting side is what was asked for, whatever the clearing side; no clearing when none is asked
    for; and the falling edge of CAP1 clears when that is asked for. Missing: the three other ways of clearing,
    which are programmed wrongly (next theorem). *)
Theorem C100_counter_partial : forall t mode clearMode,
  let t' := counterMode t mode clearMode in
  counts (CTCR t') (Z.testbit mode 6) (Z.testbit mode 7) (Z.testbit mode 0) /\
  (clearMode = 0 -> clears (CTCR t') = None) /\
  (clearMode = Z.lor CAP1 FALLING_EDGE -> clears (CTCR t') = Some (true, true)) /\
  MCR t' = MCR t /\ EMR t' = EMR t /\ CCR t' = CCR t /\ TCR t' = TCR t.
Proof.
  intros t mode clearMode. cbn zeta. unfold counterMode. cbn [MCR EMR CCR CTCR TCR].
  assert (B : forall i m, 0 <= i -> m = 2 ^ i -> negb (Z.land mode m =? 0) = Z.testbit mode i).
  { intros i m I ->. destruct (Z.testbit mode i) eqn:E.
    - apply negb_true_iff, Z.eqb_neq. intros X.
      assert (Y : Z.testbit (Z.land mode (2 ^ i)) i = false) by (rewrite X; apply Z.testbit_0_l).
      rewrite Z.land_spec, E, Z.pow2_bits_true in Y by lia. discriminate.
    - apply negb_false_iff, Z.eqb_eq. apply Z.bits_inj'. intros n N. rewrite Z.testbit_0_l, Z.land_spec.
      rewrite Z.pow2_bits_eqb by lia. destruct (Z.eqb_spec i n) as [<-|]; [rewrite E; reflexivity|apply andb_false_r]. }
  rewrite (B 6 RISING_EDGE), (B 7 FALLING_EDGE), (B 0 CAP1) by (reflexivity || lia).
  assert (X : forall c, (Z.testbit c 0, Z.testbit c 1, Z.testbit c 2, Z.testbit c 3) =
    (Z.testbit mode 6, Z.testbit mode 7, Z.testbit mode 0, false) ->
    counts c (Z.testbit mode 6) (Z.testbit mode 7) (Z.testbit mode 0)).
  { intros c H. injection H as E1 E2 E3 E4. unfold counts. auto. }
  split; [apply X|].
  - destruct (Z.testbit mode 6), (Z.testbit mode 7), (Z.testbit mode 0); cbv beta iota zeta;
      destruct (negb (clearMode =? 0)); try reflexivity;
      destruct (negb (Z.land clearMode (Z.lor CAP1 FALLING_EDGE) =? 0)); try reflexivity;
      destruct (negb (Z.land clearMode (Z.lor CAP1 RISING_EDGE) =? 0)); try reflexivity;
      destruct (negb (Z.land clearMode (Z.lor CAP0 FALLING_EDGE) =? 0)); reflexivity.
  - split; [|split]; [intros -> | intros -> | auto];
      destruct (Z.testbit mode 6), (Z.testbit mode 7), (Z.testbit mode 0); reflexivity.
Qed.
Print Assumptions C100_counter_partial.

Example C100_counter_example :
  CTCR (counterMode (mkTimer 0 0 0 0 0) (Z.lor CAP0 RISING_EDGE) (Z.lor CAP1 FALLING_EDGE)) = 113.
Proof. vm_compute. reflexivity. Qed.

(** False: the clearing edge and channel asked for are the ones programmed. The masks are combined with "or" and
    tested with "and", so any falling edge, and anything on CAP1, becomes the falling edge of CAP1, and the rising edge of CAP0
    becomes the rising edge of CAP1. *)
Theorem C100_counter_clear_refuted :
  let asked (cap1 falling : bool) := Z.lor (if cap1 then CAP1 else CAP0) (if falling then FALLING_EDGE else RISING_EDGE) in
  forall t mode (cap1 falling : bool),
    clears (CTCR (counterMode t mode (asked cap1 falling))) = Some (true, cap1 || falling) /\
    (clears (CTCR (counterMode t mode (asked cap1 falling))) = Some (cap1, falling) <-> cap1 = true /\ falling = true).
Proof.
  cbv beta zeta. intros t mode cap1 falling.
  assert (E : clears (CTCR (counterMode t mode (Z.lor (if cap1 then CAP1 else CAP0)
      (if falling then FALLING_EDGE else RISING_EDGE)))) = Some (true, cap1 || falling)).
  { unfold counterMode. cbn [CTCR]. destruct cap1, falling;
      destruct (negb (Z.land mode RISING_EDGE =? 0)), (negb (Z.land mode FALLING_EDGE =? 0)), (negb (Z.land mode CAP1 =? 0));
      reflexivity. }
  rewrite E. split; [reflexivity|]. destruct cap1, falling; cbn; split; intros H; try (split; congruence);
    try (destruct H; congruence); congruence.
Qed.
Print Assumptions C100_counter_clear_refuted.

(** The clock of one timer is switched without touching the others', and begin() clears the modes. *)
Theorem C100_power : forall num t clk, 0 <= num ->
  let (t', clk') := begin num t clk in
  (forall i, 0 <= i -> Z.testbit clk' i = Z.testbit clk i || (i =? 7 + num)) /\
  (forall i, 0 <= i -> Z.testbit (endTimer num clk') i = Z.testbit clk i && negb (i =? 7 + num)) /\
  (forall ch, 0 <= ch -> getMatchMode t' ch = 0 /\ getCaptureMode t' ch = 0) /\ TCR t' = TCR t.
Proof.
  intros num t clk N. cbn [begin].
  assert (S1 : forall i, 0 <= i -> Z.testbit (Z.shiftl 1 (7 + num)) i = (i =? 7 + num)).
  { intros i I. rewrite Z.shiftl_1_l, Z.pow2_bits_eqb by lia. apply Z.eqb_sym. }
  split; [|split; [|split]].
  - intros i I. rewrite Z.lor_spec, S1 by assumption. reflexivity.
  - intros i I. unfold endTimer. rewrite Z.ldiff_spec, Z.lor_spec, S1 by assumption.
    destruct (i =? 7 + num); destruct (Z.testbit clk i); reflexivity.
  - intros ch C. unfold getMatchMode, getCaptureMode. cbn [MCR EMR CCR]. rewrite !Z.shiftr_0_l. split; reflexivity.
  - reflexivity.
Qed.
Print Assumptions C100_power.
Example C100_power_example : snd (begin 2 (mkTimer 1 1 1 0 3) 31) = 543 /\ endTimer 2 543 = 31.
Proof. vm_compute. auto. Qed.

(** start, stop, restart, reset act on the run and reset bits alone. *)
Theorem C100_run : forall t,
  Z.testbit (TCR (start t)) 0 = true /\ Z.testbit (TCR (stop t)) 0 = false /\
  TCR (restart t) = 1 /\ Z.testbit (TCR (reset t)) 1 = false /\
  Z.testbit (TCR (reset t)) 0 = Z.testbit (TCR t) 0 /\
  (forall i, 0 < i -> Z.testbit (TCR (start t)) i = Z.testbit (TCR t) i /\ Z.testbit (TCR (stop t)) i = Z.testbit (TCR t) i).
Proof.
  intros t. cbn [start stop restart reset TCR]. rewrite !Z.lor_spec, !Z.ldiff_spec, !Z.lor_spec.
  change (Z.testbit 1 0) with true. change (Z.testbit 2 1) with true. change (Z.testbit 2 0) with false. cbn.
  rewrite !orb_true_r, !orb_false_r, !andb_false_r, !andb_true_r. repeat split; auto.
  - rewrite Z.lor_spec. change 1 with (2 ^ 0). rewrite Z.pow2_bits_eqb by lia.
    replace (0 =? i) with false by lia. apply orb_false_r.
  - rewrite Z.ldiff_spec. change 1 with (2 ^ 0). rewrite Z.pow2_bits_eqb by lia.
    replace (0 =? i) with false by lia. apply andb_true_r.
Qed.
Print Assumptions C100_run.
Example C100_run_example : TCR (start (mkTimer 0 0 0 0 2)) = 3 /\ TCR (reset (mkTimer 0 0 0 0 3)) = 1.
Proof. vm_compute. auto. Qed.

(** ** C101: pulse measurement *)
(** Of any course of the pin that has a complete pulse within the limit of the loop rounds, the length of that pulse, 21 cycles for
    each read in it, is returned, in microseconds rounded down; 0 otherwise. *)
Theorem C101_pulse_partial : forall clock pin timeout a b w,
  pulse pin a b w -> 1000000 <= clock -> 0 <= timeout -> timeout * (clock / 1000000) < 2 ^ 32 ->
  Z.of_nat w * 21 + 16 < 2 ^ 32 ->
  pulseIn clock pin timeout =
  if Z.of_nat (b - 1 + w) <=? timeout * (clock / 1000000) then (Z.of_nat w * 21 + 16) / (clock / 1000000) else 0.
Proof.
  intros clock pin timeout a b w P C T B W. rewrite (pulseIn_pulse _ _ _ _ _ _ P).
  assert (C6 : 0 < clock / 1000000) by (apply Z.div_str_pos; lia).
  change (2 ^ 32) with 4294967296 in *.
  assert (E : microsecondsToClockCycles clock timeout = timeout * (clock / 1000000)).
  { unfold microsecondsToClockCycles, clockCyclesPerMicrosecond, u32. apply Z.mod_small. nia. }
  rewrite E. replace (u32 (Z.of_nat w * 21 + 16)) with (Z.of_nat w * 21 + 16) by (unfold u32; rewrite Z.mod_small; lia).
  set (x := timeout * (clock / 1000000)) in *. assert (0 <= x) by (unfold x; nia). clearbody x.
  destruct (Nat.leb_spec (b - 1 + w) (Z.to_nat x)); destruct (Z.leb_spec (Z.of_nat (b - 1 + w)) x); try lia; reflexivity.
Qed.
Print Assumptions C101_pulse_partial.

Definition pin1 (k : nat) : bool := ((k <? 3) || ((10 <=? k) && (k <? 40)))%nat.
Example C101_pulse_example : pulse pin1 3 10 29 /\ pulseIn 48000000 pin1 100 = 13.
Proof.
  split; [|vm_compute; reflexivity]. unfold pulse, pin1. split; [lia|].
  split; [|split; [|split; [|reflexivity]]].
  - intros k K. replace (k <? 3)%nat with true; [reflexivity|]. symmetry. apply Nat.ltb_lt. lia.
  - intros k K. apply orb_false_iff. split; [apply Nat.ltb_ge; lia|]. apply andb_false_iff. left. apply Nat.leb_gt. lia.
  - intros k K. apply orb_true_iff. right. apply andb_true_iff. split; [apply Nat.leb_le|apply Nat.ltb_lt]; lia.
Qed.

(** A non-zero result is the length of a pulse that was there. *)
Theorem C101_sound : forall clock pin timeout, pulseIn clock pin timeout <> 0 ->
  exists a b w, pulse pin a b w.
Proof. intros clock pin timeout H. destruct (pulseIn_sound clock pin timeout H) as (a & b & w & P & _). exists a, b, w. exact P. Qed.
Print Assumptions C101_sound.
Example C101_sound_example : pulseIn 48000000 pin1 100 <> 0 /\ pulseIn 48000000 (fun k => (5 <=? k)%nat) 100 = 0.
Proof. vm_compute. split; [discriminate|reflexivity]. Qed.

(** False: the time limit is in microseconds. It limits the rounds of the loops, of 21 cycles each, to as many as it
    has cycles; so a pulse of more than ten times the limit is still measured. *)
Theorem C101_timeout_refuted :
  ~ (forall clock pin timeout, 1000000 <= clock -> 0 <= timeout < 1000 -> pulseIn clock pin timeout <= timeout).
Proof.
  intros H. specialize (H 48000000 (fun k => ((10 <=? k) && (k <? 2010)))%nat 50 ltac:(lia) ltac:(lia)).
  revert H. vm_compute. intros H. exact (H eq_refl).
Qed.
Print Assumptions C101_timeout_refuted.

(** False: works on pulses "to 3 minutes in length". From 89.5 seconds on the product wraps: this pulse of 204522253
    reads (89.478 s at 48 MHz) is returned as 0 microseconds. *)
Theorem C101_long_refuted :
  ~ (forall clock pin timeout a b w, pulse pin a b w -> clock = 48000000 ->
       0 <= timeout -> timeout * 48 < 2 ^ 32 -> Z.of_nat (b - 1 + w) <= timeout * 48 ->
       Z.of_nat w * 21 <= 180 * 48000000 -> pulseIn clock pin timeout = (Z.of_nat w * 21 + 16) / 48).
Proof.
  intros H.
  set (n := Z.to_nat 204522253). assert (N : Z.of_nat n = 204522253) by (apply Z2Nat.id; lia). clearbody n.
  set (pin := fun k => ((1 <=? k) && (k <=? 1 + n))%nat).
  assert (P : pulse pin 0 1 n).
  { unfold pulse, pin. split; [lia|]. split; [intros; lia|]. split; [|split].
    - intros k K. replace k with 0%nat by lia. reflexivity.
    - intros k K. apply andb_true_iff. split; apply Nat.leb_le; lia.
    - apply andb_false_iff. right. apply Nat.leb_gt. lia. }
  specialize (H 48000000 pin 80000000 0%nat 1%nat n P eq_refl).
  rewrite (pulseIn_pulse _ _ _ _ _ _ P) in H.
  replace (u32 (Z.of_nat n * 21 + 16)) with 33 in H by (rewrite N; reflexivity).
  change (33 / (48000000 / 1000000)) with 0 in H.
  replace ((1 - 1 + n)%nat) with n in H by lia. rewrite N in H.
  specialize (H ltac:(lia) ltac:(reflexivity) ltac:(lia) ltac:(lia)).
  change ((204522253 * 21 + 16) / 48) with 89478486 in H.
  destruct (n <=? Z.to_nat (microsecondsToClockCycles 48000000 80000000))%nat; discriminate.
Qed.
Print Assumptions C101_long_refuted.
