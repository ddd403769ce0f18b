(** Proofs about delays, timer modes and pulse measurement. *)
From Verif Require Import Base Timer_Model Timer_Spec.

(** ** The loop of delayMicroseconds *)
Section Ticks.
  Variables (load v0 : Z) (at_ val : nat -> Z).
  Hypothesis L : 0 <= load < 65536.
  Hypothesis M : moments at_.
  Hypothesis V : forall k, val k = counter load v0 (at_ k).

  Definition seen (a b : Z) : Z :=
    let e := counter load v0 a - counter load v0 b in if e <? 0 then e + load else e.
  (** reloads of the counter between two moments *)
  Definition wraps (a b : Z) : Z := (v0 - a) / (load + 1) - (v0 - b) / (load + 1).

  Lemma counter_range t : 0 <= counter load v0 t <= load.
  Proof. unfold counter. pose proof (Z.mod_pos_bound (v0 - t) (load + 1)). lia. Qed.

  Lemma counter_u16 k : u16 (val k) = counter load v0 (at_ k).
  Proof. rewrite V. pose proof (counter_range (at_ k)). unfold u16. apply Z.mod_small. lia. Qed.

  Lemma split_time a b : b - a = (counter load v0 a - counter load v0 b) + (load + 1) * wraps a b.
  Proof.
    unfold counter, wraps.
    pose proof (Z.div_mod (v0 - a) (load + 1) ltac:(lia)).
    pose proof (Z.div_mod (v0 - b) (load + 1) ltac:(lia)). nia.
  Qed.

  Lemma seen_bounds a b : a <= b -> 0 <= seen a b <= b - a.
  Proof.
    intros H. pose proof (split_time a b) as S. pose proof (counter_range a) as A. pose proof (counter_range b) as B.
    assert (W : 0 <= wraps a b).
    { unfold wraps. assert ((v0 - b) / (load + 1) <= (v0 - a) / (load + 1)) by (apply Z.div_le_mono; lia). lia. }
    unfold seen. destruct (Z.ltb_spec (counter load v0 a - counter load v0 b) 0) as [N|N].
    - assert (1 <= wraps a b) by nia. nia.
    - nia.
  Qed.

  Lemma seen_exact a b : a <= b <= a + load -> seen a b = b - a - wraps a b /\ 0 <= wraps a b <= 1.
  Proof.
    intros H. pose proof (split_time a b) as S. pose proof (counter_range a) as A. pose proof (counter_range b) as B.
    assert (W : 0 <= wraps a b).
    { unfold wraps. assert ((v0 - b) / (load + 1) <= (v0 - a) / (load + 1)) by (apply Z.div_le_mono; lia). lia. }
    assert (W1 : wraps a b <= 1).
    { assert ((load + 1) * wraps a b < (load + 1) * 2) by lia. nia. }
    unfold seen. destruct (Z.ltb_spec (counter load v0 a - counter load v0 b) 0) as [N|N].
    - assert (wraps a b = 1) by nia. lia.
    - assert (wraps a b = 0) by nia. lia.
  Qed.

  Lemma wraps_trans a b c : wraps a c = wraps a b + wraps b c.
  Proof. unfold wraps. lia. Qed.

  Lemma wraps_bound a b : a <= b -> wraps a b <= (b - a) / (load + 1) + 1.
  Proof.
    intros H. pose proof (split_time a b) as S. pose proof (counter_range a) as A. pose proof (counter_range b) as B.
    assert (D := Z.div_mod (b - a) (load + 1) ltac:(lia)).
    pose proof (Z.mod_pos_bound (b - a) (load + 1) ltac:(lia)). nia.
  Qed.

  Lemma step_eq r k ticks : 0 < ticks ->
    tickLoop (S r) load val (S k) (counter load v0 (at_ k)) ticks =
    tickLoop r load val (S (S k)) (counter load v0 (at_ (S k))) (ticks - seen (at_ k) (at_ (S k))).
  Proof. intros P. cbn [tickLoop]. destruct (Z.leb_spec ticks 0); [lia|]. rewrite !counter_u16. reflexivity. Qed.

  Lemma ticks_at_least r : forall k ticks k',
    tickLoop r load val (S k) (counter load v0 (at_ k)) ticks = Returned k' ->
    exists m, k' = S m /\ (k <= m)%nat /\ ticks <= at_ m - at_ k.
  Proof.
    induction r as [|r IH]; intros k ticks k' E.
    - cbn [tickLoop] in E. destruct (Z.leb_spec ticks 0); [|discriminate]. injection E as <-. exists k. repeat split; lia.
    - destruct (Z_le_gt_dec ticks 0) as [Q|Q].
      + cbn [tickLoop] in E. destruct (Z.leb_spec ticks 0); [|lia]. injection E as <-. exists k. repeat split; lia.
      + rewrite step_eq in E by lia. apply IH in E. destruct E as (m & -> & Km & T).
        exists m. pose proof (seen_bounds (at_ k) (at_ (S k)) (M k)). repeat split; lia.
  Qed.

  (** It ends if the reads are made at least every [gap] cycles, fewer than a period, and not faster than every other cycle. *)
  Lemma ticks_ends gap : gap <= load -> (forall k, 2 <= at_ (S k) - at_ k <= gap) ->
    forall n k ticks, ticks <= Z.of_nat n ->
    exists m, tickLoop n load val (S k) (counter load v0 (at_ k)) ticks = Returned (S m) /\ (k <= m)%nat /\
      (0 < ticks -> at_ m - at_ k <= ticks - 1 + gap + wraps (at_ k) (at_ m)).
  Proof.
    intros G R. induction n as [|n IH]; intros k ticks T.
    - exists k. cbn [tickLoop]. destruct (Z.leb_spec ticks 0); [|lia]. repeat split; lia.
    - destruct (Z_le_gt_dec ticks 0) as [Q|Q].
      + exists k. cbn [tickLoop]. destruct (Z.leb_spec ticks 0); [|lia]. repeat split; lia.
      + specialize (R k). destruct (seen_exact (at_ k) (at_ (S k))) as [SE W]; [lia|].
        destruct (IH (S k) (ticks - seen (at_ k) (at_ (S k)))) as (m & E & K & U); [lia|].
        exists m. rewrite step_eq by lia. split; [exact E|]. split; [lia|]. intros _.
        destruct (Z_le_gt_dec (ticks - seen (at_ k) (at_ (S k))) 0) as [Z0|Z0].
        * assert (m = S k).
          { clear - E Z0. destruct n; cbn [tickLoop] in E;
              (destruct (Z.leb_spec (ticks - seen (at_ k) (at_ (S k))) 0); [|lia]); congruence. }
          subst m. lia.
        * specialize (U ltac:(lia)). rewrite (wraps_trans (at_ k) (at_ (S k)) (at_ m)). lia.
  Qed.

  Lemma us_at_least rounds clock k usec k' :
    0 <= clock ->
    delayMicroseconds rounds clock load val k usec = Returned k' ->
    exists m, k' = S m /\ (k <= m)%nat /\ cycles clock usec <= at_ m - at_ k /\ usec <= 4000.
  Proof.
    intros C. unfold delayMicroseconds, MIN_DELAY_MICROSECONDS, MAX_DELAY_MICROSECONDS, cycles. rewrite counter_u16.
    destruct (Z.ltb_spec 2 usec) as [U|U].
    - destruct (Z.ltb_spec 4000 usec) as [X|X]; [discriminate|].
      intros E. apply ticks_at_least in E. destruct E as (m & E1 & E2 & E3). exists m. auto.
    - intros E. apply ticks_at_least in E. destruct E as (m & E1 & E2 & E3). exists m.
      assert (0 <= clock / 1000000) by (apply Z.div_pos; lia). repeat split; [assumption|assumption|nia|lia].
  Qed.
End Ticks.

Lemma busy_at_least load v0 at_ val clock :
  0 <= load < 65536 -> moments at_ -> (forall k, val k = counter load v0 (at_ k)) -> 0 <= clock ->
  forall chunks rounds k msec k', 0 <= msec < 4294967296 ->
  busyDelay chunks rounds clock load val k msec = Returned k' ->
  exists m, k' = S m /\ (k <= m)%nat /\
    (msec * 1000 - 2 * ((msec + 3) / 4) - (if msec =? 0 then 2 else 0)) * (clock / 1000000) <= at_ m - at_ k.
Proof.
  intros L M V C. assert (C6 : 0 <= clock / 1000000) by (apply Z.div_pos; lia).
  induction chunks as [|n IH]; intros rounds k msec k' R E; cbn [busyDelay] in E;
    change MAX_DELAY_MILLISECONDS with 4 in E; destruct (Z.ltb_spec 4 msec) as [Q|Q]; try discriminate.
  - replace (u32 (msec * 1000)) with (msec * 1000) in E by (unfold u32; rewrite Z.mod_small; lia).
    apply (us_at_least load v0 at_ val L M V) in E; [|assumption]. destruct E as (m & E1 & E2 & E3 & E4).
    exists m. repeat split; [assumption|assumption|]. unfold cycles in E3.
    assert (K : msec * 1000 - 2 * ((msec + 3) / 4) - (if msec =? 0 then 2 else 0) = msec * 1000 - 2).
    { assert (D : msec = 0 \/ msec = 1 \/ msec = 2 \/ msec = 3 \/ msec = 4) by lia.
      destruct D as [-> |[-> |[-> |[-> | ->]]]]; reflexivity. }
    rewrite K. exact E3.
  - change (u32 (4 * 1000)) with 4000 in E.
    destruct (delayMicroseconds rounds clock load val k 4000) as [k1| |] eqn:D; try discriminate.
    apply (us_at_least load v0 at_ val L M V) in D; [|assumption]. destruct D as (m1 & -> & D2 & D3 & _).
    replace (u32 (msec - 4)) with (msec - 4) in E by (unfold u32; rewrite Z.mod_small; lia).
    apply IH in E; [|lia]. destruct E as (m & -> & E2 & E3).
    exists m. split; [reflexivity|]. split; [lia|].
    assert (N : at_ m1 <= at_ (S m1)) by apply M.
    unfold cycles in D3.
    assert (K : (msec - 4) =? 0 = false) by lia. rewrite K in E3.
    assert (K' : (msec =? 0) = false) by lia. rewrite K'.
    replace ((msec + 3) / 4) with ((msec - 4 + 3) / 4 + 1)
      by (replace (msec + 3) with (msec - 4 + 3 + 1 * 4) by (clear; lia); rewrite Z.div_add by lia; reflexivity).
    nia.
  - replace (u32 (msec * 1000)) with (msec * 1000) in E by (unfold u32; rewrite Z.mod_small; lia).
    apply (us_at_least load v0 at_ val L M V) in E; [|assumption]. destruct E as (m & E1 & E2 & E3 & E4).
    exists m. repeat split; [assumption|assumption|]. unfold cycles in E3.
    assert (K : msec * 1000 - 2 * ((msec + 3) / 4) - (if msec =? 0 then 2 else 0) = msec * 1000 - 2).
    { assert (D : msec = 0 \/ msec = 1 \/ msec = 2 \/ msec = 3 \/ msec = 4) by lia.
      destruct D as [-> |[-> |[-> |[-> | ->]]]]; reflexivity. }
    rewrite K. exact E3.
Qed.

(** ** The loop of delay *)
Section Sleep.
  Variables (ticks st : nat -> Z).
  Hypothesis V : forall k, st k = u32 (ticks k).

  Lemma sleep_at_least (M : moments ticks) r : forall k last msec k' l,
    0 <= msec < 4294967296 -> last = u32 l -> l <= ticks k ->
    sleepLoop r st k last msec = Returned k' ->
    (k <= k')%nat /\ msec <= ticks (Nat.pred k') - l \/ msec = 0 /\ k' = k.
  Proof.
    induction r as [|r IH]; intros k last msec k' l R El Hl E; cbn [sleepLoop] in E;
      destruct (Z.eqb_spec msec 0) as [Z0|Z0]; try discriminate.
    - right. split; [assumption|congruence].
    - right. split; [assumption|congruence].
    - destruct (Z.eqb_spec last (st k)) as [Q|Q].
      + apply IH with (l := l) in E; [|assumption|assumption|specialize (M k); lia].
        left. destruct E as [[E1 E2]|[E1 E2]]; [|lia]. split; [lia|assumption].
      + replace (u32 (msec - 1)) with (msec - 1) in E by (unfold u32; rewrite Z.mod_small; lia).
        assert (N : l < ticks k). { rewrite El, V in Q. assert (l <> ticks k) by congruence. lia. }
        assert (Mk := M k). assert (Mk' := M (S k)).
        apply IH with (l := ticks (S k)) in E; [|lia|apply V|assumption].
        left. destruct E as [[E1 E2]|[E1 E2]]; [split; lia|].
        subst k'. cbn [Nat.pred]. split; [lia|]. lia.
  Qed.

  (** Every interrupt is seen: none falls between the two reads of one round. *)
  Lemma sleep_ends (M : steady ticks) (G : forall k, exists k', (k < k')%nat /\ ticks k < ticks k') :
    forall msec k l, (0 <= msec)%nat -> l = ticks k ->
    Z.of_nat msec < 4294967296 ->
    exists r k', (k <= k')%nat /\ sleepLoop r st (S k) (u32 l) (Z.of_nat msec) = Returned (S k') /\
      Z.of_nat msec <= ticks k' - l <= 2 * Z.of_nat msec.
  Proof.
    induction msec as [|msec IH]; intros k l _ El B.
    - exists 0%nat, k. cbn [sleepLoop]. repeat split; lia.
    - (* the first read that differs *)
      assert (W : forall n k0, (k < k0)%nat -> (forall j, (k < j < k0)%nat -> ticks j = l) ->
                   l < ticks (k0 + n)%nat ->
                   exists j, (k0 <= j)%nat /\ ticks j = l + 1 /\ forall i, (k < i < j)%nat -> ticks i = l).
      { induction n as [|n IHn]; intros k0 K0 A X.
        - exists k0. split; [lia|]. split; [|exact A].
          rewrite Nat.add_0_r in X. destruct k0 as [|k0]; [lia|].
          assert (ticks k0 = l) by (destruct (Nat.eq_dec k0 k); [subst; reflexivity|apply A; lia]).
          specialize (M k0). lia.
        - destruct (Z.eq_dec (ticks k0) l) as [Q|Q].
          + destruct (IHn (S k0)) as (j & J1 & J2 & J3).
            * lia.
            * intros j J. destruct (Nat.eq_dec j k0); [subst; assumption|apply A; lia].
            * replace (S k0 + n)%nat with (k0 + S n)%nat by lia. assumption.
            * exists j. split; [lia|]. split; assumption.
          + exists k0. split; [lia|]. split; [|exact A].
            destruct k0 as [|k0]; [lia|].
            assert (ticks k0 = l) by (destruct (Nat.eq_dec k0 k); [subst; reflexivity|apply A; lia]).
            specialize (M k0). lia. }
      destruct (G k) as (kk & K1 & K2). rewrite <- El in K2.
      destruct (W (kk - S k)%nat (S k)) as (j & J1 & J2 & J3).
      { lia. } { intros; lia. } { replace (S k + (kk - S k))%nat with kk by lia. assumption. }
      clear W.
      assert (Mj := M j).
      destruct (IH (S j) (ticks (S j))) as (r & k' & E1 & E2 & E3); [lia|reflexivity|lia|].
      assert (Z0 : (Z.of_nat (S msec) =? 0) = false) by lia.
      (* rounds before j *)
      assert (P : forall d i, (i + d = j)%nat -> (k < i)%nat ->
                  sleepLoop (d + S r) st i (u32 l) (Z.of_nat (S msec)) = Returned (S k')).
      { induction d as [|d IHd]; intros i I1 I2.
        - rewrite Nat.add_0_r in I1. subst i. cbn [Nat.add sleepLoop]. rewrite Z0.
          destruct (Z.eqb_spec (u32 l) (st j)) as [Q|Q].
          + exfalso. rewrite V, J2 in Q. clear - Q. unfold u32 in Q.
            assert ((l + 1 - l) mod 4294967296 = 0) by (rewrite Zminus_mod, Q, Z.sub_diag; reflexivity).
            replace (l + 1 - l) with 1 in H by lia. discriminate H.
          + replace (u32 (Z.of_nat (S msec) - 1)) with (Z.of_nat msec) by (unfold u32; rewrite Z.mod_small; lia).
            rewrite V. exact E2.
        - cbn [Nat.add sleepLoop]. rewrite Z0.
          rewrite V, (J3 i) by lia. rewrite Z.eqb_refl. apply IHd; lia. }
      exists (j - S k + S r)%nat, k'. split; [lia|]. split; [apply P; lia|]. lia.
  Qed.

  (** Without an interrupt between the two reads of a round the delay is exact. *)
  Lemma sleep_exact (M : steady ticks) r : forall k l msec k',
    (forall i, ticks i < ticks (S i) -> ticks (S (S i)) = ticks (S i)) ->
    0 <= msec < 4294967296 -> l = ticks k ->
    sleepLoop r st (S k) (u32 l) msec = Returned (S k') -> ticks k' - l = msec.
  Proof.
    intros k l msec k' Q. revert k l msec.
    induction r as [|r IH]; intros k l msec R El E; cbn [sleepLoop] in E;
      destruct (Z.eqb_spec msec 0) as [Z0|Z0]; try discriminate.
    - injection E as <-. lia.
    - injection E as <-. lia.
    - assert (Mk := M k).
      destruct (Z.eqb_spec (u32 l) (st (S k))) as [X|X].
      + assert (ticks (S k) = l).
        { rewrite V in X. destruct (Z.eq_dec (ticks (S k)) l) as [|N]; [assumption|exfalso].
          assert (T : ticks (S k) = l + 1) by lia. rewrite T in X. clear - X. unfold u32 in X.
          assert (H : (l + 1 - l) mod 4294967296 = 0) by (rewrite Zminus_mod, X, Z.sub_diag; reflexivity).
          replace (l + 1 - l) with 1 in H by lia. discriminate H. }
        apply IH in E; [assumption|assumption|congruence].
      + replace (u32 (msec - 1)) with (msec - 1) in E by (unfold u32; rewrite Z.mod_small; lia).
        assert (ticks (S k) = l + 1).
        { rewrite V in X. assert (l <> ticks (S k)) by congruence. lia. }
        assert (T : ticks (S (S k)) = ticks (S k)) by (apply Q; lia).
        rewrite V in E. apply IH in E; [lia|lia|reflexivity].
  Qed.

  Lemma sleep_stuck r : forall k last msec, (forall j, st j = last) -> 0 < msec -> sleepLoop r st k last msec = Waiting.
  Proof.
    induction r as [|r IH]; intros k last msec A P; cbn [sleepLoop]; destruct (Z.eqb_spec msec 0); try lia; [reflexivity|].
    rewrite A, Z.eqb_refl. apply IH; assumption.
  Qed.
End Sleep.

(** ** Mode registers *)
Lemma setBits_spec reg mask off bits n : 0 <= off -> 0 <= n ->
  Z.testbit (setBits reg mask off bits) n =
  if off <=? n then (Z.testbit reg n && negb (Z.testbit mask (n - off))) || Z.testbit bits (n - off)
  else Z.testbit reg n.
Proof.
  intros O N. unfold setBits. rewrite Z.lor_spec, Z.ldiff_spec, !Z.shiftl_spec by assumption.
  destruct (Z.leb_spec off n); [reflexivity|].
  rewrite (Z.testbit_neg_r mask), (Z.testbit_neg_r bits) by lia. cbn. rewrite andb_true_r, orb_false_r. reflexivity.
Qed.

Lemma small_bits m n : 0 <= m < 2 ^ 3 -> 3 <= n -> Z.testbit m n = false.
Proof.
  intros R N. destruct (Z.eq_dec m 0) as [->|]; [apply Z.testbit_0_l|].
  apply Z.bits_above_log2; [lia|]. apply Z.lt_le_trans with 3; [|lia]. apply Z.log2_lt_pow2; lia.
Qed.

Lemma bits7 n : 0 <= n -> Z.testbit 7 n = (n <? 3).
Proof.
  intros N. destruct (Z.ltb_spec n 3) as [H|H]; [|apply small_bits; [cbn; lia|assumption]].
  assert (n = 0 \/ n = 1 \/ n = 2) as [-> |[-> | ->]] by lia; reflexivity.
Qed.
Lemma bits48 n : 0 <= n -> Z.testbit 48 n = (4 <=? n) && (n <? 6).
Proof.
  intros N. destruct (Z.ltb_spec n 6) as [H|H].
  - assert (n = 0 \/ n = 1 \/ n = 2 \/ n = 3 \/ n = 4 \/ n = 5) as [-> |[-> |[-> |[-> |[-> | ->]]]]] by lia; reflexivity.
  - rewrite andb_false_r. apply Z.bits_above_log2; [lia|]. change (Z.log2 48) with 5. lia.
Qed.
Lemma bits3 n : 0 <= n -> Z.testbit 3 n = (n <? 2).
Proof.
  intros N. destruct (Z.ltb_spec n 2) as [H|H].
  - assert (n = 0 \/ n = 1) as [-> | ->] by lia; reflexivity.
  - apply Z.bits_above_log2; [lia|]. change (Z.log2 3) with 1. lia.
Qed.
Lemma bits4 n : 0 <= n -> Z.testbit 4 n = (n =? 2).
Proof. intros N. change 4 with (2 ^ 2). rewrite Z.pow2_bits_eqb by lia. apply Z.eqb_sym. Qed.

(** MCR and CCR: three bits per channel *)
Lemma field3 reg ch bits i : 0 <= ch -> 0 <= i < 3 ->
  Z.testbit (setBits reg 7 (ch * 3) bits) (3 * ch + i) = Z.testbit bits i.
Proof.
  intros C I. rewrite setBits_spec by lia. replace (ch * 3 <=? 3 * ch + i) with true by lia.
  replace (3 * ch + i - ch * 3) with i by lia. rewrite bits7 by lia.
  replace (i <? 3) with true by lia. cbn. rewrite andb_false_r. reflexivity.
Qed.
Lemma field3_outside reg ch bits : 0 <= ch -> (forall n, 3 <= n -> Z.testbit bits n = false) ->
  agreeOutside reg (setBits reg 7 (ch * 3) bits) (3 * ch) 3.
Proof.
  intros C B i I N. rewrite setBits_spec by lia. destruct (Z.leb_spec (ch * 3) i) as [H|H]; [|reflexivity].
  rewrite bits7 by lia. rewrite B by lia. replace (i - ch * 3 <? 3) with false by lia. cbn.
  rewrite andb_true_r, orb_false_r. reflexivity.
Qed.
Lemma field2 reg ch bits i : 0 <= ch -> 0 <= i < 2 ->
  Z.testbit (setBits reg 48 (Z.shiftl ch 1) (Z.land bits 48)) (2 * ch + 4 + i) = Z.testbit bits (4 + i).
Proof.
  intros C I. rewrite Z.shiftl_mul_pow2 by lia. change (2 ^ 1) with 2. rewrite setBits_spec by lia.
  replace (ch * 2 <=? 2 * ch + 4 + i) with true by lia.
  replace (2 * ch + 4 + i - ch * 2) with (4 + i) by lia. rewrite Z.land_spec, bits48 by lia.
  replace (4 <=? 4 + i) with true by lia. replace (4 + i <? 6) with true by lia. cbn.
  rewrite andb_false_r, andb_true_r. reflexivity.
Qed.
Lemma field2_outside reg ch bits : 0 <= ch ->
  agreeOutside reg (setBits reg 48 (Z.shiftl ch 1) (Z.land bits 48)) (2 * ch + 4) 2.
Proof.
  intros C i I N. rewrite Z.shiftl_mul_pow2 by lia. change (2 ^ 1) with 2. rewrite setBits_spec by lia.
  destruct (Z.leb_spec (ch * 2) i) as [H|H]; [|reflexivity].
  rewrite Z.land_spec, bits48 by lia.
  replace ((4 <=? i - ch * 2) && (i - ch * 2 <? 6)) with false by lia. cbn.
  rewrite andb_true_r, andb_false_r, orb_false_r. reflexivity.
Qed.

(** ** Pulses *)
Lemma pinLoop_runs pin is : forall n left k,
  (forall i, (i < n)%nat -> pin (k + i)%nat = is) -> pin (k + n)%nat = negb is ->
  pinLoop left pin is k = if (n <=? left)%nat then Some ((k + n + 1)%nat, (left - n)%nat) else None.
Proof.
  induction n as [|n IH]; intros left k A E.
  - rewrite Nat.add_0_r in E. destruct left; cbn [pinLoop]; rewrite E; destruct is; cbn;
      rewrite ?Nat.add_0_r, Nat.add_1_r; reflexivity.
  - assert (K := A 0%nat ltac:(lia)). rewrite Nat.add_0_r in K.
    destruct left as [|left]; cbn [pinLoop]; rewrite K, eqb_reflx; [reflexivity|].
    rewrite (IH left (S k)).
    + cbn [Nat.leb]. destruct (n <=? left)%nat; [|reflexivity]. replace (S k + n + 1)%nat with (k + S n + 1)%nat by lia. reflexivity.
    + intros i I. replace (S k + i)%nat with (k + S i)%nat by lia. apply A. lia.
    + replace (S k + n)%nat with (k + S n)%nat by lia. exact E.
Qed.

Lemma pinLoop_inv pin is : forall left k k' l',
  pinLoop left pin is k = Some (k', l') ->
  exists n, (n <= left)%nat /\ k' = (k + n + 1)%nat /\ l' = (left - n)%nat /\
    (forall i, (i < n)%nat -> pin (k + i)%nat = is) /\ pin (k + n)%nat = negb is.
Proof.
  induction left as [|left IH]; intros k k' l' E; cbn [pinLoop] in E.
  - destruct (Bool.eqb (pin k) is) eqn:B; [discriminate|]. injection E as <- <-. exists 0%nat.
    apply eqb_false_iff in B. rewrite !Nat.add_0_r. split; [lia|]; split; [lia|]; split; [lia|]; split; [intros; lia|].
    destruct (pin k), is; congruence || reflexivity.
  - destruct (Bool.eqb (pin k) is) eqn:B.
    + apply IH in E. destruct E as (n & N1 & -> & -> & N4 & N5). exists (S n).
      replace (k + S n)%nat with (S k + n)%nat by lia. split; [lia|]; split; [lia|]; split; [lia|]; split; [|assumption].
      intros i I. destruct i as [|i]; [rewrite Nat.add_0_r; apply eqb_prop; assumption|].
      replace (k + S i)%nat with (S k + i)%nat by lia. apply N4. lia.
    + injection E as <- <-. exists 0%nat. apply eqb_false_iff in B. rewrite !Nat.add_0_r.
      split; [lia|]; split; [lia|]; split; [lia|]; split; [intros; lia|]. destruct (pin k), is; congruence || reflexivity.
Qed.

Lemma pulseIn_pulse clock pin timeout a b w : pulse pin a b w ->
  pulseIn clock pin timeout =
  if (b - 1 + w <=? Z.to_nat (microsecondsToClockCycles clock timeout))%nat
  then u32 (Z.of_nat w * 21 + 16) / (clock / 1000000) else 0.
Proof.
  intros (AB & P1 & P2 & P3 & P4). unfold pulseIn.
  set (maxloops := Z.to_nat (microsecondsToClockCycles clock timeout)). clearbody maxloops.
  rewrite (pinLoop_runs pin true a maxloops 0).
  2:{ intros i I. apply P1. lia. }
  2:{ apply P2. lia. }
  destruct (Nat.leb_spec a maxloops) as [L1|L1].
  2:{ destruct (Nat.leb_spec (b - 1 + w) maxloops); [lia|reflexivity]. }
  rewrite (pinLoop_runs pin false (b - a - 1)).
  2:{ intros i I. apply P2. lia. }
  2:{ apply P3. lia. }
  destruct (Nat.leb_spec (b - a - 1) (maxloops - a)) as [L2|L2].
  2:{ destruct (Nat.leb_spec (b - 1 + w) maxloops); [lia|reflexivity]. }
  rewrite (pinLoop_runs pin true w).
  2:{ intros i I. apply P3. lia. }
  2:{ replace (0 + a + 1 + (b - a - 1) + 1 + w)%nat with (b + w + 1)%nat by lia. exact P4. }
  destruct (Nat.leb_spec w (maxloops - a - (b - a - 1))) as [L3|L3].
  2:{ destruct (Nat.leb_spec (b - 1 + w) maxloops); [lia|reflexivity]. }
  destruct (Nat.leb_spec (b - 1 + w) maxloops); [|lia].
  unfold clockCyclesToMicroseconds, clockCyclesPerMicrosecond.
  replace (maxloops - a - (b - a - 1) - (maxloops - a - (b - a - 1) - w))%nat with w by lia. reflexivity.
Qed.

Lemma pulseIn_sound clock pin timeout : pulseIn clock pin timeout <> 0 ->
  exists a b w, pulse pin a b w /\ (b - 1 + w <= Z.to_nat (microsecondsToClockCycles clock timeout))%nat.
Proof.
  unfold pulseIn. set (maxloops := Z.to_nat (microsecondsToClockCycles clock timeout)). clearbody maxloops.
  destruct (pinLoop maxloops pin true 0) as [[k1 l1]|] eqn:E1; [|congruence].
  destruct (pinLoop l1 pin false k1) as [[k2 l2]|] eqn:E2; [|congruence].
  destruct (pinLoop l2 pin true k2) as [[k3 l3]|] eqn:E3; [|congruence]. intros _.
  apply pinLoop_inv in E1. destruct E1 as (a & A1 & A2 & A3 & A4 & A5).
  apply pinLoop_inv in E2. destruct E2 as (n & N1 & N2 & N3 & N4 & N5).
  apply pinLoop_inv in E3. destruct E3 as (w & W1 & W2 & W3 & W4 & W5).
  exists a, (a + 1 + n)%nat, w. subst. split; [|lia]. unfold pulse. split; [lia|]. split; [|split; [|split]].
  - intros k K. apply A4. assumption.
  - intros k K. destruct (Nat.eq_dec k a) as [->|]; [exact A5|].
    replace k with (0 + a + 1 + (k - a - 1))%nat by lia. apply N4. lia.
  - intros k K. destruct (Nat.eq_dec k (a + 1 + n)) as [->|]; [exact N5|].
    replace k with (0 + a + 1 + n + 1 + (k - a - n - 2))%nat by lia. apply W4. lia.
  - replace (a + 1 + n + w + 1)%nat with (0 + a + 1 + n + 1 + w)%nat by lia. exact W5.
Qed.
