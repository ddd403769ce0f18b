(** Proofs for C119 *)
From Verif Require Export Bh_Model Bh_Spec.
From Verif Require Import I2c_Proofs I2c_Det.
Open Scope Z_scope.

(** a transfer whose conversation is known: its status *)
Lemma status_known {S} (w : bus S) m h a buff tr o k l r t : idle h -> 0 <= a < 128 -> buff <> [] -> transfer a buff 0 tr o k l -> o <> Lost -> plays w (world h) (tr ++ r) t ->
  exists h' x, untilWon w (Datatypes.S m) h (mkXfer a buff (Z.of_nat (length buff)) [] 0 0 DONE) = Done (h', x) /\ xstatus x = outcome o /\ log h' = log h ++ tr /\ plays w (world h') r t /\ idle h'.
Proof.
  intros I A N T NL P. destruct (transfer_ok w h a buff [] [] 0 0 DONE I A (or_introl N) (le_n 0)) as (tr2 & o2 & k2 & l2 & h' & E & L & P2 & T2 & I' & K). rewrite app_nil_r in E.
  rewrite <- (app_nil_r tr2) in P2. destruct (transfer_det w a buff 0 _ _ _ _ _ _ _ _ _ _ _ _ _ T2 T P2 P) as (-> & -> & -> & -> & s' & P3 & Q & P4). cbn [plays] in Q.
  exists h'. cbn [untilWon]. change (Z.of_nat 0) with 0 in E. rewrite E. cbn [xstatus]. eexists. split; [destruct o; [reflexivity|reflexivity|destruct (NL eq_refl)|reflexivity]|]. cbn [xstatus]. split; [reflexivity|]. split; [exact L|]. split; [rewrite Q; exact P4|exact I'].
Qed.

Section Chip.
  Context (a : Z) (acks : nat -> bool) (m : nat).
  Hypothesis HA : 0 <= a < 128.
  Let w := light a acks.
  Let n := Datatypes.S m.
  Definition addressed (s : sensor) : sensor := mkSensor (on s) (runs s) (mt s) (data s) (S (heard s)) false.
  (** what a byte sent to the sensor does, and whether it was taken *)
  Definition given (s : sensor) (b : Z) : sensor * bool :=
    if acks (heard s) then if acks (S (heard s)) then (obey (hears (addressed s)) b, true) else (hears (addressed s), false) else (addressed s, false).
  Lemma byte_ok h b : idle h -> exists h', transferByte w n h a b = Done (h', if snd (given (world h) b) then DONE else NAK) /\ idle h' /\ world h' = fst (given (world h) b) /\
    log h' = log h ++ (if acks (heard (world h)) then [Start; Addr a false Ack; Wr b (if acks (S (heard (world h))) then Ack else Nak); Stop] else [Start; Addr a false Nak; Stop]).
  Proof.
    intros I. unfold given. set (s := world h) in *. destruct (acks (heard s)) eqn:A1; [|].
    - set (o := if acks (S (heard s)) then Ack else Nak).
      set (s2 := fst (if acks (S (heard s)) then (obey (hears (addressed s)) b, true) else (hears (addressed s), false))).
      assert (P : plays w s ([Start; Addr a false Ack; Wr b o; Stop] ++ []) s2).
      { cbn [app plays]. exists (addressed s). split; [cbn [w light select start]; rewrite Z.eqb_refl; cbv zeta; rewrite A1; reflexivity|]. exists s2. split; [|reflexivity]. cbn [w light accept addressed heard]. unfold o, s2. destruct (acks (S (heard s))); reflexivity. }
      assert (T : exists k, transfer a [b] 0 [Start; Addr a false Ack; Wr b o; Stop] o k []).
      { unfold o. destruct (acks (S (heard s))).
        - eexists. apply (writes a [b] 0 [Start; Addr a false Ack; Wr b Ack] Ack); [discriminate|right; reflexivity|apply (all_sent a [b])].
        - eexists. apply (writes a [b] 0 [Start; Addr a false Ack; Wr b Nak] Nak); [discriminate|left; discriminate|apply (broken_off a [b] [] b [] Nak); [reflexivity|discriminate]]. }
      destruct T as [k T]. destruct (status_known w m h a [b] _ o k [] [] s2 I HA ltac:(discriminate) T ltac:(unfold o; destruct (acks (S (heard s))); discriminate) P) as (h' & x & E & X & L & Q & I').
      exists h'. unfold transferByte. fold n in E. change (Z.of_nat (length [b])) with 1 in E. rewrite E. split; [rewrite X; unfold o; destruct (acks (S (heard s))); reflexivity|]. split; [exact I'|]. cbn [plays] in Q. split; [rewrite <- Q; unfold s2; reflexivity|]. rewrite L. reflexivity.
    - assert (P : plays w s ([Start; Addr a false Nak; Stop] ++ []) (addressed s)) by (cbn [app plays]; exists (addressed s); split; [cbn [w light select start]; rewrite Z.eqb_refl; cbv zeta; rewrite A1; reflexivity|reflexivity]).
      assert (T : transfer a [b] 0 [Start; Addr a false Nak; Stop] Nak 0 []) by (apply (writes a [b] 0 [Start; Addr a false Nak] Nak); [discriminate|left; discriminate|apply not_addressed; discriminate]).
      destruct (status_known w m h a [b] _ Nak _ [] [] _ I HA ltac:(discriminate) T ltac:(discriminate) P) as (h' & x & E & X & L & Q & I').
      exists h'. unfold transferByte. fold n in E. change (Z.of_nat (length [b])) with 1 in E. rewrite E. cbn [fst snd]. split; [rewrite X; reflexivity|]. split; [exact I'|]. cbn [plays] in Q. split; [auto|]. exact L.
  Qed.
  (** reading the result *)
  Lemma read_ok h : idle h -> 0 <= data (world h) < 65536 -> exists h', MasterRead w n h a 2 2 = Done (h', if acks (heard (world h)) then 2 else 0, if acks (heard (world h)) then [data (world h) / 256; data (world h) mod 256] else []) /\ idle h' /\ world h' = addressed (world h).
  Proof.
    intros I D. set (s := world h) in *. unfold MasterRead. destruct (acks (heard s)) eqn:A1.
    - assert (H1 : 0 <= data s / 256 < 256) by (split; [apply Z.div_pos; lia|apply Z.div_lt_upper_bound; lia]). assert (H2 : 0 <= data s mod 256 < 256) by (apply Z.mod_pos_bound; lia).
      assert (P : plays w s ([Start; Addr a true Ack; Rd (data s / 256) true; Rd (data s mod 256) false; Stop] ++ []) (addressed s)).
      { cbn [app plays]. exists (addressed s). split; [cbn [w light select start]; rewrite Z.eqb_refl; cbv zeta; rewrite A1; reflexivity|].
        do 2 eexists. split; [cbn [w light supply addressed low data]; reflexivity|]. split; [symmetry; apply Z.mod_small; assumption|]. do 2 eexists. split; [cbn [w light supply addressed low data negb]; reflexivity|]. split; [symmetry; apply Z.mod_small; assumption|]. reflexivity. }
      assert (T : transfer a [] 2 [Start; Addr a true Ack; Rd (data s / 256) true; Rd (data s mod 256) false; Stop] Ack 0 [data s / 256; data s mod 256]).
      { apply (reads a [] 2 [Start; Addr a true Ack; Rd (data s / 256) true; Rd (data s mod 256) false] Ack); [reflexivity|lia|apply (all_received a 2 [data s / 256] (data s mod 256)); reflexivity]. }
      destruct (read_known w m h a [] 2 2 _ Ack _ _ [] _ I HA ltac:(lia) T ltac:(discriminate) P) as (h' & E & _ & _ & Q & I'). exists h'. split; [exact E|]. split; [exact I'|]. cbn [plays] in Q. auto.
    - assert (P : plays w s ([Start; Addr a true Nak; Stop] ++ []) (addressed s)) by (cbn [app plays]; exists (addressed s); split; [cbn [w light select start]; rewrite Z.eqb_refl; cbv zeta; rewrite A1; reflexivity|reflexivity]).
      assert (T : transfer a [] 2 [Start; Addr a true Nak; Stop] Nak 0 []) by (apply (reads a [] 2 [Start; Addr a true Nak] Nak); [reflexivity|lia|apply no_answer; discriminate]).
      destruct (read_known w m h a [] 2 2 _ Nak _ _ [] _ I HA ltac:(lia) T ltac:(discriminate) P) as (h' & E & _ & _ & Q & I'). exists h'. split; [exact E|]. split; [exact I'|]. cbn [plays] in Q. auto.
  Qed.
End Chip.

Lemma modes mode : highRes mode || lowRes mode = true <-> a_mode mode.
Proof.
  unfold highRes, lowRes, a_mode, CONTINUOUS_HIGH_RES_MODE, CONTINUOUS_HIGH_RES_MODE_2, CONTINUOUS_LOW_RES_MODE, ONE_TIME_HIGH_RES_MODE, ONE_TIME_HIGH_RES_MODE_2, ONE_TIME_LOW_RES_MODE. cbn [In].
  rewrite !orb_true_iff, !Z.eqb_eq. intuition congruence.
Qed.
Lemma obey_mode s mode : a_mode mode -> obey s mode = mkSensor true ((mode, mt s) :: runs s) (mt s) (data s) (heard s) (low s).
Proof. intros H. cbn in H. repeat (destruct H as [<-|H]; [reflexivity|]). destruct H. Qed.
Lemma mode_byte mode : a_mode mode -> u8 mode = mode.
Proof. intros H. cbn in H. repeat (destruct H as [<-|H]; [reflexivity|]). destruct H. Qed.
Lemma high_byte v : 32 <= v <= 254 -> u8 (Z.lor (Z.shiftl 8 3) (Z.shiftr v 5)) = 64 + v / 32.
Proof.
  intros H. pose proof (byte_forall (fun v => u8 (Z.lor (Z.shiftl 8 3) (Z.shiftr v 5)) =? 64 + v / 32) ltac:(vm_compute; reflexivity) v ltac:(red; lia)) as F. apply Z.eqb_eq in F. exact F.
Qed.
Lemma low_byte v : 32 <= v <= 254 -> u8 (Z.lor (Z.shiftl 3 5) (Z.land v 31)) = 96 + v mod 32.
Proof.
  intros H. pose proof (byte_forall (fun v => u8 (Z.lor (Z.shiftl 3 5) (Z.land v 31)) =? 96 + v mod 32) ltac:(vm_compute; reflexivity) v ltac:(red; lia)) as F. apply Z.eqb_eq in F. exact F.
Qed.
Lemma obey_high s q : 0 <= q <= 7 -> obey s (64 + q) = mkSensor (on s) (runs s) (q * 32 + mt s mod 32) (data s) (heard s) (low s).
Proof.
  intros H. unfold obey. cbn [existsb]. repeat match goal with |- context [?x =? ?y] => destruct (Z.eqb_spec x y); [lia|] end. cbn [orb].
  destruct (Z.leb_spec 64 (64 + q)); [|lia]. destruct (Z.leb_spec (64 + q) 71); [|lia]. cbn [andb]. do 2 f_equal. lia.
Qed.
Lemma obey_low s q : 0 <= q <= 31 -> obey s (96 + q) = mkSensor (on s) (runs s) (mt s / 32 * 32 + q) (data s) (heard s) (low s).
Proof.
  intros H. unfold obey. cbn [existsb]. repeat match goal with |- context [?x =? ?y] => destruct (Z.eqb_spec x y); [lia|] end. cbn [orb].
  destruct (Z.leb_spec (96 + q) 71); [lia|]. rewrite andb_false_r. destruct (Z.leb_spec 96 (96 + q)); [|lia]. destruct (Z.leb_spec (96 + q) 127); [|lia]. cbn [andb]. do 2 f_equal. lia.
Qed.

Section Calls.
  Context (a : Z) (acks : nat -> bool) (m : nat).
  Hypothesis HA : 0 <= a < 128.
  Let w := light a acks.
  Let n := Datatypes.S m.
  Lemma configure_ok now h d mode : idle h -> BH1750_I2CADDR d = a ->
    exists h' d' r, configure w n now h d mode = Done (h', d', r) /\ idle h' /\
      (r = true <-> a_mode mode /\ acks (heard (world h)) = true /\ acks (S (heard (world h))) = true) /\
      (r = true -> d' = mkBh a (BH1750_MTreg d) mode now /\ on (world h') = true /\ runs (world h') = (mode, mt (world h)) :: runs (world h) /\ mt (world h') = mt (world h) /\ data (world h') = data (world h) /\ heard (world h') = S (S (heard (world h)))) /\
      (r = false -> d' = d /\ same (world h) (world h')) /\ (~ a_mode mode -> h' = h).
  Proof.
    intros I D. unfold configure. destruct (highRes mode || lowRes mode) eqn:M.
    - apply modes in M. rewrite D. destruct (byte_ok a acks m HA h mode I) as (h' & E & I' & W & _). fold w n in E. rewrite E. unfold given in *. destruct (acks (heard (world h))) eqn:A1; [destruct (acks (S (heard (world h)))) eqn:A2|]; cbn [fst snd] in *.
      + exists h'. do 2 eexists. split; [reflexivity|]. split; [exact I'|]. split; [tauto|]. rewrite W, obey_mode by exact M. split; [intros _; repeat split|]. split; [discriminate|tauto].
      + exists h'. do 2 eexists. split; [reflexivity|]. split; [exact I'|]. split; [intuition congruence|]. split; [discriminate|]. rewrite W. split; [intros _; split; [reflexivity|repeat split]|tauto].
      + exists h'. do 2 eexists. split; [reflexivity|]. split; [exact I'|]. split; [intuition congruence|]. split; [discriminate|]. rewrite W. split; [intros _; split; [reflexivity|repeat split]|tauto].
    - exists h, d, false. assert (N : ~ a_mode mode) by (rewrite <- modes, M; discriminate). split; [reflexivity|]. split; [exact I|]. split; [intuition congruence|]. split; [discriminate|]. split; [intros _; split; [reflexivity|repeat split]|auto].
  Qed.
  Lemma mtreg_range h d v : ~ (32 <= v <= 254) -> setMTreg w n h d v = Done (h, d, false).
  Proof. intros H. unfold setMTreg. destruct (Z.leb_spec v 31); [reflexivity|]. rewrite Z.gtb_ltb. destruct (Z.ltb_spec 254 v); [reflexivity|lia]. Qed.
  Lemma mtreg_ok h d v : idle h -> BH1750_I2CADDR d = a -> 32 <= v <= 254 -> a_mode (BH1750_MODE d) -> (forall j, (j < 6)%nat -> acks (heard (world h) + j)%nat = true) ->
    exists h', setMTreg w n h d v = Done (h', mkBh a v (BH1750_MODE d) (lastReadTimestamp d), true) /\ idle h' /\
      on (world h') = true /\ mt (world h') = v /\ runs (world h') = (BH1750_MODE d, v) :: runs (world h) /\ data (world h') = data (world h) /\ heard (world h') = (heard (world h) + 6)%nat.
  Proof.
    intros I D V M A. unfold setMTreg. destruct (Z.leb_spec v 31); [lia|]. rewrite Z.gtb_ltb. destruct (Z.ltb_spec 254 v); [lia|]. cbn [orb]. rewrite D, high_byte, low_byte, mode_byte by auto.
    destruct (byte_ok a acks m HA h (64 + v / 32) I) as (h1 & E1 & I1 & W1 & _). fold w n in E1. rewrite E1. clear E1. unfold given in W1. pose proof (A 0%nat ltac:(lia)) as A0. pose proof (A 1%nat ltac:(lia)) as A1. replace (heard (world h) + 0)%nat with (heard (world h)) in A0 by lia. replace (heard (world h) + 1)%nat with (S (heard (world h))) in A1 by lia. rewrite A0, A1 in W1. cbn [fst] in W1.
    rewrite obey_high in W1 by (clear - V; Z.div_mod_to_equations; lia). cbn [hears addressed on runs mt data heard low] in W1.
    destruct (byte_ok a acks m HA h1 (96 + v mod 32) I1) as (h2 & E2 & I2 & W2 & _). fold w n in E2. rewrite E2. clear E2. unfold given in W2. pose proof (A 2%nat ltac:(lia)) as A2. pose proof (A 3%nat ltac:(lia)) as A3. replace (heard (world h) + 2)%nat with (heard (world h1)) in A2 by (rewrite W1; cbn; lia). replace (heard (world h) + 3)%nat with (S (heard (world h1))) in A3 by (rewrite W1; cbn; lia). rewrite A2, A3 in W2. cbn [fst] in W2.
    rewrite obey_low in W2 by (clear - V; Z.div_mod_to_equations; lia). cbn [hears addressed on runs mt data heard low] in W2.
    destruct (byte_ok a acks m HA h2 (BH1750_MODE d) I2) as (h3 & E3 & I3 & W3 & _). fold w n in E3. rewrite E3. clear E3. unfold given in *. pose proof (A 4%nat ltac:(lia)) as A4. pose proof (A 5%nat ltac:(lia)) as A5. replace (heard (world h) + 4)%nat with (heard (world h2)) in A4 by (rewrite W2, W1; cbn; lia). replace (heard (world h) + 5)%nat with (S (heard (world h2))) in A5 by (rewrite W2, W1; cbn; lia). rewrite A4, A5 in W3 |- *. cbn [fst snd] in W3 |- *.
    rewrite obey_mode in W3 by exact M. cbn [hears addressed on runs mt data heard low] in W3.
    exists h3. split; [reflexivity|]. split; [exact I3|].
    assert (MT : mt (world h2) = v) by (rewrite W2, W1; cbn [mt]; clear; Z.div_mod_to_equations; lia).
    rewrite W3. cbn [on runs mt data heard]. rewrite MT. repeat split; rewrite W2, W1; cbn [runs data heard]; auto. lia.
  Qed.
  Lemma begin_ok now h d mode : idle h -> 0 < a -> a_mode mode -> (forall j, (j < 8)%nat -> acks (heard (world h) + j)%nat = true) ->
    exists h', begin w n now h d mode a = Done (h', mkBh a 69 mode now, true) /\ idle h' /\
      on (world h') = true /\ mt (world h') = 69 /\ runs (world h') = (mode, 69) :: (mode, mt (world h)) :: runs (world h) /\ data (world h') = data (world h) /\ heard (world h') = (heard (world h) + 8)%nat.
  Proof.
    intros I P M A. unfold begin. destruct (Z.eqb_spec a 0); [lia|]. cbn [negb]. set (d0 := mkBh a _ _ _).
    destruct (configure_ok now h d0 mode I eq_refl) as (h1 & d1 & r & E & I1 & R & T & _). rewrite E. clear E.
    assert (r = true) as ->. { apply R. split; [exact M|]. split; [rewrite <- (A 0%nat) by lia|rewrite <- (A 1%nat) by lia]; f_equal; lia. }
    destruct (T eq_refl) as (-> & T1 & T2 & T3 & T4 & T5). clear T R.
    destruct (mtreg_ok h1 (mkBh a (BH1750_MTreg d0) mode now) 69 I1 eq_refl ltac:(lia) M) as (h2 & E & I2 & U1 & U2 & U3 & U4 & U5).
    { intros j J. rewrite T5, <- (A (2 + j)%nat) by lia. f_equal. lia. }
    exists h2. unfold BH1750_DEFAULT_MTREG. rewrite E. split; [reflexivity|]. split; [exact I2|]. rewrite U3, U4, U5, T2, T4, T5. cbn [BH1750_MODE]. repeat split; auto. lia.
  Qed.
  Lemma level_ok mode v raw : 0 < v -> let level := inject_Z raw in
    let level := if negb (v =? 69) then Qmult level (Qdiv (inject_Z 69) (inject_Z v)) else level in
    let level := if (mode =? 0x21) || (mode =? 0x11) then Qdiv level (inject_Z 2) else level in
    lux mode v raw (Qdiv level (12 # 10)).
  Proof.
    intros V. cbv zeta. unfold lux. cbn [existsb]. rewrite orb_false_r, (orb_comm (mode =? 17)). change 0x21 with 33. change 0x11 with 17.
    assert (NV : ~ Qeq (inject_Z v) (inject_Z 0)) by (unfold Qeq; cbn; lia).
    assert (Q1 : forall x y, inject_Z (x * y) = Qmult (inject_Z x) (inject_Z y)) by reflexivity. rewrite !Q1. change (inject_Z 690) with (Qmult (inject_Z 69) (inject_Z 10)).
    destruct ((mode =? 33) || (mode =? 17)); destruct (Z.eqb_spec v 69) as [->|N]; cbn [negb]; try (field; auto); unfold Qeq; cbn; lia.
  Qed.
  Lemma light_ok now h d : idle h -> BH1750_I2CADDR d = a -> a_mode (BH1750_MODE d) -> 0 < BH1750_MTreg d -> 0 <= data (world h) < 65536 ->
    exists h' level, readLightLevel w n now h d = Done (h', mkBh a (BH1750_MTreg d) (BH1750_MODE d) now, level) /\ idle h' /\ world h' = addressed (world h) /\
      (if acks (heard (world h)) then lux (BH1750_MODE d) (BH1750_MTreg d) (data (world h)) level else level = inject_Z (-1)).
  Proof.
    intros I D M V R. unfold readLightLevel. destruct (Z.eqb_spec (BH1750_MODE d) UNCONFIGURED) as [E|_]; [rewrite E in M; cbn in M; unfold UNCONFIGURED in M; exfalso; clear - M; intuition discriminate|].
    rewrite D. destruct (read_ok a acks m HA h I R) as (h' & E & I' & W). fold w n in E. rewrite E. destruct (acks (heard (world h))).
    - change (2 =? 2) with true. cbn iota. exists h'. eexists. split; [reflexivity|]. split; [exact I'|]. split; [exact W|]. cbn [BH1750_MTreg BH1750_MODE rd nth].
      replace (Z.lor (Z.shiftl (data (world h) / 256) 8) (data (world h) mod 256)) with (data (world h)).
      + apply level_ok. exact V.
      + rewrite Bits.word_bytes by (apply Z.mod_pos_bound; lia). rewrite Z.mul_comm. apply Z.div_mod. lia.
    - change (2 =? 0) with false. cbn iota. exists h'. eexists. split; [reflexivity|]. auto.
  Qed.
End Calls.
