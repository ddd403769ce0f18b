(** Lemmas for C123 *)
From Verif Require Export Slv_Spec Bits.
Open Scope Z_scope.

(** ** Addresses *)
Lemma answers_spec o n b : answers o n b = true <-> agrees o n b.
Proof.
  unfold answers, agrees. rewrite forallb_forall. split.
  - intros H i I M. specialize (H i). assert (In i [1; 2; 3; 4; 5; 6; 7]) as J by (cbn; lia). specialize (H J). rewrite M in H. cbn [orb] in H. apply eqb_prop in H. exact H.
  - intros H i I. destruct (Z.testbit (MASK o n) i) eqn:M; [reflexivity|]. cbn [orb]. rewrite (H i); [apply eqb_reflx| |exact M]. cbn in I. lia.
Qed.
Lemma bit_byte v i : is_byte v -> 8 <= i -> Z.testbit v i = false.
Proof. intros [A B] I. destruct (Z.eq_dec v 0) as [->|N]; [apply Z.bits_0|]. apply Z.bits_above_log2; [lia|]. apply Z.log2_lt_pow2; [lia|]. apply Z.lt_le_trans with (2 ^ 8); [lia|]. apply Z.pow_le_mono_r; lia. Qed.
Lemma matching_spec o n b : is_byte (ADR o n) -> is_byte (MASK o n) -> is_byte b -> isSlaveAddrMatching (ADR o n) b (MASK o n) = answers o n b.
Proof.
  intros A M B. unfold isSlaveAddrMatching. cbv zeta. rewrite (u8_id (ADR o n)), (u8_id b) by assumption.
  assert (L : is_byte (Z.lor (MASK o n) 1)). { unfold is_byte in *. split; [apply Z.lor_nonneg; lia|]. destruct (Z.eq_dec (Z.lor (MASK o n) 1) 0) as [E|E]; [lia|]. assert (0 <= Z.lor (MASK o n) 1) by (apply Z.lor_nonneg; lia). apply (Z.log2_lt_pow2 _ 8); [lia|]. rewrite Z.log2_lor by lia. apply Z.max_lub_lt; [|cbn; lia]. destruct (Z.eq_dec (MASK o n) 0) as [->|]; [cbn; lia|]. apply Z.log2_lt_pow2; lia. }
  rewrite u8_id by exact L. apply Bool.eq_iff_eq_true. rewrite answers_spec, Z.eqb_eq. split.
  - intros E i I Mi. assert (T : Z.testbit (Z.land (ADR o n) (Z.lnot (Z.lor (MASK o n) 1))) i = Z.testbit (Z.land b (Z.lnot (Z.lor (MASK o n) 1))) i) by (rewrite E; reflexivity).
    rewrite !Z.land_spec, !Z.lnot_spec, !Z.lor_spec, Mi in T by lia. replace (Z.testbit 1 i) with false in T by (symmetry; change 1 with (2 ^ 0); apply Z.pow2_bits_false; lia).
    cbn [orb negb] in T. rewrite !andb_true_r in T. exact T.
  - intros H. apply Z.bits_inj'. intros i I. rewrite !Z.land_spec, !Z.lnot_spec, !Z.lor_spec by lia.
    destruct (Z.eq_dec i 0) as [->|]; [change (Z.testbit 1 0) with true; rewrite orb_true_r, !andb_false_r; reflexivity|].
    destruct (Z_lt_le_dec i 8) as [C|C]; [|rewrite (bit_byte _ i A C), (bit_byte _ i B C); reflexivity].
    destruct (Z.testbit (MASK o n) i) eqn:Mi; [cbn [orb negb]; rewrite !andb_false_r; reflexivity|]. rewrite (H i ltac:(lia) Mi). reflexivity.
Qed.
Lemma lookup_meant o b sid : sane o -> meant o b sid -> is_byte b /\ lookupSlaveIndex o b = sid /\ (b = 0 -> sid = 0%nat).
Proof.
  intros Sa. unfold meant. destruct (Z.eqb_spec b 0) as [->|N]; [intros [-> _]; repeat split; lia|]. intros (B & n & L & -> & Ag & Lo). assert (Bb : is_byte b) by (unfold is_byte; lia).
  split; [exact Bb|]. split; [|lia]. unfold lookupSlaveIndex. destruct (Z.eqb_spec (Z.shiftr b 1) 0) as [E|_]; [rewrite Z.shiftr_div_pow2 in E by lia; exfalso; change (2 ^ 1) with 2 in E; Z.div_mod_to_equations; lia|].
  assert (Mt : forall m, (m < 4)%nat -> isSlaveAddrMatching (ADR o m) b (MASK o m) = answers o m b) by (intros m Lm; apply matching_spec; auto; apply Sa; exact Lm).
  rewrite !Mt by lia. assert (Y : answers o n b = true) by (apply answers_spec; exact Ag). assert (No : forall m, (m < n)%nat -> answers o m b = false) by (intros m Lm; apply not_true_iff_false; rewrite answers_spec; auto).
  destruct n as [|[|[|[|n]]]]; [| | | |lia]; repeat (rewrite No by lia); rewrite Y; reflexivity.
Qed.
Definition roleOf (b : Z) : role := if b =? 0 then Listening true else if Z.testbit b 0 then Talking else Listening false.
Definition codeOf (b : Z) : Z := if b =? 0 then 0x70 else if Z.testbit b 0 then 0xA8 else 0x60.
Lemma addressed_meant h b sid : sane (world h) -> meant (world h) b sid -> i2en h = true -> aa h = true -> addressed h b = (becomes h (roleOf b) (codeOf b) b, Acked true).
Proof.
  intros Sa M En Aa. unfold addressed. rewrite En, Aa. cbn [andb negb]. unfold meant in M. unfold roleOf, codeOf. destruct (Z.eqb_spec b 0) as [->|N].
  - destruct M as [_ (n & L & T)]. assert (X : existsb (fun n => Z.testbit (ADR (world h) n) 0) [0; 1; 2; 3]%nat = true) by (apply existsb_exists; exists n; split; [cbn; lia|exact T]). rewrite X. reflexivity.
  - destruct M as (B & n & L & _ & Ag & _). destruct (Z.eqb_spec b 1); [lia|]. assert (X : existsb (fun n => answers (world h) n b) [0; 1; 2; 3]%nat = true) by (apply existsb_exists; exists n; split; [cbn; lia|apply answers_spec; exact Ag]).
    rewrite X. cbn [negb andb]. destruct (Z.testbit b 0); reflexivity.
Qed.
Lemma addressed_foreign h b : foreign (world h) b -> addressed h b = (leaves h, Acked false).
Proof.
  intros F. unfold addressed. destruct (negb _); [reflexivity|]. unfold foreign in F. destruct (Z.eqb_spec b 0) as [E0|N]; [rewrite E0 in *|].
  - assert (X : existsb (fun n => Z.testbit (ADR (world h) n) 0) [0; 1; 2; 3]%nat = false) by (apply not_true_iff_false; rewrite existsb_exists; intros (n & I & T); rewrite F in T by (cbn in I; lia); discriminate).
    rewrite X. reflexivity.
  - destruct F as [_ [->|F]]; [reflexivity|]. assert (X : existsb (fun n => answers (world h) n b) [0; 1; 2; 3]%nat = false) by (apply not_true_iff_false; rewrite existsb_exists; intros (n & I & T); apply answers_spec in T; apply (F n); [cbn in I; lia|exact T]).
    rewrite X, andb_false_r. reflexivity.
Qed.

(** ** States *)
Definition regs (h h' : hw own) : Prop := ADR (world h') = ADR (world h) /\ MASK (world h') = MASK (world h).
Lemma regs_refl h : regs h h. Proof. split; reflexivity. Qed.
Lemma regs_trans a b c : regs a b -> regs b c -> regs a c. Proof. intros [A B] [C D]. split; congruence. Qed.
Lemma flags56 h : flags h 0x38 = mkHw false false false true (i2en h) (stat h) (dat h) (world h) (log h).
Proof. destruct h as [s1 s2 s3 a i c dt w lg]. unfold flags, CONSET, CONCLR. cbn. rewrite !andb_false_r, !orb_false_r, orb_true_r, !andb_true_r. reflexivity. Qed.
Lemma flags60 h : flags h 0x3C = mkHw false false false false (i2en h) (stat h) (dat h) (world h) (log h).
Proof. destruct h as [s1 s2 s3 a i c dt w lg]. unfold flags, CONSET, CONCLR. cbn. rewrite !andb_false_r, !orb_false_r, !andb_true_r. reflexivity. Qed.
Section S.
  Context {U : Type} (event : nat -> Z -> U -> xfer -> U * xfer) (quiet : discreet event).
  (** the driver serves the slave sid *)
  Definition busy (h : hw own) (d : drv U) (sid : nat) (x : xfer) (r : role) : Prop :=
    sta h = false /\ sto h = false /\ si h = false /\ i2en h = true /\ part (world h) = r /\ sXfer d = Some sid /\ slaves d sid = Some x /\ xstatus x = BUSY /\ Z.land (slaveAddr x) 1 = 0.
  Definition others (d d' : drv U) (sid : nat) : Prop := forall n, n <> sid -> slaves d' n = slaves d n.
  Lemma others_trans a b c sid : others a b sid -> others b c sid -> others a c sid.
  Proof. intros H K n N. rewrite (K n N). apply H. exact N. Qed.
  Lemma setSlave_same (d : drv U) sid x : setSlave d sid x sid = Some x.
  Proof. unfold setSlave. rewrite Nat.eqb_refl. reflexivity. Qed.
  Lemma setSlave_other (d : drv U) sid x n : n <> sid -> setSlave d sid x n = slaves d n.
  Proof. intros N. unfold setSlave. destruct (Nat.eqb_spec n sid); [contradiction|reflexivity]. Qed.

  (** the reaction to the end of a transfer: codes 0xC0, 0xC8, 0x88, 0x98, 0xA0 *)
  Lemma done_step h d sid x code dt : busy h d sid x (part (world h)) -> In code [0xC0; 0xC8; 0x88; 0x98; 0xA0] ->
    exists h' d', interrupt event (becomes h Away code dt) d = Some (h', d') /\ waits h' d' /\ regs h h' /\ reported event d d' sid [] (setStatus x DONE).
  Proof.
    intros (B1 & B2 & B3 & B4 & _ & B6 & B7 & B8 & B9) C.
    set (h1 := becomes h Away code dt). set (r := event sid 2 (memory d) (setStatus x DONE)).
    exists (flags h1 0x38), (mkDrv None (setSlave d sid (snd r)) (fst r) (told d ++ [(sid, 2)])).
    assert (K : handleSlaveXferState h1 x = Some (flags h1 0x38, setStatus x DONE, 2)).
    { unfold handleSlaveXferState. cbn [setStatus slaveAddr]. rewrite B9. change (stat h1) with code. cbn in C. repeat (destruct C as [<-|C]; [reflexivity|]). destruct C. }
    assert (C0 : (Z.land code 0xF8 <? 0x60) = false) by (cbn in C; repeat (destruct C as [<-|C]; [reflexivity|]); destruct C).
    split.
    - unfold interrupt. change (si h1) with true. cbv iota. unfold i2c_state_handling. change (stat h1) with code. rewrite C0. unfold SlaveStateHandler. rewrite B6, B7, K. cbn [setStatus xstatus].
      change (2 =? RET_SLAVE_BUSY) with false. cbv iota. fold r. rewrite (surjective_pairing r). reflexivity.
    - split; [|split; [rewrite flags56; split; reflexivity|]].
      + rewrite flags56. repeat split. exact B4.
      + split; [reflexivity|]. split; [exists (memory d); cbn [memory slaves]; rewrite setSlave_same; reflexivity|]. intros n N. cbn [slaves]. apply setSlave_other. exact N.
  Qed.
  (** a byte arrives *)
  Definition gotOne (x : xfer) (b : Z) (r : nat) : xfer := mkXfer (slaveAddr x) (txBuff x) (txSz x) (rxBuff x ++ [b]) r (rxSz x - 1) BUSY.
  Lemma rx_step h d sid x gc b r : busy h d sid x (Listening gc) -> aa h = true -> room x = Datatypes.S r ->
    exists h' d', serve event h d (Send b) = Some (h', d', Acked true) /\ busy h' d' sid (gotOne x b r) (Listening gc) /\ aa h' = (1 <? rxSz x - 1) /\ regs h h' /\ told d' = told d ++ [(sid, 5)] /\ others d d' sid.
  Proof.
    intros (B1 & B2 & B3 & B4 & B5 & B6 & B7 & B8 & B9) Aa R. unfold serve, sent. rewrite B5, Aa. cbn [fst snd]. set (h1 := becomes h (Listening gc) (if gc then 0x90 else 0x80) b).
    set (cc := if 1 <? rxSz x - 1 then 0x38 else 0x3C).
    assert (K : handleSlaveXferState h1 x = Some (flags h1 cc, gotOne x b r, 5)).
    { unfold handleSlaveXferState. change (stat h1) with (if gc then 0x90 else 0x80). unfold store. cbn [setStatus room]. rewrite R. unfold cc. change (dat h1) with b.
      destruct gc; cbn [rxSz setStatus slaveAddr txBuff txSz rxBuff xstatus]; destruct (1 <? rxSz x - 1); reflexivity. }
    assert (C0 : (Z.land (stat h1) 0xF8 <? 0x60) = false) by (change (stat h1) with (if gc then 0x90 else 0x80); destruct gc; reflexivity).
    pose proof (quiet sid 5 (memory d) (gotOne x b r) ltac:(lia)) as Q. destruct (event sid 5 (memory d) (gotOne x b r)) as [u y] eqn:Ev. cbn [snd] in Q. subst y.
    assert (I : interrupt event h1 d = Some (flags h1 cc, mkDrv (Some sid) (setSlave d sid (gotOne x b r)) u (told d ++ [(sid, 5)]))).
    { unfold interrupt. change (si h1) with true. cbv iota. unfold i2c_state_handling. rewrite C0. unfold SlaveStateHandler. rewrite B6, B7, K. change (5 =? RET_SLAVE_BUSY) with false. cbv iota. cbn [gotOne xstatus]. fold (gotOne x b r). rewrite Ev. reflexivity. }
    rewrite I. eexists. eexists. split; [reflexivity|]. split; [|split; [|split; [split; reflexivity|split; [reflexivity|intros n N; apply setSlave_other; exact N]]]].
    - unfold busy. cbn [sXfer slaves]. rewrite setSlave_same. unfold cc. destruct (1 <? rxSz x - 1); rewrite ?flags56, ?flags60; repeat split; auto.
    - unfold cc. destruct (1 <? rxSz x - 1); rewrite ?flags56, ?flags60; reflexivity.
  Qed.
  Definition nextRx (x : xfer) (l : list Z) : xfer := mkXfer (slaveAddr x) (txBuff x) (txSz x) (rxBuff x ++ l) (room x - length l) (rxSz x - Z.of_nat (length l)) BUSY.
  Lemma rx_run gc sid l : forall h d x, busy h d sid x (Listening gc) -> aa h = (1 <? rxSz x) -> Z.of_nat (length l) < rxSz x \/ l = [] -> (length l <= room x)%nat ->
    exists h' d', serves event h d (map Send l) = Some (h', d', repeat (Acked true) (length l)) /\ busy h' d' sid (nextRx x l) (Listening gc) /\ aa h' = (1 <? rxSz x - Z.of_nat (length l)) /\ regs h h' /\
      told d' = told d ++ repeat (sid, 5) (length l) /\ others d d' sid.
  Proof.
    induction l as [|b l IH]; intros h d x B Aa C R.
    - exists h, d. split; [reflexivity|]. cbn [length]. replace (nextRx x []) with x. 2: { destruct x as [a t s rb ro rs xs]. destruct B as (_ & _ & _ & _ & _ & _ & _ & B8 & _). cbn in B8. subst xs. unfold nextRx. cbn. rewrite app_nil_r, Nat.sub_0_r, Z.sub_0_r. reflexivity. }
      split; [exact B|]. rewrite Z.sub_0_r. split; [exact Aa|]. split; [apply regs_refl|]. cbn. rewrite app_nil_r. split; [reflexivity|]. intros n _. reflexivity.
    - cbn [length] in *. destruct C as [C|C]; [|discriminate]. destruct (room x) as [|r] eqn:Rm; [lia|].
      destruct (rx_step h d sid x gc b r B ltac:(rewrite Aa; apply Z.ltb_lt; lia) Rm) as (h1 & d1 & E1 & B1 & A1 & G1 & T1 & O1).
      destruct (IH h1 d1 (gotOne x b r) B1 A1) as (h2 & d2 & E2 & B2 & A2 & G2 & T2 & O2); [cbn [gotOne rxSz]; destruct l; [right; reflexivity|left; cbn [length] in *; lia]|cbn [gotOne room]; lia|].
      exists h2, d2. split; [cbn [map serves repeat]; rewrite E1, E2; reflexivity|]. split.
      + replace (nextRx x (b :: l)) with (nextRx (gotOne x b r) l); [exact B2|]. unfold nextRx, gotOne. cbn [slaveAddr txBuff txSz rxBuff room rxSz length]. rewrite Rm, <- app_assoc. cbn [app]. f_equal. lia.
      + split; [rewrite A2; cbn [gotOne rxSz]; f_equal; lia|]. split; [exact (regs_trans _ _ _ G1 G2)|]. split; [rewrite T2, T1, <- app_assoc; reflexivity|exact (others_trans _ _ _ _ O1 O2)].
  Qed.
  (** nothing happens while it is not addressed *)
  Lemma away_run l : forall h d, part (world h) = Away -> si h = false -> serves event h d (map Send l) = Some (h, d, repeat (Acked false) (length l)).
  Proof. induction l as [|b l IH]; intros h d P Si; [reflexivity|]. cbn [map serves]. unfold serve, sent. rewrite P. cbn [fst snd]. unfold interrupt. rewrite Si. rewrite (IH h d P Si). reflexivity. Qed.
  Lemma away_fetch l : forall h d, part (world h) = Away -> si h = false -> serves event h d (map Fetch l) = Some (h, d, repeat (Got 0xff) (length l)).
  Proof. induction l as [|b l IH]; intros h d P Si; [reflexivity|]. cbn [map serves]. unfold serve, fetched. rewrite P. cbn [fst snd]. unfold interrupt. rewrite Si. rewrite (IH h d P Si). reflexivity. Qed.
  Lemma serves_app l1 l2 : forall h d, serves event h d (l1 ++ l2) = match serves event h d l1 with None => None | Some (h1, d1, r1) => match serves event h1 d1 l2 with Some (h2, d2, r2) => Some (h2, d2, r1 ++ r2) | None => None end end.
  Proof.
    induction l1 as [|a l1 IH]; intros h d; cbn [app serves].
    - destruct (serves event h d l2) as [[[h2 d2] r2]|]; reflexivity.
    - destruct (serve event h d a) as [[[h1 d1] s]|]; [|reflexivity]. rewrite IH. destruct (serves event h1 d1 l1) as [[[h2 d2] r]|]; [|reflexivity]. destruct (serves event h2 d2 l2) as [[[h3 d3] r3]|]; reflexivity.
  Qed.

  (** sending, with the next byte *)
  Definition gaveOne (x : xfer) (t : list Z) : xfer := mkXfer (slaveAddr x) t (txSz x - 1) (rxBuff x) (room x) (rxSz x) BUSY.
  (** the byte b waits in DAT; the rest is in the structure; the peripheral goes on after it if there is more *)
  Definition offers (h : hw own) (d : drv U) (sid : nat) (x : xfer) (b : Z) : Prop := busy h d sid x Talking /\ dat h = b /\ aa h = (0 <? txSz x) /\ (0 <= txSz x <= Z.of_nat (length (txBuff x))).
  Lemma tx_step h d sid x b : offers h d sid x b -> 0 < txSz x ->
    exists h' d' b' t, txBuff x = b' :: t /\ serve event h d (Fetch true) = Some (h', d', Got b) /\ offers h' d' sid (gaveOne x t) b' /\ regs h h' /\ told d' = told d ++ [(sid, 6)] /\ others d d' sid.
  Proof.
    intros ((B1 & B2 & B3 & B4 & B5 & B6 & B7 & B8 & B9) & Dt & Aa & Sz) P. destruct (txBuff x) as [|b' t] eqn:Tx; [cbn [length] in Sz; lia|].
    unfold serve, fetched. rewrite B5, Aa. destruct (Z.ltb_spec 0 (txSz x)); [|lia]. cbn [negb fst snd]. rewrite Dt. set (h1 := becomes h Talking 0xB8 b).
    set (cc := if 0 <? txSz x - 1 then 0x38 else 0x3C).
    assert (K : handleSlaveXferState h1 x = Some (flags (DAT h1 b') cc, gaveOne x t, 6)).
    { unfold handleSlaveXferState. change (stat h1) with 0xB8. change (Z.land 0xB8 0xF8) with 0xB8. cbn [Z.eqb Pos.eqb orb]. unfold load. cbn [setStatus txBuff]. rewrite Tx. unfold cc. cbn [txSz slaveAddr rxBuff room rxSz xstatus setStatus]. destruct (0 <? txSz x - 1); reflexivity. }
    pose proof (quiet sid 6 (memory d) (gaveOne x t) ltac:(lia)) as Q. destruct (event sid 6 (memory d) (gaveOne x t)) as [u y] eqn:Ev. cbn [snd] in Q. subst y.
    assert (I : interrupt event h1 d = Some (flags (DAT h1 b') cc, mkDrv (Some sid) (setSlave d sid (gaveOne x t)) u (told d ++ [(sid, 6)]))).
    { unfold interrupt. change (si h1) with true. cbv iota. unfold i2c_state_handling. change (stat h1) with 0xB8. change (Z.land 0xB8 0xF8 <? 0x60) with false. cbv iota. unfold SlaveStateHandler. rewrite B6, B7, K. change (6 =? RET_SLAVE_BUSY) with false. cbv iota. cbn [gaveOne xstatus]. fold (gaveOne x t). rewrite Ev. reflexivity. }
    rewrite I. do 2 eexists. exists b', t. split; [reflexivity|]. split; [reflexivity|]. split; [|split; [split; reflexivity|split; [reflexivity|intros n N; apply setSlave_other; exact N]]].
    split; [|split; [reflexivity|split]].
    - unfold busy. cbn [sXfer slaves]. rewrite setSlave_same. unfold cc. destruct (0 <? txSz x - 1); rewrite ?flags56, ?flags60; repeat split; auto.
    - cbn [gaveOne txSz]. unfold cc. destruct (0 <? txSz x - 1); rewrite ?flags56, ?flags60; reflexivity.
    - cbn [gaveOne txSz txBuff]. cbn [length] in Sz. lia.
  Qed.
  Definition nextTx (x : xfer) (n : nat) : xfer := mkXfer (slaveAddr x) (skipn n (txBuff x)) (txSz x - Z.of_nat n) (rxBuff x) (room x) (rxSz x) BUSY.
  Lemma tx_run sid n : forall h d x b, offers h d sid x b -> Z.of_nat n <= txSz x ->
    exists h' d', serves event h d (repeat (Fetch true) n) = Some (h', d', map Got (firstn n (b :: txBuff x))) /\ offers h' d' sid (nextTx x n) (nth n (b :: txBuff x) 0xff) /\ regs h h' /\
      told d' = told d ++ repeat (sid, 6) n /\ others d d' sid.
  Proof.
    induction n as [|n IH]; intros h d x b O C.
    - exists h, d. split; [reflexivity|]. replace (nextTx x 0) with x. 2: { destruct x as [a t s rb ro rs xs]. destruct O as ((_ & _ & _ & _ & _ & _ & _ & B8 & _) & _). cbn in B8. subst xs. unfold nextTx. cbn. rewrite Z.sub_0_r. reflexivity. }
      split; [exact O|]. split; [apply regs_refl|]. cbn. rewrite app_nil_r. split; [reflexivity|]. intros m _. reflexivity.
    - destruct (tx_step h d sid x b O ltac:(lia)) as (h1 & d1 & b' & t & Tx & E1 & O1 & G1 & T1 & Ot1). destruct (IH h1 d1 (gaveOne x t) b' O1) as (h2 & d2 & E2 & O2 & G2 & T2 & Ot2); [cbn [gaveOne txSz]; lia|].
      exists h2, d2. split; [cbn [repeat serves]; rewrite E1, E2; cbn [firstn map gaveOne txBuff]; rewrite Tx; reflexivity|]. split.
      + rewrite Tx. cbn [nth]. replace (nextTx x (Datatypes.S n)) with (nextTx (gaveOne x t) n); [exact O2|]. unfold nextTx, gaveOne. cbn [slaveAddr txBuff txSz rxBuff room rxSz]. rewrite Tx. cbn [skipn]. f_equal. lia.
      + split; [exact (regs_trans _ _ _ G1 G2)|]. split; [rewrite T2, T1, <- app_assoc; reflexivity|exact (others_trans _ _ _ _ Ot1 Ot2)].
  Qed.

  (** the beginning of a transfer *)
  Definition begun (x : xfer) (b : Z) : xfer := setStatus (setAddr x (b / 2 * 2)) BUSY.
  Lemma even_addr b : is_byte b -> Z.land b (Z.lnot 1) = b / 2 * 2.
  Proof. intros B. apply Z.eqb_eq. revert b B. apply byte_forall. vm_compute. reflexivity. Qed.
  Lemma even_land b : Z.land (b / 2 * 2) 1 = 0.
  Proof. change 1 with (Z.ones 1). rewrite Z.land_ones by lia. change (2 ^ 1) with 2. apply Z.mod_mul. lia. Qed.
  Lemma still h (d : drv U) : waits h d -> interrupt event (ended h) d = Some (h, d).
  Proof. intros (_ & _ & Si & _ & _ & P & _). unfold ended. rewrite P. unfold interrupt. rewrite Si. reflexivity. Qed.
  Lemma call_listen h d b sid x : waits h d -> sane (world h) -> meant (world h) b sid -> Z.testbit b 0 = false -> slaves d sid = Some x ->
    exists h' d', serve event h d (Call b) = Some (h', d', Acked true) /\ busy h' d' sid (begun x b) (Listening (b =? 0)) /\ aa h' = (1 <? rxSz x) /\ regs h h' /\ told d' = told d /\ others d d' sid.
  Proof.
    intros W Sa M Ev Sl. pose proof W as (W1 & W2 & W3 & W4 & W5 & W6 & W7). destruct (lookup_meant _ _ _ Sa M) as (Bb & Lk & _). unfold serve. rewrite (still h d W).
    rewrite (addressed_meant h b sid Sa M W5 W4). cbn [fst snd]. unfold roleOf, codeOf. rewrite Ev. set (h1 := becomes h _ _ b). set (cc := if 1 <? rxSz x then 0x38 else 0x3C).
    assert (St : stat h1 = if b =? 0 then 0x70 else 0x60) by reflexivity.
    assert (K : handleSlaveXferState h1 x = Some (flags h1 cc, begun x b, 0)).
    { unfold handleSlaveXferState. rewrite St. change (dat h1) with b. rewrite (u8_id b Bb), (even_addr b Bb). unfold cc. cbn [setAddr rxSz setStatus]. destruct (b =? 0); cbn [Z.land Pos.land Pos.Nsucc_double Pos.Ndouble Z.of_N Z.eqb Pos.eqb orb]; destruct (1 <? rxSz x); reflexivity. }
    assert (Gi : getSlaveIndex h1 = sid). { unfold getSlaveIndex. rewrite St. change (dat h1) with b. rewrite (u8_id b Bb). change (lookupSlaveIndex (world h1) b) with (lookupSlaveIndex (world h) b). rewrite Lk. destruct (b =? 0); reflexivity. }
    assert (I : interrupt event h1 d = Some (flags h1 cc, mkDrv (Some sid) (setSlave d sid (begun x b)) (memory d) (told d))).
    { unfold interrupt. change (si h1) with true. cbv iota. unfold i2c_state_handling. rewrite St. replace (Z.land (if b =? 0 then 0x70 else 0x60) 0xF8 <? 0x60) with false by (destruct (b =? 0); reflexivity). unfold SlaveStateHandler. rewrite W7, Gi, Sl, K. reflexivity. }
    rewrite I. do 2 eexists. split; [reflexivity|]. split; [|split; [|split; [unfold cc; destruct (1 <? rxSz x); rewrite ?flags56, ?flags60; split; reflexivity|split; [reflexivity|intros n N; apply setSlave_other; exact N]]]].
    - unfold busy. cbn [sXfer slaves]. rewrite setSlave_same. pose proof (even_land b) as Z0. unfold cc. destruct (1 <? rxSz x); rewrite ?flags56, ?flags60; (repeat split; auto); unfold h1; cbn; destruct (b =? 0); reflexivity.
    - unfold cc. destruct (1 <? rxSz x); rewrite ?flags56, ?flags60; reflexivity.
  Qed.
  Lemma call_talk h d b sid x : waits h d -> sane (world h) -> meant (world h) b sid -> Z.testbit b 0 = true -> slaves d sid = Some x -> 1 <= txSz x <= Z.of_nat (length (txBuff x)) ->
    exists h' d' b0 t, txBuff x = b0 :: t /\ serve event h d (Call b) = Some (h', d', Acked true) /\ offers h' d' sid (gaveOne (begun x b) t) b0 /\ regs h h' /\ told d' = told d ++ [(sid, 6)] /\ others d d' sid.
  Proof.
    intros W Sa M Ev Sl Sz. pose proof W as (W1 & W2 & W3 & W4 & W5 & W6 & W7). destruct (lookup_meant _ _ _ Sa M) as (Bb & Lk & _). unfold serve. rewrite (still h d W).
    rewrite (addressed_meant h b sid Sa M W5 W4). cbn [fst snd]. unfold roleOf, codeOf. rewrite Ev. destruct (Z.eqb_spec b 0) as [E0|N0]; [rewrite E0 in Ev; discriminate Ev|]. set (h1 := becomes h _ _ b). set (cc := if 0 <? txSz x - 1 then 0x38 else 0x3C).
    destruct (txBuff x) as [|b0 t] eqn:Tx; [cbn [length] in Sz; lia|].
    assert (K : handleSlaveXferState h1 x = Some (flags (DAT h1 b0) cc, gaveOne (begun x b) t, 6)).
    { unfold handleSlaveXferState. change (stat h1) with 0xA8. change (dat h1) with b. rewrite (u8_id b Bb), (even_addr b Bb). change (Z.land 0xA8 0xF8) with 0xA8. cbn [Z.eqb Pos.eqb orb]. unfold load. cbn [setAddr setStatus txBuff]. rewrite Tx. unfold cc. cbn [txSz setAddr setStatus]. destruct (0 <? txSz x - 1); reflexivity. }
    assert (Gi : getSlaveIndex h1 = sid). { unfold getSlaveIndex. change (stat h1) with 0xA8. change (dat h1) with b. rewrite (u8_id b Bb). change (lookupSlaveIndex (world h1) b) with (lookupSlaveIndex (world h) b). rewrite Lk. reflexivity. }
    pose proof (quiet sid 6 (memory d) (gaveOne (begun x b) t) ltac:(lia)) as Q. destruct (event sid 6 (memory d) (gaveOne (begun x b) t)) as [u y] eqn:Evt. cbn [snd] in Q. subst y.
    assert (I : interrupt event h1 d = Some (flags (DAT h1 b0) cc, mkDrv (Some sid) (setSlave d sid (gaveOne (begun x b) t)) u (told d ++ [(sid, 6)]))).
    { unfold interrupt. change (si h1) with true. cbv iota. unfold i2c_state_handling. change (stat h1) with 0xA8. change (Z.land 0xA8 0xF8 <? 0x60) with false. cbv iota. unfold SlaveStateHandler. rewrite W7, Gi, Sl, K. change (6 =? RET_SLAVE_BUSY) with false. cbv iota. rewrite Evt. reflexivity. }
    rewrite I. do 2 eexists. exists b0, t. split; [reflexivity|]. split; [reflexivity|]. split; [|split; [unfold cc; destruct (0 <? txSz x - 1); rewrite ?flags56, ?flags60; split; reflexivity|split; [reflexivity|intros n N; apply setSlave_other; exact N]]].
    split; [|split; [unfold cc; destruct (0 <? txSz x - 1); rewrite ?flags56, ?flags60; reflexivity|split]].
    - unfold busy. cbn [sXfer slaves]. rewrite setSlave_same. pose proof (even_land b) as Z0. unfold cc. destruct (0 <? txSz x - 1); rewrite ?flags56, ?flags60; repeat split; auto.
    - cbn [gaveOne txSz begun setStatus setAddr]. unfold cc. destruct (0 <? txSz x - 1); rewrite ?flags56, ?flags60; reflexivity.
    - cbn [gaveOne txSz txBuff begun setStatus setAddr]. cbn [length] in Sz. lia.
  Qed.
  (** the end of a transfer that is going on *)
  Lemma stop_step h d sid x r : busy h d sid x r -> r <> Away -> exists h' d', interrupt event (ended h) d = Some (h', d') /\ waits h' d' /\ regs h h' /\ reported event d d' sid [] (setStatus x DONE).
  Proof.
    intros B N. assert (B' : busy h d sid x (part (world h))) by (destruct B as (B1 & B2 & B3 & B4 & B5 & B6); unfold busy; rewrite B5; tauto).
    assert (E : ended h = becomes h Away 0xA0 (dat h)). { unfold ended. destruct B as (_ & _ & _ & _ & B5 & _). rewrite B5. destruct r; [contradiction|reflexivity|reflexivity]. }
    rewrite E. apply (done_step h d sid x 0xA0 (dat h) B'). cbn. tauto.
  Qed.
  Lemma refuse_step h d sid x gc b : busy h d sid x (Listening gc) -> aa h = false -> exists h' d', serve event h d (Send b) = Some (h', d', Acked false) /\ waits h' d' /\ regs h h' /\ reported event d d' sid [] (setStatus x DONE).
  Proof.
    intros B Aa. assert (B' : busy h d sid x (part (world h))) by (destruct B as (B1 & B2 & B3 & B4 & B5 & B6); unfold busy; rewrite B5; tauto).
    unfold serve, sent. destruct B as (_ & _ & _ & _ & B5 & _). rewrite B5, Aa. cbn [fst snd].
    destruct (done_step h d sid x (if gc then 0x98 else 0x88) b B') as (h' & d' & E & R); [destruct gc; cbn; tauto|]. rewrite E. exists h', d'. split; [reflexivity|exact R].
  Qed.
  Lemma last_step h d sid x b ack : offers h d sid x b -> ack = false \/ txSz x = 0 -> exists h' d', serve event h d (Fetch ack) = Some (h', d', Got b) /\ waits h' d' /\ regs h h' /\ reported event d d' sid [] (setStatus x DONE).
  Proof.
    intros (B & Dt & Aa & Sz) C. assert (B' : busy h d sid x (part (world h))) by (destruct B as (B1 & B2 & B3 & B4 & B5 & B6); unfold busy; rewrite B5; tauto).
    unfold serve, fetched. destruct B as (_ & _ & _ & _ & B5 & _). rewrite B5, Aa, Dt. destruct ack; cbn [negb].
    - destruct C as [C|C]; [discriminate|]. rewrite C. cbn [Z.ltb Z.compare fst snd]. destruct (done_step h d sid x 0xC8 b B') as (h' & d' & E & R); [cbn; tauto|]. rewrite E. exists h', d'. split; [reflexivity|exact R].
    - cbn [fst snd]. destruct (done_step h d sid x 0xC0 b B') as (h' & d' & E & R); [cbn; tauto|]. rewrite E. exists h', d'. split; [reflexivity|exact R].
  Qed.
  Lemma reported_after d0 d1 d2 sid es x : told d1 = told d0 ++ map (fun e => (sid, e)) es -> others d0 d1 sid -> reported event d1 d2 sid [] x -> reported event d0 d2 sid es x.
  Proof. intros T O (R1 & R2 & R3). split; [rewrite R1, T, !map_app, <- app_assoc; reflexivity|]. split; [exact R2|]. intros n N. rewrite (R3 n N). apply O. exact N. Qed.
  Lemma map_const {A B} (b : B) (l : list A) : map (fun _ => b) l = repeat b (length l).
  Proof. induction l; cbn; congruence. Qed.
  Lemma map_repeat' {A B} (f : A -> B) a n : map f (repeat a n) = repeat (f a) n.
  Proof. induction n; cbn; congruence. Qed.

  (** a transfer up to its end, which a STOP or another START makes *)
  Lemma write_body h d b sid x l : waits h d -> sane (world h) -> meant (world h) b sid -> Z.testbit b 0 = false -> slaves d sid = Some x -> rxSz x <= Z.of_nat (room x) + 1 ->
    let k := Z.to_nat (rxSz x - 1) in
    exists h1 d1 h2 d2, serves event h d (Call b :: map Send l) = Some (h1, d1, Acked true :: taken k l) /\ interrupt event (ended h1) d1 = Some (h2, d2) /\ waits h2 d2 /\ regs h h2 /\
      reported event d d2 sid (repeat 5 (Nat.min k (length l))) (received x b (firstn k l)).
  Proof.
    intros W Sa M Ev Sl Ro k. destruct (call_listen h d b sid x W Sa M Ev Sl) as (h1 & d1 & E1 & B1 & A1 & G1 & T1 & O1). cbn [serves]. rewrite E1.
    set (l1 := firstn k l). assert (L1 : length l1 = Nat.min k (length l)) by (unfold l1; apply firstn_length).
    destruct (rx_run (b =? 0) sid l1 h1 d1 (begun x b) B1 A1) as (h2 & d2 & E2 & B2 & A2 & G2 & T2 & O2).
    { cbn [begun setStatus setAddr rxSz]. destruct l1 as [|c l1'] eqn:El; [right; reflexivity|left]. rewrite L1. unfold k in *. cbn [length] in L1. lia. }
    { cbn [begun setStatus setAddr room]. rewrite L1. unfold k. lia. }
    assert (Sp : taken k l = repeat (Acked true) (length l1) ++ repeat (Acked false) (length l - k)).
    { unfold taken. rewrite L1. replace (length l) with (Nat.min k (length l) + (length l - k))%nat at 1 by lia. rewrite seq_app, map_app. f_equal.
      - rewrite <- (seq_length (Nat.min k (length l)) 0) at 2. rewrite <- map_const. apply map_ext_in. intros i Hi. apply in_seq in Hi. f_equal. apply Nat.ltb_lt. lia.
      - rewrite <- (seq_length (length l - k) (0 + Nat.min k (length l))) at 2. rewrite <- map_const. apply map_ext_in. intros i Hi. apply in_seq in Hi. f_equal. apply Nat.ltb_ge. lia. }
    assert (Fin : setStatus (nextRx (begun x b) l1) DONE = received x b l1) by reflexivity.
    assert (Tl : told d2 = told d ++ map (fun e => (sid, e)) (repeat 5 (Nat.min k (length l)))) by (rewrite T2, T1, map_repeat', L1; reflexivity).
    assert (Ot : others d d2 sid) by (exact (others_trans _ _ _ _ O1 O2)).
    destruct (skipn k l) as [|c l2] eqn:Sk.
    - assert (Ll : (length l <= k)%nat). { assert (length (skipn k l) = 0%nat) by (rewrite Sk; reflexivity). rewrite skipn_length in H. lia. }
      assert (El : l = l1) by (unfold l1; rewrite firstn_all2 by lia; reflexivity).
      destruct (stop_step h2 d2 sid _ _ B2) as (h3 & d3 & E3 & W3 & G3 & R3); [discriminate|]. exists h2, d2, h3, d3.
      rewrite El at 1. rewrite E2. split; [rewrite Sp; replace (length l - k)%nat with 0%nat by lia; cbn [repeat]; rewrite app_nil_r; reflexivity|]. split; [exact E3|]. split; [exact W3|]. split; [exact (regs_trans _ _ _ G1 (regs_trans _ _ _ G2 G3))|].
      rewrite Fin in R3. exact (reported_after _ _ _ _ _ _ Tl Ot R3).
    - assert (Ll : (length l = k + Datatypes.S (length l2))%nat). { assert (H : length (skipn k l) = Datatypes.S (length l2)) by (rewrite Sk; reflexivity). rewrite skipn_length in H. lia. }
      assert (El : l = l1 ++ c :: l2) by (unfold l1; rewrite <- Sk; symmetry; apply firstn_skipn).
      destruct (refuse_step h2 d2 sid _ (b =? 0) c B2) as (h3 & d3 & E3 & W3 & G3 & R3). { rewrite A2. cbn [begun setStatus setAddr rxSz]. apply Z.ltb_ge. rewrite L1. unfold k in *. lia. }
      pose proof W3 as (_ & _ & Si3 & _ & _ & P3 & _). exists h3, d3, h3, d3.
      rewrite El at 1. rewrite map_app. cbn [map]. rewrite serves_app, E2. cbn [serves]. rewrite E3, (away_run l2 h3 d3 P3 Si3).
      split; [rewrite Sp; replace (length l - k)%nat with (Datatypes.S (length l2)) by lia; reflexivity|]. split; [exact (still h3 d3 W3)|]. split; [exact W3|]. split; [exact (regs_trans _ _ _ G1 (regs_trans _ _ _ G2 G3))|].
      rewrite Fin in R3. exact (reported_after _ _ _ _ _ _ Tl Ot R3).
  Qed.
  Lemma given_split data n : given data n = map Got (firstn n data) ++ repeat (Got 0xff) (n - length data).
  Proof.
    unfold given. revert n. induction data as [|a data IH]; intros [|n]; cbn [firstn map seq length Nat.sub app repeat nth]; try reflexivity.
    - f_equal. rewrite <- seq_shift, map_map. rewrite <- (seq_length n 0) at 2. rewrite <- map_const. apply map_ext. intros i. destruct i; reflexivity.
    - f_equal. rewrite <- IH. rewrite <- seq_shift, map_map. apply map_ext. intros i. reflexivity.
  Qed.
  Lemma read_body h d b sid x n : waits h d -> sane (world h) -> meant (world h) b sid -> Z.testbit b 0 = true -> slaves d sid = Some x -> 1 <= txSz x <= Z.of_nat (length (txBuff x)) ->
    let k := Z.to_nat (txSz x) in
    exists h1 d1, serves event h d (Call b :: reading n) = Some (h1, d1, Acked true :: given (firstn k (txBuff x)) (n + 1)) /\ waits h1 d1 /\ regs h h1 /\
      reported event d d1 sid (repeat 6 (Nat.min k (n + 1))) (delivered x b (Nat.min k (n + 1))).
  Proof.
    intros W Sa M Ev Sl Sz k. destruct (call_talk h d b sid x W Sa M Ev Sl Sz) as (h1 & d1 & b0 & t & Tx & E1 & Of1 & G1 & T1 & O1). cbn [serves]. rewrite E1.
    set (m := Nat.min (k - 1) n). set (x1 := gaveOne (begun x b) t) in *.
    destruct (tx_run sid m h1 d1 x1 b0 Of1) as (h2 & d2 & E2 & Of2 & G2 & T2 & O2); [cbn [x1 gaveOne begun setStatus setAddr txSz]; unfold m, k; lia|].
    cbn [x1 gaveOne begun setStatus setAddr txBuff] in E2, Of2. rewrite <- Tx in E2, Of2.
    assert (Tl : told d2 = told d ++ map (fun e => (sid, e)) (repeat 6 (Nat.min k (n + 1)))). { rewrite T2, T1, map_repeat', <- app_assoc. f_equal. replace (Nat.min k (n + 1)) with (Datatypes.S m) by (unfold m, k; lia). reflexivity. }
    assert (Ot : others d d2 sid) by (exact (others_trans _ _ _ _ O1 O2)).
    assert (Fin : setStatus (nextTx x1 m) DONE = delivered x b (Nat.min k (n + 1))).
    { unfold nextTx, delivered, x1, gaveOne, begun, setStatus, setAddr. cbn [slaveAddr txBuff txSz rxBuff room rxSz xstatus]. replace (Nat.min k (n + 1)) with (Datatypes.S m) by (unfold m, k; lia). rewrite Tx. cbn [skipn]. f_equal. lia. }
    assert (Ll : (m < length (txBuff x))%nat) by (unfold m, k; lia). assert (Lk : length (firstn k (txBuff x)) = k) by (rewrite firstn_length; unfold k; lia).
    assert (Gv : forall j, (j <= k)%nat -> map Got (firstn j (firstn k (txBuff x))) = map Got (firstn j (txBuff x))) by (intros j Hj; rewrite firstn_firstn, Nat.min_l by lia; reflexivity).
    assert (Nx : forall j, (j < length (txBuff x))%nat -> map Got (firstn j (txBuff x)) ++ [Got (nth j (txBuff x) 0xff)] = map Got (firstn (j + 1) (txBuff x))).
    { clear. intros j. generalize (txBuff x). induction j as [|j IH]; intros [|a l] Hj; cbn [length] in Hj; try lia; [reflexivity|]. cbn [firstn map app nth Nat.add]. rewrite (IH l) by lia. reflexivity. }
    unfold reading. destruct (Nat.leb_spec n (k - 1)) as [C|C].
    - assert (Em : m = n) by (unfold m; lia). rewrite Em in *. destruct (last_step h2 d2 sid _ _ false Of2) as (h3 & d3 & E3 & W3 & G3 & R3); [left; reflexivity|]. exists h3, d3.
      rewrite serves_app, E2. cbn [serves]. rewrite E3. split.
      + f_equal. f_equal. f_equal. rewrite given_split, Lk, Nx by lia. rewrite (Gv (n + 1)%nat) by (unfold k in *; lia). replace (n + 1 - k)%nat with 0%nat by (unfold k in *; lia). cbn [repeat]. rewrite app_nil_r. reflexivity.
      + split; [exact W3|]. split; [exact (regs_trans _ _ _ G1 (regs_trans _ _ _ G2 G3))|]. rewrite Fin in R3. exact (reported_after _ _ _ _ _ _ Tl Ot R3).
    - assert (Em : m = (k - 1)%nat) by (unfold m; lia). destruct (last_step h2 d2 sid _ _ true Of2) as (h3 & d3 & E3 & W3 & G3 & R3); [right; cbn [x1 nextTx gaveOne begun setStatus setAddr txSz]; rewrite Em; unfold k; lia|]. exists h3, d3.
      pose proof W3 as (_ & _ & Si3 & _ & _ & P3 & _). replace (repeat (Fetch true) n ++ [Fetch false]) with (repeat (Fetch true) m ++ Fetch true :: map Fetch (repeat true (n - k) ++ [false])).
      2: { rewrite map_app, map_repeat'. cbn [map]. change (Fetch true :: repeat (Fetch true) (n - k) ++ [Fetch false]) with (repeat (Fetch true) (Datatypes.S (n - k)) ++ [Fetch false]). rewrite app_assoc, <- repeat_app. f_equal. f_equal. unfold k in *. lia. }
      rewrite serves_app, E2. cbn [serves]. rewrite E3, (away_fetch _ h3 d3 P3 Si3). split.
      + f_equal. f_equal. f_equal. rewrite given_split, Lk. rewrite app_length, repeat_length. cbn [length].
        change (Got (nth m (txBuff x) 255) :: repeat (Got 255) (n - k + 1)) with ([Got (nth m (txBuff x) 255)] ++ repeat (Got 255) (n - k + 1)). rewrite app_assoc, Nx by exact Ll.
        f_equal; [|f_equal; unfold k in *; lia]. rewrite (@firstn_all2 Z (n + 1) (firstn k (txBuff x))) by (rewrite Lk; unfold k in *; lia). f_equal. f_equal. unfold k in *. lia.
      + split; [exact W3|]. split; [exact (regs_trans _ _ _ G1 (regs_trans _ _ _ G2 G3))|]. rewrite Fin in R3. exact (reported_after _ _ _ _ _ _ Tl Ot R3).
  Qed.
End S.
