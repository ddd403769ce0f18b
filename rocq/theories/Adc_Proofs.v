(** Proofs about the A/D converter. *)
From Verif Require Import Base Bits Adc_Model Adc_Spec.

Lemma flag_bit v n : 0 <= n -> (negb (Z.land v (2 ^ n) =? 0)) = Z.testbit v n.
Proof.
  intro N. destruct (Z.testbit v n) eqn:T.
  - apply negb_true_iff, Z.eqb_neq. intro E. assert (B : Z.testbit (Z.land v (2 ^ n)) n = false) by (rewrite E; apply Z.bits_0).
    rewrite Z.land_spec, T, Z.pow2_bits_true in B by exact N. discriminate.
  - apply negb_false_iff, Z.eqb_eq. apply Z.bits_inj. intro m. rewrite Z.land_spec, Z.bits_0, Z.pow2_bits_eqb by exact N. destruct (Z.eqb_spec n m) as [<-|]; [rewrite T; reflexivity|apply andb_false_r].
Qed.
Lemma done_flag v : negb (Z.land v ADC_DONE =? 0) = done v.
Proof. exact (flag_bit v 31 ltac:(discriminate)). Qed.
Lemma overrun_flag v : negb (Z.land v ADC_OVERRUN =? 0) = overrun v.
Proof. exact (flag_bit v 30 ltac:(discriminate)). Qed.
Lemma result_fresh old v : done old = false -> 0 <= v < 1024 -> done (result old v) = true /\ overrun (result old v) = false /\ Z.land (Z.shiftr (result old v) 6) 0x3ff = v /\ is_u32 (result old v).
Proof.
  intros D V. unfold result. rewrite D. unfold done, overrun. split; [|split; [|split]].
  - rewrite Z.testbit_eqb by lia. apply Z.eqb_eq. replace ((2147483648 + 0 + v * 64) / 2 ^ 31) with 1; [reflexivity|]. apply Z.div_unique with (v * 64); lia.
  - rewrite Z.testbit_eqb by lia. apply Z.eqb_neq. replace ((2147483648 + 0 + v * 64) / 2 ^ 30) with 2; [discriminate|]. apply Z.div_unique with (v * 64); lia.
  - rewrite Z.shiftr_div_pow2 by lia. replace ((2147483648 + 0 + v * 64) / 2 ^ 6) with (33554432 + v) by (apply Z.div_unique with 0; lia).
    change 0x3ff with (Z.ones 10). rewrite Z.land_ones by lia. change (2 ^ 10) with 1024. symmetry. apply Z.mod_unique with 32768; lia.
  - unfold is_u32. lia.
Qed.
Lemma cleared v : done (Z.land v 0x3fffffff) = false.
Proof. unfold done. rewrite Z.land_spec. apply andb_false_r. Qed.
Lemma land_u32 a b : is_u32 a -> is_u32 (Z.land a b).
Proof.
  intro A. unfold is_u32 in *. assert (0 <= Z.land a b) by (apply Z.land_nonneg; left; lia). split; [assumption|].
  change 4294967296 with (2 ^ 32). apply lt_pow2_bits; [assumption|lia|]. intros m M. rewrite Z.land_spec. rewrite (bits_above_lt a 32) by lia. reflexivity.
Qed.
Lemma u32_id v : is_u32 v -> u32 v = v.
Proof. intro H. apply Z.mod_small. exact H. Qed.
Lemma wr_forall (P : Z -> Prop) l i v : Forall P l -> P v -> Forall P (wr l i v).
Proof. intros H V. revert i. induction H; intros [|i]; cbn [wr]; constructor; auto. Qed.

(** ** one moment *)
Definition sound (s : adc) : Prop := length (dr s) = 8%nat /\ Forall is_u32 (dr s).
Lemma result_u32 old v : 0 <= v < 1024 -> is_u32 (result old v).
Proof. intro V. unfold result, is_u32. destruct (done old); lia. Qed.
Lemma tick_keeps e s : tenbit e -> sound s -> sound (tick e s) /\ on (tick e s) = on s /\ cr (tick e s) = cr s /\ now (tick e s) = S (now s).
Proof.
  intros T [L F]. unfold tick. destruct (work s) as [[c [|k]]|]; cbn [on cr now]; (split; [split; cbn [dr]|auto]); auto; [rewrite wr_length; exact L|].
  apply wr_forall; [exact F|]. apply result_u32, T.
Qed.
Lemma tick_idle e s : work s = None -> work (tick e s) = None /\ dr (tick e s) = dr s.
Proof. intro W. unfold tick. rewrite W. split; reflexivity. Qed.

(** ** waiting for the result *)
Lemma wait_done e c : (c < 8)%nat -> tenbit e -> forall k s, sound s -> work s = Some (c, k) -> done (rd (dr s) c) = false ->
  exists s' v, (forall n, (k < n)%nat -> waitDone (lpc e) n s c = Some (s', v)) /\ (forall n, (n <= k)%nat -> waitDone (lpc e) n s c = None) /\
    v = result (rd (dr s) c) (volts e (now s + k)%nat c) /\ sound s' /\ on s' = on s /\ cr s' = cr s /\ work s' = None /\ now s' = S (now s + k)%nat.
Proof.
  intros C T. induction k as [|k IH]; intros s So W D.
  - destruct (tick_keeps e s T So) as (K1 & K2 & K3 & K4). destruct (result_fresh _ (volts e (now s) c) D (T _ _)) as (R1 & R2 & R3 & R4).
    assert (Dr : rd (dr (tick e s)) c = result (rd (dr s) c) (volts e (now s) c)). { unfold tick. rewrite W. cbn [dr]. apply rd_wr_same. rewrite (proj1 So). exact C. }
    eexists. eexists. split; [|split; [|split]].
    + intros [|n] N; [lia|]. cbn [waitDone lpc readDR]. rewrite Dr, done_flag, R1. reflexivity.
    + intros n N. assert (n = O) by lia. subst n. reflexivity.
    + rewrite Nat.add_0_r. reflexivity.
    + cbn [on cr work now dr]. split; [|split; [|split; [|split]]].
      * split; cbn [dr]; [rewrite wr_length; exact (proj1 K1)|]. apply wr_forall; [exact (proj2 K1)|]. apply land_u32. rewrite ?Dr. exact R4.
      * exact K2. * exact K3. * unfold tick. rewrite W. reflexivity. * rewrite K4. lia.
  - destruct (tick_keeps e s T So) as (K1 & K2 & K3 & K4). set (t := tick e s) in *.
    assert (Wt : work t = Some (c, k)) by (unfold t, tick; rewrite W; reflexivity). assert (Dt : dr t = dr s) by (unfold t, tick; rewrite W; reflexivity).
    set (s1 := {| on := on t; cr := cr t; dr := wr (dr t) c (Z.land (rd (dr t) c) 0x3fffffff); work := work t; now := now t |}).
    assert (S1 : sound s1). { split; cbn [dr s1]; [rewrite wr_length; exact (proj1 K1)|]. apply wr_forall; [exact (proj2 K1)|]. apply land_u32. 
      pose proof (proj2 K1) as F. rewrite Forall_forall in F. apply F. unfold rd. apply nth_In. rewrite (proj1 K1). exact C. }
    assert (R1 : rd (dr s1) c = Z.land (rd (dr s) c) 0x3fffffff). { cbn [dr s1]. rewrite rd_wr_same by (rewrite (proj1 K1); exact C). rewrite Dt. reflexivity. }
    destruct (IH s1 S1 Wt) as (s' & v & A1 & A2 & A3 & A4 & A5 & A6 & A7 & A8); [rewrite R1; apply cleared|].
    exists s', v. split; [|split; [|split]].
    + intros [|n] N; [lia|]. cbn [waitDone lpc readDR]. fold t. rewrite Dt, done_flag, D. rewrite <- Dt. apply A1. lia.
    + intros [|n] N; [reflexivity|]. cbn [waitDone lpc readDR]. fold t. rewrite Dt, done_flag, D. rewrite <- Dt. apply A2. lia.
    + rewrite A3. unfold result. rewrite R1, cleared, D. replace (now s1 + k)%nat with (now s + S k)%nat; [reflexivity|]. cbn [now s1]. lia.
    + split; [exact A4|]. split; [rewrite A5; exact K2|]. split; [rewrite A6; exact K3|]. split; [exact A7|]. rewrite A8. cbn [now s1]. lia.
Qed.

(** ** the control register *)
Lemma start_value v c : is_u32 v -> Z.land (Z.shiftr v 24) 7 = 0 -> (c < 8)%nat ->
  let x := Z.lor (Z.land v 0xffffff00) (Z.lor (Z.shiftl 1 (Z.of_nat c)) ADC_START_NOW) in
  is_u32 x /\ started x = true /\ lowest 8 0 x = Some c /\ Z.land x 255 = 2 ^ Z.of_nat c /\ settings x = settings v /\ Z.shiftr x 27 = Z.shiftr v 27.
Proof.
  intros V ST C x.
  assert (B24 : forall i, 0 <= i < 3 -> Z.testbit v (24 + i) = false).
  { intros i I. assert (B : Z.testbit (Z.land (Z.shiftr v 24) 7) i = false) by (rewrite ST; apply Z.bits_0). rewrite Z.land_spec, Z.shiftr_spec in B by lia.
    replace (Z.testbit 7 i) with true in B; [rewrite andb_true_r in B; rewrite <- B; f_equal; lia|]. assert (i = 0 \/ i = 1 \/ i = 2) as [->|[->| ->]] by lia; reflexivity. }
  assert (TB : forall i, 0 <= i -> Z.testbit x i = if i <? 8 then i =? Z.of_nat c else if i =? 24 then true else if i <? 32 then Z.testbit v i else false).
  { intros i I. unfold x. rewrite !Z.lor_spec, Z.land_spec. change ADC_START_NOW with (2 ^ 24). rewrite Z.shiftl_1_l, !Z.pow2_bits_eqb by lia.
    destruct (i <? 8) eqn:L.
    - assert (M : Z.testbit 0xffffff00 i = false). { assert (i = 0 \/ i = 1 \/ i = 2 \/ i = 3 \/ i = 4 \/ i = 5 \/ i = 6 \/ i = 7) as D by lia. destruct D as [->|[->|[->|[->|[->|[->|[->| ->]]]]]]]; reflexivity. }
      rewrite M, andb_false_r. cbn [orb]. destruct (Z.eqb_spec 24 i); [lia|]. rewrite orb_false_r. apply Z.eqb_sym.
    - destruct (Z.eqb_spec (Z.of_nat c) i); [lia|]. destruct (Z.eqb_spec 24 i) as [<-|N]; [rewrite !orb_true_r; reflexivity|]. rewrite !orb_false_r.
      destruct (Z.eqb_spec i 24); [lia|]. destruct (i <? 32) eqn:L2.
      + replace (Z.testbit 0xffffff00 i) with true; [apply andb_true_r|]. change 0xffffff00 with (Z.shiftl (Z.ones 24) 8). rewrite Z.shiftl_spec by lia. symmetry. apply Z.ones_spec_low. lia.
      + rewrite (bits_above_lt v 32) by (unfold is_u32 in V; lia). reflexivity. }
  assert (X0 : 0 <= x). { unfold x. apply Z.lor_nonneg. split; [apply Z.land_nonneg; right; lia|]. apply Z.lor_nonneg. split; [apply Z.shiftl_nonneg; lia|discriminate]. }
  split; [|split; [|split; [|split; [|split]]]].
  - split; [exact X0|]. change 4294967296 with (2 ^ 32). apply lt_pow2_bits; [exact X0|lia|]. intros m M. rewrite TB by lia. destruct (Z.ltb_spec m 8); [lia|]. destruct (Z.eqb_spec m 24); [lia|]. destruct (Z.ltb_spec m 32); [lia|reflexivity].
  - unfold started. apply Z.eqb_eq. apply Z.bits_inj'. intros i I. rewrite Z.land_spec, Z.shiftr_spec by lia.
    destruct (Z_lt_le_dec i 3) as [L|L].
    + rewrite TB by lia. destruct (Z.ltb_spec (i + 24) 8); [lia|]. destruct (Z.ltb_spec (i + 24) 32); [|lia]. replace (i + 24) with (24 + i) by lia. destruct (Z.eqb_spec (24 + i) 24) as [Q|Q]; [assert (i = 0) by lia; subst i; reflexivity|].
      rewrite B24 by lia. assert (i = 1 \/ i = 2) as [->| ->] by lia; reflexivity.
    + rewrite (bits_above_lt 7 3), (bits_above_lt 1 3) by lia. apply andb_false_r.
  - cbn [lowest]. rewrite !TB by lia. destruct c as [|[|[|[|[|[|[|[|]]]]]]]]; try lia; reflexivity.
  - change 255 with (Z.ones 8). apply Z.bits_inj'. intros i I. rewrite Z.land_spec, TB by lia. rewrite Z.pow2_bits_eqb by lia. destruct (Z.ltb_spec i 8).
    + rewrite Z.ones_spec_low by lia. rewrite andb_true_r. apply Z.eqb_sym.
    + rewrite Z.ones_spec_high by lia. rewrite andb_false_r. destruct (Z.eqb_spec (Z.of_nat c) i); [lia|reflexivity].
  - unfold settings. change 0xffff00 with (Z.shiftl (Z.ones 16) 8). apply Z.bits_inj'. intros i I. rewrite !Z.land_spec, TB by lia. destruct (Z_lt_le_dec i 8) as [L|L].
    + rewrite Z.shiftl_spec_low by lia. rewrite !andb_false_r. reflexivity.
    + rewrite Z.shiftl_spec by lia. destruct (Z.ltb_spec i 8); [lia|]. destruct (Z_lt_le_dec i 24) as [L2|L2].
      * destruct (Z.eqb_spec i 24); [lia|]. destruct (Z.ltb_spec i 32); [reflexivity|lia].
      * rewrite Z.ones_spec_high by lia. rewrite !andb_false_r. reflexivity.
  - apply Z.bits_inj'. intros i I. rewrite !Z.shiftr_spec, TB by lia. destruct (Z.ltb_spec (i + 27) 8); [lia|]. destruct (Z.eqb_spec (i + 27) 24); [lia|]. destruct (Z.ltb_spec (i + 27) 32); [reflexivity|].
    symmetry. apply (bits_above_lt v 32); [exact V|lia].
Qed.
Lemma quiet_value v : is_u32 v -> Z.land (Z.shiftr v 24) 7 = 0 -> let x := Z.land v 0xffffff00 in is_u32 x /\ started x = false /\ Z.land (Z.shiftr x 24) 7 = 0.
Proof.
  intros V ST x. assert (E : Z.land (Z.shiftr x 24) 7 = 0).
  { unfold x. rewrite Z.shiftr_land. change (Z.shiftr 0xffffff00 24) with 255. rewrite <- Z.land_assoc. change (Z.land 255 7) with 7. exact ST. }
  split; [apply land_u32, V|]. split; [|exact E]. unfold started. rewrite E. reflexivity.
Qed.
Lemma stop_value x : is_u32 x -> let y := Z.land x 0xf8ffffff in is_u32 y /\ started y = false /\ Z.land (Z.shiftr y 24) 7 = 0 /\ Z.land y 255 = Z.land x 255 /\ settings y = settings x /\ Z.shiftr y 27 = Z.shiftr x 27.
Proof.
  intros X y. assert (E : Z.land (Z.shiftr y 24) 7 = 0).
  { unfold y. rewrite Z.shiftr_land. change (Z.shiftr 0xf8ffffff 24) with 0xf8. rewrite <- Z.land_assoc. change (Z.land 0xf8 7) with 0. apply Z.land_0_r. }
  split; [apply land_u32, X|]. split; [unfold started; rewrite E; reflexivity|]. split; [exact E|].
  split; [unfold y; rewrite <- Z.land_assoc; reflexivity|]. split; [unfold settings, y; rewrite <- Z.land_assoc; reflexivity|].
  unfold y. rewrite Z.shiftr_land. change (Z.shiftr 0xf8ffffff 27) with (Z.ones 5). rewrite Z.land_ones by lia. apply Z.mod_small. rewrite Z.shiftr_div_pow2 by lia. unfold is_u32 in X. split; [apply Z.div_pos; lia|apply Z.div_lt_upper_bound; lia].
Qed.

(** ** one reading *)
Lemma change_cr e s f : tenbit e -> sound s -> let v := u32 (f (cr s)) in exists s', changeCR (lpc e) s f = s' /\ sound s' /\ on s' = on s /\ cr s' = v /\ now s' = S (S (now s)) /\
  work s' = (if on s && started v then match lowest 8 0 v with Some c => Some (c, takes e (S (S (now s)))) | None => None end else None) /\ (work s = None -> dr s' = dr s).
Proof.
  intros T So v. destruct (tick_keeps e s T So) as (K1 & K2 & K3 & K4). destruct (tick_keeps e (tick e s) T K1) as (L1 & L2 & L3 & L4).
  unfold changeCR. cbn [lpc getCR setCR]. rewrite K3. eexists. split; [reflexivity|]. split; [exact L1|]. cbn [on cr now work dr]. rewrite L2, K2, L4, K4. split; [reflexivity|]. split; [reflexivity|]. split; [reflexivity|].
  split; [reflexivity|]. intro W. destruct (tick_idle e s W) as [W1 D1]. destruct (tick_idle e _ W1) as [_ D2]. congruence.
Qed.
Lemma poll e s c : tenbit e -> ready s -> (c < 8)%nat ->
  let begin := (now s + 5)%nat in
  exists s' v, (forall n, (takes e begin < n)%nat -> analogPoll (lpc e) n s c = Some (s', v)) /\ (forall n, (n <= takes e begin)%nat -> analogPoll (lpc e) n s c = None) /\
    done v = true /\ overrun v = false /\ Z.land (Z.shiftr v 6) 0x3ff = volts e (begin + takes e begin)%nat c /\
    ready s' /\ work s' = None /\ Z.land (cr s') 255 = 2 ^ Z.of_nat c /\ settings (cr s') = settings (cr s) /\ Z.shiftr (cr s') 27 = Z.shiftr (cr s) 27 /\ (begin + takes e begin < now s')%nat.
Proof.
  intros T (R1 & R2 & R3 & R4 & R5) C begin. assert (So : sound s) by (split; assumption).
  destruct (quiet_value _ R2 R3) as (Q1 & Q2 & Q3).
  destruct (change_cr e s (fun v => Z.land v 0xffffff00) T So) as (s1 & A1 & A2 & A3 & A4 & A5 & A6 & _). cbv beta in A4, A6. rewrite (u32_id _ Q1) in A4, A6. rewrite Q2, andb_false_r in A6.
  destruct (tick_keeps e s1 T A2) as (K1 & K2 & K3 & K4). destruct (tick_idle e s1 A6) as [W1 D1].
  set (t := tick e s1) in *. set (s2 := {| on := on t; cr := cr t; dr := wr (dr t) c (Z.land (rd (dr t) c) 0x3fffffff); work := work t; now := now t |}).
  assert (S2 : sound s2). { split; cbn [dr s2]; [rewrite wr_length; exact (proj1 K1)|]. apply wr_forall; [exact (proj2 K1)|]. apply land_u32. pose proof (proj2 K1) as F. rewrite Forall_forall in F. apply F. unfold rd. apply nth_In. rewrite (proj1 K1). exact C. }
  destruct (start_value (cr s) c R2 R3 C) as (V1 & V2 & V3 & V4 & V5 & V6). set (x := Z.lor (Z.land (cr s) 0xffffff00) (Z.lor (Z.shiftl 1 (Z.of_nat c)) ADC_START_NOW)) in *.
  destruct (change_cr e s2 (fun v => Z.lor v (Z.lor (Z.shiftl 1 (Z.of_nat c)) ADC_START_NOW)) T S2) as (s3 & B1 & B2 & B3 & B4 & B5 & B6 & B7). cbv beta in B4, B6.
  assert (X : u32 (Z.lor (cr s2) (Z.lor (Z.shiftl 1 (Z.of_nat c)) ADC_START_NOW)) = x). { cbn [cr s2]. rewrite K3, A4. fold x. apply u32_id, V1. }
  rewrite X in B4, B6. assert (O2 : on s2 = true) by (cbn [on s2]; congruence). rewrite O2, V2, V3 in B6. cbn [andb] in B6.
  assert (N2 : S (S (now s2)) = begin) by (cbn [now s2]; unfold begin; lia). rewrite N2 in B5, B6.
  assert (Dn : done (rd (dr s3) c) = false). { rewrite B7 by exact W1. cbn [dr s2]. rewrite rd_wr_same by (rewrite (proj1 K1); exact C). apply cleared. }
  destruct (wait_done e c C T _ s3 B2 B6 Dn) as (s4 & v & E1 & E2 & E3 & E4 & E5 & E6 & E7 & E8). rewrite B5 in E3.
  destruct (result_fresh _ (volts e (begin + takes e begin)%nat c) Dn (T _ _)) as (F1 & F2 & F3 & F4). rewrite <- E3 in F1, F2, F3.
  destruct (stop_value x V1) as (Y1 & Y2 & Y3 & Y4 & Y5 & Y6).
  destruct (change_cr e s4 (fun v => Z.land v 0xf8ffffff) T E4) as (s5 & G1 & G2 & G3 & G4 & G5 & G6 & G7). cbv beta in G4, G6. rewrite E6, B4 in G4, G6. rewrite (u32_id _ Y1) in G4, G6. rewrite Y2, andb_false_r in G6.
  exists s5, v. assert (P : forall n, analogPoll (lpc e) n s c = match waitDone (lpc e) n s3 c with Some (h, regVal) => Some (changeCR (lpc e) h (fun v => Z.land v 0xf8ffffff), regVal) | None => None end).
  { intro n. unfold analogPoll. rewrite A1. cbn [lpc readDR]. fold t. fold s2. change ({| getCR := _; setCR := _; readDR := _ |}) with (lpc e). rewrite B1. reflexivity. }
  split; [intros n N; rewrite P, E1 by exact N; rewrite G1; reflexivity|]. split; [intros n N; rewrite P, E2 by exact N; reflexivity|].
  split; [exact F1|]. split; [exact F2|]. split; [exact F3|]. split.
  { split; [congruence|]. split; [rewrite G4; exact Y1|]. split; [rewrite G4; exact Y3|exact G2]. }
  split; [exact G6|]. rewrite G4. split; [rewrite Y4; exact V4|]. split; [rewrite Y5; exact V5|]. split; [rewrite Y6; exact V6|]. rewrite G5, E8, B5. clear. lia.
Qed.

Lemma poll_moment e s c : tenbit e -> ready s -> (c < 8)%nat -> let begin := (now s + 5)%nat in
  exists s' v, (forall n, (takes e begin < n)%nat -> analogPoll (lpc e) n s c = Some (s', v)) /\ (forall n, (n <= takes e begin)%nat -> analogPoll (lpc e) n s c = None) /\
    overrun v = false /\ Z.land (Z.shiftr v 6) 0x3ff = volts e (begin + takes e begin)%nat c /\ ready s' /\ (begin + takes e begin < now s')%nat.
Proof.
  intros T R C begin. destruct (poll e s c T R C) as (s' & v & A1 & A2 & A3 & A4 & A5 & A6 & A7 & A8 & A9 & A10 & A11). exists s', v. auto 10.
Qed.
(** switched off: nothing is ever finished *)
Lemma never_done e c : tenbit e -> (c < 8)%nat -> forall n s, sound s -> work s = None -> done (rd (dr s) c) = false -> waitDone (lpc e) n s c = None.
Proof.
  intros T C. induction n as [|n IH]; intros s So W D; [reflexivity|]. destruct (tick_keeps e s T So) as (K1 & K2 & K3 & K4). destruct (tick_idle e s W) as [W1 D1].
  cbn [waitDone lpc readDR]. rewrite D1, done_flag, D. apply IH.
  - split; cbn [dr]; [rewrite wr_length, <- D1; exact (proj1 K1)|]. apply wr_forall; [rewrite <- D1; exact (proj2 K1)|]. apply land_u32. pose proof (proj2 So) as F. rewrite Forall_forall in F. apply F. unfold rd. apply nth_In. rewrite (proj1 So). exact C.
  - exact W1.
  - cbn [dr]. rewrite rd_wr_same by (rewrite (proj1 So); exact C). apply cleared.
Qed.
