(** Lemmas for C111: search, all sensors, a measurement *)
From Verif Require Ds18_Spec Ds18_Props.
From Verif Require Export Ds18Wire_Proofs.

Definition plus (a b : list nat) : list nat := map (fun p => (fst p + snd p)%nat) (combine a b).
Lemma plus_selected (xs : sensors) : forall a s1 s2, plus (plus a (selected xs s1)) (selected xs s2) = plus a (selected xs (s1 ++ s2)).
Proof.
  unfold plus, selected. induction xs as [|x xs IH]; intros [|n a] s1 s2; cbn [map combine fst snd]; try reflexivity. rewrite IH. f_equal. rewrite count_occ_app. lia.
Qed.
(** what does not change *)
Definition keeps (st st' : ds) : Prop := foundDevices st' = foundDevices st /\ length (dsDev st') = length (dsDev st) /\
  forall k, addr (Ds18_Model.device st' k) = addr (Ds18_Model.device st k) /\ type (Ds18_Model.device st' k) = type (Ds18_Model.device st k) /\ res_type (Ds18_Model.device st' k) = res_type (Ds18_Model.device st k).
Lemma keeps_refl st : keeps st st. Proof. repeat split. Qed.
Lemma keeps_trans a b c : keeps a b -> keeps b c -> keeps a c.
Proof. intros (A1 & A2 & A3) (B1 & B2 & B3). split; [congruence|]. split; [congruence|]. intros k. destruct (A3 k) as (? & ? & ?), (B3 k) as (? & ? & ?). repeat split; congruence. Qed.
Lemma keeps_wr st f i d : f = foundDevices st -> (i < length (dsDev st))%nat -> addr d = addr (Ds18_Model.device st i) -> type d = type (Ds18_Model.device st i) -> res_type d = res_type (Ds18_Model.device st i) ->
  keeps st (mkDs f (wr (dsDev st) i d)).
Proof.
  intros -> L H1 H2 H3. split; [reflexivity|]. split; [apply wr_length|]. intros k. unfold Ds18_Model.device at 1 3 5. cbn [dsDev]. destruct (Nat.eq_dec i k) as [<-|N].
  - rewrite nth_wr_same by exact L. auto.
  - rewrite nth_wr_other by exact N. auto.
Qed.
Lemma start_keeps st i now p b st' ev : startConversion st i now p = Some (b, st', ev) -> keeps st st'.
Proof.
  unfold startConversion. destruct (foundDevices st <=? i) eqn:E1; [let E := fresh in intros E; inversion E; subst; apply keeps_refl|]. destruct ((i <? 0) || _) eqn:E2; [discriminate|]. cbv zeta. destruct (negb _ || negb _); [|let E := fresh in intros E; inversion E; subst; apply keeps_refl].
  destruct p; [|let E := fresh in intros E; inversion E; subst; apply keeps_refl]. let E := fresh in intros E; inversion E; subst. apply keeps_wr; try reflexivity. lia.
Qed.
Lemma read_keeps st i now p a b st' ev : readResult st i now p a = Some (b, st', ev) -> keeps st st'.
Proof.
  unfold readResult. destruct (foundDevices st <=? i) eqn:E1; [let E := fresh in intros E; inversion E; subst; apply keeps_refl|]. destruct ((i <? 0) || _) eqn:E2; [discriminate|]. cbv zeta. destruct (negb _ || (now <? _)); [let E := fresh in intros E; inversion E; subst; apply keeps_refl|].
  destruct p; cbn [negb]; [|let E := fresh in intros E; inversion E; subst; apply keeps_refl]. let E := fresh in intros E; inversion E; subst. apply keeps_wr; try reflexivity. lia.
Qed.

Section Line.
  Context (wd : world) (par : bool) (xs : sensors).
  Hypothesis HL : legal wd.
  Hypothesis HQ : quick wd.
  Hypothesis HS : shorted wd = false.
  Hypothesis HR : resistor wd = true.
  Hypothesis HD : distinct xs.
  Notation P := (gpio search_devices wd).
  Definition addressed (st : ds) (j : Z) (n : nat) : Prop := forall k, (Z.to_nat j <= k < Z.to_nat j + n)%nat -> rom_ok (addr (Ds18_Model.device st k)).
  Lemma start_all_line n : forall j st now l, 0 <= j -> addressed st j n -> atRest l -> on_line xs l ->
    match startAll n j st now (fun _ => answers xs) with
    | None => startAllW P par n j st now l = None
    | Some (b, st', ev) => exists l', startAllW P par n j st now l = Some (l', (b, st')) /\ atRest l' /\ on_line xs l' /\ keeps st st' /\ conversions l' = plus (conversions l) (selected xs (commanded 0x44 ev))
    end.
  Proof.
    induction n as [|n IH]; intros j st now l J HA H1 H2; cbn [startAll startAllW].
    - exists l. split; [reflexivity|]. split; [exact H1|]. split; [exact H2|]. split; [apply keeps_refl|]. apply (started_none wd xs HS HR l [] eq_refl H2).
    - pose proof (start_line wd par xs HL HQ HS HR HD st j now l (or_introl (HA (Z.to_nat j) ltac:(lia))) H1 H2) as G. destruct (startConversion st j now (answers xs)) as [[[b st1] ev1]|] eqn:E1; [|rewrite G; reflexivity].
      destruct G as (l1 & G1 & R1 & O1 & C1). rewrite G1. pose proof (start_keeps _ _ _ _ _ _ _ E1) as K1. specialize (IH (j + 1) st1 now l1 ltac:(lia)).
      assert (HA1 : addressed st1 (j + 1) n). { intros k Hk. destruct K1 as (_ & _ & K1). destruct (K1 k) as (-> & _). apply HA. lia. }
      specialize (IH HA1 R1 O1). destruct (startAll n (j + 1) st1 now _) as [[[b2 st2] ev2]|]; [|rewrite IH; reflexivity]. destruct IH as (l2 & G2 & R2 & O2 & K2 & C2). rewrite G2. exists l2.
      split; [reflexivity|]. split; [exact R2|]. split; [exact O2|]. split; [exact (keeps_trans _ _ _ K1 K2)|]. rewrite C2, C1. unfold commanded. rewrite flat_map_app. apply plus_selected.
  Qed.
  Lemma read_all_line n : forall j st now l, 0 <= j -> addressed st j n -> atRest l -> on_line xs l ->
    match readAll n j st now (fun _ => answers xs) (answer xs) with
    | None => readAllW P par n j st now l = None
    | Some (b, st', ev) => exists l', readAllW P par n j st now l = Some (l', (b, st')) /\ atRest l' /\ on_line xs l' /\ keeps st st' /\ conversions l' = conversions l
    end.
  Proof.
    induction n as [|n IH]; intros j st now l J HA H1 H2; cbn [readAll readAllW].
    - exists l. split; [reflexivity|]. split; [exact H1|]. split; [exact H2|]. split; [apply keeps_refl|reflexivity].
    - pose proof (read_line wd par xs HL HQ HS HR HD st j now l (or_introl (HA (Z.to_nat j) ltac:(lia))) H1 H2) as G. destruct (readResult st j now (answers xs) (answer xs)) as [[[b st1] ev1]|] eqn:E1; [|rewrite G; reflexivity].
      destruct G as (l1 & G1 & R1 & O1 & C1). rewrite G1. pose proof (read_keeps _ _ _ _ _ _ _ _ E1) as K1. specialize (IH (j + 1) st1 now l1 ltac:(lia)).
      assert (HA1 : addressed st1 (j + 1) n). { intros k Hk. destruct K1 as (_ & _ & K1). destruct (K1 k) as (-> & _). apply HA. lia. }
      specialize (IH HA1 R1 O1). destruct (readAll n (j + 1) st1 now _ _) as [[[b2 st2] ev2]|]; [|rewrite IH; reflexivity]. destruct IH as (l2 & G2 & R2 & O2 & K2 & C2). rewrite G2. exists l2.
      split; [reflexivity|]. split; [exact R2|]. split; [exact O2|]. split; [exact (keeps_trans _ _ _ K1 K2)|]. congruence.
  Qed.

  Lemma idents_line l l' : idents (bus l') = idents (bus l) -> on_line xs l -> on_line xs l' /\ conversions l' = conversions l.
  Proof.
    intros H1 H2. unfold on_line, conversions in *. unfold idents in H1. split.
    - rewrite <- H2. apply (f_equal (map fst)) in H1. rewrite !map_map in H1. exact H1.
    - apply (f_equal (map snd)) in H1. rewrite !map_map in H1. exact H1.
  Qed.
  Lemma search_loop_line fuel : forall l q tmp j max ret st, atRest l -> on_line xs l ->
    match Ds18_Model.searchLoop fuel (map rom_bits (map fst xs)) q tmp j max ret st with
    | None => searchLoopW P par fuel l q tmp j max ret st = None
    | Some r => exists l', searchLoopW P par fuel l q tmp j max ret st = Some (l', r) /\ atRest l' /\ on_line xs l' /\ conversions l' = conversions l
    end.
  Proof.
    induction fuel as [|fuel IH]; intros l q tmp j max ret st H1 H2; [reflexivity|]. cbn [Ds18_Model.searchLoop searchLoopW].
    pose proof (search_call_line wd HL HQ HS par q l 64 (ready_now wd par HR) H1 (on_length xs HD l H2)) as G. rewrite (on_codes xs l H2) in G.
    destruct (oneWireSearch (map rom_bits (map fst xs)) q) as [[[found a] q1]|]; [|rewrite G; reflexivity]. destruct G as (l1 & G1 & R1 & I1). rewrite G1. destruct (idents_line l l1 I1 H2) as (O1 & C1). clear G1 I1. cbv zeta.
    set (a1 := match a with Some a => a | None => addr tmp end). clearbody a1.
    assert (IH' : forall q tmp j max ret st, match Ds18_Model.searchLoop fuel (map rom_bits (map fst xs)) q tmp j max ret st with
      | None => searchLoopW P par fuel l1 q tmp j max ret st = None
      | Some r => exists l', searchLoopW P par fuel l1 q tmp j max ret st = Some (l', r) /\ atRest l' /\ on_line xs l' /\ conversions l' = conversions l end).
    { intros. specialize (IH l1 q0 tmp0 j0 max0 ret0 st0 R1 O1). rewrite C1 in IH. exact IH. }
    destruct (negb (found && (j <? max))); [exists l1; auto|]. destruct (_ =? rd a1 7); [|apply IH'].
    set (t := if rd a1 0 =? DS18S20 then DS18S20 else _). clearbody t. destruct (negb (t =? DS_UNKNOWN)); [|apply IH']. destruct (Z.to_nat j <? length (dsDev st))%nat; [apply IH'|reflexivity].
  Qed.
  Lemma search_line l junk max st : atRest l -> on_line xs l ->
    match Search (map rom_bits (map fst xs)) junk max st with
    | None => SearchW P par l junk max st = None
    | Some r => exists l', SearchW P par l junk max st = Some (l', r) /\ atRest l' /\ on_line xs l' /\ conversions l' = conversions l
    end.
  Proof.
    intros H1 H2. unfold Search, SearchW. pose proof (search_loop_line (S (Z.to_nat max)) l OneWire_Model.resetSearch junk 0 max 4 (mkDs 0 (dsDev st)) H1 H2) as G.
    destruct (Ds18_Model.searchLoop (S (Z.to_nat max)) _ _ _ _ _ _ _) as [[r q]|]; cbn [option_map]; [|rewrite G; reflexivity]. destruct G as (l' & G1 & G2). rewrite G1. exists l'. cbn [option_map fst snd]. auto.
  Qed.
End Line.

(** reading all, on the side of the driver *)
Lemma readAll_run a n : forall j st now, 0 <= j -> (Z.to_nat j + n <= length (dsDev st))%nat -> j + Z.of_nat n <= foundDevices st ->
  (forall k, (Z.to_nat j <= k < Z.to_nat j + n)%nat -> conversionStarted (Ds18_Model.device st k) = true /\ readyAt (Ds18_Model.device st k) <= now) ->
  exists st' ev, readAll n j st now (fun _ => true) a = Some (negb (n =? 0)%nat, st', ev) /\ foundDevices st' = foundDevices st /\ length (dsDev st') = length (dsDev st) /\
  forall k, if ((Z.to_nat j <=? k) && (k <? Z.to_nat j + n))%nat then exists st1 e, readResult st (Z.of_nat k) now true a = Some (true, st1, e) /\ Ds18_Model.device st' k = Ds18_Model.device st1 k else Ds18_Model.device st' k = Ds18_Model.device st k.
Proof.
  assert (RS : forall st st0 j now, 0 <= j < foundDevices st -> foundDevices st0 = foundDevices st -> length (dsDev st0) = length (dsDev st) -> (Z.to_nat j < length (dsDev st))%nat -> Ds18_Model.device st0 (Z.to_nat j) = Ds18_Model.device st (Z.to_nat j) ->
    conversionStarted (Ds18_Model.device st (Z.to_nat j)) = true -> readyAt (Ds18_Model.device st (Z.to_nat j)) <= now ->
    exists d e, readResult st j now true a = Some (true, mkDs (foundDevices st) (wr (dsDev st) (Z.to_nat j) d), e) /\ readResult st0 j now true a = Some (true, mkDs (foundDevices st0) (wr (dsDev st0) (Z.to_nat j) d), e)).
  { intros st st0 j now J F L LJ D C R. unfold readResult. rewrite F, L, D. rewrite (proj2 (Z.leb_gt _ _)) by lia. replace ((j <? 0) || (Z.of_nat (length (dsDev st)) <=? j)) with false by lia. cbv zeta.
    rewrite C, (proj2 (Z.ltb_ge _ _)) by lia. cbn [negb orb]. eexists _, _. split; reflexivity. }
  induction n as [|n IH]; intros j st now J L F A.
  - exists st, []. split; [reflexivity|]. split; [reflexivity|]. split; [reflexivity|]. intros k. destruct ((Z.to_nat j <=? k) && (k <? Z.to_nat j + 0))%nat eqn:Q; [lia|reflexivity].
  - cbn [readAll]. destruct (A (Z.to_nat j) ltac:(lia)) as [A1 A2]. destruct (RS st st j now ltac:(lia) eq_refl eq_refl ltac:(lia) eq_refl A1 A2) as (d & e & E1 & _). rewrite E1.
    set (st1 := mkDs (foundDevices st) (wr (dsDev st) (Z.to_nat j) d)).
    assert (D1 : forall k, Ds18_Model.device st1 k = if (k =? Z.to_nat j)%nat then d else Ds18_Model.device st k).
    { intros k. unfold st1, Ds18_Model.device. cbn [dsDev]. destruct (Nat.eqb_spec k (Z.to_nat j)) as [->|N]; [apply nth_wr_same; lia|apply nth_wr_other; auto]. }
    destruct (IH (j + 1) st1 now) as (st' & ev & G1 & G2 & G3 & G4); [lia|unfold st1; cbn [dsDev]; rewrite wr_length; lia|unfold st1; cbn [foundDevices]; lia| |].
    { intros k Hk. rewrite D1. destruct (Nat.eqb_spec k (Z.to_nat j)); [lia|]. apply A. lia. }
    rewrite G1. eexists st', _. split; [reflexivity|]. split; [exact G2|]. split; [rewrite G3; unfold st1; cbn [dsDev]; apply wr_length|]. intros k. specialize (G4 k).
    destruct (Nat.eqb_spec k (Z.to_nat j)) as [->|N].
    + replace ((Z.to_nat (j + 1) <=? Z.to_nat j) && (Z.to_nat j <? Z.to_nat (j + 1) + n))%nat with false in G4 by (symmetry; apply andb_false_intro1, Nat.leb_gt; lia). rewrite G4.
      replace ((Z.to_nat j <=? Z.to_nat j) && (Z.to_nat j <? Z.to_nat j + S n))%nat with true by (symmetry; apply andb_true_intro; split; [apply Nat.leb_le|apply Nat.ltb_lt]; lia). exists st1, e. rewrite Z2Nat.id by exact J. split; [exact E1|reflexivity].
    + replace ((Z.to_nat j <=? k) && (k <? Z.to_nat j + S n))%nat with ((Z.to_nat (j + 1) <=? k) && (k <? Z.to_nat (j + 1) + n))%nat by (apply eq_true_iff_eq; rewrite !andb_true_iff, !Nat.leb_le, !Nat.ltb_lt; lia).
      destruct ((Z.to_nat (j + 1) <=? k) && (k <? Z.to_nat (j + 1) + n))%nat eqn:Q; [|rewrite G4, D1; rewrite (proj2 (Nat.eqb_neq _ _) N); reflexivity].
      destruct G4 as (st2 & e2 & H1 & H2). apply andb_true_iff in Q. destruct Q as [Q1 Q2]. apply Nat.leb_le in Q1. apply Nat.ltb_lt in Q2.
      assert (Dk : Ds18_Model.device st1 k = Ds18_Model.device st k) by (rewrite D1, (proj2 (Nat.eqb_neq _ _) N); reflexivity).
      destruct (A k ltac:(lia)) as [B1 B2]. destruct (RS st st1 (Z.of_nat k) now) as (d2 & e3 & H3 & H4); [lia|reflexivity|unfold st1; cbn [dsDev]; apply wr_length|lia|rewrite Nat2Z.id; exact Dk|rewrite Nat2Z.id; exact B1|rewrite Nat2Z.id; exact B2|].
      rewrite H4 in H1. injection H1 as <- <-. exists (mkDs (foundDevices st) (wr (dsDev st) (Z.to_nat (Z.of_nat k)) d2)), e3. split; [exact H3|]. rewrite H2. unfold Ds18_Model.device. cbn [dsDev]. rewrite Nat2Z.id, !nth_wr_same; [reflexivity|lia|unfold st1; cbn [dsDev]; rewrite wr_length; lia].
Qed.
