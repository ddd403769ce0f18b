(** Lemmas for C110 *)
From Verif Require Export Wire_Spec.

Section Slots.
  Context {B : Type} (d : devices B) (wd : world).
  Hypothesis HL : legal wd.
  Hypothesis HQ : quick wd.
  Notation P := (gpio d wd).

  Lemma lag_pos k : 0 <= lag wd k. Proof. apply HL. Qed.
  Lemma six k : lag wd k + lag wd (S k) + lag wd (S (S k)) + lag wd (S (S (S k))) + lag wd (S (S (S (S k)))) + lag wd (S (S (S (S (S k))))) <= 2000.
  Proof. pose proof (HQ k) as H. rewrite !(Nat.add_comm k) in H. exact H. Qed.
  Ltac lags n :=
    pose proof (lag_pos n); pose proof (lag_pos (S n)); pose proof (lag_pos (S (S n))); pose proof (lag_pos (S (S (S n)))); pose proof (lag_pos (S (S (S (S n)))));
    pose proof (lag_pos (S (S (S (S (S n)))))); pose proof (lag_pos (S (S (S (S (S (S n))))))); pose proof (lag_pos (S (S (S (S (S (S (S n)))))))).

  (** the line is pulled low *)
  Record lowered (b : B) (t : Z) (n : nat) (l : line B) : Prop := {
    lw_out : out l = true; lw_latch : latch l = false; lw_ops : ops l = n; lw_fell : t <= fell l; lw_now : fell l <= now l; lw_bus : bus l = b;
    lw_hold : sends d b = Some false -> fst (hold l) = fell l /\ fell l + 15000 <= snd (hold l) <= fell l + 60000;
    lw_free : sends d b <> Some false -> snd (hold l) < fell l;
    lw_snd : snd (hold l) <= fell l + 60000 }.
  Lemma drive_same o p v l : low l = o && negb v -> o || p || resistor wd = true ->
    drive d wd o p v l = mkLine o p v (now l + 0 + lag wd (ops l)) (S (ops l)) (fell l) (ready l) (hold l) (bus l) (pinIrq l).
  Proof.
    intros H1 H2. unfold drive. rewrite H1. unfold low. cbn [out latch]. rewrite andb_negb_l, andb_negb_r. rewrite <- !negb_orb, H2. reflexivity.
  Qed.
  Lemma drive_fall p l : low l = false -> ready l <= now l -> snd (hold l) < now l -> lowered (bus l) (now l) (S (ops l)) (drive d wd true p false l) /\
    now (drive d wd true p false l) = now l + lag wd (ops l) /\ fell (drive d wd true p false l) = now l.
  Proof.
    intros H1 H2 H3. unfold drive. rewrite H1. unfold low, fall. cbn [out pull latch now ops fell ready hold bus pinIrq andb negb]. rewrite (proj2 (Z.ltb_ge _ _)) by lia.
    pose proof (lag_pos (ops l)) as Hl. destruct HL as (_ & Hh & _). specialize (Hh (ops l)). cbn [tick out pull latch now ops fell ready hold bus pinIrq].
    split; [|split; [lia|reflexivity]]. destruct (sends d (bus l)) as [[]|] eqn:Es; split; cbn [tick out pull latch now ops fell ready hold bus pinIrq fst snd]; try reflexivity; try rewrite Es; intros; try discriminate; try congruence; try lia.
  Qed.
  Lemma go_low l : atRest l -> let l' := digitalWrite P false (pinMode P Output (pinInterrupt P false l)) in
    lowered (bus l) (now l) (S (S (S (ops l)))) l' /\ now l' <= fell l' + lag wd (S (ops l)) + lag wd (S (S (ops l))).
  Proof.
    intros (H1 & H2 & H3). pose proof (lag_pos (ops l)) as A0. pose proof (lag_pos (S (ops l))) as A1. pose proof (lag_pos (S (S (ops l)))) as A2.
    set (l0 := pinInterrupt P false l). assert (E0 : low l0 = false /\ ready l0 <= now l0 /\ snd (hold l0) < now l0 /\ ops l0 = S (ops l) /\ bus l0 = bus l /\ now l <= now l0).
    { unfold l0. cbn [pinInterrupt gpio tick low out latch ready now hold ops bus]. split; [exact H1|]. repeat split; lia. }
    clearbody l0. destruct E0 as (E1 & E2 & E3 & E4 & E5 & E6). cbv zeta. cbn [pinMode digitalWrite gpio]. destruct (latch l0) eqn:Ev.
    - assert (D := drive_same true (pull l0) true l0 E1 eq_refl). rewrite D. cbn [out orb pull]. set (l1 := mkLine _ _ _ _ _ _ _ _ _ _) in *.
      destruct (drive_fall (pull l0) l1) as (G1 & G2 & G3); [reflexivity|cbn; rewrite E4; lia|cbn; rewrite E4; lia|].
      set (l2 := drive d wd true (pull l0) false l1) in *. clearbody l2. cbn [ops bus now l1] in G1, G2, G3. rewrite E4 in *. rewrite E5 in G1. split; [|lia].
      destruct G1. split; try assumption; lia.
    - destruct (drive_fall (pull l0) l0 E1 E2 E3) as (G1 & G2 & G3). set (l1 := drive d wd true (pull l0) false l0) in *. clearbody l1. destruct G1.
      rewrite lw_out0. cbn [orb]. rewrite (drive_same true (pull l1) false l1); [|unfold low; rewrite lw_out0, lw_latch0; reflexivity|reflexivity].
      rewrite lw_ops0, E4 in *. split; [|cbn [now fell]; lia]. split; cbn [out latch now ops fell hold bus]; try assumption; try reflexivity; try lia; [congruence|rewrite <- E5; assumption|rewrite <- E5; assumption].
  Qed.

  (** ... and stays so *)
  Lemma stay b t n l us : lowered b t n l -> 0 <= us -> let l' := delayMicroseconds P us l in
    lowered b t (S n) l' /\ now l' = now l + us * 1000 + lag wd n /\ fell l' = fell l.
  Proof.
    intros [] Hu. pose proof (lag_pos n). cbn [delayMicroseconds gpio]. unfold tick. cbn [out latch now ops fell hold bus].
    split; [split|]; cbn [out latch now ops fell hold bus]; try assumption; [congruence|rewrite lw_ops0; lia|rewrite lw_ops0; auto].
  Qed.

  (** the slot a low time means *)
  Definition slot (t : Z) (b : B) : B :=
    match sends d b with
    | Some _ => if (1000 <=? t) && (t <=? 15000) then sent d b else upset d b
    | None => if (1000 <=? t) && (t <=? 15000) then onWrite d true b else if (60000 <=? t) && (t <=? 120000) then onWrite d false b else upset d b
    end.
  Lemma slot_short t b : 1000 <= t <= 15000 -> slot t b = writeSlot d true b.
  Proof. intros H. unfold slot, writeSlot. rewrite (proj2 (Z.leb_le 1000 t)), (proj2 (Z.leb_le t 15000)) by lia. reflexivity. Qed.
  Lemma slot_long t b : 60000 <= t <= 120000 -> slot t b = writeSlot d false b.
  Proof. intros H. unfold slot, writeSlot. rewrite (proj2 (Z.leb_le 1000 t)), (proj2 (Z.leb_gt t 15000)), (proj2 (Z.leb_le 60000 t)), (proj2 (Z.leb_le t 120000)) by lia. reflexivity. Qed.

  (** the line is let go again after a slot *)
  Record raised (b : B) (n : nat) (f t r : Z) (h : Z * Z) (o v : bool) (l : line B) : Prop := {
    rs_out : out l = o; rs_latch : latch l = v; rs_low : low l = false; rs_ops : ops l = n; rs_now : now l = t; rs_ready : ready l = r; rs_hold : hold l = h; rs_bus : bus l = b }.
  Lemma drive_rise o p v b t n l : lowered b t n l -> now l - fell l < 480000 -> o && negb v = false -> o || p || resistor wd = true ->
    raised (slot (now l - fell l) b) (S n) (fell l) (now l + lag wd n) (Z.max (fell l + 60000) (now l) + 1000) (hold l) o v (drive d wd o p v l) /\ pull (drive d wd o p v l) = p.
  Proof.
    intros [] Hs Hv Hf. unfold drive. replace (low l) with true by (unfold low; rewrite lw_out0, lw_latch0; reflexivity).
    set (l1 := mkLine o p v (now l) (ops l) (fell l) (ready l) (hold l) (bus l) (pinIrq l)). cbv zeta. replace (low l1) with false by (unfold low, l1; cbn [out latch]; auto). cbn [negb andb]. rewrite <- !negb_orb, Hf. cbn [negb].
    unfold rise, l1. cbn [out pull latch now ops fell ready hold bus pinIrq]. rewrite (proj2 (Z.leb_gt 480000 _)) by lia. rewrite lw_ops0, lw_bus0. split; [|reflexivity].
    split; cbn [tick out pull latch now ops fell ready hold bus pinIrq]; try reflexivity; [exact Hv|lia].
  Qed.
  Lemma drive_high b t n l : lowered b t n l -> now l - fell l < 480000 ->
    raised (slot (now l - fell l) b) (S n) (fell l) (now l + lag wd n) (Z.max (fell l + 60000) (now l) + 1000) (hold l) true true (digitalWrite P true l).
  Proof. intros H Hs. cbn [digitalWrite gpio]. rewrite (lw_out _ _ _ _ H). cbn [orb]. eapply drive_rise; eauto. Qed.
  Lemma let_go b t n l : lowered b t n l -> now l - fell l < 480000 ->
    raised (slot (now l - fell l) b) (S n) (fell l) (now l + lag wd n) (Z.max (fell l + 60000) (now l) + 1000) (hold l) false false (pinMode P InputPullUp l) /\ pull (pinMode P InputPullUp l) = true.
  Proof. intros H Hs. cbn [pinMode gpio]. rewrite (lw_latch _ _ _ _ H). eapply drive_rise; eauto. Qed.
  Lemma pass b n f t r h o v l us : raised b n f t r h o v l -> raised b (S n) f (t + us * 1000 + lag wd n) r h o v (delayMicroseconds P us l).
  Proof. intros []. cbn [delayMicroseconds gpio]. split; cbn [tick out latch now ops ready hold bus]; try assumption; [congruence|rewrite rs_now0, rs_ops0; reflexivity]. Qed.
  Lemma irq b n f t r h o v l e : raised b n f t r h o v l -> raised b (S n) f (t + lag wd n) r h o v (pinInterrupt P e l) /\ pinIrq (pinInterrupt P e l) = e.
  Proof. intros []. cbn [pinInterrupt gpio]. split; [|reflexivity]. split; cbn [tick out latch now ops ready hold bus]; try assumption; [congruence|rewrite rs_now0, rs_ops0; lia]. Qed.
  (** writing 1 to the pin, an input: the line does not change *)
  Lemma write_input b n f t r h v l x : pull l = true -> raised b n f t r h false v l ->
    exists v', raised b (S n) f (t + lag wd n) r h false v' (digitalWrite P x l) /\ pull (digitalWrite P x l) = true.
  Proof.
    intros Hp []. exists (if latchIn wd then x else v). cbn [digitalWrite gpio]. rewrite rs_out0, Hp, rs_latch0. cbn [orb]. unfold drive, low. rewrite rs_out0. cbn [out latch andb negb].
    split; [|reflexivity]. split; cbn [tick out latch now ops ready hold bus]; try assumption; try reflexivity; [congruence|rewrite rs_now0, rs_ops0; lia].
  Qed.
  Lemma look b n f t r h o v l : raised b n f t r h o v l -> raised b (S n) f (t + lag wd n) r h o v (fst (digitalRead P l)) /\
    snd (digitalRead P l) = negb (shorted wd) && negb ((fst h <=? t) && (t <=? snd h)).
  Proof. intros []. cbn [digitalRead gpio fst snd]. split; [|unfold level, held; rewrite rs_low0, rs_hold0, rs_now0; reflexivity].
    split; cbn [tick out latch now ops ready hold bus]; try assumption; [congruence|rewrite rs_now0, rs_ops0; lia]. Qed.
  Lemma raised_rest b n f t r h o v l : raised b n f t r h o v l -> r <= t -> snd h < t -> atRest l.
  Proof. intros [] ? ?. split; [assumption|]. rewrite rs_now0, rs_ready0, rs_hold0. split; assumption. Qed.

  Lemma write_bit_rest x l : atRest l -> let l' := OneWireWriteBit P x l in
    atRest l' /\ bus l' = writeSlot d (Z.odd x) (bus l) /\ out l' = true /\ latch l' = true /\ pinIrq l' = true.
  Proof.
    intros HR. assert (E : negb (Z.land x 1 =? 0) = Z.odd x) by (change 1 with (Z.ones 1); rewrite Z.land_ones, Zmod_odd by lia; destruct (Z.odd x); reflexivity).
    unfold OneWireWriteBit. rewrite E. clear E. destruct (go_low l HR) as [L1 T1]. cbv zeta.
    pose proof (six (S (ops l))) as Hs. pose proof (lag_pos (ops l)). lags (S (ops l)).
    destruct (Z.odd x); set (l1 := digitalWrite P false _) in *; clearbody l1.
    - destruct (stay _ _ _ _ 10 L1) as (L2 & T2 & F2); [lia|]. set (l2 := delayMicroseconds P 10 l1) in *. clearbody l2.
      pose proof (lw_now _ _ _ _ L1). pose proof (lw_snd _ _ _ _ L2).
      assert (L3 := drive_high _ _ _ _ L2 ltac:(lia)). rewrite slot_short in L3 by lia. apply (pass _ _ _ _ _ _ _ _ _ 55) in L3. apply (irq _ _ _ _ _ _ _ _ _ true) in L3. destruct L3 as [L3 I3].
      split; [|destruct L3; auto]. eapply raised_rest; [exact L3| |]; lia.
    - destruct (stay _ _ _ _ 65 L1) as (L2 & T2 & F2); [lia|]. set (l2 := delayMicroseconds P 65 l1) in *. clearbody l2.
      pose proof (lw_now _ _ _ _ L1). pose proof (lw_snd _ _ _ _ L2).
      assert (L3 := drive_high _ _ _ _ L2 ltac:(lia)). rewrite slot_long in L3 by lia. apply (pass _ _ _ _ _ _ _ _ _ 5) in L3. apply (irq _ _ _ _ _ _ _ _ _ true) in L3. destruct L3 as [L3 I3].
      split; [|destruct L3; auto]. eapply raised_rest; [exact L3| |]; lia.
  Qed.

  Lemma read_bit_rest l : shorted wd = false -> atRest l ->
    atRest (fst (OneWireReadBit P l)) /\ (bus (fst (OneWireReadBit P l)), snd (OneWireReadBit P l)) = readSlot d (bus l) /\ pinIrq (fst (OneWireReadBit P l)) = true.
  Proof.
    intros HS HR. unfold OneWireReadBit. destruct (go_low l HR) as [L1 T1]. pose proof (lag_pos (S (S (S (S (S (S (S (S (S (ops l))))))))))). pose proof (six (S (ops l))) as Hs. pose proof (lag_pos (ops l)). lags (S (ops l)).
    cbv zeta in L1, T1 |- *. set (l1 := digitalWrite P false _) in *. clearbody l1.
    destruct (stay _ _ _ _ 3 L1) as (L2 & T2 & F2); [lia|]. set (l2 := delayMicroseconds P 3 l1) in *. clearbody l2.
    pose proof (lw_now _ _ _ _ L1). pose proof (lw_snd _ _ _ _ L2).
    destruct (let_go _ _ _ _ L2 ltac:(lia)) as [L3 Hp]. rewrite slot_short in L3 by lia.
    set (l3 := pinMode P InputPullUp l2) in *. clearbody l3.
    destruct (write_input _ _ _ _ _ _ _ _ true Hp L3) as (v & L4 & _). set (l4 := digitalWrite P true l3) in *. clearbody l4.
    apply (pass _ _ _ _ _ _ _ _ _ 10) in L4. set (l5 := delayMicroseconds P 10 l4) in *. clearbody l5.
    apply look in L4. destruct L4 as [L5 V]. destruct (digitalRead P l5) as [l6 y]. cbn [fst snd] in L5, V |- *.
    apply (pass _ _ _ _ _ _ _ _ _ 53) in L5. apply (irq _ _ _ _ _ _ _ _ _ true) in L5. destruct L5 as [L6 I6].
    split; [eapply raised_rest; [exact L6| |]; lia|]. split; [|exact I6]. rewrite (rs_bus _ _ _ _ _ _ _ _ _ L6), V, HS. cbn [negb andb].
    unfold readSlot, writeSlot. destruct L2. destruct (sends d (bus l)) as [[]|] eqn:Es.
    - pose proof (lw_free0 ltac:(congruence)). rewrite (proj2 (Z.leb_gt _ (snd (hold l2)))) by lia. rewrite andb_false_r. reflexivity.
    - destruct (lw_hold0 eq_refl) as [G1 G2]. rewrite (proj2 (Z.leb_le (fst (hold l2)) _)), (proj2 (Z.leb_le _ (snd (hold l2)))) by lia. reflexivity.
    - pose proof (lw_free0 ltac:(congruence)). rewrite (proj2 (Z.leb_gt _ (snd (hold l2)))) by lia. rewrite andb_false_r. reflexivity.
  Qed.

  (** Reset.  [b]: what the falling edge made of the devices *)
  Record pulled (b : B) (n : nat) (l : line B) : Prop := {
    pl_out : out l = true; pl_latch : latch l = false; pl_ops : ops l = n; pl_now : fell l <= now l; pl_bus : bus l = b; pl_snd : snd (hold l) <= fell l + 240000 }.
  Definition touched (l : line B) (b : B) : Prop := (b = bus l \/ b = upset d (bus l)) /\ (ready l <= now l -> b = bus l).
  Lemma drive_fall_any p l : low l = false -> snd (hold l) <= now l + 240000 -> exists b, touched l b /\ pulled b (S (ops l)) (drive d wd true p false l).
  Proof.
    intros H1 H3. exists (if now l <? ready l then upset d (bus l) else bus l). split.
    { split; [destruct (now l <? ready l); auto|]. intros H. rewrite (proj2 (Z.ltb_ge _ _)) by lia. reflexivity. }
    unfold drive. rewrite H1. unfold low, fall. cbn [out pull latch now ops fell ready hold bus pinIrq andb negb].
    pose proof (lag_pos (ops l)) as Hl. destruct HL as (_ & Hh & _). specialize (Hh (ops l)). set (b := if now l <? ready l then _ else _). clearbody b.
    split; cbn [tick out pull latch now ops fell ready hold bus pinIrq fst snd]; try reflexivity; try lia. destruct (sends d b) as [[]|]; cbn [snd]; lia.
  Qed.
  Lemma go_low_any l : low l = false -> snd (hold l) <= now l + 240000 -> exists b, touched l b /\ pulled b (S (S (ops l))) (digitalWrite P false (pinMode P Output l)).
  Proof.
    intros H1 H3. pose proof (lag_pos (ops l)) as A0. pose proof (lag_pos (S (ops l))) as A1. cbn [pinMode digitalWrite gpio]. destruct (latch l) eqn:Ev.
    - assert (D := drive_same true (pull l) true l H1 eq_refl). rewrite D. cbn [out orb pull]. set (l1 := mkLine true (pull l) true _ _ _ _ _ _ _) in *.
      destruct (drive_fall_any (pull l) l1) as (b & G1 & G2); [reflexivity|cbn; lia|]. exists b. cbn [ops l1] in G2. split; [|exact G2]. unfold touched, l1 in G1. cbn [bus ready now] in G1. destruct G1 as [G1 G3].
      split; [exact G1|]. intros; apply G3; lia.
    - destruct (drive_fall_any (pull l) l H1 H3) as (b & G1 & G2). exists b. split; [exact G1|]. set (l1 := drive d wd true (pull l) false l) in *. clearbody l1. destruct G2.
      rewrite pl_out0. cbn [orb]. rewrite (drive_same true (pull l1) false l1); [|unfold low; rewrite pl_out0, pl_latch0; reflexivity|reflexivity].
      rewrite pl_ops0 in *. split; cbn [out latch now ops fell hold bus]; try assumption; try reflexivity; lia.
  Qed.
  Lemma waitHigh_ok k : shorted wd = false -> forall l, low l = false -> snd (hold l) < now l + 2000 * Z.of_nat k -> (0 < k)%nat ->
    exists l', waitHigh P k l = (l', true) /\ low l' = false /\ bus l' = bus l /\ now l <= now l' /\ hold l' = hold l /\ ready l' = ready l.
  Proof.
    intros HS. induction k as [|k IH]; intros l H1 H2 H3; [lia|]. cbn [waitHigh]. cbn [delayMicroseconds digitalRead gpio]. pose proof (lag_pos (ops l)) as A0. pose proof (lag_pos (S (ops l))) as A1.
    set (l1 := tick wd (2 * 1000) l). assert (E : level wd l1 = negb (held l1)) by (unfold level; change (low l1) with (low l); rewrite H1, HS; reflexivity). rewrite E.
    destruct (held l1) eqn:Eh; cbn [negb].
    - unfold held in Eh. apply andb_true_iff in Eh. destruct Eh as [_ Eh]. apply Z.leb_le in Eh. cbn [now hold l1 tick] in Eh.
      assert (k <> 0%nat) by (intros ->; cbn in H2; lia). destruct (IH (tick wd 0 l1)) as (l' & G1 & G2 & G3 & G4 & G5 & G6); [exact H1|cbn [tick l1 now hold ops]; lia|lia|].
      exists l'. split; [exact G1|]. split; [exact G2|]. split; [exact G3|]. split; [cbn [tick l1 now ops] in G4; lia|]. split; assumption.
    - exists (tick wd 0 l1). split; [reflexivity|]. split; [exact H1|]. split; [reflexivity|]. split; [cbn [tick l1 now ops]; lia|]. split; reflexivity.
  Qed.
  Lemma drive_reset b n l : pulled b n l -> 480000 <= now l - fell l ->
    exists r h, raised (fst (onReset d b)) (S n) (fell l) (now l + lag wd n) r h false false (pinMode P InputPullUp l) /\ pull (pinMode P InputPullUp l) = true /\ r = now l + 480000 /\
      (if snd (onReset d b) then now l + 15000 <= fst h <= now l + 60000 /\ now l + 75000 <= snd h <= now l + 300000 else snd h < now l).
  Proof.
    intros [] Hs. cbn [pinMode gpio]. rewrite pl_latch0. unfold drive. replace (low l) with true by (unfold low; rewrite pl_out0, pl_latch0; reflexivity).
    set (l1 := mkLine false true false (now l) (ops l) (fell l) (ready l) (hold l) (bus l) (pinIrq l)). cbv zeta. replace (low l1) with false by reflexivity. cbn [negb andb].
    unfold rise, l1. cbn [out pull latch now ops fell ready hold bus pinIrq]. rewrite (proj2 (Z.leb_le 480000 _)) by lia. rewrite pl_ops0, pl_bus0. destruct HL as (_ & _ & Hp & Hf).
    specialize (Hp n). specialize (Hf n). destruct (onReset d b) as [b' p]. cbn [fst snd]. eexists _, _. split; [split; cbn [tick out pull latch now ops fell ready hold bus pinIrq]; try reflexivity; lia|].
    split; [reflexivity|]. split; [reflexivity|]. destruct p; cbn [fst snd]; lia.
  Qed.
  Lemma hold_on b n l : pulled b n l -> pulled b (S n) (delayMicroseconds P 480 l) /\ 480000 <= now (delayMicroseconds P 480 l) - fell (delayMicroseconds P 480 l).
  Proof.
    intros [E1 E2 E3 E4 E5 E6]. cbn [delayMicroseconds gpio]. pose proof (lag_pos (ops l)) as A. unfold tick. split; [split|]; cbn [out latch now ops fell hold bus]; try assumption; [congruence|clear - A E4; lia|clear - A E4; lia].
  Qed.
  Definition resetTail (s : line B) : line B * bool :=
    let s := delayMicroseconds P 480 s in
    let s := pinMode P InputPullUp s in
    let s := digitalWrite P true s in
    let s := delayMicroseconds P 70 s in
    let '(s, v) := digitalRead P s in
    let s := delayMicroseconds P 410 s in
    let s := pinInterrupt P true s in
    (s, negb v).
  Lemma reset_tail b n l1 : shorted wd = false -> pulled b n l1 ->
    atRest (fst (resetTail l1)) /\ (bus (fst (resetTail l1)), snd (resetTail l1)) = onReset d b /\ pinIrq (fst (resetTail l1)) = true.
  Proof.
    intros HS L1. unfold resetTail. destruct (hold_on _ _ _ L1) as [L2 T2]. clear L1.
    set (l2 := delayMicroseconds P 480 l1) in *. clearbody l2.
    destruct (drive_reset _ _ _ L2 T2) as (r & h & L3 & Hp & Hr & Hh). clear L2 T2. cbv zeta. set (l3 := pinMode P InputPullUp l2) in *. clearbody l3.
    destruct (write_input _ _ _ _ _ _ _ _ true Hp L3) as (v & L4 & _). clear L3 Hp. set (l4 := digitalWrite P true l3) in *. clearbody l4.
    apply (pass _ _ _ _ _ _ _ _ _ 70) in L4. set (l5 := delayMicroseconds P 70 l4) in *. clearbody l5.
    apply look in L4. destruct L4 as [L5 V]. destruct (digitalRead P l5) as [l6 y]. cbn [fst snd] in L5, V |- *. rewrite V.
    apply (pass _ _ _ _ _ _ _ _ _ 410) in L5. apply (irq _ _ _ _ _ _ _ _ _ true) in L5. destruct L5 as [L6 I6].
    pose proof (six (S n)) as Hs. pose proof (lag_pos (S n)) as A1. pose proof (lag_pos (S (S n))) as A2. pose proof (lag_pos (S (S (S n)))) as A3. pose proof (lag_pos (S (S (S (S n))))) as A4.
    pose proof (lag_pos (S (S (S (S (S n)))))) as A5. pose proof (lag_pos (S (S (S (S (S (S n))))))) as A6. pose proof (lag_pos (S (S (S (S (S (S (S n)))))))) as A7.
    rewrite HS. cbn [negb andb]. rewrite negb_involutive.
    split; [|split; [|exact I6]].
    - destruct (snd (onReset d b)); (eapply raised_rest; [exact L6| |]; clear - A1 A2 A3 A4 A5 A6 A7 Hh Hr; lia).
    - rewrite (rs_bus _ _ _ _ _ _ _ _ _ L6). destruct (onReset d b) as [b' p]. cbn [fst snd] in *. f_equal. destruct p.
      + rewrite (proj2 (Z.leb_le (fst h) _)), (proj2 (Z.leb_le _ (snd h))) by (clear - A1 A2 A3 A4 A5 A6 A7 Hh Hs; lia). reflexivity.
      + rewrite (proj2 (Z.leb_gt _ (snd h))) by (clear - A1 A2 A3 A4 A5 A6 A7 Hh; lia). apply andb_false_r.
  Qed.
  Lemma reset_any l : shorted wd = false -> low l = false -> snd (hold l) < now l + 240000 ->
    exists b, touched l b /\ atRest (fst (OneWireReset P l)) /\ (bus (fst (OneWireReset P l)), snd (OneWireReset P l)) = onReset d b /\ pinIrq (fst (OneWireReset P l)) = true.
  Proof.
    intros HS H1 H2. unfold OneWireReset.
    set (la := pinInterrupt P false l). assert (Ea : low la = false /\ snd (hold la) < now la + 240000 /\ bus la = bus l /\ ready la = ready l /\ now l <= now la).
    { unfold la. cbn [pinInterrupt gpio tick now hold bus ready]. pose proof (lag_pos (ops l)). split; [exact H1|]. cbn [ops]. repeat split; lia. }
    clearbody la. destruct Ea as (A1 & A2 & A3 & A4 & A5). cbn [digitalRead gpio]. cbv zeta. generalize (level wd la). intros bHigh.
    set (lb := tick wd 0 la). assert (Eb : low lb = false /\ snd (hold lb) < now lb + 240000 /\ bus lb = bus l /\ ready lb = ready l /\ now l <= now lb).
    { unfold lb. cbn [tick now hold bus ready]. pose proof (lag_pos (ops la)). split; [exact A1|]. repeat split; try assumption; lia. }
    clearbody lb. clear A1 A2 A3 A4 A5. destruct Eb as (A1 & A2 & A3 & A4 & A5).
    set (lc := pinMode P InputPullUp lb). assert (Ec : out lc = false /\ pull lc = true /\ snd (hold lc) < now lc + 240000 /\ bus lc = bus l /\ ready lc = ready l /\ now l <= now lc).
    { unfold lc. cbn [pinMode gpio]. rewrite drive_same by (try exact A1; reflexivity). cbn [out pull hold now bus ready]. pose proof (lag_pos (ops lb)). repeat split; try assumption; lia. }
    clearbody lc. destruct Ec as (C1 & C2 & C3 & C4 & C5 & C6).
    set (ld := digitalWrite P true lc). assert (Ed : low ld = false /\ snd (hold ld) < now ld + 240000 /\ bus ld = bus l /\ ready ld = ready l /\ now l <= now ld).
    { unfold ld. cbn [digitalWrite gpio]. rewrite C1, C2. rewrite drive_same by (try reflexivity; unfold low; rewrite C1; reflexivity). cbn [out pull hold now bus ready]. pose proof (lag_pos (ops lc)).
      split; [reflexivity|]. repeat split; try assumption; lia. }
    clearbody ld. destruct Ed as (D1 & D2 & D3 & D4 & D5).
    destruct (waitHigh_ok 124 HS ld D1) as (le & W & E1 & E2 & E3 & E4 & E5); [lia|lia|]. rewrite W. cbn [negb].
    set (lf := if negb bHigh then _ else _). assert (Ef : low lf = false /\ snd (hold lf) <= now lf + 240000 /\ bus lf = bus l /\ ready lf = ready l /\ now l <= now lf).
    { unfold lf. pose proof (lag_pos (ops le)). destruct bHigh; cbn [negb]; [|cbn [delayMicroseconds gpio tick now hold bus ready]].
      - split; [exact E1|]. rewrite E4, E2, E5. repeat split; try assumption; lia.
      - split; [exact E1|]. rewrite E4, E2, E5. repeat split; try assumption; lia. }
    clearbody lf. destruct Ef as (F1 & F2 & F3 & F4 & F5). destruct (go_low_any lf F1 F2) as (b & T & L1). exists b.
    split. { destruct T as [T1 T2]. rewrite F3 in *. split; [exact T1|]. intros. apply T2. lia. }
    apply (reset_tail _ _ _ HS L1).
  Qed.
  Lemma waitHigh_short k : shorted wd = true -> forall l, exists l', waitHigh P k l = (l', false) /\ bus l' = bus l /\ pinIrq l' = pinIrq l /\ now l + 2000 * Z.of_nat k <= now l'.
  Proof.
    intros HS. induction k as [|k IH]; intros l; [exists l; repeat split; lia|]. cbn [waitHigh]. cbn [delayMicroseconds digitalRead gpio].
    set (l1 := tick wd (2 * 1000) l). replace (level wd l1) with false by (unfold level; rewrite HS; destruct (low l1); reflexivity).
    destruct (IH (tick wd 0 l1)) as (l' & G1 & G2 & G3 & G4). exists l'. split; [exact G1|]. split; [exact G2|]. split; [exact G3|]. pose proof (lag_pos (ops l)). pose proof (lag_pos (S (ops l))). cbn [tick l1 now ops] in G4. lia.
  Qed.
  Lemma reset_short l : shorted wd = true -> low l = false ->
    snd (OneWireReset P l) = false /\ bus (fst (OneWireReset P l)) = bus l /\ pinIrq (fst (OneWireReset P l)) = false /\ now l + 248000 <= now (fst (OneWireReset P l)).
  Proof.
    intros HS H1. unfold OneWireReset. cbn [digitalRead gpio]. cbv zeta. generalize (level wd (pinInterrupt P false l)). intros bHigh.
    set (lb := tick wd 0 (pinInterrupt P false l)). assert (Eb : low lb = false /\ bus lb = bus l /\ pinIrq lb = false /\ now l <= now lb).
    { unfold lb. cbn [pinInterrupt gpio tick now bus pinIrq ops]. pose proof (lag_pos (ops l)). pose proof (lag_pos (S (ops l))). split; [exact H1|]. repeat split; lia. }
    clearbody lb. destruct Eb as (A1 & A2 & A3 & A4).
    set (lc := pinMode P InputPullUp lb). assert (Ec : out lc = false /\ pull lc = true /\ bus lc = bus l /\ pinIrq lc = false /\ now l <= now lc).
    { unfold lc. cbn [pinMode gpio]. rewrite drive_same by (try exact A1; reflexivity). cbn [out pull hold now bus pinIrq]. pose proof (lag_pos (ops lb)). repeat split; try assumption; lia. }
    clearbody lc. destruct Ec as (C1 & C2 & C3 & C4 & C5).
    set (ld := digitalWrite P true lc). assert (Ed : bus ld = bus l /\ pinIrq ld = false /\ now l <= now ld).
    { unfold ld. cbn [digitalWrite gpio]. rewrite C1, C2. rewrite drive_same by (try reflexivity; unfold low; rewrite C1; reflexivity). cbn [out pull hold now bus pinIrq]. pose proof (lag_pos (ops lc)).
      repeat split; try assumption; lia. }
    clearbody ld. destruct Ed as (D1 & D2 & D3). destruct (waitHigh_short 124 HS ld) as (le & W & E1 & E2 & E3). rewrite W. cbn [negb fst snd].
    split; [reflexivity|]. split; [congruence|]. split; [congruence|]. lia.
  Qed.
End Slots.
