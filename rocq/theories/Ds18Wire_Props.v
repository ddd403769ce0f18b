(** C111: the driver of the temperature sensors, at the pin *)
From Verif Require Import Ds18_Proofs Ds18Wire_All.
From Verif Require Ds18_Spec Ds18_Props.
From Coq Require Import Permutation.
Local Notation device := Ds18_Model.device.

(** ** Examples: three sensors, at 25.0625, -10.125 and 85 degrees, on a line with resistor; every operation takes 100 ns, every second one 300 ns *)
Definition ex_world : world := {| lag := fun k => if Nat.even k then 100 else 300; holdTime := fun k => 20000 + 1000 * (Z.of_nat k mod 30); presenceAfter := fun _ => 16000; presenceFor := fun _ => 200000; resistor := true; shorted := false; latchIn := true |}.
Lemma ex_legal : legal ex_world.
Proof. unfold legal, ex_world. cbn. split; [intros k; destruct (Nat.even k); lia|]. split; [intros k; pose proof (Z.mod_pos_bound (Z.of_nat k) 30 ltac:(lia)); lia|]. split; intros; lia. Qed.
Lemma ex_quick : quick ex_world.
Proof. unfold quick, ex_world. cbn [lag]. intros k. repeat match goal with |- context [if ?b then _ else _] => destruct b end; lia. Qed.
Definition ex_sensors : sensors :=
  [(Ds18_Props.rom2, [0x91; 0x01; 0; 0; 0x7F; 0xFF; 0; 0; 0]); (Ds18_Props.rom3, [0x5E; 0xFF; 0; 0; 0x7F; 0xFF; 0; 0; 0]); (Ds18_Props.rom1, [0xAA; 0x00; 0; 0; 0; 0; 12; 16; 0])].
Definition ex_line : line (list slave) :=
  mkLine false true true 5000000 7 0 1000000 (100, 200) (map (fun x => {| code := rom_bits (fst x); memory := flat_map byte_bits (snd x); started := 2; ph := Silent |}) ex_sensors) true.
Lemma ex_distinct : distinct ex_sensors.
Proof.
  split.
  - cbn [map fst ex_sensors]. repeat (apply NoDup_cons; [cbn [In]; intros Q; repeat (destruct Q as [Q|Q]; [vm_compute in Q; discriminate Q|]); exact Q|]). apply NoDup_nil.
  - repeat (apply Forall_cons; [cbn [fst snd]; split; [Ds18_Props.rom|]; split; [reflexivity|repeat (apply Forall_cons; [red; lia|]); apply Forall_nil]|]). apply Forall_nil.
Qed.
Lemma ex_rest : atRest ex_line /\ on_line ex_sensors ex_line.
Proof. split; [split; [reflexivity|]; split; vm_compute; [discriminate|reflexivity]|reflexivity]. Qed.

(** ** One sensor: the driver on the line does what C97 says of it, the sensors answer as they are; a conversion is started by the addressed sensor and by no other *)
Theorem C111_start_partial wd par xs st i now l : legal wd -> quick wd -> shorted wd = false -> resistor wd = true -> distinct xs -> rom_ok (addr (device st (Z.to_nat i))) -> atRest l -> on_line xs l ->
  match startConversion st i now (answers xs) with
  | None => startConversionW (gpio search_devices wd) par st i now l = None
  | Some (b, st', ev) => exists l', startConversionW (gpio search_devices wd) par st i now l = Some (l', (b, st')) /\ atRest l' /\ on_line xs l' /\
      conversions l' = map (fun p => (fst p + snd p)%nat) (combine (conversions l) (selected xs (commanded 0x44 ev)))
  end.
Proof. intros H1 H2 H3 H4 H5 H6 H7 H8. exact (start_line wd par xs H1 H2 H3 H4 H5 st i now l (or_introl H6) H7 H8). Qed.
Print Assumptions C111_start_partial.
Theorem C111_read_partial wd par xs st i now l : legal wd -> quick wd -> shorted wd = false -> resistor wd = true -> distinct xs -> rom_ok (addr (device st (Z.to_nat i))) -> atRest l -> on_line xs l ->
  match readResult st i now (answers xs) (answer xs) with
  | None => readResultW (gpio search_devices wd) par st i now l = None
  | Some (b, st', ev) => exists l', readResultW (gpio search_devices wd) par st i now l = Some (l', (b, st')) /\ atRest l' /\ on_line xs l' /\ conversions l' = conversions l
  end.
Proof. intros H1 H2 H3 H4 H5 H6 H7 H8. exact (read_line wd par xs H1 H2 H3 H4 H5 st i now l (or_introl H6) H7 H8). Qed.
Print Assumptions C111_read_partial.
(** two of them known to the driver: the second is started at 5000 and read at 5800 *)
Definition ex_known : ds := mkDs 2 (map Ds18_Props.idle (dsDev Ds18_Props.two)).
Example C111_one_example : rom_ok (addr (device ex_known 1)) /\
  let w := gpio search_devices ex_world in
  match startConversionW w false ex_known 1 5000 ex_line with
  | Some (l1, (b1, st1)) => b1 = true /\ conversions l1 = [2; 2; 3]%nat /\
      match readResultW w false st1 1 5800 l1 with Some (l2, (b2, st2)) => b2 = true /\ temperature st2 1 = Some (Some (85 * 16)) /\ conversions l2 = [2; 2; 3]%nat | None => False end
  | None => False
  end.
Proof. split; [Ds18_Props.rom|]. vm_compute. repeat split. Qed.

(** ** The search *)
Theorem C111_search_partial wd par xs l junk max st : legal wd -> quick wd -> shorted wd = false -> resistor wd = true -> distinct xs -> atRest l -> on_line xs l ->
  match Search (map rom_bits (map fst xs)) junk max st with
  | None => SearchW (gpio search_devices wd) par l junk max st = None
  | Some r => exists l', SearchW (gpio search_devices wd) par l junk max st = Some (l', r) /\ atRest l' /\ on_line xs l' /\ conversions l' = conversions l
  end.
Proof. intros H1 H2 H3 H4 H5 H6 H7. exact (search_line wd par xs H1 H2 H3 H4 H5 l junk max st H6 H7). Qed.
Print Assumptions C111_search_partial.
Example C111_search_example :
  option_map (fun r => (fst (snd r), foundDevices (snd (snd r)), map addr (firstn 3 (dsDev (snd (snd r)))), conversions (fst r))) (SearchW (gpio search_devices ex_world) true ex_line noDev 10 Ds18_Props.empty) =
    Some (0, 3, [Ds18_Props.rom1; Ds18_Props.rom2; Ds18_Props.rom3], [2; 2; 2]%nat).
Proof. vm_compute. reflexivity. Qed.

(** ** A whole measurement: search, start all, at least 800 ms later read all *)
Theorem C111_measure_partial wd par xs l st junk max t t' : legal wd -> quick wd -> shorted wd = false -> resistor wd = true ->
  distinct xs -> Forall (fun x => Ds18_Spec.sensor (fst x)) xs -> Forall (fun x => rd (fst x) 0 = 0x10 -> -2000 <= Ds18_Spec.reading (snd x) <= 2000) xs ->
  xs <> [] -> Z.of_nat (length xs) <= max <= 10 -> length (dsDev st) = 10%nat -> 0 <= t -> t + 800 < 2 ^ 32 -> t + 800 <= t' -> atRest l -> on_line xs l ->
  exists l1 st1 l2 st2 l3 st3,
    SearchW (gpio search_devices wd) par l junk max st = Some (l1, (0, st1)) /\
    startConversionAllW (gpio search_devices wd) par st1 t l1 = Some (l2, (true, st2)) /\
    readResultAllW (gpio search_devices wd) par st2 t' l2 = Some (l3, (true, st3)) /\
    atRest l3 /\ on_line xs l3 /\ conversions l3 = map S (conversions l) /\ foundDevices st3 = Z.of_nat (length xs) /\
    forall x, In x xs -> exists k, (k < length xs)%nat /\ let d := device st3 k in let v := if rd (fst x) 0 =? 0x10 then Ds18_Spec.temperature_s (snd x) else Ds18_Spec.temperature_b (snd x) in
      addr d = fst x /\ current_temperature d = v /\ (lastReadOK d = true <-> Ds18_Spec.measurable v) /\ (Ds18_Spec.measurable v -> temperature st3 (Z.of_nat k) = Some (Some v)).
Proof.
  intros HL HQ HS HR HD FS FR NE M L10 T0 T1 T2 AR OL.
  set (roms := map fst xs). set (n := length xs).
  assert (RO : Forall rom_ok roms). { destruct HD as [_ F]. unfold roms. rewrite Forall_map. eapply Forall_impl; [|exact F]. cbv beta. intros x (A & _). exact A. }
  assert (ND : NoDup roms) by apply HD.
  assert (FS' : Forall Ds18_Spec.sensor roms) by (unfold roms; rewrite Forall_map; exact FS).
  assert (NE' : roms <> []) by (unfold roms; destruct xs; [congruence|discriminate]).
  assert (LR : length roms = n) by apply map_length.
  assert (N0 : (0 < n)%nat) by (unfold n; destruct xs; [congruence|cbn; lia]).
  assert (ANS : answers xs = true) by (destruct xs; [congruence|reflexivity]).
  (* search *)
  destruct (Ds18_Props.C97_search_sensors_partial roms max junk st RO ND FS' NE' ltac:(rewrite LR; exact M) L10) as (p & st1 & P & E1 & F1 & D1). rewrite LR in F1.
  assert (L1 : length (dsDev st1) = 10%nat).
  { assert (F0 : Forall (fun r => rd r 0 <> 0) roms). { eapply Forall_impl; [|exact FS']. intros r (_ & Q) E. rewrite E in Q. cbn in Q. intuition discriminate. }
    destruct (Ds18_Props.C97_search roms max junk st RO ND F0 NE' ltac:(lia) L10) as (p' & c' & st1' & _ & A). cbv zeta in A. destruct A as (A1 & A2 & _). rewrite E1 in A1. inversion A1; subst. exact A2. }
  pose proof (search_line wd par xs HL HQ HS HR HD l junk max st AR OL) as G1. fold roms in G1. rewrite E1 in G1. destruct G1 as (l1 & W1 & R1 & O1 & C1).
  pose proof (Permutation_length P) as LP. rewrite LR in LP.
  assert (PS : forall k, (k < n)%nat -> exists r, nth_error p k = Some r /\ In r roms /\ Ds18_Spec.listed r (device st1 k)).
  { intros k Hk. destruct (nth_error p k) as [r|] eqn:Q; [|apply nth_error_None in Q; lia]. exists r. split; [reflexivity|]. split; [apply (Permutation_in _ P), (nth_error_In _ _ Q)|apply D1; exact Q]. }
  assert (RS : forall r, In r roms -> rom_ok r /\ Ds18_Spec.sensor r) by (intros r Hr; rewrite Forall_forall in RO, FS'; auto).
  (* start *)
  assert (NZ : forall k, (k < Z.to_nat (foundDevices st1))%nat -> rd (addr (device st1 k)) 0 <> 0).
  { rewrite F1, Nat2Z.id. intros k Hk. destruct (PS k Hk) as (r & _ & Hr & (-> & _)). destruct (RS r Hr) as (_ & _ & Q). intros E. rewrite E in Q. cbn in Q. intuition discriminate. }
  destruct (Ds18_Props.C97_all st1 t ltac:(lia) NZ) as (st2 & E2 & F2 & D2). rewrite F1, Nat2Z.id in E2, D2.
  assert (AD1 : addressed st1 0 n). { intros k Hk. cbn in Hk. destruct (PS k ltac:(lia)) as (r & _ & Hr & (-> & _)). apply RS. exact Hr. }
  pose proof (start_all_line wd par xs HL HQ HS HR HD n 0 st1 t l1 ltac:(lia) AD1 R1 O1) as G2. rewrite ANS in G2. unfold startConversionAll in E2. rewrite F1, Nat2Z.id in E2. rewrite E2 in G2. destruct G2 as (l2 & W2 & R2 & O2 & K2 & C2).
  (* read *)
  destruct K2 as (_ & L2 & K2). assert (L2' : length (dsDev st2) = 10%nat) by congruence.
  assert (RA : forall k, (Z.to_nat 0 <= k < Z.to_nat 0 + n)%nat -> conversionStarted (device st2 k) = true /\ readyAt (device st2 k) <= t').
  { intros k Hk. cbn in Hk. destruct (D2 k) as (Q & _). destruct (Q ltac:(lia)) as (Q1 & Q2 & _). split; [exact Q1|]. rewrite Q2. unfold u32. rewrite Z.mod_small by lia. exact T2. }
  destruct (readAll_run (answer xs) n 0 st2 t' ltac:(lia) ltac:(cbn; lia) ltac:(lia) RA) as (st3 & ev3 & E3 & F3 & L3 & D3). replace (n =? 0)%nat with false in E3 by (symmetry; apply Nat.eqb_neq; lia). cbn [negb] in E3.
  assert (AD2 : addressed st2 0 n). { intros k Hk. destruct (K2 k) as (-> & _). apply AD1. exact Hk. }
  pose proof (read_all_line wd par xs HL HQ HS HR HD n 0 st2 t' l2 ltac:(lia) AD2 R2 O2) as G3. rewrite ANS, E3 in G3. destruct G3 as (l3 & W3 & R3 & O3 & K3 & C3).
  exists l1, st1, l2, st2, l3, st3. split; [exact W1|]. split; [unfold startConversionAllW; rewrite F1, Nat2Z.id; exact W2|]. split; [unfold readResultAllW; rewrite F2, F1, Nat2Z.id; exact W3|].
  split; [exact R3|]. split; [exact O3|]. split; [|split; [congruence|]].
  - rewrite C3, C2, C1. assert (CM : commanded 0x44 (flat_map (fun d => [Reset; Ds18_Model.Command (addr d) 0x44]) (firstn n (dsDev st1))) = p).
    { transitivity (map addr (firstn n (dsDev st1))); [unfold commanded; generalize (firstn n (dsDev st1)); intros q; induction q as [|d q IH]; [reflexivity|cbn; f_equal; exact IH]|].
      apply (nth_ext _ _ [] []); [rewrite map_length, firstn_length; lia|]. rewrite map_length, firstn_length. intros k Hk. assert (Hk' : (k < n)%nat) by lia. destruct (PS k Hk') as (r & Q & _ & (A & _)).
      rewrite (nth_error_nth _ _ _ Q). change [] with (addr noDev) at 1. rewrite map_nth. rewrite <- A. unfold Ds18_Model.device. f_equal. rewrite <- (firstn_skipn n (dsDev st1)) at 2. rewrite app_nth1; [reflexivity|rewrite firstn_length; lia]. }
    rewrite CM. assert (SE : selected xs p = map (fun _ => 1%nat) xs).
    { unfold selected. apply map_ext_in. intros x Hx. apply (proj1 (NoDup_count_occ' _ _)); [apply (Permutation_NoDup (Permutation_sym P)); exact ND|]. apply (Permutation_in _ (Permutation_sym P)). apply in_map. exact Hx. }
    rewrite SE. assert (LC : length (conversions l) = length xs). { unfold conversions. rewrite map_length. unfold on_line in OL. apply (f_equal (@length _)) in OL. rewrite !map_length in OL. exact OL. }
    clear - LC. revert LC. generalize (conversions l). unfold plus. induction xs as [|x ys IH]; intros [|c cs] LC; try discriminate LC; [reflexivity|]. cbn [map combine fst snd]. f_equal; [lia|apply IH; injection LC as LC; exact LC].
  - intros x Hx. assert (Ip : In (fst x) p) by (apply (Permutation_in _ (Permutation_sym P)), in_map; exact Hx). apply In_nth_error in Ip. destruct Ip as (k & Q).
    assert (Hk : (k < n)%nat) by (rewrite <- LP; apply nth_error_Some; congruence). exists k. split; [exact Hk|]. pose proof (D1 k (fst x) Q) as (A1 & A2 & A3 & A4 & _).
    specialize (D3 k). cbn [Z.to_nat Nat.leb andb] in D3. rewrite Nat.add_0_l in D3. rewrite (proj2 (Nat.ltb_lt _ _) Hk) in D3. destruct D3 as (st' & e & Q1 & Q2).
    destruct (K2 k) as (B1 & B2 & B3). assert (AN : answer xs (addr (device st2 k)) = snd x).
    { rewrite B1, A1. clear - HD Hx. destruct HD as [ND _]. induction xs as [|[r b] ys IH]; [destruct Hx|]. cbn [answer]. cbn [map fst] in ND. inversion ND as [|? ? N1 N2]; subst. destruct Hx as [<-|Hx]; [cbn [fst snd]; destruct (list_eq_dec _ _ _); [reflexivity|congruence]|].
      destruct (list_eq_dec _ _ _) as [E|E]; [subst r; exfalso; apply N1, in_map; exact Hx|]. apply IH; assumption. }
    assert (DX : rom_ok (fst x) /\ length (snd x) = 9%nat /\ Forall is_byte (snd x)) by (destruct HD as [_ F]; rewrite Forall_forall in F; apply F; exact Hx). destruct DX as (_ & X1 & X2).
    assert (RT : res_type (device st2 k) = 0 \/ (res_type (device st2 k) = 1 /\ -2000 <= Ds18_Spec.reading (snd x) <= 2000)).
    { rewrite B3. destruct A4 as [A4|A4]; [left; exact A4|right]. split; [exact A4|]. rewrite Forall_forall in FR. apply FR; [exact Hx|]. apply A3. exact A4. }
    pose proof (Ds18_Props.C97_temperature st2 (Z.of_nat k) t' (answer xs) st' e ltac:(lia)) as G. cbv zeta in G. rewrite Nat2Z.id, AN in G. specialize (G RT X1 X2 Q1).
    assert (VE : (if res_type (device st2 k) =? 1 then Ds18_Spec.temperature_s (snd x) else Ds18_Spec.temperature_b (snd x)) = (if rd (fst x) 0 =? 0x10 then Ds18_Spec.temperature_s (snd x) else Ds18_Spec.temperature_b (snd x))).
    { rewrite B3. destruct (Z.eqb_spec (res_type (device st1 k)) 1) as [Y|Y], (Z.eqb_spec (rd (fst x) 0) 0x10) as [Y'|Y']; try reflexivity; tauto. }
    rewrite VE in G. destruct G as (_ & G1 & G2 & G3 & _ & G5 & _ & _ & _ & G9 & _). cbv zeta. rewrite Q2. split; [rewrite G5, B1; exact A1|]. split; [exact G1|]. split; [exact G2|]. intros Mv. specialize (G3 Mv).
    assert (L' : length (dsDev st') = 10%nat) by (destruct (read_keeps _ _ _ _ _ _ _ _ Q1) as (_ & Y & _); congruence).
    rewrite <- G3. unfold temperature. rewrite F3, G9, L3, L', L2', Nat2Z.id, Q2. reflexivity.
Qed.
Print Assumptions C111_measure_partial.
Example C111_measure_example : Forall (fun x => Ds18_Spec.sensor (fst x)) ex_sensors /\ Forall (fun x => rd (fst x) 0 = 0x10 -> -2000 <= Ds18_Spec.reading (snd x) <= 2000) ex_sensors /\
  legal ex_world /\ quick ex_world /\ distinct ex_sensors /\ atRest ex_line /\ on_line ex_sensors ex_line /\
  map (fun x => if rd (fst x) 0 =? 0x10 then Ds18_Spec.temperature_s (snd x) else Ds18_Spec.temperature_b (snd x)) ex_sensors = [401; -162; 85 * 16].
Proof.
  split. { repeat (apply Forall_cons; [apply sensorb_ok; [Ds18_Props.rom|vm_compute; reflexivity]|]). apply Forall_nil. }
  split. { repeat (apply Forall_cons; [vm_compute; intros E; try discriminate E; split; discriminate|]). apply Forall_nil. }
  split; [apply ex_legal|]. split; [apply ex_quick|]. split; [apply ex_distinct|]. split; [apply ex_rest|]. split; [apply ex_rest|]. vm_compute. reflexivity.
Qed.
