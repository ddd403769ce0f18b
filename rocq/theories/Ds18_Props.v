(** C97: temperature sensors on the one-wire bus *)
From Verif Require Import Base Bits Ds18_Model Ds18_Spec Ds18_Proofs.
From Verif Require OneWire_Model OneWire_Spec OneWire_Props CRC_Model CRC_Spec.
From Coq Require Import Permutation.

Lemma some_inj {A} (x y : A) : Some x = Some y -> x = y. Proof. congruence. Qed.
(** ** Search *)
(** Whatever devices are on the bus (distinct addresses, no family 0): the search walks through them in some order, at most [max] of them, and enters each sensor at the place that is its number in that order;
    other places stay as they are; the sensors are counted, and the code is that of the last device *)
Theorem C97_search roms max junk st : Forall OneWire_Spec.rom_ok roms -> NoDup roms -> Forall (fun r => rd r 0 <> 0) roms -> roms <> [] -> 0 < max <= 10 -> length (dsDev st) = 10%nat ->
  exists l c st', Permutation l roms /\ let m := firstn (Z.to_nat max) l in
  Search (map OneWire_Spec.rom_bits roms) junk max st = Some (c, st') /\ length (dsDev st') = 10%nat /\ code (List.last m []) c /\
  (exists bs, Forall2 (fun r (b : bool) => b = true <-> sensor r) m bs /\ foundDevices st' = Z.of_nat (length (filter (fun b => b) bs))) /\
  forall k, match nth_error m k with Some r => (sensor r -> listed r (device st' k)) /\ (~ sensor r -> device st' k = device st k) | None => device st' k = device st k end.
Proof.
  intros R N F NE M L. destruct (search_all roms max junk st R N F NE ltac:(lia) L) as (l & st' & P & A1 & A2 & A3 & A4 & A5). set (m := firstn (Z.to_nat max) l) in *. exists l, (List.last (map codeOf m) 4), st'. split; [exact P|]. cbv zeta. fold m. split; [exact A1|]. split; [exact A2|].
  assert (NM : m <> []). { unfold m. pose proof (Permutation_length P) as PL. destruct l as [|x l]; [destruct roms; [destruct (NE eq_refl)|discriminate]|]. destruct (Z.to_nat max) eqn:Q; [lia|discriminate]. }
  split.
  { assert (E : List.last (map codeOf m) 4 = codeOf (List.last m [])). { clear - NM. induction m as [|x m IH]; [destruct (NM eq_refl)|]. destruct m as [|y m]; [reflexivity|]. cbn [map] in *. change (List.last (codeOf x :: codeOf y :: map codeOf m) 4) with (List.last (codeOf y :: map codeOf m) 4). rewrite IH by discriminate. reflexivity. }
    rewrite E. apply codeOf_ok. rewrite Forall_forall in A4. apply A4. apply exists_last in NM. destruct NM as (m' & x & ->). rewrite last_last. apply in_or_app. right. left. reflexivity. }
  split.
  { exists (map sensorb m). split; [clear - A4; induction A4 as [|x m X A4 IH]; constructor; [apply sensorb_ok; exact X|exact IH]|]. rewrite A3. f_equal. clear. induction m as [|x m IH]; [reflexivity|]. cbn [filter map]. destruct (sensorb x); cbn [length]; congruence. }
  intros k. specialize (A5 k). destruct (nth_error m k) as [r|] eqn:Q; [|exact A5]. assert (RO : OneWire_Spec.rom_ok r) by (rewrite Forall_forall in A4; apply A4; apply (nth_error_In _ _ Q)). pose proof (sensorb_ok r RO) as S.
  destruct (sensorb r); split; intros X; auto; [destruct X; apply S; reflexivity|apply S in X; discriminate].
Qed.
Print Assumptions C97_search.
(** If all of them are sensors, the list of devices is complete: every sensor once, and nothing else counted *)
Theorem C97_search_sensors_partial roms max junk st : Forall OneWire_Spec.rom_ok roms -> NoDup roms -> Forall sensor roms -> roms <> [] -> Z.of_nat (length roms) <= max <= 10 -> length (dsDev st) = 10%nat ->
  exists l st', Permutation l roms /\ Search (map OneWire_Spec.rom_bits roms) junk max st = Some (0, st') /\ foundDevices st' = Z.of_nat (length roms) /\
  forall k r, nth_error l k = Some r -> listed r (device st' k).
Proof.
  intros R N F NE M L. assert (F0 : Forall (fun r => rd r 0 <> 0) roms). { eapply Forall_impl; [|exact F]. intros r (_ & Q) E. rewrite E in Q. cbn in Q. intuition discriminate. }
  assert (M0 : 0 < max <= 10) by (destruct roms; [destruct (NE eq_refl)|cbn [length] in M; lia]).
  destruct (C97_search roms max junk st R N F0 NE M0 L) as (l & c & st' & P & A). cbv zeta in A. pose proof (Permutation_length P) as PL. rewrite firstn_all2 in A by lia. destruct A as (A1 & A2 & A3 & (bs & A4 & A5) & A6).
  assert (FL : Forall sensor l) by (apply (Permutation_Forall (Permutation_sym P)); exact F). exists l, st'. split; [exact P|].
  assert (LA : sensor (List.last l [])). { assert (NL : l <> []) by (intros ->; destruct roms; [destruct (NE eq_refl)|discriminate]). apply exists_last in NL. destruct NL as (m' & x & ->). rewrite last_last. rewrite Forall_forall in FL. apply FL. apply in_or_app. right. left. reflexivity. }
  split; [rewrite A1; destruct A3 as (A3 & _); rewrite (A3 LA); reflexivity|]. split.
  - rewrite A5, <- PL. f_equal. clear - A4 FL. induction A4 as [|r b m bs X A4 IH]; [reflexivity|]. inversion FL as [|? ? S1 S2]; subst. apply X in S1. subst b. cbn [filter length]. f_equal. apply IH. exact S2.
  - intros k r Q. specialize (A6 k). rewrite Q in A6. apply A6. rewrite Forall_forall in FL. apply FL, (nth_error_In _ _ Q).
Qed.
Print Assumptions C97_search_sensors_partial.
(** a DS18S20, a DS18B20 and a DS1822 *)
Definition rom1 : list Z := [0x10; 1; 2; 3; 4; 5; 6; CRC_Model.OneWireCRC8 [0x10; 1; 2; 3; 4; 5; 6]].
Definition rom2 : list Z := [0x28; 255; 0; 0; 17; 4; 0; CRC_Model.OneWireCRC8 [0x28; 255; 0; 0; 17; 4; 0]].
Definition rom3 : list Z := [0x22; 9; 9; 9; 9; 9; 9; CRC_Model.OneWireCRC8 [0x22; 9; 9; 9; 9; 9; 9]].
(** a real-time clock, with family 0x24 *)
Definition other : list Z := [0x24; 1; 1; 1; 1; 1; 1; CRC_Model.OneWireCRC8 [0x24; 1; 1; 1; 1; 1; 1]].
Definition empty : ds := mkDs 0 (repeat noDev 10).
Definition dev (r : list Z) (t : Z) (ready : Z) : sDev := mkDev (rd r 0) t (repeat 0 12) r true false 0 300 true ready.
Definition two : ds := mkDs 2 (dev rom2 0 1000 :: dev rom1 1 2000 :: repeat noDev 8).
Ltac rom := split; [reflexivity|]; repeat (apply Forall_cons; [vm_compute; split; [discriminate|reflexivity]|]); apply Forall_nil.
Lemma roms_ok : Forall OneWire_Spec.rom_ok [rom1; rom2; rom3; other].
Proof. repeat (apply Forall_cons; [rom|]). apply Forall_nil. Qed.
Example C97_search_example : let roms := [rom1; rom2; rom3] in
  Forall OneWire_Spec.rom_ok roms /\ NoDup roms /\ Forall sensor roms /\ roms <> [] /\ Z.of_nat (length roms) <= 10 <= 10 /\ length (dsDev empty) = 10%nat /\
  option_map (fun p => (fst p, foundDevices (snd p), map addr (firstn 3 (dsDev (snd p))))) (Search (map OneWire_Spec.rom_bits roms) noDev 10 empty) = Some (0, 3, [rom1; rom2; rom3]).
Proof.
  cbv zeta. pose proof roms_ok as R. inversion R as [|? ? R1 R']; subst. inversion R' as [|? ? R2 R'']; subst. inversion R'' as [|? ? R3 _]; subst. split; [repeat (apply Forall_cons; [assumption|]); apply Forall_nil|]. split.
  { repeat (apply NoDup_cons; [cbn [In]; intros Q; repeat (destruct Q as [Q|Q]; [vm_compute in Q; discriminate Q|]); exact Q|]). apply NoDup_nil. }
  split; [repeat (apply Forall_cons; [apply sensorb_ok; [assumption|vm_compute; reflexivity]|]); apply Forall_nil|]. split; [discriminate|]. split; [cbn; lia|]. split; [reflexivity|]. vm_compute. reflexivity.
Qed.
(** Missing for the full claim: with another kind of device on the bus the list has a gap. One device is counted, but place 0 holds no sensor, and the sensor cannot be reached; its conversion is not started *)
Theorem C97_search_gap_refuted : exists roms st st' c, Forall OneWire_Spec.rom_ok roms /\ NoDup roms /\ Forall (fun r => rd r 0 <> 0) roms /\ (exists r, In r roms /\ sensor r) /\ length (dsDev st) = 10%nat /\
  Search (map OneWire_Spec.rom_bits roms) noDev 10 st = Some (c, st') /\ foundDevices st' = 1 /\ addr (device st' 0) = [] /\
  forall now i, 0 <= i -> exists l, startConversion st' i now true = Some (false, st', l) /\ ~ In Reset l.
Proof.
  exists [other; rom3], empty. set (q := Search (map OneWire_Spec.rom_bits [other; rom3]) noDev 10 empty).
  assert (E : q = Some (0, mkDs 1 (wr (dsDev empty) 1 (mkDev 0x22 0 [] rom3 true false 0 0 false 0)))) by (vm_compute; reflexivity).
  eexists. exists 0. pose proof roms_ok as R. inversion R as [|? ? R1 R']; subst. inversion R' as [|? ? R2 R'']; subst. inversion R'' as [|? ? R3 R4]; subst. inversion R4 as [|? ? R5 _]; subst. split; [repeat (apply Forall_cons; [assumption|]); apply Forall_nil|]. split.
  { repeat (apply NoDup_cons; [cbn [In]; intros Q; repeat (destruct Q as [Q|Q]; [vm_compute in Q; discriminate Q|]); exact Q|]). apply NoDup_nil. }
  split; [repeat (apply Forall_cons; [vm_compute; discriminate|]); apply Forall_nil|]. split; [exists rom3; split; [right; left; reflexivity|apply sensorb_ok; [assumption|vm_compute; reflexivity]]|]. split; [reflexivity|].
  split; [exact E|]. split; [reflexivity|]. split; [reflexivity|]. intros now i Hi. unfold startConversion. cbn [foundDevices]. destruct (Z.leb_spec 1 i); [exists []; split; [reflexivity|intros []]|]. assert (i = 0) as -> by lia. exists []. split; [reflexivity|intros []].
Qed.
Print Assumptions C97_search_gap_refuted.
(** The code does not tell that one device is of unknown type if a sensor comes after it *)
Theorem C97_search_code_refuted : exists roms st', Forall OneWire_Spec.rom_ok roms /\ (exists r, In r roms /\ valid_rom r /\ ~ sensor r) /\ Search (map OneWire_Spec.rom_bits roms) noDev 10 empty = Some (0, st').
Proof.
  pose proof roms_ok as R. inversion R as [|? ? R1 R']; subst. inversion R' as [|? ? R2 R'']; subst. inversion R'' as [|? ? R3 R4]; subst. inversion R4 as [|? ? R5 _]; subst.
  exists [other; rom3]. eexists. split; [repeat (apply Forall_cons; [assumption|]); apply Forall_nil|]. split; [|vm_compute; reflexivity]. exists other. split; [left; reflexivity|]. split; [apply validb_ok; [assumption|vm_compute; reflexivity]|]. intros S. apply sensorb_ok in S; [|assumption]. vm_compute in S. discriminate.
Qed.
Print Assumptions C97_search_code_refuted.

(** Nothing on the bus: no device counted, whatever was found before *)
Theorem C97_search_empty max junk st : Search [] junk max st = Some (4, mkDs 0 (dsDev st)).
Proof. reflexivity. Qed.
Print Assumptions C97_search_empty.
Example C97_search_empty_example : foundDevices two = 2 /\ option_map (fun p => (fst p, temperature (snd p) 0)) (Search [] noDev 10 two) = Some (4, Some None).
Proof. split; reflexivity. Qed.

(** ** Temperatures *)
(** A result read is the temperature that the scratchpad of the addressed sensor means: sixteenths of a degree, signed, at the resolution of the sensor. It becomes the reported temperature if a sensor can measure it;
    otherwise the last one stays and is marked. Nothing else changes *)
Theorem C97_temperature st i now answer st' l : 0 <= i < foundDevices st -> let d := device st (Z.to_nat i) in let b := answer (addr d) in
  (res_type d = 0 \/ (res_type d = 1 /\ -2000 <= reading b <= 2000)) -> length b = 9%nat -> Forall is_byte b ->
  readResult st i now true answer = Some (true, st', l) ->
  let v := if res_type d =? 1 then temperature_s b else temperature_b b in let d' := device st' (Z.to_nat i) in
  l = [Reset; Command (addr d) 0xBE] /\ current_temperature d' = v /\ (lastReadOK d' = true <-> measurable v) /\ (measurable v -> temperature st' i = Some (Some v)) /\ (~ measurable v -> temperature st' i = temperature st i) /\
  addr d' = addr d /\ type d' = type d /\ res_type d' = res_type d /\ conversionStarted d' = false /\ foundDevices st' = foundDevices st /\ forall k, k <> Z.to_nat i -> device st' k = device st k.
Proof.
  intros I d b RT LB FB. unfold readResult. destruct (Z.leb_spec (foundDevices st) i) as [|_]; [lia|]. destruct ((i <? 0) || (Z.of_nat (length (dsDev st)) <=? i)) eqn:Q; [discriminate|]. assert (LI : (Z.to_nat i < length (dsDev st))%nat) by lia. cbv zeta. fold d. fold b.
  destruct (negb (conversionStarted d) || (now <? readyAt d)); [discriminate|]. cbn [negb]. intros E. apply some_inj in E. apply pair_equal_spec in E. destruct E as (E & <-). apply pair_equal_spec in E. destruct E as (_ & <-). set (v := if res_type d =? 1 then temperature_s b else temperature_b b).
  assert (RC : forall k, (k < 9)%nat -> rd (received (data d) b) k = rd b k). { intros k Hk. unfold received, rd. rewrite firstn_all2 by lia. apply app_nth1. lia. }
  assert (V : rawValue (res_type d) (received (data d) b) = v).
  { assert (E : forall r, rawValue r (received (data d) b) = rawValue r b) by (intros r; unfold rawValue; rewrite !RC by lia; reflexivity). rewrite E. unfold v. destruct RT as [-> |(-> & RT)]; cbn [Z.eqb Pos.eqb]; [apply raw_b; exact FB|apply raw_s; assumption]. }
  rewrite V. clearbody v. unfold device at 1. unfold temperature, device. cbn [dsDev foundDevices]. rewrite wr_length. rewrite Q. destruct (Z.leb_spec (foundDevices st) i) as [|_]; [lia|]. rewrite !nth_wr_same by exact LI. cbn [current_temperature lastReadOK last_temperature addr type res_type conversionStarted].
  fold (device st (Z.to_nat i)). fold d. unfold measurable. split; [reflexivity|]. split; [reflexivity|]. destruct ((-55 * 16 <=? v) && (v <=? 125 * 16)) eqn:OK.
  - apply andb_prop in OK. rewrite !Z.leb_le in OK. split; [split; auto|]. split; [reflexivity|]. split; [intros N; destruct (N OK)|]. do 5 (split; [reflexivity|]). intros k Hk. apply nth_wr_other. auto.
  - assert (NM : ~ (-55 * 16 <= v <= 125 * 16)) by lia. split; [split; [discriminate|intros X; destruct (NM X)]|]. split; [intros X; destruct (NM X)|]. split; [reflexivity|]. do 5 (split; [reflexivity|]). intros k Hk. apply nth_wr_other. auto.
Qed.
Print Assumptions C97_temperature.
(** -10.125 degrees with 12 and with 9 bits; 25.0 and -0.5 degrees from a DS18S20, its count giving 24.9375 and -0.5 *)
Definition scratch (b0 b1 cfg remain per : Z) : list Z -> list Z := fun r => [b0; b1; 0; 0; cfg; 0xFF; remain; per; 0].
Example C97_temperature_example :
  0 <= 0 < foundDevices two /\ res_type (device two 0) = 0 /\ res_type (device two 1) = 1 /\
  map (fun a => option_map (fun p => temperature (snd (fst p)) 0) (readResult two 0 1000 true a)) [scratch 0x5E 0xFF 0x7F 0 0; scratch 0x5E 0xFF 0x1F 0 0; scratch 0xD0 0x07 0x7F 0 0; scratch 0xE0 0x07 0x7F 0 0] =
    [Some (Some (Some (-162))); Some (Some (Some (-168))); Some (Some (Some 2000)); Some (Some (Some 300))] /\
  map (fun a => option_map (fun p => temperature (snd (fst p)) 1) (readResult two 1 2000 true a)) [scratch 0x32 0 0 13 16; scratch 0xFF 0xFF 0 4 16; scratch 0xFF 0xFF 0 4 0] = [Some (Some (Some 399)); Some (Some (Some (-8))); Some (Some (Some (-8)))] /\
  temperature_b (scratch 0x5E 0xFF 0x7F 0 0 []) = -162 /\ temperature_s (scratch 0x32 0 0 13 16 []) = 399 /\ reading (scratch 0x32 0 0 13 16 []) = 50.
Proof. vm_compute. intuition discriminate. Qed.
(** Missing: the checksum of the scratchpad is not looked at; a sensor that is gone while another answers the reset gives all ones, which is taken for -0.0625 degrees *)
Theorem C97_absent_sensor_refuted : exists st st' l, readResult st 0 1000 true (fun _ => repeat 255 9) = Some (true, st', l) /\ lastReadOk st' 0 = Some true /\ temperature st' 0 = Some (Some (-1)) /\ rd (repeat 255 9) 8 <> CRC_Model.OneWireCRC8 (firstn 8 (repeat 255 9)).
Proof. exists two. do 2 eexists. split; [vm_compute; reflexivity|]. vm_compute. repeat split; discriminate. Qed.
Print Assumptions C97_absent_sensor_refuted.

(** ** Order of calls *)
(** A result is only read after a conversion was started for the same device, not yet read, at least 800 ms ago (as long as the time does not wrap) *)
Theorem C97_wait_partial s0 st tr i now p answer st' l : Forall (fun d => conversionStarted d = false) (dsDev s0) -> history s0 st tr -> Forall (fun e => 0 <= time (fst e) < 2 ^ 32 - 800) tr ->
  0 <= i -> readResult st i now p answer = Some (true, st', l) -> exists t, fold_left (under_way i) tr None = Some t /\ 800 <= now - t.
Proof.
  intros Z0 H T I E. destruct (history_waits s0 st tr Z0 H T) as (LN & W). unfold readResult in E. destruct (foundDevices st <=? i); [discriminate|]. destruct ((i <? 0) || (Z.of_nat (length (dsDev st)) <=? i)) eqn:Q; [discriminate|]. cbv zeta in E.
  specialize (W (Z.to_nat i) ltac:(lia)). rewrite Z2Nat.id in W by exact I. unfold waiting in W. destruct (negb (conversionStarted (device st (Z.to_nat i))) || (now <? readyAt (device st (Z.to_nat i)))) eqn:X; [discriminate|]. apply orb_false_elim in X. destruct X as (X1 & X2). destruct (conversionStarted (device st (Z.to_nat i))) eqn:CS; [|discriminate].
  destruct (fold_left (under_way i) tr None) as [t|] eqn:UW; [|discriminate]. destruct W as (_ & W). exists t. split; [reflexivity|]. apply Z.ltb_ge in X2. lia.
Qed.
Print Assumptions C97_wait_partial.
(** the conversion of device 1 started at 5000 (and again at 5100), read too early, then read *)
Definition idle (d : sDev) : sDev := mkDev (type d) (res_type d) (data d) (addr d) (crcOK d) (lastReadOK d) (current_temperature d) (last_temperature d) false (readyAt d).
Definition start : ds := mkDs 2 (map idle (dsDev two)).
Definition ops : list op := [Start 1 5000 true; Start 1 5100 true; Read 1 5850 true (scratch 0x32 0 0 13 16); Start 0 5860 false].
Example C97_wait_example : exists st tr st' l, history start st tr /\ map fst tr = ops /\ map snd tr = [true; true; false; false] /\ Forall (fun d => conversionStarted d = false) (dsDev start) /\ Forall (fun e => 0 <= time (fst e) < 2 ^ 32 - 800) tr /\
  readResult st 1 5900 true (scratch 0x32 0 0 13 16) = Some (true, st', l) /\ fold_left (under_way 1) tr None = Some 5100.
Proof.
  do 4 eexists. split.
  { eapply (and_then _ _ [(Start 1 5000 true, true); (Start 1 5100 true, true); (Read 1 5850 true (scratch 0x32 0 0 13 16), false)] (Start 0 5860 false));
    [eapply (and_then _ _ [(Start 1 5000 true, true); (Start 1 5100 true, true)] (Read 1 5850 true (scratch 0x32 0 0 13 16)));
     [eapply (and_then _ _ [(Start 1 5000 true, true)] (Start 1 5100 true)); [eapply (and_then _ _ [] (Start 1 5000 true)); [apply at_first|vm_compute; reflexivity]|vm_compute; reflexivity]|vm_compute; reflexivity]|vm_compute; reflexivity]. }
  split; [reflexivity|]. split; [reflexivity|]. split; [repeat (apply Forall_cons; [reflexivity|]); apply Forall_nil|]. split; [repeat (apply Forall_cons; [cbn [time fst]; lia|]); apply Forall_nil|]. split; [vm_compute; reflexivity|]. vm_compute. reflexivity.
Qed.
(** Missing: shortly before the time of 32 bits wraps, a conversion counts as ready at once *)
Theorem C97_wrap_refuted : exists st1 st2 l1 l2, startConversion start 0 (2 ^ 32 - 100) true = Some (true, st1, l1) /\ readResult st1 0 (2 ^ 32 - 50) true (scratch 0xD0 0x07 0x7F 0 0) = Some (true, st2, l2).
Proof. do 4 eexists. split; [vm_compute; reflexivity|]. vm_compute. reflexivity. Qed.
Print Assumptions C97_wrap_refuted.
(** Starting all conversions: every counted sensor is selected once, in order, and only they wait for a result, for 800 ms *)
Lemma startAll_run n : forall j st now, 0 <= j -> (Z.to_nat j + n <= length (dsDev st))%nat -> j + Z.of_nat n <= foundDevices st -> (forall k, (Z.to_nat j <= k < Z.to_nat j + n)%nat -> rd (addr (device st k)) 0 <> 0) ->
  exists st', startAll n j st now (fun _ => true) = Some (negb (n =? 0)%nat, st', flat_map (fun d => [Reset; Command (addr d) 0x44]) (firstn n (skipn (Z.to_nat j) (dsDev st)))) /\
  foundDevices st' = foundDevices st /\ length (dsDev st') = length (dsDev st) /\
  forall k, if ((Z.to_nat j <=? k) && (k <? Z.to_nat j + n))%nat then conversionStarted (device st' k) = true /\ readyAt (device st' k) = u32 (now + 800) /\ addr (device st' k) = addr (device st k) /\ last_temperature (device st' k) = last_temperature (device st k) else device st' k = device st k.
Proof.
  induction n as [|n IH]; intros j st now J L F A.
  - exists st. split; [reflexivity|]. split; [reflexivity|]. split; [reflexivity|]. intros k. destruct ((Z.to_nat j <=? k) && (k <? Z.to_nat j + 0))%nat eqn:Q; [lia|reflexivity].
  - cbn [startAll]. unfold startConversion at 1. destruct (Z.leb_spec (foundDevices st) j) as [|_]; [lia|]. destruct ((j <? 0) || (Z.of_nat (length (dsDev st)) <=? j)) eqn:Q; [lia|]. cbv zeta. assert (AJ : rd (addr (device st (Z.to_nat j))) 0 <> 0) by (apply A; lia). apply Z.eqb_neq in AJ. rewrite AJ, orb_true_r.
    set (d := device st (Z.to_nat j)). set (d' := mkDev _ _ _ _ _ _ _ _ _ _). set (st1 := mkDs (foundDevices st) (wr (dsDev st) (Z.to_nat j) d')).
    assert (D1 : forall k, device st1 k = if (k =? Z.to_nat j)%nat then d' else device st k). { intros k. unfold st1, device. cbn [dsDev]. destruct (Nat.eqb_spec k (Z.to_nat j)) as [->|N]; [apply nth_wr_same; lia|apply nth_wr_other; auto]. }
    destruct (IH (j + 1) st1 now) as (st' & E1 & E2 & E3 & E4); [lia|unfold st1; cbn [dsDev]; rewrite wr_length; lia|unfold st1; cbn [foundDevices]; lia| |].
    { intros k Hk. rewrite D1. destruct (Nat.eqb_spec k (Z.to_nat j)); [lia|]. apply A. lia. }
    rewrite E1. exists st'. split; [|split; [exact E2|split; [rewrite E3; apply wr_length|]]].
    + do 2 f_equal. assert (SK : skipn (Z.to_nat j) (dsDev st) = d :: skipn (S (Z.to_nat j)) (dsDev st)). { unfold d, device. assert (LJ : (Z.to_nat j < length (dsDev st))%nat) by lia. clear - LJ. revert LJ. generalize (Z.to_nat j). generalize (dsDev st). induction l as [|x l IH]; intros m LJ; [cbn in LJ; lia|]. destruct m; [reflexivity|]. cbn [length] in LJ. cbn [skipn nth]. rewrite IH by lia. reflexivity. }
      rewrite SK. cbn [firstn flat_map app]. do 2 f_equal. replace (Z.to_nat (j + 1)) with (S (Z.to_nat j)) by lia. do 2 f_equal. unfold st1. cbn [dsDev]. clear. generalize (Z.to_nat j). generalize (dsDev st). induction l as [|x l IH]; intros m; [destruct m; reflexivity|]. destruct m; [reflexivity|]. cbn [wr]. exact (IH m).
    + intros k. specialize (E4 k). rewrite D1 in E4. destruct (Nat.eqb_spec k (Z.to_nat j)) as [KE|N]; [rewrite KE in E4 |- *; clear k KE|].
      * replace ((Z.to_nat (j + 1) <=? Z.to_nat j) && (Z.to_nat j <? Z.to_nat (j + 1) + n))%nat with false in E4 by (symmetry; apply andb_false_intro1, Nat.leb_gt; lia). rewrite E4. replace ((Z.to_nat j <=? Z.to_nat j) && (Z.to_nat j <? Z.to_nat j + S n))%nat with true by (symmetry; apply andb_true_intro; split; [apply Nat.leb_le|apply Nat.ltb_lt]; lia). auto.
      * replace ((Z.to_nat j <=? k) && (k <? Z.to_nat j + S n))%nat with ((Z.to_nat (j + 1) <=? k) && (k <? Z.to_nat (j + 1) + n))%nat; [exact E4|]. apply eq_true_iff_eq. rewrite !andb_true_iff, !Nat.leb_le, !Nat.ltb_lt. lia.
Qed.
Theorem C97_all st now : 0 < foundDevices st <= Z.of_nat (length (dsDev st)) -> (forall k, (k < Z.to_nat (foundDevices st))%nat -> rd (addr (device st k)) 0 <> 0) ->
  exists st', startConversionAll st now (fun _ => true) = Some (true, st', flat_map (fun d => [Reset; Command (addr d) 0x44]) (firstn (Z.to_nat (foundDevices st)) (dsDev st))) /\ foundDevices st' = foundDevices st /\
  forall k, ((k < Z.to_nat (foundDevices st))%nat -> conversionStarted (device st' k) = true /\ readyAt (device st' k) = u32 (now + 800) /\ addr (device st' k) = addr (device st k) /\ last_temperature (device st' k) = last_temperature (device st k)) /\
    ((Z.to_nat (foundDevices st) <= k)%nat -> device st' k = device st k).
Proof.
  intros F A. unfold startConversionAll. destruct (startAll_run (Z.to_nat (foundDevices st)) 0 st now) as (st' & E1 & E2 & _ & E4); [lia|cbn; lia|lia|intros k Hk; apply A; cbn in Hk; lia|]. exists st'. cbn [Z.to_nat skipn] in E1. replace (Z.to_nat (foundDevices st) =? 0)%nat with false in E1 by (symmetry; apply Nat.eqb_neq; lia).
  split; [exact E1|]. split; [exact E2|]. intros k. specialize (E4 k). cbn [Z.to_nat] in E4. rewrite Nat.add_0_l in E4. cbn [Nat.leb andb] in E4. destruct (Nat.ltb_spec k (Z.to_nat (foundDevices st))); split; intros; try lia; exact E4.
Qed.
Print Assumptions C97_all.
Example C97_all_example : 0 < foundDevices start <= Z.of_nat (length (dsDev start)) /\ (forall k, (k < Z.to_nat (foundDevices start))%nat -> rd (addr (device start k)) 0 <> 0) /\
  option_map (fun p => (snd p, map readyAt (firstn 3 (dsDev (snd (fst p)))))) (startConversionAll start 5000 (fun _ => true)) = Some ([Reset; Command rom2 0x44; Reset; Command rom1 0x44], [5800; 5800; 0]).
Proof. split; [cbn; lia|]. split; [intros k Hk; cbn in Hk; destruct k as [|[|k]]; [vm_compute; discriminate|vm_compute; discriminate|lia]|]. vm_compute. reflexivity. Qed.
