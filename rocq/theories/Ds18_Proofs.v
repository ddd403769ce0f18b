(** Proofs for C97 *)
From Verif Require Import Base Bits Ds18_Model Ds18_Spec.
From Verif Require OneWire_Model OneWire_Spec OneWire_Props CRC_Model CRC_Spec CRC_Props.
From Coq Require Import Permutation.

Definition validb (r : list Z) : bool := CRC_Model.OneWireCRC8 (firstn 7 r) =? rd r 7.
Lemma bits_lsb_inj a b : is_byte a -> is_byte b -> CRC_Spec.bits_lsb 8 a = CRC_Spec.bits_lsb 8 b -> a = b.
Proof.
  intros A B E. apply Z.bits_inj'. intros n Hn. destruct (Z.lt_ge_cases n 8) as [L|L]; [|rewrite !byte_bits_above by assumption; reflexivity].
  unfold CRC_Spec.bits_lsb in E. cbn [seq map] in E. injection E as E0 E1 E2 E3 E4 E5 E6 E7.
  assert (C : n = 0 \/ n = 1 \/ n = 2 \/ n = 3 \/ n = 4 \/ n = 5 \/ n = 6 \/ n = 7) by (clear - Hn L; lia). destruct C as [->|[->|[->|[->|[->|[->|[->| ->]]]]]]]; assumption.
Qed.
Lemma validb_ok r : OneWire_Spec.rom_ok r -> (validb r = true <-> valid_rom r).
Proof.
  intros (L & F). unfold validb, valid_rom. assert (F7 : Forall is_byte (firstn 7 r)) by (rewrite <- (firstn_skipn 7 r) in F; apply Forall_app in F; apply F).
  destruct (CRC_Props.C53_crc8_is_remainder _ F7) as (E & B). rewrite <- E. rewrite Z.eqb_eq. split; [intros ->; reflexivity|]. intros Q. symmetry. apply bits_lsb_inj; auto. unfold rd. rewrite Forall_forall in F. apply F, nth_In. lia.
Qed.
Definition typeOf (r : list Z) : Z := if rd r 0 =? DS18S20 then DS18S20 else if rd r 0 =? DS18B20 then DS18B20 else if rd r 0 =? DS1822 then DS1822 else DS_UNKNOWN.
Definition sensorb (r : list Z) : bool := validb r && negb (typeOf r =? DS_UNKNOWN).
Lemma sensorb_ok r : OneWire_Spec.rom_ok r -> (sensorb r = true <-> sensor r).
Proof.
  intros R. unfold sensorb, sensor. rewrite andb_true_iff, (validb_ok _ R). apply and_iff_compat_l. unfold typeOf, DS18S20, DS18B20, DS1822, DS_UNKNOWN. cbn [In].
  destruct (Z.eqb_spec (rd r 0) 0x10); [cbn; intuition|]. destruct (Z.eqb_spec (rd r 0) 0x28); [cbn; intuition|]. destruct (Z.eqb_spec (rd r 0) 0x22); [cbn; intuition|]. cbn. intuition congruence.
Qed.
Lemma typeOf_sensor r : sensorb r = true -> typeOf r = rd r 0.
Proof.
  unfold sensorb, typeOf. intros H. apply andb_prop in H. destruct H as (_ & H). destruct (Z.eqb_spec (rd r 0) DS18S20); [congruence|]. destruct (Z.eqb_spec (rd r 0) DS18B20); [congruence|]. destruct (Z.eqb_spec (rd r 0) DS1822); [congruence|]. discriminate.
Qed.
Definition codeOf (r : list Z) : Z := if validb r then if negb (typeOf r =? DS_UNKNOWN) then 0 else 1 else 2.
Lemma codeOf_ok r : OneWire_Spec.rom_ok r -> code r (codeOf r).
Proof.
  intros R. pose proof (validb_ok r R) as V. pose proof (sensorb_ok r R) as S. unfold code, codeOf. unfold sensorb in S. destruct (validb r); cbn [andb] in S.
  - split; [|split]; [intros H; apply S in H; rewrite H; reflexivity| |intros H; destruct H; apply V; reflexivity]. intros _ H. destruct (negb _); [destruct H; apply S; reflexivity|reflexivity].
  - split; [|split]; [intros H; apply S in H; discriminate|intros H; apply V in H; discriminate|reflexivity].
Qed.
Lemma last_cons (l : list Z) : forall x d, List.last (x :: l) d = List.last l x.
Proof. induction l as [|y l IH]; intros x d; [reflexivity|]. change (List.last (x :: y :: l) d) with (List.last (y :: l) d). rewrite (IH y d), (IH y x). reflexivity. Qed.
Lemma loop_finds bus max l : Forall OneWire_Spec.rom_ok l -> forall fuel s s1 b a s2 tmp j ret st,
  OneWire_Spec.searches (length l) bus s = Some (map (fun x => (true, Some x)) l, s1) -> OneWire_Model.oneWireSearch bus s1 = Some (b, a, s2) ->
  0 <= j -> j + Z.of_nat (length l) <= max -> (b = false \/ j + Z.of_nat (length l) = max) -> max <= 10 -> length (dsDev st) = 10%nat -> 0 <= foundDevices st <= j -> (length l < fuel)%nat ->
  exists st', searchLoop fuel bus s tmp j max ret st = Some (List.last (map codeOf l) ret, st', s2) /\ length (dsDev st') = 10%nat /\
    foundDevices st' = foundDevices st + Z.of_nat (length (filter sensorb l)) /\
    forall k, match (if (k <? Z.to_nat j)%nat then None else nth_error l (k - Z.to_nat j)) with Some r => if sensorb r then listed r (device st' k) else device st' k = device st k | None => device st' k = device st k end.
Proof.
  induction 1 as [|r l R F IH]; intros fuel s s1 b a s2 tmp j ret st S1 S2 J JM E M L FD FU; (destruct fuel as [|fuel]; [lia|]); cbn [searchLoop].
  - cbn in S1. injection S1 as <-. rewrite S2. cbn [length] in E. assert (Q : b && (j <? max) = false) by (destruct E as [-> |E]; [reflexivity|destruct b; [cbn; lia|reflexivity]]). rewrite Q. cbn [negb map last length filter]. exists st.
    split; [reflexivity|]. split; [exact L|]. split; [lia|]. intros k. destruct (_ <? _)%nat; [reflexivity|]. destruct (k - _)%nat; reflexivity.
  - cbn [length OneWire_Spec.searches map] in S1. destruct (OneWire_Model.oneWireSearch bus s) as [[[f a1] s']|] eqn:O; [|discriminate]. destruct (OneWire_Spec.searches (length l) bus s') as [[l' s'']|] eqn:O2; [|discriminate]. injection S1 as -> -> -> ->. cbn [length] in *.
    destruct (Z.ltb_spec j max) as [_|]; [|lia]. cbn [andb negb]. fold (validb r). fold (typeOf r).
    assert (U : u8 (j + 1) = j + 1) by (unfold u8; apply Z.mod_small; lia). rewrite U.
    cbn [map]. rewrite last_cons. cbn [filter]. assert (SB : sensorb r = validb r && negb (typeOf r =? DS_UNKNOWN)) by reflexivity. assert (CO : codeOf r = if validb r then if negb (typeOf r =? DS_UNKNOWN) then 0 else 1 else 2) by reflexivity.
    destruct (validb r) eqn:V; cbn [andb] in SB; [destruct (negb (typeOf r =? DS_UNKNOWN)) eqn:T|]; rewrite SB, CO.
    + destruct (Nat.ltb_spec (Z.to_nat j) (length (dsDev st))) as [LJ|]; [|lia].
      match goal with |- exists st', searchLoop fuel bus s' ?t _ _ _ ?x = _ /\ _ => set (tm := t); set (sx := x) end.
      assert (UF : u8 (foundDevices st + 1) = foundDevices st + 1) by (unfold u8; apply Z.mod_small; lia).
      destruct (IH fuel s' s1 b a s2 tm (j + 1) 0 sx O2 S2 ltac:(lia) ltac:(lia) ltac:(lia) M) as (st' & A1 & A2 & A3 & A4).
      { unfold sx. cbn [dsDev]. rewrite wr_length. exact L. } { unfold sx. cbn [foundDevices]. rewrite UF. lia. } { lia. }
      exists st'. split; [exact A1|]. split; [exact A2|]. split; [rewrite A3; unfold sx; cbn [foundDevices length]; rewrite UF; lia|]. intros k. specialize (A4 k).
      destruct (Nat.ltb_spec k (Z.to_nat (j + 1))) as [K1|K1].
      * assert (DK : device sx k = if (k =? Z.to_nat j)%nat then tm else device st k). { unfold sx, device. cbn [dsDev]. destruct (Nat.eqb_spec k (Z.to_nat j)) as [->|N]; [rewrite nth_wr_same by exact LJ; reflexivity|rewrite nth_wr_other by auto; reflexivity]. }
        destruct (Nat.ltb_spec k (Z.to_nat j)) as [K2|K2]; [rewrite A4, DK; destruct (Nat.eqb_spec k (Z.to_nat j)); [lia|reflexivity]|]. replace (k - Z.to_nat j)%nat with 0%nat by lia. cbn [nth_error]. rewrite SB. rewrite A4, DK. destruct (Nat.eqb_spec k (Z.to_nat j)); [|lia].
        unfold tm, listed. cbn [addr type res_type conversionStarted]. assert (TS : typeOf r = rd r 0) by (apply typeOf_sensor; rewrite SB; reflexivity). rewrite TS. unfold DS18S20. destruct (Z.eqb_spec (rd r 0) 0x10); intuition congruence.
      * destruct (Nat.ltb_spec k (Z.to_nat j)); [lia|]. replace (k - Z.to_nat j)%nat with (S (k - Z.to_nat (j + 1))) by lia. cbn [nth_error].
        assert (DK : device sx k = device st k). { unfold sx, device. cbn [dsDev]. rewrite nth_wr_other by lia. reflexivity. }
        destruct (nth_error l (k - Z.to_nat (j + 1))) as [r2|]; [|congruence]. destruct (sensorb r2); congruence.
    + match goal with |- exists st', searchLoop fuel bus s' ?t _ _ _ _ = _ /\ _ => set (tm := t) end.
      destruct (IH fuel s' s1 b a s2 tm (j + 1) 1 st O2 S2 ltac:(lia) ltac:(lia) ltac:(lia) M L ltac:(lia) ltac:(lia)) as (st' & A1 & A2 & A3 & A4). exists st'. split; [exact A1|]. split; [exact A2|]. split; [exact A3|]. intros k. specialize (A4 k).
      destruct (Nat.ltb_spec k (Z.to_nat (j + 1))) as [K1|K1]; destruct (Nat.ltb_spec k (Z.to_nat j)) as [K2|K2]; try lia; [exact A4| |].
      * replace (k - Z.to_nat j)%nat with 0%nat by lia. cbn [nth_error]. rewrite SB. exact A4.
      * replace (k - Z.to_nat j)%nat with (S (k - Z.to_nat (j + 1))) by lia. exact A4.
    + match goal with |- exists st', searchLoop fuel bus s' ?t _ _ _ _ = _ /\ _ => set (tm := t) end.
      destruct (IH fuel s' s1 b a s2 tm (j + 1) 2 st O2 S2 ltac:(lia) ltac:(lia) ltac:(lia) M L ltac:(lia) ltac:(lia)) as (st' & A1 & A2 & A3 & A4). exists st'. split; [exact A1|]. split; [exact A2|]. split; [exact A3|]. intros k. specialize (A4 k).
      destruct (Nat.ltb_spec k (Z.to_nat (j + 1))) as [K1|K1]; destruct (Nat.ltb_spec k (Z.to_nat j)) as [K2|K2]; try lia; [exact A4| |].
      * replace (k - Z.to_nat j)%nat with 0%nat by lia. cbn [nth_error]. rewrite SB. exact A4.
      * replace (k - Z.to_nat j)%nat with (S (k - Z.to_nat (j + 1))) by lia. exact A4.
Qed.
Lemma searches_prefix bus x : forall y s s2, OneWire_Spec.searches (length x + length y) bus s = Some (x ++ y, s2) ->
  exists s1, OneWire_Spec.searches (length x) bus s = Some (x, s1) /\ OneWire_Spec.searches (length y) bus s1 = Some (y, s2).
Proof.
  induction x as [|q x IH]; intros y s s2; cbn [length Nat.add app OneWire_Spec.searches]; [intros H; exists s; auto|]. destruct (OneWire_Model.oneWireSearch bus s) as [[[r a] s']|]; [|discriminate].
  destruct (OneWire_Spec.searches (length x + length y) bus s') as [[l t]|] eqn:E; [|discriminate]. intros [= Q -> ->]. destruct (IH y s' s2 E) as (s1 & A & B). exists s1. rewrite A. split; [congruence|exact B].
Qed.
Lemma search_all roms max junk st : Forall OneWire_Spec.rom_ok roms -> NoDup roms -> Forall (fun r => rd r 0 <> 0) roms -> roms <> [] -> 0 <= max <= 10 -> length (dsDev st) = 10%nat ->
  exists l st', Permutation l roms /\ let m := firstn (Z.to_nat max) l in
    Search (map OneWire_Spec.rom_bits roms) junk max st = Some (List.last (map codeOf m) 4, st') /\ length (dsDev st') = 10%nat /\ foundDevices st' = Z.of_nat (length (filter sensorb m)) /\ Forall OneWire_Spec.rom_ok m /\
    forall k, match nth_error m k with Some r => if sensorb r then listed r (device st' k) else device st' k = device st k | None => device st' k = device st k end.
Proof.
  intros R N F NE M L. destruct (OneWire_Props.C52_search_complete roms R N F NE) as (l & s & S1 & P & S2). exists l. pose proof (Permutation_length P) as PL.
  set (m := firstn (Z.to_nat max) l). set (bus := map OneWire_Spec.rom_bits roms) in *.
  assert (RL : Forall OneWire_Spec.rom_ok l) by (apply (Permutation_Forall (Permutation_sym P)); exact R).
  assert (RM : Forall OneWire_Spec.rom_ok m). { unfold m. rewrite <- (firstn_skipn (Z.to_nat max) l) in RL. apply Forall_app in RL. apply RL. }
  assert (LM : length m = Nat.min (Z.to_nat max) (length l)) by (unfold m; apply firstn_length).
  assert (X : exists s1 b a s2, OneWire_Spec.searches (length m) bus OneWire_Model.resetSearch = Some (map (fun x => (true, Some x)) m, s1) /\ OneWire_Model.oneWireSearch bus s1 = Some (b, a, s2) /\ (b = false \/ Z.of_nat (length m) = max)).
  { rewrite <- PL in S1. assert (SP : l = m ++ skipn (Z.to_nat max) l) by (unfold m; symmetry; apply firstn_skipn).
    assert (S1' : OneWire_Spec.searches (length (map (fun x : list Z => (true, Some x)) m) + length (map (fun x : list Z => (true, Some x)) (skipn (Z.to_nat max) l))) bus OneWire_Model.resetSearch = Some (map (fun x => (true, Some x)) m ++ map (fun x => (true, Some x)) (skipn (Z.to_nat max) l), s)).
    { rewrite !map_length, <- app_length, <- map_app, <- SP. exact S1. }
    apply searches_prefix in S1'. destruct S1' as (s1 & A & B). rewrite map_length in A. exists s1. destruct (skipn (Z.to_nat max) l) as [|r q] eqn:SK; cbn [length map OneWire_Spec.searches] in B.
    - injection B as ->. specialize (S2 1%nat). cbn [OneWire_Spec.searches repeat] in S2. destruct (OneWire_Model.oneWireSearch bus s) as [[[b a] s2]|]; [|discriminate]. exists b, a, s2. split; [exact A|]. split; [reflexivity|]. left. injection S2 as -> _ _. reflexivity.
    - destruct (OneWire_Model.oneWireSearch bus s1) as [[[b a] s2]|]; [|discriminate]. exists b, a, s2. split; [exact A|]. split; [reflexivity|]. right. assert (Lq : (0 < length (skipn (Z.to_nat max) l))%nat) by (rewrite SK; cbn; lia). rewrite skipn_length in Lq. lia. }
  destruct X as (s1 & b & a & s2 & X1 & X2 & X3).
  destruct (loop_finds bus max m RM (S (Z.to_nat max)) _ s1 b a s2 junk 0 4 (mkDs 0 (dsDev st)) X1 X2 ltac:(lia) ltac:(lia) ltac:(lia) ltac:(lia) L ltac:(cbn; lia) ltac:(lia)) as (st' & A1 & A2 & A3 & A4).
  exists st'. split; [exact P|]. cbv zeta. split; [unfold Search; rewrite A1; reflexivity|]. split; [exact A2|]. split; [exact A3|]. split; [exact RM|]. intros k. specialize (A4 k). cbn [Z.to_nat] in A4. rewrite Nat.sub_0_r in A4. destruct (Nat.ltb_spec k 0); [lia|]. exact A4.
Qed.
(** ** Values *)
Lemma s16_unique z v q : z = v + q * 65536 -> -32768 <= v < 32768 -> s16 z = v.
Proof.
  intros E R. unfold s16. cbv zeta. assert (M : z mod 65536 = if v <? 0 then v + 65536 else v). { rewrite E, Z.mod_add by lia. destruct (Z.ltb_spec v 0); [symmetry; apply Z.mod_unique with (q := -1); lia|apply Z.mod_small; lia]. }
  rewrite M. clear M E. destruct (Z.ltb_spec v 0) as [N|N]; [destruct (Z.ltb_spec (v + 65536) 32768)|destruct (Z.ltb_spec v 32768)]; lia.
Qed.
Lemma reading_ok b : is_byte (rd b 0) -> is_byte (rd b 1) -> s16 (Z.lor (Z.shiftl (rd b 1) 8) (rd b 0)) = reading b /\ -32768 <= reading b < 32768.
Proof.
  intros A B. rewrite word_bytes by exact A. unfold reading, signed. unfold is_byte in *. destruct (Z.ltb_spec (rd b 1 * 256 + rd b 0) 32768); (split; [|lia]); [apply (s16_unique _ _ 0); lia|apply (s16_unique _ _ 1); lia].
Qed.
Lemma clear_low a n : 0 <= n -> Z.land a (Z.lnot (Z.ones n)) = a / 2 ^ n * 2 ^ n.
Proof. intros H. rewrite <- Z.ldiff_land, Z.ldiff_ones_r by exact H. rewrite Z.shiftr_div_pow2, Z.shiftl_mul_pow2 by exact H. reflexivity. Qed.
Lemma raw_b b : Forall is_byte b -> rawValue 0 b = temperature_b b.
Proof.
  intros F. assert (B : forall k, is_byte (rd b k)). { intros k. unfold rd. destruct (Nat.lt_ge_cases k (length b)) as [L|L]; [rewrite Forall_forall in F; apply F, nth_In; exact L|rewrite nth_overflow by exact L; red; lia]. }
  unfold rawValue. cbn [Z.eqb negb]. destruct (reading_ok b (B 0%nat) (B 1%nat)) as (-> & _). cbv zeta. unfold temperature_b, step_of. pose proof (B 4%nat) as B4. set (c := rd b 4) in *. clearbody c. set (v := reading b). clearbody v. clear - B4.
  assert (G : forall k, 0 <= k < 4 -> (Z.land c 0x60 =? 32 * k) = (c / 32 mod 4 =? k)).
  { intros k Hk. apply eqb_prop. assert (C : k = 0 \/ k = 1 \/ k = 2 \/ k = 3) by lia. destruct C as [->|[->|[->| ->]]].
    - apply (byte_forall (fun c => Bool.eqb (Z.land c 0x60 =? 32 * 0) (c / 32 mod 4 =? 0))); [vm_compute; reflexivity|exact B4].
    - apply (byte_forall (fun c => Bool.eqb (Z.land c 0x60 =? 32 * 1) (c / 32 mod 4 =? 1))); [vm_compute; reflexivity|exact B4].
    - apply (byte_forall (fun c => Bool.eqb (Z.land c 0x60 =? 32 * 2) (c / 32 mod 4 =? 2))); [vm_compute; reflexivity|exact B4].
    - apply (byte_forall (fun c => Bool.eqb (Z.land c 0x60 =? 32 * 3) (c / 32 mod 4 =? 3))); [vm_compute; reflexivity|exact B4]. }
  change 0x00 with (32 * 0). change (Z.land c 0x60 =? 0x20) with (Z.land c 0x60 =? 32 * 1). change (Z.land c 0x60 =? 0x40) with (Z.land c 0x60 =? 32 * 2). rewrite !G by lia. pose proof (Z.mod_pos_bound (c / 32) 4 ltac:(lia)) as M. set (r := c / 32 mod 4) in *. clearbody r.
  assert (C : r = 0 \/ r = 1 \/ r = 2 \/ r = 3) by lia. destruct C as [->|[->|[->| ->]]]; cbn [Z.eqb Pos.eqb Z.sub Z.add Z.opp Z.pos_sub].
  - apply (clear_low v 3). lia.
  - apply (clear_low v 2). lia.
  - apply (clear_low v 1). lia.
  - change (2 ^ 0) with 1. rewrite Z.div_1_r. lia.
Qed.
Lemma raw_s b : Forall is_byte b -> -2000 <= reading b <= 2000 -> rawValue 1 b = temperature_s b.
Proof.
  intros F R. assert (B : forall k, is_byte (rd b k)). { intros k. unfold rd. destruct (Nat.lt_ge_cases k (length b)) as [L|L]; [rewrite Forall_forall in F; apply F, nth_In; exact L|rewrite nth_overflow by exact L; red; lia]. }
  unfold rawValue. cbn [Z.eqb negb]. destruct (reading_ok b (B 0%nat) (B 1%nat)) as (-> & _). cbv zeta. unfold temperature_s. set (h := reading b) in *. clearbody h. rewrite Z.shiftl_mul_pow2 by lia. change (2 ^ 3) with 8. rewrite (s16_unique (h * 8) (8 * h) 0) by lia.
  change 0x10 with 16. destruct (rd b 7 =? 16); [|reflexivity]. pose proof (B 6%nat) as B6. red in B6. set (c := rd b 6) in *. clearbody c. clear - R B6.
  assert (E : Z.land (8 * h) 0xFFF0 = 16 * (h / 2) + (- (8 * h / 65536)) * 65536).
  { assert (X : Z.land (8 * h) 0xFFF0 = Z.land (Z.land (8 * h) (Z.lnot (Z.ones 4))) 0xFFFF) by (rewrite <- Z.land_assoc; f_equal). rewrite X, clear_low, land_ffff by lia. change (2 ^ 4) with 16.
    assert (Q : 8 * h / 16 = h / 2) by (Z.div_mod_to_equations; lia). rewrite Q. Z.div_mod_to_equations. lia. }
  rewrite E. apply s16_unique with (q := - (8 * h / 65536)); [lia|]. Z.div_mod_to_equations. lia.
Qed.
(** ** Histories *)
Lemma in_reach st i : foundDevices st <=? i = false -> (i <? 0) || (Z.of_nat (length (dsDev st)) <=? i) = false -> (Z.to_nat i < length (dsDev st))%nat /\ 0 <= i.
Proof. lia. Qed.
Definition waiting (tr : list (op * bool)) (i : Z) (d : sDev) : Prop :=
  match fold_left (under_way i) tr None with Some t => conversionStarted d = true /\ readyAt d = t + 800 | None => conversionStarted d = false end.
Lemma history_waits s0 st tr : Forall (fun d => conversionStarted d = false) (dsDev s0) -> history s0 st tr -> Forall (fun e => 0 <= time (fst e) < 2 ^ 32 - 800) tr -> length (dsDev st) = length (dsDev s0) /\ forall i, (i < length (dsDev st))%nat -> waiting tr (Z.of_nat i) (device st i).
Proof.
  intros Z0 H. induction H as [|st tr o b st' l H IH E]; intros T.
  - split; [reflexivity|]. intros i Hi. cbn. rewrite Forall_forall in Z0. apply Z0, nth_In. exact Hi.
  - apply Forall_app in T. destruct T as (T1 & T2). inversion T2 as [|? ? T3 _]; subst. destruct (IH T1) as (LN & IW).
    assert (Same : st' = st -> b = false -> length (dsDev st') = length (dsDev s0) /\ forall i, (i < length (dsDev st'))%nat -> waiting (tr ++ [(o, b)]) (Z.of_nat i) (device st' i)).
    { intros -> ->. split; [exact LN|]. intros i Hi. unfold waiting. rewrite fold_left_app. cbn [fold_left under_way]. destruct o; apply IW; exact Hi. }
    destruct o as [j n p|j n p a]; cbn [perform time fst] in *; unfold startConversion, readResult in E; destruct (foundDevices st <=? j) eqn:Q1; [injection E as <- <- _; auto| |injection E as <- <- _; auto|]; (destruct ((j <? 0) || (Z.of_nat (length (dsDev st)) <=? j)) eqn:Q2; [discriminate|]); destruct (in_reach _ _ Q1 Q2) as (JL & J0).
    + cbv zeta in E. destruct (negb (type (device st (Z.to_nat j)) =? DS_UNKNOWN) || negb (rd (addr (device st (Z.to_nat j))) 0 =? 0)); [|injection E as <- <- _; auto]. destruct p; [|injection E as <- <- _; auto]. injection E as <- <- _. cbn [dsDev]. rewrite wr_length. split; [exact LN|]. intros i Hi. unfold waiting, device. cbn [dsDev]. rewrite fold_left_app. cbn [fold_left under_way]. destruct (Z.eqb_spec j (Z.of_nat i)) as [->|N].
      * rewrite Nat2Z.id, nth_wr_same by exact Hi. cbn [conversionStarted readyAt]. split; [reflexivity|]. unfold u32, leadTime. rewrite Z.mod_small by lia. reflexivity.
      * rewrite nth_wr_other by lia. apply (IW i Hi).
    + cbv zeta in E. destruct (negb (conversionStarted (device st (Z.to_nat j))) || (n <? readyAt (device st (Z.to_nat j)))); [injection E as <- <- _; auto|]. destruct p; cbn [negb] in E; [|injection E as <- <- _; auto]. injection E as <- <- _. cbn [dsDev]. rewrite wr_length. split; [exact LN|]. intros i Hi. unfold waiting, device. cbn [dsDev]. rewrite fold_left_app. cbn [fold_left under_way]. destruct (Z.eqb_spec j (Z.of_nat i)) as [->|N].
      * rewrite Nat2Z.id, nth_wr_same by exact Hi. reflexivity.
      * rewrite nth_wr_other by lia. apply (IW i Hi).
Qed.
