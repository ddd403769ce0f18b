(** C120: the gas sensor CCS811 (CCS811.cpp) *)
From Verif Require Export Ccs_Proofs.
Open Scope Z_scope.

(** A sensor with data in its registers, in its boot loader; the interface and the driver at the start *)
Definition air (x : Z) : list Z := if x =? 1 then [0] else if x =? 2 then [1; 0x90; 0; 7; 9; 0; 1; 2] else if x =? 5 then [100; 0; 100; 0] else if x =? 0x11 then [0x12; 0x34] else if x =? 0xE0 then [4] else [].
Definition fresh : gas := mkGas true false air 0 0 0 false.
Definition rest (s : gas) : hw gas := mkHw false false false false true 0xF8 0 s [].
Definition good (acks : nat -> bool) : maker := {| valid := true; flags := 8; acks := acks; hwid := 0x81 |}.
Definition unread : ccs := mkCcs 0 0 0x5A.

(** Whatever the sensor answers, every function ends, leaves the sensor asleep, and does not address it while it sleeps. *)
Theorem C120_quiet a k m h d : 0 <= _I2C_ADDR d < 128 -> idle h -> deaf (world h) = false ->
  let calm h' := idle h' /\ asleep (world h') in
  (forall junk, exists h' v, readStatus (nose a k) (S m) pin junk h d = Done (h', v) /\ calm h') /\
  (forall junk, exists h' v, readHW_ID (nose a k) (S m) pin junk h d = Done (h', v) /\ calm h') /\
  (forall junk, exists h' v, getBaseline (nose a k) (S m) pin junk h d = Done (h', v) /\ calm h') /\
  (forall b, exists h', setBaseline (nose a k) (S m) pin h d b = Done h' /\ calm h') /\
  (forall junk s, exists h' v, readErrorID (nose a k) (S m) pin junk h d s = Done (h', v) /\ calm h') /\
  (exists h', sleep (nose a k) (S m) pin h d = Done h' /\ calm h') /\
  (forall x, exists h', setMode (nose a k) (S m) pin h d x = Done h' /\ calm h') /\
  (exists h' d' b, getData (nose a k) (S m) pin h d = Done (h', d', b) /\ calm h') /\
  (forall t rh, exists h', compensate (nose a k) (S m) pin h d t rh = Done h' /\ calm h') /\
  (forall junk x, 0 <= x < 128 -> exists h' d' b, begin (nose a k) (S m) pin junk h d x = Done (h', d', b) /\ calm h').
Proof.
  intros A I DF calm.
  assert (RD : forall h d r len, 0 <= _I2C_ADDR d < 128 -> idle h -> deaf (world h) = false -> (0 < len)%nat -> exists h' c l, readRegister (nose a k) (S m) pin h d r len = Done (h', c, l) /\ calm h').
  { clear. intros h d r len A I DF L. destruct (read_any a k m h d r len I A L) as (h' & c & l & E & I' & H & D'). exists h', c, l. split; [exact E|]. split; [exact I'|]. split; [exact H|congruence]. }
  assert (SD : forall h d l, 0 <= _I2C_ADDR d < 128 -> idle h -> deaf (world h) = false -> l <> [] -> exists h', sendBytes (nose a k) (S m) pin h d l = Done h' /\ calm h').
  { clear. intros h d l A I DF L. destruct (send_any a k m h d l I A L) as (h' & E & I' & H & D'). exists h'. split; [exact E|]. split; [exact I'|]. split; [exact H|congruence]. }
  assert (ST : forall junk h d, 0 <= _I2C_ADDR d < 128 -> idle h -> deaf (world h) = false -> exists h' v, readStatus (nose a k) (S m) pin junk h d = Done (h', v) /\ calm h').
  { clear - RD. intros junk h d A I DF. destruct (RD h d STATUS 1%nat A I DF ltac:(lia)) as (h' & c & l & E & C). unfold readStatus. rewrite E. eauto. }
  assert (HI : forall junk h d, 0 <= _I2C_ADDR d < 128 -> idle h -> deaf (world h) = false -> exists h' v, readHW_ID (nose a k) (S m) pin junk h d = Done (h', v) /\ calm h').
  { clear - RD. intros junk h d A I DF. destruct (RD h d HW_ID 1%nat A I DF ltac:(lia)) as (h' & c & l & E & C). unfold readHW_ID. rewrite E. eauto. }
  assert (ER : forall junk s h d, 0 <= _I2C_ADDR d < 128 -> idle h -> deaf (world h) = false -> exists h' v, readErrorID (nose a k) (S m) pin junk h d s = Done (h', v) /\ calm h').
  { clear - RD. intros junk s h d A I DF. destruct (RD h d ERROR_ID 1%nat A I DF ltac:(lia)) as (h' & c & l & E & C). unfold readErrorID. rewrite E. eauto. }
  split; [intros junk; apply ST; assumption|]. split; [intros junk; apply HI; assumption|].
  split; [intros junk; destruct (RD h d BASELINE_REG 2%nat A I DF ltac:(lia)) as (h' & c & l & E & C); unfold getBaseline; rewrite E; eauto|].
  split; [intros b; apply SD; try assumption; discriminate|]. split; [intros junk s; apply ER; assumption|]. split; [apply SD; try assumption; discriminate|]. split; [intros x; apply SD; try assumption; discriminate|].
  split; [destruct (RD h d ALG_RESULT_DATA 4%nat A I DF ltac:(lia)) as (h' & c & l & E & C); unfold getData; rewrite E; destruct (negb (u8 c =? 4)); eauto|].
  split; [intros t rh; apply SD; try assumption; discriminate|].
  intros junk x X. unfold begin. cbv zeta. set (d1 := mkCcs (TVOC d) (CO2 d) x). assert (A1 : 0 <= _I2C_ADDR d1 < 128) by exact X. clearbody d1.
  destruct (HI (junk 4%nat) h d1 A1 I DF) as (h1 & v1 & E1 & C1). rewrite E1. destruct (negb (v1 =? 0x81)); [eauto|]. destruct C1 as (I1 & _ & D1).
  destruct (ST (junk 0%nat) h1 d1 A1 I1 D1) as (h2 & v2 & E2 & C2). rewrite E2. destruct C2 as (I2 & _ & D2). destruct (Z.land v2 (Z.shiftl 1 4) =? 0).
  { destruct (ER (junk 1%nat) v2 h2 d1 A1 I2 D2) as (h3 & v3 & E3 & C3). rewrite E3. eauto. }
  destruct (SD h2 d1 [APP_START] A1 I2 D2 ltac:(discriminate)) as (h3 & E3 & I3 & _ & D3). rewrite E3. destruct (ST (junk 2%nat) h3 d1 A1 I3 D3) as (h4 & v4 & E4 & I4 & _ & D4). rewrite E4. destruct (Z.land v4 (Z.shiftl 1 7) =? 0).
  { destruct (ER (junk 3%nat) v4 h4 d1 A1 I4 D4) as (h5 & v5 & E5 & C5). rewrite E5. eauto. }
  destruct (SD h4 d1 [MEAS_MODE; 0x20] A1 I4 D4 ltac:(discriminate)) as (h5 & E5 & C5). rewrite E5. eauto.
Qed.
Print Assumptions C120_quiet.
Example C120_quiet_example : idle (rest fresh) /\ deaf (world (rest fresh)) = false /\
  (* what is excluded: a sensor addressed while its pin is high does not answer *)
  match MasterCmdRead (nose 0x5A (good (fun _ => true))) 1 (rest fresh) 0x5A 0x20 1 1 with Done (h, c, l) => deaf (world h) = true /\ c = 0 /\ l = [] | _ => False end /\
  match readHW_ID (nose 0x5A (good (fun _ => true))) 1 pin (fun _ => 77) (rest fresh) unread with Done (h, v) => asleep (world h) /\ v = 0x81 | _ => False end.
Proof. split; [left; reflexivity|]. split; [reflexivity|]. vm_compute. repeat split. Qed.

(** What is read: the status, the identification (0 if the sensor does not answer), the error if the status has one. *)
Theorem C120_reads a k m h d : 0 <= a < 128 -> idle h -> _I2C_ADDR d = a -> 0 <= flags k < 16 -> is_byte (hwid k) ->
  (forall junk, exists h' v, readHW_ID (nose a k) (S m) pin junk h d = Done (h', v) /\ kept (world h) (world h') /\ (polite k (world h) 3 -> v = hwid k) /\ (~ polite k (world h) 3 -> v = 0)) /\
  (polite k (world h) 3 ->
    (forall junk, exists h', readStatus (nose a k) (S m) pin junk h d = Done (h', (if running (world h) then 128 else 0) + (if valid k then 16 else 0) + flags k) /\ kept (world h) (world h')) /\
    (forall junk s e, regs (world h) 0xE0 = [e] -> is_byte e -> exists h', readErrorID (nose a k) (S m) pin junk h d s = Done (h', if Z.odd s then e else 0) /\ kept (world h) (world h'))).
Proof.
  intros A I D F HB. split.
  - intros junk. destruct (read_ok a k m A h d HW_ID 0 I D ltac:(discriminate)) as (h' & E & _ & K & _). unfold readHW_ID. rewrite E. pose proof (answers_polite k (world h)) as AP. do 2 eexists. split; [reflexivity|]. split; [exact K|]. split.
    + intros P. apply AP in P. rewrite P. cbn. apply Z.mod_small. exact HB.
    + intros P. destruct (answers k (world h)); [destruct (P (proj1 AP eq_refl))|reflexivity].
  - intros P. split.
    + intros junk. destruct (read_good a k m A h d STATUS 0 I D ltac:(discriminate) P) as (h' & E & _ & K & _). unfold readStatus. rewrite E. exists h'. split; [|exact K]. do 2 f_equal. change (local _ _ _) with ((128 * Z.b2z (running (world h)) + 16 * Z.b2z (valid k) + flags k) mod 256). destruct (running (world h)), (valid k); cbn [Z.b2z]; rewrite Z.mod_small by lia; lia.
    + intros junk s e RE EB. destruct (read_good a k m A h d ERROR_ID 0 I D ltac:(discriminate) P) as (h' & E & _ & K & _). unfold readErrorID. rewrite E. exists h'. split; [|exact K]. do 2 f_equal.
      assert (V : local (contents k (world h) ERROR_ID 0 1) junk 0 = e) by (unfold contents; change (register k (world h) ERROR_ID) with (regs (world h) 0xE0); rewrite RE; cbn; apply Z.mod_small; exact EB).
      rewrite V. change 1 with (Z.ones 1) at 1. rewrite Z.land_ones by lia. change (2 ^ 1) with 2. rewrite Zmod_odd. destruct (Z.odd s); reflexivity.
Qed.
Print Assumptions C120_reads.
Example C120_reads_example : 0 <= flags (good (fun _ => true)) < 16 /\ is_byte (hwid (good (fun _ => true))) /\ polite (good (fun _ => true)) fresh 3 /\ ~ polite (good (fun i => negb (Nat.eqb i 2))) fresh 3 /\
  match readStatus (nose 0x5A (good (fun _ => true))) 1 pin (fun _ => 77) (rest fresh) unread with Done (_, v) => v = 0x18 | _ => False end /\
  match readHW_ID (nose 0x5A (good (fun i => negb (Nat.eqb i 2)))) 1 pin (fun _ => 77) (rest fresh) unread with Done (_, v) => v = 0 | _ => False end.
Proof. split; [cbn; lia|]. split; [unfold is_byte; cbn; lia|]. split; [intros j _; reflexivity|]. split; [intros P; specialize (P 2%nat ltac:(lia)); discriminate|]. vm_compute. split; reflexivity. Qed.

(** getData(): true exactly if the sensor answered; then the values are those of the sensor. Otherwise the values of before stay. *)
Theorem C120_data a k m h d c1 c2 t1 t2 r : 0 <= a < 128 -> idle h -> _I2C_ADDR d = a -> regs (world h) 2 = c1 :: c2 :: t1 :: t2 :: r -> is_byte c1 -> is_byte c2 -> is_byte t1 -> is_byte t2 ->
  exists h' d' b, getData (nose a k) (S m) pin h d = Done (h', d', b) /\ kept (world h) (world h') /\ (b = true <-> polite k (world h) 3) /\
    (b = true -> CO2 d' = 256 * c1 + c2 /\ TVOC d' = 256 * t1 + t2 /\ _I2C_ADDR d' = a) /\ (b = false -> d' = d).
Proof.
  intros A I D R B1 B2 B3 B4. destruct (read_ok a k m A h d ALG_RESULT_DATA 3 I D ltac:(discriminate)) as (h' & E & _ & K & _). unfold getData. rewrite E. pose proof (answers_polite k (world h)) as AP. destruct (answers k (world h)).
  - change (negb (u8 (Z.of_nat 4) =? 4)) with false. cbv iota. do 3 eexists. split; [reflexivity|]. split; [exact K|]. split; [exact AP|]. split; [|discriminate]. intros _.
    unfold contents. change (register k (world h) ALG_RESULT_DATA) with (regs (world h) 2). rewrite R. cbn [TVOC CO2 _I2C_ADDR seq map nth rd]. rewrite !Z.mod_small, !Z.shiftl_mul_pow2 by (assumption || lia). split; [lia|]. split; [lia|exact D].
  - change (negb (u8 0 =? 4)) with true. cbv iota. do 3 eexists. split; [reflexivity|]. split; [exact K|]. split; [exact AP|]. split; [discriminate|reflexivity].
Qed.
Print Assumptions C120_data.
Example C120_data_example : idle (rest fresh) /\ regs fresh 2 = 1 :: 0x90 :: 0 :: 7 :: [9; 0; 1; 2] /\
  match getData (nose 0x5A (good (fun _ => true))) 1 pin (rest fresh) unread with Done (h, d, b) => d = mkCcs 7 400 0x5A /\ b = true | _ => False end /\
  match getData (nose 0x5A (good (fun i => Nat.ltb i 2))) 1 pin (rest fresh) (mkCcs 3 4 0x5A) with Done (h, d, b) => d = mkCcs 3 4 0x5A /\ b = false | _ => False end.
Proof. split; [left; reflexivity|]. split; [reflexivity|]. vm_compute. repeat split. Qed.

(** begin(). Wanted: true exactly if there is a CCS811 with an application, and then the application runs and measures every 10 seconds. Missing: that it answers (next theorem); if it does: *)
Theorem C120_begin_partial a k m junk h d mode : 0 <= a < 128 -> idle h -> polite k (world h) 14 -> 0 <= flags k < 16 -> is_byte (hwid k) -> regs (world h) 1 = [mode] ->
  exists h' b, begin (nose a k) (S m) pin junk h d a = Done (h', mkCcs (TVOC d) (CO2 d) a, b) /\ (b = true <-> hwid k = 0x81 /\ valid k = true) /\
    (b = true -> running (world h') = true /\ regs (world h') 1 = [0x20] /\ forall x, x <> 1 -> regs (world h') x = regs (world h) x) /\ (b = false -> kept (world h) (world h')).
Proof.
  intros A I P F HB MO. destruct (begin_ok a k m A junk h d mode I P F HB MO) as (h' & E & _ & T & N). exists h', ((hwid k =? 0x81) && valid k). split; [exact E|]. split; [rewrite andb_true_iff, Z.eqb_eq; reflexivity|]. auto.
Qed.
Print Assumptions C120_begin_partial.
Example C120_begin_example : polite (good (fun i => Nat.ltb i 14)) (world (rest fresh)) 14 /\ regs fresh 1 = [0] /\
  match begin (nose 0x5A (good (fun i => Nat.ltb i 14))) 1 pin (fun _ _ => 0) (rest fresh) (mkCcs 3 4 0) 0x5A with Done (h, d, b) => b = true /\ d = mkCcs 3 4 0x5A /\ running (world h) = true /\ regs (world h) 1 = [0x20] /\ heard (world h) = 14%nat | _ => False end /\
  match begin (nose 0x5A {| valid := false; flags := 1; acks := fun _ => true; hwid := 0x81 |}) 1 pin (fun _ _ => 0) (rest fresh) (mkCcs 3 4 0) 0x5A with Done (h, d, b) => b = false /\ running (world h) = false | _ => False end.
Proof. split; [intros j J; apply Nat.ltb_lt; exact J|]. split; [reflexivity|]. vm_compute. repeat split. Qed.
(** begin() says true although the mode was never set (the answer to the last transfer is not looked at), *)
Theorem C120_begin_refuted : exists a k m junk h d h' d', 0 <= a < 128 /\ idle h /\ 0 <= flags k < 16 /\ hwid k = 0x81 /\ valid k = true /\ regs (world h) 1 = [0] /\ begin (nose a k) (S m) pin junk h d a = Done (h', d', true) /\ regs (world h') 1 = [0].
Proof. exists 0x5A, (good (fun i => Nat.ltb i 11)), 0%nat, (fun _ _ => 0), (rest fresh), unread. do 2 eexists. split; [lia|]. split; [left; reflexivity|]. split; [cbn; lia|]. do 3 (split; [reflexivity|]). split; [vm_compute; reflexivity|reflexivity]. Qed.
Print Assumptions C120_begin_refuted.
(** or although the sensor has no application and runs none: the status of a sensor that does not answer is what happened to be on the stack. *)
Theorem C120_begin_status_refuted : exists a k m junk h d h' d', 0 <= a < 128 /\ idle h /\ valid k = false /\ begin (nose a k) (S m) pin junk h d a = Done (h', d', true) /\ running (world h') = false.
Proof. exists 0x5A, {| valid := false; flags := 1; acks := fun i => Nat.ltb i 3; hwid := 0x81 |}, 0%nat, (fun _ _ => 0xFF), (rest fresh), unread. do 2 eexists. split; [lia|]. split; [left; reflexivity|]. split; [reflexivity|]. split; [vm_compute; reflexivity|reflexivity]. Qed.
Print Assumptions C120_begin_status_refuted.

(** setBaseline() and getBaseline(): what is stored is read back. Missing: that the sensor answers (next theorem). *)
Theorem C120_baseline_partial a k m h d b o1 o2 : 0 <= a < 128 -> idle h -> _I2C_ADDR d = a -> 0 <= b < 65536 -> regs (world h) 0x11 = [o1; o2] -> polite k (world h) 7 ->
  exists h', setBaseline (nose a k) (S m) pin h d b = Done h' /\ set_to (world h) (world h') 0x11 [b / 256; b mod 256] /\
    forall junk, exists h'', getBaseline (nose a k) (S m) pin junk h' d = Done (h'', b) /\ kept (world h') (world h'').
Proof.
  intros A I D B R P. unfold setBaseline. assert (B1 : u8 (Z.shiftr b 8) = b / 256) by (unfold u8; rewrite Z.shiftr_div_pow2 by lia; apply Z.mod_small; split; [apply Z.div_pos; lia|apply Z.div_lt_upper_bound; lia]). rewrite B1. unfold u8. change BASELINE_REG with 0x11.
  destruct (send_set a k m A h d 0x11 [b / 256; b mod 256] I D ltac:(discriminate) ltac:(rewrite R; reflexivity) (polite_part k (world h) (world h) 7 4 0 ltac:(lia) ltac:(lia) P)) as (h' & E & I' & ST & _ & _ & HE). exists h'. split; [exact E|]. split; [exact ST|]. intros junk.
  destruct (read_good a k m A h' d 0x11 1 I' D ltac:(discriminate) (polite_part k _ _ 7 3 4 HE ltac:(cbn; lia) P)) as (h2 & E2 & _ & K & _). unfold getBaseline. change BASELINE_REG with 0x11. rewrite E2. exists h2. split; [|exact K]. do 2 f_equal.
  unfold contents. change (register k (world h') 0x11) with (regs (world h') 0x11). rewrite (proj1 ST). cbn [seq map nth]. unfold local. cbn [length Nat.ltb Nat.leb rd nth]. rewrite <- B1. unfold u8. rewrite !Zmod_mod. fold (u8 (Z.shiftr b 8)). rewrite B1, Z.shiftl_mul_pow2 by lia. unfold u16. rewrite Z.mod_small; pose proof (Z.div_mod b 256); lia.
Qed.
Print Assumptions C120_baseline_partial.
Example C120_baseline_example : regs fresh 0x11 = [0x12; 0x34] /\ polite (good (fun i => Nat.ltb i 7)) fresh 7 /\
  match setBaseline (nose 0x5A (good (fun i => Nat.ltb i 7))) 1 pin (rest fresh) unread 0xABCD with Done h => regs (world h) 0x11 = [0xAB; 0xCD] | _ => False end.
Proof. split; [reflexivity|]. split; [intros j J; apply Nat.ltb_lt; exact J|]. vm_compute. reflexivity. Qed.
(** A sensor that does not answer: getBaseline() returns whatever the stack held, any number at all. *)
Theorem C120_baseline_refuted v : 0 <= v < 65536 -> exists a k m h d junk h', 0 <= a < 128 /\ idle h /\ _I2C_ADDR d = a /\ regs (world h) 0x11 = [0x12; 0x34] /\ (forall i, is_byte (junk i)) /\ getBaseline (nose a k) (S m) pin junk h d = Done (h', v).
Proof.
  intros V. exists 0x5A, (good (fun _ => false)), 0%nat, (rest fresh), unread, (fun i => if Nat.eqb i 0 then v / 256 else v mod 256). eexists. split; [lia|]. split; [left; reflexivity|]. split; [reflexivity|]. split; [reflexivity|]. split.
  - intros i. unfold is_byte. destruct (Nat.eqb i 0); [split; [apply Z.div_pos; lia|apply Z.div_lt_upper_bound; lia]|apply Z.mod_pos_bound; lia].
  - unfold getBaseline. match goal with |- match ?x with _ => _ end = _ => let y := eval vm_compute in x in change x with y end. cbv iota beta. f_equal. f_equal. unfold local. cbn [length Nat.ltb Nat.leb Nat.eqb]. rewrite Z.shiftl_mul_pow2 by lia. unfold u16. rewrite Z.mod_small; pose proof (Z.div_mod v 256); pose proof (Z.mod_pos_bound v 256); lia.
Qed.
Print Assumptions C120_baseline_refuted.
Example C120_baseline_refuted_example : 0 <= 0xBEEF < 65536.
Proof. lia. Qed.

(** setMode() and sleep(): the mode goes to bits 4 to 6 of the register of the sensor, and nothing else changes. *)
Theorem C120_mode a k m h d o x : 0 <= a < 128 -> idle h -> _I2C_ADDR d = a -> regs (world h) 1 = [o] -> polite k (world h) 3 -> 0 <= x < 8 ->
  (exists h', setMode (nose a k) (S m) pin h d x = Done h' /\ set_to (world h) (world h') 1 [16 * x]) /\ (exists h', sleep (nose a k) (S m) pin h d = Done h' /\ set_to (world h) (world h') 1 [0]).
Proof.
  intros A I D R P X. split.
  - destruct (send_set a k m A h d 1 [16 * x] I D ltac:(discriminate) ltac:(rewrite R; reflexivity) P) as (h' & E & _ & ST & _). unfold setMode. change MEAS_MODE with 1. replace (u8 (Z.shiftl x 4)) with (16 * x) by (rewrite Z.shiftl_mul_pow2 by lia; unfold u8; rewrite Z.mod_small; lia). eauto.
  - destruct (send_set a k m A h d 1 [0] I D ltac:(discriminate) ltac:(rewrite R; reflexivity) P) as (h' & E & _ & ST & _). unfold sleep. change MEAS_MODE with 1. eauto.
Qed.
Print Assumptions C120_mode.
Example C120_mode_example : regs fresh 1 = [0] /\ match setMode (nose 0x5A (good (fun _ => true))) 1 pin (rest fresh) unread 3 with Done h => regs (world h) 1 = [0x30] | _ => False end.
Proof. split; [reflexivity|]. vm_compute. reflexivity. Qed.

(** compensate(): the sensor is told the humidity and the temperature without their fractions (halves of a percent, of a degree, offset 25 degrees). Wanted: the nearest whole number, for every
    temperature. Missing: both (next theorems); what it does, above -26 degrees: *)
Theorem C120_compensate_partial a k m h d o1 o2 o3 o4 t rh : 0 <= a < 128 -> idle h -> _I2C_ADDR d = a -> regs (world h) 5 = [o1; o2; o3; o4] -> polite k (world h) 6 ->
  (-26 # 1 < t)%Q -> (t < 103)%Q -> (0 <= rh)%Q -> (rh < 128)%Q ->
  exists h', compensate (nose a k) (S m) pin h d t rh = Done h' /\ set_to (world h) (world h') 5 [2 * Qfloor rh; 0; 2 * ((if Qlt_le_dec t 0 then Qceiling t else Qfloor t) + 25); 0].
Proof.
  intros A I D R P T1 T2 R1 R2. unfold compensate. set (T := if Qlt_le_dec t 0 then Qceiling t else Qfloor t).
  assert (EH : roundRh rh = Qfloor rh /\ 0 <= Qfloor rh < 128).
  { assert (F0 : 0 <= Qfloor rh) by (change 0 with (Qfloor 0); apply Qfloor_resp_le; exact R1). unfold roundRh. rewrite (trunc_pos rh R1). rewrite half_pos by exact F0. split; [reflexivity|]. split; [exact F0|]. pose proof (Qle_lt_trans _ _ _ (Qfloor_le rh) R2) as Q. change 128%Q with (inject_Z 128) in Q. rewrite <- Zlt_Qlt in Q. exact Q. }
  assert (ET : roundTemp t = T + 25 /\ 0 <= T + 25 < 128).
  { unfold roundTemp, T. destruct (Qlt_le_dec t 0) as [N|N].
    - assert (C0 : Qceiling t <= 0) by (change 0 with (Qceiling 0); apply Qceiling_resp_le, Qlt_le_weak; exact N). assert (C1 : -26 < Qceiling t) by (rewrite Zlt_Qlt; exact (Qlt_le_trans _ _ _ T1 (Qle_ceiling t))).
      replace (Qle_bool t (inject_Z 0)) with true by (symmetry; apply Qle_bool_iff, Qlt_le_weak; exact N). cbn [negb]. destruct (Qle_bool (inject_Z 0) t) eqn:Q; [apply Qle_bool_iff in Q; destruct (Qlt_not_le _ _ N Q)|]. cbn [negb]. rewrite (trunc_neg t (Qlt_le_weak _ _ N)). rewrite half_neg by exact C0. lia.
    - assert (F0 : 0 <= Qfloor t) by (change 0 with (Qfloor 0); apply Qfloor_resp_le; exact N). assert (F1 : Qfloor t < 103) by (rewrite Zlt_Qlt; exact (Qle_lt_trans _ _ _ (Qfloor_le t) T2)).
      destruct (Qle_bool t (inject_Z 0)) eqn:Q; cbn [negb].
      + apply Qle_bool_iff in Q. replace (Qle_bool (inject_Z 0) t) with true by (symmetry; apply Qle_bool_iff; exact N). cbn [negb]. assert (Z0 : Qfloor t <= 0) by (change 0 with (Qfloor (inject_Z 0)); apply Qfloor_resp_le; exact Q). lia.
      + rewrite (trunc_pos t N). rewrite half_pos by exact F0. lia. }
  destruct EH as (-> & EH), ET as (-> & ET). rewrite !Z.shiftl_mul_pow2 by lia. change (2 ^ 1) with 2. unfold u8. rewrite !Z.mod_small by lia. rewrite (Z.mul_comm (Qfloor rh)), (Z.mul_comm (T + 25)). change ENV_DATA with 5.
  destruct (send_set a k m A h d 5 [2 * Qfloor rh; 0; 2 * (T + 25); 0] I D ltac:(discriminate) ltac:(rewrite R; reflexivity) P) as (h' & E & _ & ST & _). eauto.
Qed.
Print Assumptions C120_compensate_partial.
Example C120_compensate_example : regs fresh 5 = [100; 0; 100; 0] /\ (-26 # 1 < -(37 # 10))%Q /\ (45 # 1 < 128)%Q /\
  match compensate (nose 0x5A (good (fun _ => true))) 1 pin (rest fresh) unread (-37 # 10) (45 # 1) with Done h => regs (world h) 5 = [90; 0; 44; 0] | _ => False end.
Proof. split; [reflexivity|]. split; [reflexivity|]. split; [reflexivity|]. vm_compute. reflexivity. Qed.
(** "round off to the nearest integer value": 20.9 degrees and 45.8 percent are told as 20 and 45; *)
Theorem C120_nearest_refuted : exists h', compensate (nose 0x5A (good (fun _ => true))) 1 pin (rest fresh) unread (209 # 10) (458 # 10) = Done h' /\ regs (world h') 5 = [2 * 45; 0; 2 * (20 + 25); 0].
Proof. eexists. split; [vm_compute; reflexivity|reflexivity]. Qed.
Print Assumptions C120_nearest_refuted.
(** -30 degrees are told as 98 degrees. *)
Theorem C120_cold_refuted : exists h', compensate (nose 0x5A (good (fun _ => true))) 1 pin (rest fresh) unread (-30 # 1) (50 # 1) = Done h' /\ regs (world h') 5 = [2 * 50; 0; 2 * (98 + 25); 0].
Proof. eexists. split; [vm_compute; reflexivity|reflexivity]. Qed.
Print Assumptions C120_cold_refuted.
