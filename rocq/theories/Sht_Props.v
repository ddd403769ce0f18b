(** C102: measurements of the sensors SHT2x and SHT4x *)
From Verif Require Import Base Bits I2c_Model I2c_Spec I2c_Proofs I2c_Props I2c_Det Sht_Model Sht_Spec Sht_Proofs Sht_Proofs2 Sht_Proofs3.
From Verif Require CRC_Model.

(** ** The checksum *)
(** Two different words with fitting checksums differ in at least four bits: up to three flipped bits are detected *)
Theorem C102_distance i b0 b1 c b0' b1' c' : is_byte i -> Forall is_byte [b0; b1; c; b0'; b1'; c'] -> fits i b0 b1 c -> fits i b0' b1' c' -> (b0, b1, c) <> (b0', b1', c') ->
  (4 <= differing b0 b0' + differing b1 b1' + differing c c')%nat.
Proof.
  intros I BY F F' NE. rewrite !Forall_cons_iff in BY. destruct BY as (B0 & B1 & B2 & B3 & B4 & B5 & _). apply fits_iff in F; auto. apply fits_iff in F'; auto. rewrite !differing_ones, F, F'. rewrite crc_linear by auto.
  destruct (weight (Z.lxor b0 b0') (Z.lxor b1 b1')) as [(E1 & E2)|H]; try (apply lxor_byte; auto); [|exact H]. apply Z.lxor_eq in E1, E2. exfalso. apply NE. congruence.
Qed.
Print Assumptions C102_distance.
Example C102_distance_example : is_byte 0xFF /\ Forall is_byte [0xBE; 0xEF; 0x92; 0xBE; 0xEE; 0xA3] /\ fits 0xFF 0xBE 0xEF 0x92 /\ fits 0xFF 0xBE 0xEE 0xA3 /\ (0xBE, 0xEF, 0x92) <> (0xBE, 0xEE, 0xA3) /\ (differing 0xBE 0xBE + differing 0xEF 0xEE + differing 0x92 0xA3 = 4)%nat.
Proof. split; [unfold is_byte; lia|]. split; [repeat constructor; unfold is_byte; lia|]. split; [reflexivity|]. split; [reflexivity|]. split; [discriminate|reflexivity]. Qed.

(** ** SHT2x *)
(** GetTemperature on any bus: -273 degrees, or the value of the three bytes of the last transfer, with fitting checksum and the status of a temperature. Nothing but the sensor is addressed; no other command is sent, except to set up the sensor the first time *)
Theorem C102_temperature {S} (w : bus S) n fuel ms h ini : only_at_start w [0xE3] -> idle h ->
  GetTemperature w n fuel ms h ini = Hang \/
  exists before tr t i h', GetTemperature w n fuel ms h ini = Done (h', i, t) /\ log h' = log h ++ before ++ tr /\ plays w (world h) (before ++ tr) (world h') /\ idle h' /\
    Forall (polite 0x40 (fun b => b = 0xE3 \/ (ini = false /\ (b = 0xE7 \/ b = 0xE6 \/ (0 <= b < 128 /\ b mod 2 = 0))))) (before ++ tr) /\
    (t = -27300 \/ exists b0 b1 c, transfer 0x40 [0xE3] 3 tr Ack 1 [b0; b1; c] /\ fits 0 b0 b1 c /\ ~ is_humidity b1 /\ temperature_is b0 b1 t /\ -4685 <= t <= 12885).
Proof.
  intros ST I. unfold GetTemperature, eTempHoldCmd. destruct (read2_ok w n fuel ms h ini 0xE3 ST I) as [-> |(be & tr & i & v & h' & -> & L & P & I' & PO & V)]; [left; reflexivity|right].
  exists be, tr, (temperatureOf v), i, h'. split; [reflexivity|]. split; [exact L|]. split; [exact P|]. split; [exact I'|]. split; [exact PO|]. destruct V as [-> |(b0 & b1 & c & T & BY & F & ->)]; [left; reflexivity|]. rewrite !Forall_cons_iff in BY. destruct BY as (B0 & B1 & BC & _).
  assert (D : 256 * b0 + b1 = 0 \/ is_humidity b1 \/ (256 * b0 + b1 <> 0 /\ ~ is_humidity b1)) by (unfold is_humidity; destruct (Z.eq_dec (256 * b0 + b1) 0), (Z.eq_dec (b1 / 2 mod 2) 1); auto). destruct D as [-> |[D|(D1 & D2)]]; [left; reflexivity| |].
  - left. unfold temperatureOf. destruct (status_bits _ b0 b1 B0 B1 eq_refl) as (_ & ->). unfold is_humidity in D. rewrite D. cbn [Z.eqb negb]. rewrite orb_true_r. reflexivity.
  - right. exists b0, b1, c. pose proof (temperature_ok b0 b1 B0 B1 D1 D2) as TI. split; [exact T|]. split; [exact F|]. split; [exact D2|]. split; [exact TI|]. unfold temperature_is in TI. pose proof (signal_range b0 b1 B0 B1). lia.
Qed.
Print Assumptions C102_temperature.
(** GetHumidity: 0, or likewise *)
Theorem C102_humidity {S} (w : bus S) n fuel ms h ini : only_at_start w [0xE5] -> idle h ->
  GetHumidity w n fuel ms h ini = Hang \/
  exists before tr r i h', GetHumidity w n fuel ms h ini = Done (h', i, r) /\ log h' = log h ++ before ++ tr /\ plays w (world h) (before ++ tr) (world h') /\ idle h' /\
    Forall (polite 0x40 (fun b => b = 0xE5 \/ (ini = false /\ (b = 0xE7 \/ b = 0xE6 \/ (0 <= b < 128 /\ b mod 2 = 0))))) (before ++ tr) /\
    (r = 0 \/ exists b0 b1 c, transfer 0x40 [0xE5] 3 tr Ack 1 [b0; b1; c] /\ fits 0 b0 b1 c /\ is_humidity b1 /\ humidity_is b0 b1 r /\ -600 <= r <= 11899).
Proof.
  intros ST I. unfold GetHumidity, eRHumidityHoldCmd. destruct (read2_ok w n fuel ms h ini 0xE5 ST I) as [-> |(be & tr & i & v & h' & -> & L & P & I' & PO & V)]; [left; reflexivity|right].
  exists be, tr, (humidityOf v), i, h'. split; [reflexivity|]. split; [exact L|]. split; [exact P|]. split; [exact I'|]. split; [exact PO|]. destruct V as [-> |(b0 & b1 & c & T & BY & F & ->)]; [left; reflexivity|]. rewrite !Forall_cons_iff in BY. destruct BY as (B0 & B1 & BC & _).
  assert (D : is_humidity b1 \/ ~ is_humidity b1) by (unfold is_humidity; destruct (Z.eq_dec (b1 / 2 mod 2) 1); auto). destruct D as [D|D].
  - right. exists b0, b1, c. pose proof (humidity_ok b0 b1 B0 B1 D) as TI. split; [exact T|]. split; [exact F|]. split; [exact D|]. split; [exact TI|]. unfold humidity_is in TI. pose proof (signal_range b0 b1 B0 B1). lia.
  - left. unfold humidityOf. destruct (status_bits _ b0 b1 B0 B1 eq_refl) as (_ & ->). unfold is_humidity in D. assert (b1 / 2 mod 2 = 0) as -> by (pose proof (Z.mod_pos_bound (b1 / 2) 2 ltac:(lia)); lia). cbn [Z.eqb]. rewrite orb_true_r. reflexivity.
Qed.
Print Assumptions C102_humidity.
(** a sensor just switched on: user register 0x3B, then 23.36 degrees *)
Definition first_use : list ev := reading 0x40 [0xE7] [] 0x3B ++ sentence 0x40 [0xE6; 0x3A] ++ reading 0x40 [0xE3] [0x66; 0x4C] 79.
Definition shown {S} (r : res (hw S * bool * Z)) : res (bool * Z * list ev) := match r with Done (h, i, t) => Done (i, t, log h) | Fault => Fault | Hang => Hang end.
Example C102_temperature_example : only_at_start script [0xE3] /\ idle (off first_use) /\ shown (GetTemperature script 1 1 (fun _ => 0) (off first_use) false) = Done (true, 2336, first_use) /\
  shown (GetTemperature script 1 1 (fun _ => 0) (off (reading 0x40 [0xE3] [0x66; 0x4C] 78)) true) = Done (true, -27300, reading 0x40 [0xE3] [0x66; 0x4C] 78).
Proof. split; [apply alone_oas, script_alone|]. split; [left; reflexivity|]. vm_compute. split; reflexivity. Qed.
Example C102_humidity_example : only_at_start script [0xE5] /\ idle (off (reading 0x40 [0xE5] [0x72; 0xB2] 63)) /\ shown (GetHumidity script 1 1 (fun _ => 0) (off (reading 0x40 [0xE5] [0x72; 0xB2] 63)) true) = Done (true, 4999, reading 0x40 [0xE5] [0x72; 0xB2] 63).
Proof. split; [apply alone_oas, script_alone|]. split; [left; reflexivity|]. vm_compute. reflexivity. Qed.
(** If the sensor answers the first request, its measurement is returned *)
Theorem C102_temperature_read {S} (w : bus S) n f ms h tr b0 b1 c s : idle h -> transfer 0x40 [0xE3] 3 tr Ack 1 [b0; b1; c] -> plays w (world h) tr s -> fits 0 b0 b1 c -> ~ is_humidity b1 -> 0 < 256 * b0 + b1 ->
  exists t h', GetTemperature w (Datatypes.S n) (Datatypes.S f) ms h true = Done (h', true, t) /\ temperature_is b0 b1 t /\ log h' = log h ++ tr /\ idle h'.
Proof.
  intros I T P F NH NZ. destruct (read2_known w n f ms h 0xE3 tr b0 b1 c s I T P F) as (h' & E & L & I' & BY). unfold GetTemperature, eTempHoldCmd. rewrite E. rewrite !Forall_cons_iff in BY. destruct BY as (B0 & B1 & _). exists (temperatureOf (256 * b0 + b1)), h'. split; [reflexivity|]. split; [apply temperature_ok; auto; lia|]. auto.
Qed.
Print Assumptions C102_temperature_read.
Theorem C102_humidity_read {S} (w : bus S) n f ms h tr b0 b1 c s : idle h -> transfer 0x40 [0xE5] 3 tr Ack 1 [b0; b1; c] -> plays w (world h) tr s -> fits 0 b0 b1 c -> is_humidity b1 ->
  exists r h', GetHumidity w (Datatypes.S n) (Datatypes.S f) ms h true = Done (h', true, r) /\ humidity_is b0 b1 r /\ log h' = log h ++ tr /\ idle h'.
Proof.
  intros I T P F NH. destruct (read2_known w n f ms h 0xE5 tr b0 b1 c s I T P F) as (h' & E & L & I' & BY). unfold GetHumidity, eRHumidityHoldCmd. rewrite E. rewrite !Forall_cons_iff in BY. destruct BY as (B0 & B1 & _). exists (humidityOf (256 * b0 + b1)), h'. split; [reflexivity|]. split; [apply humidity_ok; auto|]. auto.
Qed.
Print Assumptions C102_humidity_read.
Lemma script_plays_read a cmd l last : Forall is_byte (l ++ [last]) -> plays script (reading a cmd l last) (reading a cmd l last) [].
Proof.
  intros BY. unfold reading. assert (R : forall l last, Forall is_byte (l ++ [last]) -> plays script (map (fun b => Rd b true) l ++ [Rd last false] ++ [Stop]) (map (fun b => Rd b true) l ++ [Rd last false] ++ [Stop]) []).
  { clear. induction l as [|b l IH]; intros last BY; cbn [app] in BY; apply Forall_cons_iff in BY; destruct BY as (B & BY); cbn [map app plays].
    - eexists _, last. split; [reflexivity|]. split; [symmetry; apply Z.mod_small; exact B|reflexivity].
    - eexists _, b. split; [reflexivity|]. split; [symmetry; apply Z.mod_small; exact B|]. apply IH. exact BY. }
  assert (H : plays script ([Start; Addr a true Ack] ++ map (fun b => Rd b true) l ++ [Rd last false] ++ [Stop]) ([Start; Addr a true Ack] ++ map (fun b => Rd b true) l ++ [Rd last false] ++ [Stop]) []).
  { cbn [app plays]. eexists. split; [cbn; rewrite Z.eqb_refl; reflexivity|]. apply R. exact BY. }
  destruct cmd as [|c0 cmd]; [exact H|]. generalize dependent ([Start; Addr a true Ack] ++ map (fun b => Rd b true) l ++ [Rd last false] ++ [Stop]). intros r H. assert (Q : forall cmd, plays script (map (fun c => Wr c Ack) cmd ++ r) (map (fun c => Wr c Ack) cmd ++ r) []) by (clear - H; induction cmd as [|c cmd IH]; [exact H|]; cbn [map app plays]; eexists; split; [cbn; rewrite Z.eqb_refl; reflexivity|]; exact IH).
  rewrite <- app_assoc. cbn [app plays]. eexists. split; [cbn; rewrite Z.eqb_refl; reflexivity|]. exact (Q (c0 :: cmd)).
Qed.
Lemma script_plays_sentence a cmd r : plays script (sentence a cmd ++ r) (sentence a cmd) r.
Proof. unfold sentence. rewrite <- !app_assoc. cbn [app plays]. eexists. split; [cbn; rewrite Z.eqb_refl; reflexivity|]. induction cmd as [|c cmd IH]; [reflexivity|]. cbn [map app plays]. eexists. split; [cbn; rewrite Z.eqb_refl; reflexivity|]. exact IH. Qed.
Example C102_temperature_read_example : idle (off (reading 0x40 [0xE3] [0x66; 0x4C] 79)) /\ transfer 0x40 [0xE3] 3 (reading 0x40 [0xE3] [0x66; 0x4C] 79) Ack 1 [0x66; 0x4C; 79] /\ plays script (world (off (reading 0x40 [0xE3] [0x66; 0x4C] 79))) (reading 0x40 [0xE3] [0x66; 0x4C] 79) [] /\ fits 0 0x66 0x4C 79 /\ ~ is_humidity 0x4C /\ 0 < 256 * 0x66 + 0x4C /\ temperature_is 0x66 0x4C 2336.
Proof. split; [left; reflexivity|]. split; [apply (reading_transfer 0x40 [0xE3] [0x66; 0x4C] 79 3 eq_refl)|]. split; [apply script_plays_read; repeat constructor; unfold is_byte; lia|]. split; [reflexivity|]. split; [discriminate|]. split; [lia|]. unfold temperature_is, signal. change (0x4C mod 4) with 0. lia. Qed.
Example C102_humidity_read_example : transfer 0x40 [0xE5] 3 (reading 0x40 [0xE5] [0x72; 0xB2] 63) Ack 1 [0x72; 0xB2; 63] /\ plays script (reading 0x40 [0xE5] [0x72; 0xB2] 63) (reading 0x40 [0xE5] [0x72; 0xB2] 63) [] /\ fits 0 0x72 0xB2 63 /\ is_humidity 0xB2 /\ humidity_is 0x72 0xB2 4999.
Proof. split; [apply (reading_transfer 0x40 [0xE5] [0x72; 0xB2] 63 3 eq_refl)|]. split; [apply script_plays_read; repeat constructor; unfold is_byte; lia|]. split; [reflexivity|]. split; [reflexivity|]. unfold humidity_is, signal. change (0xB2 mod 4) with 2. lia. Qed.
(** Init sets the resolution (bits 7 and 0 of the user register) and leaves the other bits as they are *)
Theorem C102_setup {S} (w : bus S) n h tr u tr' u' o k s : idle h -> transfer 0x40 [0xE7] 1 tr Ack 1 [u] -> is_byte u' -> (forall i, 0 <= i < 8 -> Z.testbit u' i = Z.testbit u i && negb (i =? 0) && negb (i =? 7)) ->
  transfer 0x40 [0xE6; u'] 0 tr' o k [] -> o <> Lost -> plays w (world h) (tr ++ tr') s -> exists h', Init w (Datatypes.S n) h false = Done (h', true) /\ log h' = log h ++ tr ++ tr' /\ idle h'.
Proof.
  intros I T BU' U T' NL P. destruct (read_known w n h 0x40 [0xE7] 1 1 tr Ack 1 [u] tr' s I ltac:(lia) ltac:(lia) T ltac:(discriminate) P) as (h1 & E & L & P0 & P1 & I1). cbn [length] in E. change (Z.of_nat 1) with 1 in E.
  pose proof (transfer_bytes w _ _ _ _ _ _ _ _ _ T P0) as BU. apply Forall_cons_iff in BU. destruct BU as (BU & _). destruct (masked u BU) as (M1 & _ & M2).
  assert (Z.land u 0x7E = u') as EU. { apply Z.bits_inj'. intros i Hi. destruct (Z.lt_ge_cases i 8); [rewrite M2, U by lia; reflexivity|]. rewrite (byte_bits_above u' i BU') by lia. apply byte_bits_above; [unfold is_byte; lia|lia]. }
  rewrite <- (app_nil_r tr') in P1. destruct (send_known w n h1 0x40 [0xE6; u'] tr' o k [] [] s I1 ltac:(lia) ltac:(discriminate) T' NL P1) as (h2 & E2 & L2 & _ & _ & I2). cbn [length] in E2. change (Z.of_nat 2) with 2 in E2.
  exists h2. split; [|split; [rewrite L2, L, <- app_assoc; reflexivity|exact I2]]. unfold Init, MasterCmdRead, eSHT2xAddress, eReadUserReg, eWriteUserReg. rewrite E. cbn [Z.eqb Pos.eqb]. change (rd [u] 0) with u. rewrite EU, E2. reflexivity.
Qed.
Print Assumptions C102_setup.
Example C102_setup_example : idle (off first_use) /\ transfer 0x40 [0xE7] 1 (reading 0x40 [0xE7] [] 0xBB) Ack 1 [0xBB] /\ is_byte 0x3A /\ (forall i, 0 <= i < 8 -> Z.testbit 0x3A i = Z.testbit 0xBB i && negb (i =? 0) && negb (i =? 7)) /\ transfer 0x40 [0xE6; 0x3A] 0 (sentence 0x40 [0xE6; 0x3A]) Ack 2 [] /\
  match Init script 1 (off (reading 0x40 [0xE7] [] 0xBB ++ sentence 0x40 [0xE6; 0x3A])) false with Done (h, i) => i = true /\ log h = reading 0x40 [0xE7] [] 0xBB ++ sentence 0x40 [0xE6; 0x3A] | _ => False end.
Proof.
  split; [left; reflexivity|]. split; [apply (reading_transfer 0x40 [0xE7] [] 0xBB 1 eq_refl)|]. split; [unfold is_byte; lia|]. split; [|split; [apply sentence_transfer; discriminate|vm_compute; split; reflexivity]].
  intros i Hi. assert (i = 0 \/ i = 1 \/ i = 2 \/ i = 3 \/ i = 4 \/ i = 5 \/ i = 6 \/ i = 7) as H by lia. repeat (destruct H as [-> |H]; [reflexivity|]). subst i. reflexivity.
Qed.
(** False: a failed transfer is repeated for 300 ms (the comment in readSensor). (millis() - timeout) > 0 is an unsigned comparison: after the first failed transfer the call gives up, at whatever time (except exactly 300 ms later) *)
Theorem C102_retry_refuted {S} (w : bus S) n f ms h tr o k l s : idle h -> transfer 0x40 [0xE3] 3 tr o k l -> o <> Ack -> o <> Lost -> plays w (world h) tr s -> (ms 1%nat - (ms 0%nat + 300)) mod 4294967296 <> 0 ->
  exists h', GetTemperature w (Datatypes.S n) (Datatypes.S f) ms h true = Done (h', true, -27300) /\ log h' = log h ++ tr.
Proof. intros I T NA NL P M. destruct (read2_failed w n f ms h 0xE3 tr o k l s I T NA NL P M) as (h' & E & L). exists h'. unfold GetTemperature, eTempHoldCmd. rewrite E. split; [reflexivity|exact L]. Qed.
Print Assumptions C102_retry_refuted.
(** the sensor does not answer at once, but would 0 ms later *)
Definition busy_once : list ev := [Start; Addr 0x40 false Nak; Stop] ++ reading 0x40 [0xE3] [0x66; 0x4C] 79.
Example C102_retry_example : idle (off busy_once) /\ transfer 0x40 [0xE3] 3 [Start; Addr 0x40 false Nak; Stop] Nak 0 [] /\ plays script (world (off busy_once)) [Start; Addr 0x40 false Nak; Stop] (reading 0x40 [0xE3] [0x66; 0x4C] 79) /\ (0 - (0 + 300)) mod 4294967296 <> 0 /\
  shown (GetTemperature script 1 10 (fun _ => 0) (off busy_once) true) = Done (true, -27300, [Start; Addr 0x40 false Nak; Stop]).
Proof. split; [left; reflexivity|]. split; [apply (writes 0x40 [0xE3] 3 [Start; Addr 0x40 false Nak] Nak 0); [discriminate|left; discriminate|apply not_addressed; discriminate]|]. split; [eexists; split; reflexivity|]. split; [discriminate|]. vm_compute. reflexivity. Qed.

(** ** SHT4x *)
(** A measurement on any bus: failure, or the two words of the last transfer, both with fitting checksum; the command was sent before and nothing else since *)
Theorem C102_measurement {S} (w : bus S) n fuel ms h : only_at_start w [0xFD] -> idle h ->
  measureTicks w n fuel ms h = Hang \/
  exists all r h', measureTicks w n fuel ms h = Done (h', r) /\ log h' = log h ++ all /\ plays w (world h) all (world h') /\ idle h' /\ Forall (polite 0x44 (fun b => b = 0xFD)) all /\
    match r with None => True | Some (t, rh) => exists b pre tr0 o mid tr, all = pre ++ tr0 ++ mid ++ tr /\ transfer 0x44 [0xFD] 0 tr0 o 1 [] /\ Forall (polite 0x44 (fun _ => False)) mid /\ transfer 0x44 [] 6 tr Ack 0 b /\ two_words b t rh end.
Proof.
  intros ST I. unfold measureTicks, measHi. destruct (read4_ok w n fuel ms h 0xFD ST I) as [-> |(all & r & h' & -> & L & P & I' & PO & V)]; [left; reflexivity|right]. destruct r as [b|]; [|exists all, None, h'; auto 10].
  destruct V as (BY & TW & pre & tr0 & o & mid & tr & E & T0 & PM & T). exists all, (Some (word (rd b 0) (rd b 1), word (rd b 3) (rd b 4))), h'. split; [reflexivity|]. split; [exact L|]. split; [exact P|]. split; [exact I'|]. split; [exact PO|]. exists b, pre, tr0, o, mid, tr. auto 10.
Qed.
Print Assumptions C102_measurement.
(** the serial number: 0, or likewise *)
Theorem C102_serial {S} (w : bus S) n fuel ms h : only_at_start w [0x89] -> idle h ->
  getSerialnumber4 w n fuel ms h = Hang \/
  exists all v h', getSerialnumber4 w n fuel ms h = Done (h', v) /\ log h' = log h ++ all /\ plays w (world h) all (world h') /\ idle h' /\ Forall (polite 0x44 (fun b => b = 0x89)) all /\
    (v = 0 \/ exists b pre tr0 o mid tr x y, all = pre ++ tr0 ++ mid ++ tr /\ transfer 0x44 [0x89] 0 tr0 o 1 [] /\ Forall (polite 0x44 (fun _ => False)) mid /\ transfer 0x44 [] 6 tr Ack 0 b /\ two_words b x y /\ v = 65536 * x + y).
Proof.
  intros ST I. unfold getSerialnumber4, getSerial4. destruct (read4_ok w n fuel ms h 0x89 ST I) as [-> |(all & r & h' & -> & L & P & I' & PO & V)]; [left; reflexivity|right]. destruct r as [b|]; [|exists all, 0, h'; auto 10].
  destruct V as (BY & TW & pre & tr0 & o & mid & tr & E & T0 & PM & T). eexists all, _, h'. split; [reflexivity|]. split; [exact L|]. split; [exact P|]. split; [exact I'|]. split; [exact PO|]. right. exists b, pre, tr0, o, mid, tr, (word (rd b 0) (rd b 1)), (word (rd b 3) (rd b 4)). do 5 (split; [assumption|]).
  destruct TW as (b0 & b1 & c & d0 & d1 & e & -> & _ & _ & X & Y). rewrite X, Y. rewrite !Forall_cons_iff in BY. destruct BY as (B0 & B1 & B2 & B3 & B4 & B5 & _). unfold rd. cbn [nth]. unfold is_byte in *.
  assert (SH : forall x k, 0 <= x < 256 -> 0 <= k <= 24 -> u32 (Z.shiftl x k) = Z.shiftl x k) by (intros x k X0 K; unfold u32; apply Z.mod_small; rewrite Z.shiftl_mul_pow2 by lia; assert (2 ^ k <= 2 ^ 24) by (apply Z.pow_le_mono_r; lia); assert (0 < 2 ^ k) by (apply Z.pow_pos_nonneg; lia); change (2 ^ 24) with 16777216 in *; nia).
  rewrite !SH by lia. clear SH. replace (Z.shiftl b0 24) with (Z.shiftl (Z.shiftl b0 8) 16) by (rewrite Z.shiftl_shiftl by lia; reflexivity). rewrite <- Z.shiftl_lor. rewrite (shl8 b0 b1) by auto. replace (Z.shiftl (256 * b0 + b1) 16) with (Z.shiftl (Z.shiftl (256 * b0 + b1) 8) 8) by (rewrite Z.shiftl_shiftl by lia; reflexivity). rewrite <- Z.shiftl_lor.
  assert (LA : forall q r, 0 <= q -> 0 <= r < 256 -> Z.lor (Z.shiftl q 8) r = 256 * q + r) by (intros q r Q R; rewrite lor_shiftl_add by (change (2 ^ 8) with 256; lia); change (2 ^ 8) with 256; lia). rewrite !LA by (try rewrite LA by lia; lia). lia.
Qed.
Print Assumptions C102_serial.
(** the sensor needs two attempts *)
Definition slow4 (cmd : Z) (l : list Z) (last : Z) : list ev := sentence 0x44 [cmd] ++ concat (repeat (not_yet 0x44) 2) ++ reading 0x44 [] l last.
Definition clock (t0 : Z) (i : nat) : Z := t0 + 2 * Z.of_nat i.
Example C102_measurement_example : only_at_start script [0xFD] /\ idle (off (slow4 0xFD [0x66; 0x66; 147; 0x80; 0x00] 162)) /\
  match measureTicks script 1 3 (clock 7) (off (slow4 0xFD [0x66; 0x66; 147; 0x80; 0x00] 162)) with Done (h, Some (t, r)) => t = 0x6666 /\ r = 0x8000 /\ log h = slow4 0xFD [0x66; 0x66; 147; 0x80; 0x00] 162 | _ => False end.
Proof. split; [apply alone_oas, script_alone|]. split; [left; reflexivity|]. vm_compute. auto. Qed.
Example C102_serial_example : only_at_start script [0x89] /\ idle (off (slow4 0x89 [0x66; 0x66; 147; 0x80; 0x00] 162)) /\
  match getSerialnumber4 script 1 3 (clock 7) (off (slow4 0x89 [0x66; 0x66; 147; 0x80; 0x00] 162)) with Done (h, v) => v = 0x66668000 | _ => False end.
Proof. split; [apply alone_oas, script_alone|]. split; [left; reflexivity|]. vm_compute. reflexivity. Qed.
(** A sensor that answers within 300 ms, after refusing any number of times, is heard (if the clock does not overflow meanwhile) *)
Theorem C102_measurement_read_partial {S} (w : bus S) n f ms h tr0 tr b t rh j s : idle h -> transfer 0x44 [0xFD] 0 tr0 Ack 1 [] -> transfer 0x44 [] 6 tr Ack 0 b -> two_words b t rh ->
  plays w (world h) (tr0 ++ concat (repeat (not_yet 0x44) j) ++ tr) s -> ms 0%nat + 300 < 4294967296 -> (forall i, (i <= j + 1)%nat -> 0 <= ms i <= ms 0%nat + 300) ->
  exists h', measureTicks w (Datatypes.S n) (Datatypes.S (j + f)) ms h = Done (h', Some (t, rh)) /\ log h' = log h ++ tr0 ++ concat (repeat (not_yet 0x44) j) ++ tr /\ idle h'.
Proof.
  intros I T0 T TW P W M. destruct (read4_known w n f ms h 0xFD tr0 Ack tr b t rh j s I T0 ltac:(discriminate) T TW P W M) as (h' & E & L & X & Y & _ & I'). exists h'. unfold measureTicks, measHi. rewrite E, X, Y. auto.
Qed.
Print Assumptions C102_measurement_read_partial.
Example C102_measurement_read_example : let tr := reading 0x44 [] [0x66; 0x66; 147; 0x80; 0x00] 162 in transfer 0x44 [0xFD] 0 (sentence 0x44 [0xFD]) Ack 1 [] /\ transfer 0x44 [] 6 tr Ack 0 [0x66; 0x66; 147; 0x80; 0x00; 162] /\ two_words [0x66; 0x66; 147; 0x80; 0x00; 162] 0x6666 0x8000 /\
  plays script (slow4 0xFD [0x66; 0x66; 147; 0x80; 0x00] 162) (sentence 0x44 [0xFD] ++ concat (repeat (not_yet 0x44) 2) ++ tr) [] /\ clock 7 0 + 300 < 4294967296 /\ (forall i, (i <= 2 + 1)%nat -> 0 <= clock 7 i <= clock 7 0 + 300).
Proof.
  cbv zeta. split; [apply sentence_transfer; discriminate|]. split; [apply (reading_transfer 0x44 [] [0x66; 0x66; 147; 0x80; 0x00] 162 6 eq_refl)|]. split; [exists 0x66, 0x66, 147, 0x80, 0x00, 162; repeat (split; [reflexivity|]); reflexivity|]. split; [|split; [unfold clock; lia|unfold clock; intros; lia]].
  unfold slow4. eapply plays_join; [apply script_plays_sentence|]. eapply plays_join with (s1 := reading 0x44 [] [0x66; 0x66; 147; 0x80; 0x00] 162); [|apply script_plays_read; repeat constructor; unfold is_byte; lia]. cbn [repeat concat not_yet app plays]. eexists. split; [reflexivity|]. eexists. split; reflexivity.
Qed.
(** The call comes back: with at least a millisecond between two requests (delay(1)) after at most 302 of them *)
Theorem C102_ends {S} (w : bus S) n fuel ms h : alone w -> idle h -> 0 <= ms 0%nat -> ms 0%nat + 300 < 4294967296 -> (302 <= fuel)%nat -> (forall i, (i <= fuel)%nat -> ms i < ms (Datatypes.S i)) ->
  measureTicks w (Datatypes.S n) fuel ms h <> Hang.
Proof.
  intros AL I M0 W F M. unfold measureTicks, readSHT4x, writeCommand, measHi, eSHT4xAddress. pose proof (send_won w n h 0x44 [0xFD] AL I ltac:(lia) ltac:(discriminate)) as NH.
  destruct (call_send w (Datatypes.S n) h 0x44 [0xFD] (alone_oas w _ AL) I ltac:(lia) ltac:(discriminate) ltac:(cbn; lia)) as [E|(pre & tr & o & kk & h1 & NL & E & L & P & T & I1 & PO)]; [destruct (NH E)|]. cbn [length] in E. change (Z.of_nat 1) with 1 in E. rewrite E. destruct (Z.of_nat kk =? 1); [|discriminate].
  assert (U : u32 (ms 0%nat + 300) = ms 0%nat + 300) by (unfold u32; apply Z.mod_small; lia). cbv zeta. rewrite U. pose proof (M 0%nat ltac:(lia)).
  assert (LB : sht4xLoop w (Datatypes.S n) ms (ms 0%nat + 300) fuel 1 h1 <> Hang) by (apply sht4x_ends; [exact AL|exact I1|intros i Hi; apply M; lia|lia|lia]).
  destruct (sht4xLoop w (Datatypes.S n) ms (ms 0%nat + 300) fuel 1 h1) as [[h2 [b|]]| |]; [|discriminate|discriminate|destruct (LB eq_refl)]. destruct (_ && _); discriminate.
Qed.
Print Assumptions C102_ends.
Example C102_ends_example : alone script /\ idle (off (slow4 0xFD [] 0)) /\ 0 <= clock 7 0 /\ clock 7 0 + 300 < 4294967296 /\ (302 <= 302)%nat /\ (forall i, (i <= 302)%nat -> clock 7 i < clock 7 (Datatypes.S i)) /\ match measureTicks script 1 302 (clock 7) (off (sentence 0x44 [0xFD])) with Done (h, None) => length (log h) = 454%nat | _ => False end.
Proof. split; [exact script_alone|]. split; [left; reflexivity|]. split; [unfold clock; lia|]. split; [unfold clock; lia|]. split; [lia|]. split; [intros; unfold clock; lia|]. vm_compute. reflexivity. Qed.
(** False: the sensor has 300 ms at any time. While the millisecond counter is about to overflow (0xFFFFFED4 to 0xFFFFFFFF), the time limit is below the present time: the measurement fails without a single request *)
Theorem C102_overflow_refuted {S} (w : bus S) n f ms h tr0 s : idle h -> transfer 0x44 [0xFD] 0 tr0 Ack 1 [] -> plays w (world h) tr0 s -> 4294967296 - 300 <= ms 0%nat <= ms 1%nat -> ms 1%nat < 4294967296 ->
  exists h', measureTicks w (Datatypes.S n) (Datatypes.S f) ms h = Done (h', None) /\ log h' = log h ++ tr0.
Proof.
  intros I T0 P M0 M1. rewrite <- (app_nil_r tr0) in P. destruct (send_known w n h 0x44 [0xFD] tr0 Ack 1 [] [] s I ltac:(lia) ltac:(discriminate) T0 ltac:(discriminate) P) as (h1 & E & L & _). cbn [length] in E. change (Z.of_nat 1) with 1 in E.
  exists h1. split; [|exact L]. unfold measureTicks, readSHT4x, writeCommand, measHi, eSHT4xAddress. rewrite E. cbn [Z.eqb Pos.eqb sht4xLoop]. assert (U : u32 (ms 0%nat + 300) = ms 0%nat + 300 - 4294967296) by (unfold u32; replace (ms 0%nat + 300) with (ms 0%nat + 300 - 4294967296 + 1 * 4294967296) at 1 by lia; rewrite Z.mod_add, Z.mod_small by lia; reflexivity). rewrite U. destruct (Z.ltb_spec (ms 0%nat + 300 - 4294967296) (ms 1%nat)); [reflexivity|lia].
Qed.
Print Assumptions C102_overflow_refuted.
Example C102_overflow_example : transfer 0x44 [0xFD] 0 (sentence 0x44 [0xFD]) Ack 1 [] /\ 4294967296 - 300 <= 4294967000 <= 4294967000 /\ match measureTicks script 1 10 (fun _ => 4294967000) (off (slow4 0xFD [0x66; 0x66; 147; 0x80; 0x00] 162)) with Done (h, None) => log h = sentence 0x44 [0xFD] | _ => False end.
Proof. split; [apply sentence_transfer; discriminate|]. split; [lia|]. vm_compute. reflexivity. Qed.
(** False: a measurement needs a command that the sensor took. A refused command counts as sent (C98), and what the sensor then supplies is taken for the result *)
Theorem C102_refused_refuted {S} (w : bus S) n f ms h tr0 tr b t rh s : idle h -> transfer 0x44 [0xFD] 0 tr0 Nak 1 [] -> transfer 0x44 [] 6 tr Ack 0 b -> two_words b t rh -> plays w (world h) (tr0 ++ tr) s -> ms 0%nat + 300 < 4294967296 -> 0 <= ms 0%nat <= ms 1%nat -> ms 1%nat <= ms 0%nat + 300 ->
  exists h', measureTicks w (Datatypes.S n) (Datatypes.S f) ms h = Done (h', Some (t, rh)).
Proof.
  intros I T0 T TW P W M0 M1. destruct (read4_known w n f ms h 0xFD tr0 Nak tr b t rh 0 s I T0 ltac:(discriminate) T TW P W) as (h' & E & L & X & Y & _ & I').
  { intros i Hi. destruct i as [|[|i]]; lia. }
  exists h'. unfold measureTicks, measHi. cbn [plus] in E. rewrite E, X, Y. reflexivity.
Qed.
Print Assumptions C102_refused_refuted.
Example C102_refused_example : transfer 0x44 [0xFD] 0 [Start; Addr 0x44 false Ack; Wr 0xFD Nak; Stop] Nak 1 [] /\
  match measureTicks script 1 1 (clock 0) (off ([Start; Addr 0x44 false Ack; Wr 0xFD Nak; Stop] ++ reading 0x44 [] [0x66; 0x66; 147; 0x80; 0x00] 162)) with Done (h, Some (t, r)) => t = 0x6666 /\ r = 0x8000 | _ => False end.
Proof. split; [apply (writes 0x44 [0xFD] 0 [Start; Addr 0x44 false Ack; Wr 0xFD Nak] Nak 1); [discriminate|left; discriminate|apply (broken_off 0x44 [0xFD] [] 0xFD [] Nak); [reflexivity|discriminate]]|]. vm_compute. auto. Qed.
