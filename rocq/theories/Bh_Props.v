(** C119: the light sensor BH1750 (bh1750.cpp) *)
From Verif Require Export Bh_Proofs.
Open Scope Z_scope.

(** A sensor just powered up that acknowledges everything; one that does not acknowledge the first byte of data; the interface and the driver at the start. *)
Definition dark : sensor := mkSensor false [] 69 0 0 false.
Definition quiet (s : sensor) : hw sensor := mkHw false false false false true 0xF8 0 s [].
Definition young : bh := mkBh 0x23 69 0 0.

(** configure(): true exactly if the mode is one of the data sheet and the sensor acknowledged; then it measures in that mode. Otherwise neither the sensor nor the object changes;
    an unknown mode sends nothing. *)
Theorem C119_configure a acks m now h d mode : 0 <= a < 128 -> idle h -> BH1750_I2CADDR d = a ->
  exists h' d' r, configure (light a acks) (S m) now h d mode = Done (h', d', r) /\ idle h' /\
    (r = true <-> a_mode mode /\ acks (heard (world h)) = true /\ acks (S (heard (world h))) = true) /\
    (r = true -> d' = mkBh a (BH1750_MTreg d) mode now /\ on (world h') = true /\ runs (world h') = (mode, mt (world h)) :: runs (world h) /\ mt (world h') = mt (world h) /\ data (world h') = data (world h)) /\
    (r = false -> d' = d /\ same (world h) (world h')) /\ (~ a_mode mode -> h' = h).
Proof.
  intros A I D. destruct (configure_ok a acks m A now h d mode I D) as (h' & d' & r & E & I' & R & T & F & N). exists h', d', r. split; [exact E|]. split; [exact I'|]. split; [exact R|]. split; [|auto].
  intros X. destruct (T X) as (T1 & T2 & T3 & T4 & T5 & _). auto.
Qed.
Print Assumptions C119_configure.
Example C119_configure_example : idle (quiet dark) /\ a_mode 0x21 /\
  match configure (light 0x23 (fun _ => true)) 1 5000 (quiet dark) young 0x21 with Done (h, d, r) => r = true /\ d = mkBh 0x23 69 0x21 5000 /\ runs (world h) = [(0x21, 69)] /\ log h = [Start; Addr 0x23 false Ack; Wr 0x21 Ack; Stop] | _ => False end /\
  match configure (light 0x23 Nat.even) 1 5000 (quiet dark) young 0x21 with Done (h, d, r) => r = false /\ d = young /\ runs (world h) = [] | _ => False end.
Proof. split; [left; reflexivity|]. split; [cbn; auto 10|]. vm_compute. repeat split. Qed.

(** setMTreg(): values outside 32 to 254 are refused and nothing is sent. Wanted: true only if the sensor has the new value and measures with it. Missing: only the last of the three bytes
    is checked (next theorem); with a sensor that acknowledges: *)
Theorem C119_mtreg_partial a acks m h d v : 0 <= a < 128 -> idle h -> BH1750_I2CADDR d = a ->
  (~ (32 <= v <= 254) -> setMTreg (light a acks) (S m) h d v = Done (h, d, false)) /\
  (32 <= v <= 254 -> a_mode (BH1750_MODE d) -> (forall j, (j < 6)%nat -> acks (heard (world h) + j)%nat = true) ->
   exists h', setMTreg (light a acks) (S m) h d v = Done (h', mkBh a v (BH1750_MODE d) (lastReadTimestamp d), true) /\ idle h' /\
     on (world h') = true /\ mt (world h') = v /\ runs (world h') = (BH1750_MODE d, v) :: runs (world h) /\ data (world h') = data (world h)).
Proof.
  intros A I D. split; [apply mtreg_range|]. intros V M K. destruct (mtreg_ok a acks m A h d v I D V M K) as (h' & E & I' & U1 & U2 & U3 & U4 & _). exists h'. auto 10.
Qed.
Print Assumptions C119_mtreg_partial.
Theorem C119_mtreg_refuted : exists a acks m h d v h' d', 0 <= a < 128 /\ idle h /\ BH1750_I2CADDR d = a /\ a_mode (BH1750_MODE d) /\ setMTreg (light a acks) (S m) h d v = Done (h', d', true) /\ BH1750_MTreg d' = v /\ mt (world h') <> v.
Proof.
  exists 0x23, (fun k => negb (Nat.eqb k 1)), 0%nat, (quiet dark), (mkBh 0x23 69 0x10 0), 254. do 2 eexists. split; [lia|]. split; [left; reflexivity|]. split; [reflexivity|]. split; [cbn; auto|]. split; [vm_compute; reflexivity|]. split; [reflexivity|]. cbn. discriminate.
Qed.
Print Assumptions C119_mtreg_refuted.
(** Before configure() it switches the sensor off: the mode sent is 0. *)
Theorem C119_mtreg_unconfigured_refuted : exists a m h d v h' d', idle h /\ BH1750_I2CADDR d = a /\ BH1750_MODE d = 0 /\ on (world h) = true /\ setMTreg (light a (fun _ => true)) (S m) h d v = Done (h', d', true) /\ on (world h') = false.
Proof.
  exists 0x23, 0%nat, (quiet (mkSensor true [] 69 0 0 false)), young, 254. do 2 eexists. split; [left; reflexivity|]. split; [reflexivity|]. split; [reflexivity|]. split; [reflexivity|]. split; [vm_compute; reflexivity|]. reflexivity.
Qed.
Print Assumptions C119_mtreg_unconfigured_refuted.

(** begin() with a sensor that acknowledges. *)
Theorem C119_begin a acks m now h d mode : 0 < a < 128 -> idle h -> a_mode mode -> (forall j, (j < 8)%nat -> acks (heard (world h) + j)%nat = true) ->
  exists h', begin (light a acks) (S m) now h d mode a = Done (h', mkBh a 69 mode now, true) /\ idle h' /\ on (world h') = true /\ mt (world h') = 69 /\ hd_error (runs (world h')) = Some (mode, 69).
Proof.
  intros A I M K. destruct (begin_ok a acks m ltac:(lia) now h d mode I ltac:(lia) M K) as (h' & E & I' & U1 & U2 & U3 & _). exists h'. rewrite U3. cbn. auto.
Qed.
Print Assumptions C119_begin.
Example C119_begin_example : match begin (light 0x5C (fun _ => true)) 1 77 (quiet (mkSensor false [] 254 0 0 false)) young 0x10 0x5C with
  Done (h, d, r) => r = true /\ d = mkBh 0x5C 69 0x10 77 /\ runs (world h) = [(0x10, 69); (0x10, 254)] /\ mt (world h) = 69 | _ => False end.
Proof. vm_compute. repeat split. Qed.

(** readLightLevel(): the lux of the data sheet for the result in the sensor, -1 if it does not answer, -2 before configure(). *)
Theorem C119_level a acks m now h d : 0 <= a < 128 -> idle h -> BH1750_I2CADDR d = a -> a_mode (BH1750_MODE d) -> 0 < BH1750_MTreg d -> 0 <= data (world h) < 65536 ->
  exists h' level, readLightLevel (light a acks) (S m) now h d = Done (h', mkBh a (BH1750_MTreg d) (BH1750_MODE d) now, level) /\ idle h' /\ same (world h) (world h') /\
    (if acks (heard (world h)) then lux (BH1750_MODE d) (BH1750_MTreg d) (data (world h)) level else level = inject_Z (-1)).
Proof.
  intros A I D M V R. destruct (light_ok a acks m A now h d I D M V R) as (h' & l & E & I' & W & L). exists h', l. split; [exact E|]. split; [exact I'|]. split; [rewrite W; repeat split|exact L].
Qed.
Print Assumptions C119_level.
Theorem C119_level_unconfigured {S} (w : bus S) n now h d : BH1750_MODE d = 0 -> readLightLevel w n now h d = Done (h, d, inject_Z (-2)).
Proof. intros E. unfold readLightLevel. rewrite E. reflexivity. Qed.
Print Assumptions C119_level_unconfigured.
Example C119_level_example : match readLightLevel (light 0x23 (fun _ => true)) 1 77 (quiet (mkSensor true [(0x11, 138)] 138 0x8340 0 false)) (mkBh 0x23 138 0x11 0) with
  Done (_, d, level) => d = mkBh 0x23 138 0x11 77 /\ Qeq level (inject_Z 7000) /\ lux 0x11 138 0x8340 level | _ => False end.
Proof. vm_compute. repeat split. Qed.

(** Any sequence of calls after begin(), with new results of the sensor in between, on a sensor that acknowledges: each level read is the lux of the result for the mode and the measurement time
    of the sensor's latest measurement. *)
Inductive op := Configure (now mode : Z) | SetMT (v : Z) | Read (now : Z) | Result (v : Z).
Definition new_result (h : hw sensor) (v : Z) : hw sensor :=
  let s := world h in mkHw (sta h) (sto h) (si h) (aa h) (i2en h) (stat h) (dat h) (mkSensor (on s) (runs s) (mt s) v (heard s) (low s)) (log h).
(** each level with the result register and the latest measurement at that time *)
Fixpoint history (w : bus sensor) (n : nat) (h : hw sensor) (d : bh) (l : list op) : option (list (Q * Z * option (Z * Z))) :=
  match l with
  | [] => Some []
  | Configure now mode :: r => match configure w n now h d mode with Done (h, d, _) => history w n h d r | _ => None end
  | SetMT v :: r => match setMTreg w n h d v with Done (h, d, _) => history w n h d r | _ => None end
  | Result v :: r => history w n (new_result h v) d r
  | Read now :: r => match readLightLevel w n now h d with
                     | Done (h', d, level) => match history w n h' d r with Some q => Some ((level, data (world h), hd_error (runs (world h))) :: q) | None => None end
                     | _ => None end
  end.
Definition fits (x : Q * Z * option (Z * Z)) : Prop := let '(level, result, run) := x in exists mode v, run = Some (mode, v) /\ lux mode v result level.
Theorem C119_history a m h d ops : 0 <= a < 128 -> idle h -> BH1750_I2CADDR d = a -> a_mode (BH1750_MODE d) -> 32 <= BH1750_MTreg d <= 254 -> mt (world h) = BH1750_MTreg d ->
  hd_error (runs (world h)) = Some (BH1750_MODE d, BH1750_MTreg d) -> 0 <= data (world h) < 65536 -> (forall v, In (Result v) ops -> 0 <= v < 65536) ->
  exists out, history (light a (fun _ => true)) (S m) h d ops = Some out /\ Forall fits out.
Proof.
  intros A. revert h d. induction ops as [|o ops IH]; intros h d I D M V T R B F; [exists []; split; [reflexivity|constructor]|].
  assert (F' : forall v, In (Result v) ops -> 0 <= v < 65536) by (intros v Hv; apply F; right; exact Hv). destruct o as [now mode|v|now|v]; cbn [history].
  - destruct (configure_ok a (fun _ => true) m A now h d mode I D) as (h' & d' & r & E & I' & _ & Tr & Fa & _). rewrite E. destruct r.
    + assert (Mo : a_mode mode). { destruct (highRes mode || lowRes mode) eqn:X; [apply modes; exact X|]. unfold configure in E. rewrite X in E. discriminate. }
      destruct (Tr eq_refl) as (-> & _ & U2 & U3 & U4 & _). apply IH; auto; cbn [BH1750_MTreg BH1750_MODE BH1750_I2CADDR]; [congruence|rewrite U2, T; reflexivity|rewrite U4; exact B].
    + destruct (Fa eq_refl) as (-> & S1 & S2 & S3 & S4). apply IH; auto; congruence.
  - destruct (Z_le_dec 32 v) as [L|L]; [destruct (Z_le_dec v 254) as [L2|L2]|].
    + destruct (mtreg_ok a (fun _ => true) m A h d v I D (conj L L2) M ltac:(reflexivity)) as (h' & E & I' & U1 & U2 & U3 & U4 & _). rewrite E. apply IH; auto; cbn [BH1750_MTreg BH1750_MODE BH1750_I2CADDR]; [rewrite U3; reflexivity|rewrite U4; exact B].
    + rewrite mtreg_range by lia. apply IH; auto.
    + rewrite mtreg_range by lia. apply IH; auto.
  - destruct (light_ok a (fun _ => true) m A now h d I D M ltac:(lia) B) as (h' & level & E & I' & W & L). rewrite E.
    destruct (IH h' (mkBh a (BH1750_MTreg d) (BH1750_MODE d) now)) as (out & Eo & Fo); auto; try (rewrite W; cbn [addressed mt runs data]; auto). rewrite Eo. eexists. split; [reflexivity|]. constructor; [|exact Fo]. exists (BH1750_MODE d), (BH1750_MTreg d). split; [exact R|exact L].
  - apply IH; auto. apply F. left. reflexivity.
Qed.
Print Assumptions C119_history.
Example C119_history_example : exists h d, begin (light 0x23 (fun _ => true)) 1 0 (quiet dark) young 0x10 0x23 = Done (h, d, true) /\ idle h /\ a_mode (BH1750_MODE d) /\ BH1750_MTreg d = 69 /\ mt (world h) = 69 /\ hd_error (runs (world h)) = Some (0x10, 69) /\
  match history (light 0x23 (fun _ => true)) 1 h d [Result 600; Read 200; SetMT 138; Result 1200; Read 500; Configure 500 0x21; Result 2400; Read 900; SetMT 10; Read 1000] with
  | Some l => map (fun x => Qred (fst (fst x))) l = [inject_Z 500; inject_Z 500; inject_Z 500; inject_Z 500] | None => False end.
Proof. do 2 eexists. split; [vm_compute; reflexivity|]. split; [left; reflexivity|]. split; [cbn; auto|]. split; [reflexivity|]. split; [reflexivity|]. split; [reflexivity|]. vm_compute. reflexivity. Qed.

(** measurementReady(): true if the measurement time, scaled by the register, has passed since the last reading or configure() (a millisecond may be missing, times modulo 2^32), false before. *)
Theorem C119_ready now d longest : a_mode (BH1750_MODE d) -> 0 <= BH1750_MTreg d -> let passed := (now - lastReadTimestamp d) mod 2 ^ 32 in
  (measurementReady now d longest = true -> time69 (BH1750_MODE d) longest * BH1750_MTreg d < 69 * (passed + 1)) /\
  (time69 (BH1750_MODE d) longest * BH1750_MTreg d <= 69 * passed -> measurementReady now d longest = true).
Proof.
  intros M V. cbv zeta. unfold measurementReady, BH1750_DEFAULT_MTREG, u32. change (2 ^ 32) with 4294967296. set (p := (now - _) mod _). clearbody p. rewrite Z.geb_leb.
  assert (E : (if highRes (BH1750_MODE d) then (if longest then 180 else 120) * BH1750_MTreg d / 69 else if lowRes (BH1750_MODE d) then (if longest then 24 else 16) * BH1750_MTreg d / 69 else 0) = time69 (BH1750_MODE d) longest * BH1750_MTreg d / 69).
  { cbn in M. repeat (destruct M as [<-|M]; [reflexivity|]). destruct M. }
  rewrite E. set (q := time69 _ _ * _). clearbody q. clear - p q. rewrite Z.leb_le. Z.div_mod_to_equations. lia.
Qed.
Print Assumptions C119_ready.
Example C119_ready_example : a_mode 0x10 /\ measurementReady 4 (mkBh 0x23 69 0x10 4294967181) false = false /\ measurementReady 5 (mkBh 0x23 69 0x10 4294967181) false = true /\ measurementReady 5 (mkBh 0x23 69 0x10 4294967181) true = false.
Proof. split; [cbn; auto|]. vm_compute. auto. Qed.
(** Wanted: true means that the latest measurement is finished. Refuted: setMTreg() starts a new one and does not note the time; afterwards the answer may be true at once. *)
Theorem C119_ready_refuted : exists a m h d v now h' d', idle h /\ BH1750_I2CADDR d = a /\ a_mode (BH1750_MODE d) /\ setMTreg (light a (fun _ => true)) (S m) h d v = Done (h', d', true) /\
  runs (world h') = (BH1750_MODE d, v) :: runs (world h) /\ measurementReady now d' true = true /\ lastReadTimestamp d' < now - 900.
Proof.
  exists 0x23, 0%nat, (quiet dark), (mkBh 0x23 69 0x10 0), 138, 1000. do 2 eexists. split; [left; reflexivity|]. split; [reflexivity|]. split; [cbn; auto|]. split; [vm_compute; reflexivity|]. split; [reflexivity|]. split; [reflexivity|]. cbn. lia.
Qed.
Print Assumptions C119_ready_refuted.

(** With a second master on the bus: if arbitration is lost in the byte of data, the transfer is repeated as a reading (nothing is left to send), and the byte read is stored through a null pointer. *)
Definition crowd : bus nat := mkBus nat (fun s => s) (fun s _ _ => (s, Ack)) (fun s _ => (S s, match s with O => Lost | _ => Ack end)) (fun s _ => (s, Byte 0)) (fun s => s).
Theorem C119_lost_refuted : exists m h d now mode, idle h /\ 0 <= BH1750_I2CADDR d < 128 /\ a_mode mode /\ configure crowd (S m) now h d mode = Fault.
Proof. exists 1%nat, (mkHw false false false false true 0xF8 0 0%nat []), young, 0, 0x10. split; [left; reflexivity|]. split; [cbn; lia|]. split; [cbn; auto|]. vm_compute. reflexivity. Qed.
Print Assumptions C119_lost_refuted.
