(** Properties C104, C105 *)
From Verif Require Import Base Bits I2c_Spec I2c_Det.
From Verif Require Import OneWire_Model OneWire_Spec.
From Verif Require Import Ds_Model Ds_Spec Ds_Proofs Ds_Search.
From Verif Require I2c_Props.

(** ** C104: 1-Wire operations through the bridge DS2482 *)
(** Whatever is attached to the 1-Wire line: a byte written is eight time slots, least significant bit first, after an earlier strong pull-up has ended; with [power] the strong pull-up follows. No error is noted, and the driver can go on *)
Theorem C104_write_byte W (x : wire W) addr m h d l pull cfg (pw : bool) v : 0 <= addr < 128 -> prompt x -> linked addr h d l pull cfg ->
  exists h', wireWriteByte (bridge x addr) (S m) h d v pw = Done (h', d) /\
    linked addr h' d (boosted x (fst (slots x (freed x l pull) (bits_of v))) (asked pw pull cfg)) (Z.testbit (asked pw pull cfg) 2) (asked pw pull cfg).
Proof. intros A P K. exact (write_byte_ok x addr m A P h d l pull cfg pw v K). Qed.
Print Assumptions C104_write_byte.
(** a byte read: eight read slots, the levels sampled, least significant first *)
Theorem C104_read_byte W (x : wire W) addr m h d l pull cfg : 0 <= addr < 128 -> prompt x -> linked addr h d l pull cfg ->
  exists h', wireReadByte (bridge x addr) (S m) h d = Done (h', d, byte_of (snd (slots x (freed x l pull) (repeat true 8)))) /\
    linked addr h' d (fst (slots x (freed x l pull) (repeat true 8))) false (kept pull cfg).
Proof. intros A P K. exact (read_byte_ok x addr m A P h d l pull cfg K). Qed.
Print Assumptions C104_read_byte.
(** single bits *)
Theorem C104_write_bit W (x : wire W) addr m h d l pull cfg (pw : bool) v : 0 <= addr < 128 -> prompt x -> linked addr h d l pull cfg ->
  exists h', wireWriteBit (bridge x addr) (S m) h d v pw = Done (h', d) /\
    linked addr h' d (boosted x (fst (slot x (freed x l pull) (negb (v =? 0)))) (asked pw pull cfg)) (Z.testbit (asked pw pull cfg) 2) (asked pw pull cfg).
Proof. intros A P K. destruct (write_bit_ok x addr m A P h d l pull cfg pw v K) as (h' & E & K' & _). exists h'. split; assumption. Qed.
Print Assumptions C104_write_bit.
Theorem C104_read_bit W (x : wire W) addr m h d l pull cfg : 0 <= addr < 128 -> prompt x -> linked addr h d l pull cfg ->
  exists h', wireReadBit (bridge x addr) (S m) h d = Done (h', d, if snd (slot x (freed x l pull) true) then 1 else 0) /\
    linked addr h' d (boosted x (fst (slot x (freed x l pull) true)) (kept pull cfg)) (Z.testbit (kept pull cfg) 2) (kept pull cfg).
Proof. intros A P K. destruct (read_bit_ok x addr m A P h d l pull cfg K) as (h' & E & K'). exists h'. split; [|exact K']. rewrite E. destruct (snd (slot x (freed x l pull) true)); reflexivity. Qed.
Print Assumptions C104_read_bit.
(** the reset: the strong pull-up is cancelled first; the presence pulse is reported, a short is noted as error *)
Theorem C104_reset W (x : wire W) addr m h d l pull cfg l' here short : 0 <= addr < 128 -> prompt x -> linked addr h d l pull cfg -> reset x (freed x l pull) = (l', (here, short)) ->
  exists h' d', wireReset (bridge x addr) (S m) h d = Done (h', d', here) /\ mError d' = (if short then 2 else mError d) /\ linked addr h' d' l' false (Z.land cfg 11).
Proof. intros A P K R. pose proof (reset_ok x addr m A P h d l pull cfg K) as H. rewrite R in H. destruct H as (h' & d' & E & -> & K'). exists h'. eexists. split; [exact E|]. split; [destruct short; reflexivity|exact K']. Qed.
Print Assumptions C104_reset.
(** a device is selected: the command and the eight bytes of its code, in this order *)
Theorem C104_select W (x : wire W) addr m h d l cfg rom : 0 <= addr < 128 -> prompt x -> linked addr h d l false cfg -> Z.testbit cfg 2 = false -> length rom = 8%nat ->
  exists h', wireSelect (bridge x addr) (S m) h d rom = Done (h', d) /\ linked addr h' d (fst (slots x l (flat_map bits_of (0x55 :: rom)))) false cfg.
Proof.
  intros A P K T L. unfold wireSelect. destruct (write_all_ok x addr m A P [WIRE_COMMAND_SELECT] h d l cfg K T) as (h1 & E1 & K1). cbn [wireWriteAll] in E1. destruct (wireWriteByte (bridge x addr) (S m) h d WIRE_COMMAND_SELECT false) as [[h0 d0]| |]; cbn [bind] in *; try discriminate. injection E1 as -> ->.
  rewrite firstn_all2 by lia. destruct (write_all_ok x addr m A P rom h1 d _ cfg K1 T) as (h2 & E2 & K2). exists h2. split; [exact E2|]. rewrite <- slots_app in K2. exact K2.
Qed.
Print Assumptions C104_select.
(** a configuration of four bits arrives and is read back; a strong pull-up ends *)
Theorem C104_config W (x : wire W) addr m h d l pull cfg new : 0 <= addr < 128 -> linked addr h d l pull cfg -> 0 <= new < 16 ->
  exists h', writeConfig (bridge x addr) (S m) h d new = Done (h', d) /\ linked addr h' d (freed x l pull) false new.
Proof. intros A K C. exact (config_linked x addr m A h d l pull cfg new K C). Qed.
Print Assumptions C104_config.
(** the active pull-up: bit 0 of the configuration, the other bits kept *)
Theorem C104_active_pullup W (x : wire W) addr m h d l pull cfg : 0 <= addr < 128 -> linked addr h d l pull cfg ->
  (exists h' d', setActivePullup (bridge x addr) (S m) h d = Done (h', d') /\ linked addr h' d' (freed x l pull) false (Z.lor cfg 1) /\ mError d' = mError d) /\
  (exists h' d', clearActivePullup (bridge x addr) (S m) h d = Done (h', d') /\ linked addr h' d' (freed x l pull) false (Z.land cfg 14) /\ mError d' = mError d).
Proof.
  intros A K. pose proof (l_range _ _ _ _ _ _ K) as R. assert (KA : forall b, linked addr h (setActive d b) l pull cfg) by (intros b; destruct K as [Q1 Q2 Q3 Q4 Q5 Q6 Q7 Q8]; constructor; auto). split.
  - destruct (readc_linked x addr m A h _ _ _ _ (KA true)) as (h1 & E1 & K1). destruct (apu_on cfg R) as (U & R'). destruct (config_linked x addr m A h1 _ _ _ _ _ K1 R') as (h2 & E2 & K2). exists h2, (setActive d true). unfold setActivePullup, CONFIG_APU. cbv zeta. rewrite E1. cbn [bind fst snd]. rewrite U, E2. split; [reflexivity|]. split; [exact K2|reflexivity].
  - destruct (readc_linked x addr m A h _ _ _ _ (KA false)) as (h1 & E1 & K1). destruct (apu_off cfg R) as (U & R'). destruct (config_linked x addr m A h1 _ _ _ _ _ K1 R') as (h2 & E2 & K2). exists h2, (setActive d false). unfold clearActivePullup, CONFIG_APU. cbv zeta. rewrite E1. cbn [bind fst snd]. rewrite U, E2. split; [reflexivity|]. split; [exact K2|reflexivity].
Qed.
Print Assumptions C104_active_pullup.
(** a bridge that stays busy for a thousand readings: the wait ends, and the error is noted *)
Theorem C104_timeout W (x : wire W) addr m h d : 0 <= addr < 128 -> mAddress d = addr -> idle h -> (Z.to_nat 1000 <= busy (world h))%nat ->
  exists h' d' s, waitOnBusy (bridge x addr) (S m) h d = Done (h', d', s) /\ mError d' = 1 /\ Z.testbit s 0 = true /\ line (world h') = line (world h).
Proof.
  intros A M I B. destruct (poll_busy x addr m A (Z.to_nat 1000) h d 0 I M B) as (h' & s & E & I' & Wd & [Z0|S0]); [discriminate Z0|]. exists h', (setError d ERROR_TIMEOUT), s. unfold waitOnBusy. rewrite E. cbn [bind fst snd]. unfold STATUS_BUSY. rewrite S0. split; [reflexivity|]. split; [reflexivity|]. split.
  - pose proof (land_bit s 0 ltac:(discriminate)) as LB. change (2 ^ 0) with 1 in LB. rewrite S0 in LB. symmetry. exact LB.
  - rewrite Wd. destruct (Z.to_nat 1000); reflexivity.
Qed.
Print Assumptions C104_timeout.
(** deviceReset does not reset the bridge: it writes the byte 0xF0 to the 1-Wire line and leaves the configuration as it is *)
Theorem C104_device_reset_refuted W (x : wire W) addr m h d l cfg : 0 <= addr < 128 -> prompt x -> linked addr h d l false cfg -> Z.testbit cfg 2 = false -> activePullUpEnabled d = false ->
  exists h', deviceReset (bridge x addr) (S m) h d = Done (h', d) /\ linked addr h' d (fst (slots x l (bits_of 0xF0))) false cfg.
Proof.
  intros A P K T AP. destruct (C104_write_byte W x addr m h d l false cfg false 0xF0 A P K) as (h' & E & K'). exists h'. unfold deviceReset, COMMAND_RESET. rewrite E. cbn [bind]. rewrite AP. split; [reflexivity|]. cbn [asked kept freed] in K'. unfold boosted in K'. rewrite T in K'. exact K'.
Qed.
Print Assumptions C104_device_reset_refuted.
(** without an answer at the address the functions work on a variable that was never written *)
Theorem C104_absent_refuted S (w : bus S) m h d : 0 <= mAddress d < 128 -> idle h -> (forall s, exists s', select w s (mAddress d) false = (s', Nak)) ->
  readStatus w (Datatypes.S m) h d = Fault /\ wireReset w (Datatypes.S m) h d = Fault /\ wireReadByte w (Datatypes.S m) h d = Fault /\ wireSearch w (Datatypes.S m) h (wireResetSearch d) = Fault.
Proof.
  intros A I N.
  assert (R : forall d', mAddress d' = mAddress d -> readStatus w (Datatypes.S m) h d' = Fault).
  { intros d' M. destruct (N (start w (world h))) as [s' E]. pose proof (writes (mAddress d) [COMMAND_SRP; POINTER_STATUS] 1 _ Nak 0 ltac:(discriminate) ltac:(left; discriminate) (not_addressed (mAddress d) _ Nak ltac:(discriminate))) as T. cbn [app ending] in T.
    destruct (read_known w m h (mAddress d) [COMMAND_SRP; POINTER_STATUS] 1 1 _ Nak 0 [] [] (stop w s') I A ltac:(lia) T ltac:(discriminate)) as (h' & E' & _). { cbn [app plays]. exists s'. split; [exact E|reflexivity]. }
    unfold readStatus, setReadPointerAndRead. rewrite M. cbn [length] in E'. change (Z.of_nat 2) with 2 in E'. change (Z.of_nat 1) with 1 in E'. rewrite E'. reflexivity. }
  assert (V : forall d', mAddress d' = mAddress d -> waitOnBusy w (Datatypes.S m) h d' = Fault).
  { intros d' M. unfold waitOnBusy. destruct (Z.to_nat 1000) as [|i] eqn:E0; [discriminate E0|]. cbn [pollStatus]. rewrite (R d' M). reflexivity. }
  split; [apply R; reflexivity|]. split; [unfold wireReset; rewrite V by reflexivity; reflexivity|]. split; [unfold wireReadByte; rewrite V by reflexivity; reflexivity|].
  unfold wireSearch, wireReset. cbn [wireResetSearch setSearch searchLastDeviceFlag]. rewrite (V (wireResetSearch d)) by reflexivity. reflexivity.
Qed.
Print Assumptions C104_absent_refuted.

(** ** C105: the search through the bridge *)
(** [length (reached roms)] calls after a reset of the search return every reached device once, then all calls report the end *)
Theorem C105_search_partial roms nz lv tk addr m h d l pull cfg : 0 <= addr < 128 -> prompt (attached (map rom_bits roms) nz lv tk) -> Forall rom_ok roms -> NoDup roms -> roms <> [] -> linked addr h d l pull cfg ->
  exists found h' d', finds (bridge (attached (map rom_bits roms) nz lv tk) addr) (S m) (length (reached roms)) h (wireResetSearch d) = Done (h', d', map Some found) /\ Permutation found (reached roms) /\
    forall k, finds (bridge (attached (map rom_bits roms) nz lv tk) addr) (S m) k h' d' = Done (h', d', repeat None k).
Proof.
  intros A P H1 H2 H3 K. apply (finds_all addr m roms nz lv tk A P H1 H2 H3 h (wireResetSearch d) l pull cfg); [reflexivity|reflexivity| |].
  - split; [reflexivity|]. apply Forall_forall. intros z Hz. apply repeat_spec in Hz. subst. red; lia.
  - unfold wireResetSearch. destruct K as [Q1 Q2 Q3 Q4 Q5 Q6 Q7 Q8]. constructor; auto.
Qed.
Print Assumptions C105_search_partial.
(** if all codes agree in the lowest bit of the family code, that are all of them *)
Theorem C105_search_all roms nz lv tk addr m h d l pull cfg : 0 <= addr < 128 -> prompt (attached (map rom_bits roms) nz lv tk) -> Forall rom_ok roms -> NoDup roms -> roms <> [] -> linked addr h d l pull cfg ->
  (forall r q, In r roms -> In q roms -> Z.odd (rd r 0) = Z.odd (rd q 0)) ->
  exists found h' d', finds (bridge (attached (map rom_bits roms) nz lv tk) addr) (S m) (length roms) h (wireResetSearch d) = Done (h', d', map Some found) /\ Permutation found roms /\
    forall k, finds (bridge (attached (map rom_bits roms) nz lv tk) addr) (S m) k h' d' = Done (h', d', repeat None k).
Proof.
  intros A P H1 H2 H3 K S. assert (R : reached roms = roms).
  { unfold reached. destruct (existsb (fun r => Z.even (rd r 0)) roms) eqn:E0; [|reflexivity]. destruct (existsb (fun r => Z.odd (rd r 0)) roms) eqn:E1; [|reflexivity]. exfalso. apply existsb_exists in E0. apply existsb_exists in E1. destruct E0 as (r & I & E0), E1 as (q & J & E1). specialize (S r q I J). rewrite <- Z.negb_odd, S, E1 in E0. discriminate. }
  pose proof (C105_search_partial roms nz lv tk addr m h d l pull cfg A P H1 H2 H3 K) as F. rewrite R in F. exact F.
Qed.
Print Assumptions C105_search_all.
(** with no device on the line every call reports the end *)
Theorem C105_search_empty nz lv tk addr m h d l pull cfg k : 0 <= addr < 128 -> prompt (attached [] nz lv tk) -> linked addr h d l pull cfg ->
  exists h', finds (bridge (attached [] nz lv tk) addr) (S m) k h (wireResetSearch d) = Done (h', wireResetSearch d, repeat None k).
Proof.
  intros A P K. assert (K0 : linked addr h (wireResetSearch d) l pull cfg) by (destruct K as [Q1 Q2 Q3 Q4 Q5 Q6 Q7 Q8]; constructor; auto). clear K. revert h l pull cfg K0. induction k as [|k IH]; intros h l pull cfg K; [exists h; reflexivity|].
  pose proof (reset_ok (attached [] nz lv tk) addr m A P h (wireResetSearch d) l pull cfg K) as H. cbn [attached reset] in H. destruct H as (h1 & d1 & E1 & -> & K1). destruct (IH h1 _ _ _ K1) as (h2 & E2). exists h2. cbn [finds]. unfold wireSearch. change (searchLastDeviceFlag (wireResetSearch d)) with false. cbv iota. rewrite E1. cbn [bind negb]. rewrite E2. reflexivity.
Qed.
Print Assumptions C105_search_empty.
Lemma finds_prefix {S} (w : bus S) n : forall a b h d h' d' l, finds w n (a + b) h d = Done (h', d', l) -> exists h1 d1, finds w n a h d = Done (h1, d1, firstn a l).
Proof.
  induction a as [|a IH]; intros b h d h' d' l E; [exists h, d; reflexivity|]. cbn [plus finds] in *. destruct (wireSearch w n h d) as [[[h1 d1] r]| |]; try discriminate. destruct (finds w n (a + b) h1 d1) as [[[h2 d2] l2]| |] eqn:E2; try discriminate. injection E as <- <- <-. destruct (IH b h1 d1 h2 d2 l2 E2) as (h3 & d3 & E3). exists h3, d3. rewrite E3. reflexivity.
Qed.
Lemma finds_join {S} (w : bus S) n : forall a b h d h1 d1 l1 h2 d2 l2, finds w n a h d = Done (h1, d1, l1) -> finds w n b h1 d1 = Done (h2, d2, l2) -> finds w n (a + b) h d = Done (h2, d2, l1 ++ l2).
Proof.
  induction a as [|a IH]; intros b h d h1 d1 l1 h2 d2 l2 E1 E2; cbn [plus finds] in *; [injection E1 as <- <- <-; exact E2|]. destruct (wireSearch w n h d) as [[[h3 d3] r]| |]; try discriminate. destruct (finds w n a h3 d3) as [[[h4 d4] l4]| |] eqn:E4; try discriminate. injection E1 as <- <- <-. rewrite (IH b _ _ _ _ _ _ _ _ E4 E2). reflexivity.
Qed.
(** Missing from the full claim (every device is found): beside a device with odd family code one with an even code is never found, however often the search is called *)
Theorem C105_even_missed_refuted roms r nz lv tk addr m h d l pull cfg : 0 <= addr < 128 -> prompt (attached (map rom_bits roms) nz lv tk) -> Forall rom_ok roms -> NoDup roms -> linked addr h d l pull cfg ->
  In r roms -> Z.even (rd r 0) = true -> (exists q, In q roms /\ Z.odd (rd q 0) = true) ->
  forall k, exists h' d' answers, finds (bridge (attached (map rom_bits roms) nz lv tk) addr) (S m) k h (wireResetSearch d) = Done (h', d', answers) /\ ~ In (Some r) answers.
Proof.
  intros A P H1 H2 K I E (q & J & O) k. assert (H3 : roms <> []) by (intros ->; exact I).
  destruct (C105_search_partial roms nz lv tk addr m h d l pull cfg A P H1 H2 H3 K) as (found & h1 & d1 & F & Pm & Nn). pose proof (finds_join _ _ _ k _ _ _ _ _ _ _ _ F (Nn k)) as F2. rewrite Nat.add_comm in F2. destruct (finds_prefix _ _ k _ _ _ _ _ _ F2) as (h2 & d2 & F3).
  exists h2, d2. eexists. split; [exact F3|]. intros X. assert (Y : In (Some r) (map Some found ++ repeat None k)). { rewrite <- (firstn_skipn k). apply in_or_app. left. exact X. }
  apply in_app_or in Y. destruct Y as [Y|Y].
  - apply in_map_iff in Y. destruct Y as (r' & Er & Y). injection Er as ->. apply (Permutation_in _ Pm) in Y. unfold reached in Y. replace (existsb (fun r => Z.even (rd r 0)) roms) with true in Y by (symmetry; apply existsb_exists; exists r; auto). replace (existsb (fun r => Z.odd (rd r 0)) roms) with true in Y by (symmetry; apply existsb_exists; exists q; auto). cbn [andb] in Y. apply filter_In in Y. destruct Y as [_ Y]. rewrite <- Z.negb_odd, Y in E. discriminate.
  - apply repeat_spec in Y. discriminate.
Qed.
Print Assumptions C105_even_missed_refuted.

(** ** Examples *)
(** a line that remembers what happened on it and answers 1, 0, 1, 0, ... *)
Inductive happened := Reset | Slot (v : bool) | Power (b : bool).
Definition recorder : wire (list happened) :=
  mkWire _ (fun l => (l ++ [Reset], (true, false))) (fun l v => (l ++ [Slot v], v && Nat.even (length l))) (fun l b => l ++ [Power b]) (fun _ => 0xA7) (fun _ => true) (fun l c => 3%nat).
Definition fresh {W} (l : W) (cfg : Z) (k : nat) : hw (chip W) := I2c_Props.off (mkChip l false cfg 0xF0 16 0 k Over).
Lemma fresh_linked W (l : W) cfg k a : 0 <= cfg < 16 -> (k < Z.to_nat 1000)%nat -> 0 <= a < 4 -> linked (0x18 + a) (fresh l cfg k) (construct a) l false cfg.
Proof. intros C K A. constructor; try reflexivity; try assumption; [|left; reflexivity|split; [cbn; lia|split; reflexivity]]. assert (D : a = 0 \/ a = 1 \/ a = 2 \/ a = 3) by lia. destruct D as [-> |[-> |[-> | ->]]]; reflexivity. Qed.
Definition seen {W A} (f : hw (chip W) -> A -> W * bool * Z * A) (r : res (hw (chip W) * A)) : option (W * bool * Z * A) := match r with Done (h, a) => Some (f h a) | _ => None end.
Definition shows {W A} (h : hw (chip W)) (a : A) : W * bool * Z * A := (line (world h), pulling (world h), config (world h), a).
Example C104_example_hypotheses : 0 <= 0x18 + 1 < 128 /\ prompt recorder /\ linked (0x18 + 1) (fresh (@nil happened) 1 2) (construct 1) [] false 1 /\ Z.testbit 1 2 = false /\ reset recorder (freed recorder [] false) = ([Reset], (true, false)) /\ activePullUpEnabled (construct 1) = false.
Proof. split; [lia|]. split; [intros l c; cbn [recorder took]; apply Nat.ltb_lt; vm_compute; reflexivity|]. split; [apply fresh_linked; try lia; apply Nat.ltb_lt; vm_compute; reflexivity|]. repeat split. Qed.
Example C104_write_byte_example : seen shows (wireWriteByte (bridge recorder 0x19) 1 (fresh [] 1 2) (construct 1) 0x44 true) =
  Some ([Slot false; Slot false; Slot true; Slot false; Slot false; Slot false; Slot true; Slot false; Power true], true, 5, construct 1).
Proof. vm_compute. reflexivity. Qed.
Definition shows2 {W A B} (r : res (hw (chip W) * A * B)) : option (W * bool * Z * A * B) := match r with Done (h, a, b) => Some (line (world h), pulling (world h), config (world h), a, b) | _ => None end.
Example C104_read_byte_example : shows2 (wireReadByte (bridge recorder 0x19) 1 (fresh [] 1 2) (construct 1)) = Some (repeat (Slot true) 8, false, 1, construct 1, 0x55).
Proof. vm_compute. reflexivity. Qed.
Example C104_write_bit_example : seen shows (wireWriteBit (bridge recorder 0x19) 1 (fresh [Reset] 1 0) (construct 1) 7 false) = Some ([Reset; Slot true], false, 1, construct 1).
Proof. vm_compute. reflexivity. Qed.
Example C104_read_bit_example : shows2 (wireReadBit (bridge recorder 0x19) 1 (fresh [] 1 2) (construct 1)) = Some ([Slot true], false, 1, construct 1, 1) /\
  shows2 (wireReadBit (bridge recorder 0x19) 1 (fresh [Reset] 1 2) (construct 1)) = Some ([Reset; Slot true], false, 1, construct 1, 0).
Proof. vm_compute. split; reflexivity. Qed.
(** after a byte with strong pull-up, the reset ends it first *)
Example C104_reset_example : shows2 (bind (wireWriteByte (bridge recorder 0x19) 1 (fresh [] 1 2) (construct 1) 0xFF true) (fun r => wireReset (bridge recorder 0x19) 1 (fst r) (snd r))) =
  Some (repeat (Slot true) 8 ++ [Power true; Power false; Reset], false, 1, construct 1, true).
Proof. vm_compute. reflexivity. Qed.
Example C104_select_example : length [0x28; 1; 2; 3; 4; 5; 6; 7] = 8%nat /\ option_map (fun r => length (fst (fst (fst r)))) (seen shows (wireSelect (bridge recorder 0x19) 1 (fresh [] 1 2) (construct 1) [0x28; 1; 2; 3; 4; 5; 6; 7])) = Some 72%nat.
Proof. vm_compute. split; reflexivity. Qed.
Example C104_config_example : seen shows (writeConfig (bridge recorder 0x19) 1 (fresh [] 1 2) (construct 1) 9) = Some ([], false, 9, construct 1).
Proof. vm_compute. reflexivity. Qed.
Example C104_active_pullup_example : option_map (fun r => snd (fst r)) (seen shows (setActivePullup (bridge recorder 0x19) 1 (fresh [] 8 2) (construct 1))) = Some 9.
Proof. vm_compute. reflexivity. Qed.
Example C104_timeout_example : mAddress (construct 1) = 0x19 /\ idle (fresh (@nil happened) 1 (Z.to_nat 1000)) /\ (Z.to_nat 1000 <= busy (world (fresh (@nil happened) 1 (Z.to_nat 1000))))%nat /\
  match waitOnBusy (bridge recorder 0x19) 1 (fresh [] 1 (Z.to_nat 1000)) (construct 1) with Done (_, d, s) => mError d = 1 /\ s = 0xA7 | _ => False end.
Proof. split; [reflexivity|]. split; [left; reflexivity|]. split; [apply le_n|]. vm_compute. split; reflexivity. Qed.
Example C104_device_reset_example : seen shows (deviceReset (bridge recorder 0x19) 1 (fresh [] 1 2) (construct 1)) = Some (map Slot [false; false; false; false; true; true; true; true], false, 1, construct 1).
Proof. vm_compute. reflexivity. Qed.
Example C104_absent_example : 0 <= mAddress (construct 2) < 128 /\ idle (fresh (@nil happened) 1 0) /\ (forall s, exists s', select (bridge recorder 0x19) s (mAddress (construct 2)) false = (s', Nak)).
Proof. split; [vm_compute; split; [discriminate|reflexivity]|]. split; [left; reflexivity|]. intros s. exists s. reflexivity. Qed.
(** three sensors DS18B20 (family 0x28) *)
Definition sensors : list (list Z) := [[0x28; 1; 2; 3; 4; 5; 6; 7]; [0x28; 0x81; 2; 3; 4; 5; 6; 9]; [0x28; 1; 2; 3; 4; 5; 7; 7]].
Definition ds_line (roms : list (list Z)) : wire stage := attached (map rom_bits roms) (fun _ => 0x55) (fun _ => true) (fun _ _ => 2%nat).
Lemma ds_prompt roms : prompt (ds_line roms).
Proof. intros l c. cbn [ds_line attached took]. apply Nat.ltb_lt. vm_compute. reflexivity. Qed.
Lemma roms_check roms : forallb (fun r => (length r =? 8)%nat && forallb (fun b => (0 <=? b) && (b <? 256)) r) roms = true -> Forall rom_ok roms.
Proof.
  intros H. apply Forall_forall. intros r I. rewrite forallb_forall in H. specialize (H r I). apply andb_true_iff in H. destruct H as [H1 H2]. split; [apply Nat.eqb_eq; exact H1|]. apply Forall_forall. intros b Hb. rewrite forallb_forall in H2. specialize (H2 b Hb). red. lia.
Qed.
Definition answers {S} (r : res (hw S * drv * list (option (list Z)))) : option (list (option (list Z))) := match r with Done (_, _, l) => Some l | _ => None end.
Example C105_search_example : prompt (ds_line sensors) /\ Forall rom_ok sensors /\ NoDup sensors /\ linked (0x18 + 0) (fresh Quiet 1 0) (construct 0) Quiet false 1 /\ (forall r q, In r sensors -> In q sensors -> Z.odd (rd r 0) = Z.odd (rd q 0)) /\
  answers (finds (bridge (ds_line sensors) 0x18) 1 5 (fresh Quiet 1 0) (wireResetSearch (construct 0))) = Some [Some [0x28; 1; 2; 3; 4; 5; 6; 7]; Some [0x28; 1; 2; 3; 4; 5; 7; 7]; Some [0x28; 0x81; 2; 3; 4; 5; 6; 9]; None; None].
Proof.
  split; [apply ds_prompt|]. split; [apply roms_check; vm_compute; reflexivity|]. split; [repeat constructor; cbn; intuition discriminate|]. split; [apply fresh_linked; try lia; apply Nat.ltb_lt; vm_compute; reflexivity|].
  split; [intros r q Hr Hq; cbn in Hr, Hq; destruct Hr as [<-|[<-|[<-|[]]]], Hq as [<-|[<-|[<-|[]]]]; reflexivity|]. vm_compute. reflexivity.
Qed.
(** a DS18B20 (family 0x28) beside a DS1825 (family 0x3B) *)
Example C105_even_missed_example : In [0x28; 1; 2; 3; 4; 5; 6; 7] [[0x28; 1; 2; 3; 4; 5; 6; 7]; [0x3B; 1; 2; 3; 4; 5; 6; 7]] /\ Z.even (rd [0x28; 1; 2; 3; 4; 5; 6; 7] 0) = true /\ Z.odd (rd [0x3B; 1; 2; 3; 4; 5; 6; 7] 0) = true /\
  answers (finds (bridge (ds_line [[0x28; 1; 2; 3; 4; 5; 6; 7]; [0x3B; 1; 2; 3; 4; 5; 6; 7]]) 0x18) 1 3 (fresh Quiet 1 0) (wireResetSearch (construct 0))) = Some [Some [0x3B; 1; 2; 3; 4; 5; 6; 7]; None; None].
Proof. split; [left; reflexivity|]. split; [reflexivity|]. split; [reflexivity|]. vm_compute. reflexivity. Qed.
