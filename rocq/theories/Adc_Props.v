(** C107: analogRead gives the value of a conversion of the channel asked for, begun by this call. *)
From Verif Require Import Base Bits Adc_Model Adc_Spec Adc_Proofs.

(** whatever the data registers hold (older results, flags not read), the value returned is that of a conversion of the channel begun after the call; it is never an old one and never marked as lost.
    The call returns as soon as the conversion is finished and leaves the converter ready, the channel selected, clock and other settings untouched *)
Theorem C107_read e s c : tenbit e -> ready s -> (c < 8)%nat ->
  exists begin s' v, (now s < begin)%nat /\ v = volts e (begin + takes e begin)%nat c /\ 0 <= v <= 1023 /\
    (forall n, (takes e begin < n)%nat -> analogRead (lpc e) n s c = Some (s', v) /\ analogValidRead (lpc e) n s c = Some (s', v)) /\
    ready s' /\ Z.land (cr s') 255 = 2 ^ Z.of_nat c /\ settings (cr s') = settings (cr s) /\ Z.shiftr (cr s') 27 = Z.shiftr (cr s) 27.
Proof.
  intros T R C. destruct (poll e s c T R C) as (s' & v & A1 & A2 & A3 & A4 & A5 & A6 & A7 & A8 & A9 & A10 & _).
  exists (now s + 5)%nat, s', (volts e (now s + 5 + takes e (now s + 5))%nat c). split; [lia|]. split; [reflexivity|].
  split; [pose proof (T (now s + 5 + takes e (now s + 5))%nat c); lia|]. split; [|auto].
  intros n N. unfold analogRead, analogValidRead. rewrite A1 by exact N. rewrite overrun_flag, A4, A5. auto.
Qed.
Print Assumptions C107_read.

(** any number of readings one after the other, of any channels: each gives a value of its own channel, from a moment after the one before *)
Fixpoint readings (e : world) (n : nat) (s : adc) (cs : list nat) : option (adc * list Z) :=
  match cs with
  | [] => Some (s, [])
  | c :: r => match analogRead (lpc e) n s c with Some (s, v) => match readings e n s r with Some (s, l) => Some (s, v :: l) | None => None end | None => None end
  end.
(** the values [l] stem from the channels [cs] at moments that increase from [t] on *)
Fixpoint stem (e : world) (t : nat) (cs : list nat) (l : list Z) : Prop :=
  match cs, l with
  | [], [] => True
  | c :: r, v :: l' => exists m, (t < m)%nat /\ v = volts e m c /\ stem e m r l'
  | _, _ => False
  end.
Lemma stem_weaken e t t' cs l : (t' <= t)%nat -> stem e t cs l -> stem e t' cs l.
Proof. intro H. destruct cs, l; cbn; try tauto. intros (m & A & B). exists m. split; [lia|exact B]. Qed.
Lemma waitDone_now e c n : forall s s' v, waitDone (lpc e) n s c = Some (s', v) -> (now s <= now s')%nat.
Proof.
  induction n as [|n IH]; intros s s' v H; [discriminate|]. cbn [waitDone lpc readDR] in H. destruct (negb _).
  - injection H as <- _. cbn [now]. unfold tick. destruct (work s) as [[? []]|]; cbn; lia.
  - apply IH in H. cbn [now] in H. unfold tick in H. destruct (work s) as [[? []]|]; cbn in H; lia.
Qed.
Lemma read_next e n s c s' v : tenbit e -> ready s -> (c < 8)%nat -> analogRead (lpc e) n s c = Some (s', v) -> ready s' /\ exists m, (now s < m < now s')%nat /\ v = volts e m c.
Proof.
  intros T R C H. destruct (poll_moment e s c T R C) as (s1 & v1 & A1 & A2 & A3 & A4 & A5 & A6).
  unfold analogRead in H. destruct (le_lt_dec n (takes e (now s + 5)%nat)) as [L|L]; [rewrite A2 in H by exact L; discriminate|].
  rewrite A1 in H by exact L. rewrite overrun_flag, A3, A4 in H. injection H as <- <-. split; [exact A5|]. exists (now s + 5 + takes e (now s + 5))%nat. split; [lia|reflexivity].
Qed.
Theorem C107_readings e n cs : tenbit e -> Forall (fun c => (c < 8)%nat) cs -> forall s s' l, ready s -> readings e n s cs = Some (s', l) -> ready s' /\ stem e (now s) cs l.
Proof.
  intros T F. induction F as [|c cs C F IH]; intros s s' l R H; cbn [readings] in H.
  - injection H as <- <-. split; [exact R|exact Logic.I].
  - destruct (analogRead (lpc e) n s c) as [[s1 v]|] eqn:E; [|discriminate]. destruct (readings e n s1 cs) as [[s2 l']|] eqn:E2; [|discriminate]. injection H as <- <-.
    destruct (read_next e n s c s1 v T R C E) as (R1 & m & M & V). destruct (IH s1 s2 l' R1 E2) as [R2 St]. split; [exact R2|]. cbn [stem]. exists m. split; [lia|]. split; [exact V|]. apply stem_weaken with (now s1); [lia|exact St].
Qed.
Print Assumptions C107_readings.

(** a converter switched off: the call never returns *)
Theorem C107_off e s c : tenbit e -> on s = false -> is_u32 (cr s) -> length (dr s) = 8%nat -> Forall is_u32 (dr s) -> (c < 8)%nat -> forall n, analogRead (lpc e) n s c = None /\ analogValidRead (lpc e) n s c = None.
Proof.
  intros T O V L F C n. assert (P : analogPoll (lpc e) n s c = None).
  { assert (So : sound s) by (split; assumption). unfold analogPoll.
    destruct (change_cr e s (fun v => Z.land v 0xffffff00) T So) as (s1 & A1 & A2 & A3 & A4 & A5 & A6 & _). rewrite A1. cbn [lpc readDR]. change ({| getCR := _; setCR := _; readDR := _ |}) with (lpc e). rewrite O in A6. cbn [andb] in A6.
    destruct (tick_keeps e s1 T A2) as (K1 & K2 & K3 & K4). destruct (tick_idle e s1 A6) as [W1 D1].
    set (t := tick e s1) in *. set (s2 := {| on := on t; cr := cr t; dr := wr (dr t) c (Z.land (rd (dr t) c) 0x3fffffff); work := work t; now := now t |}).
    assert (S2 : sound s2). { split; cbn [dr s2]; [rewrite wr_length; exact (proj1 K1)|]. apply wr_forall; [exact (proj2 K1)|]. apply land_u32. pose proof (proj2 K1) as G. rewrite Forall_forall in G. apply G. unfold rd. apply nth_In. rewrite (proj1 K1). exact C. }
    destruct (change_cr e s2 (fun v => Z.lor v (Z.lor (Z.shiftl 1 (Z.of_nat c)) ADC_START_NOW)) T S2) as (s3 & B1 & B2 & B3 & B4 & B5 & B6 & B7). rewrite B1.
    assert (O2 : on s2 = false) by (cbn [on s2]; congruence). rewrite O2 in B6. cbn [andb] in B6.
    rewrite never_done; auto. rewrite B7 by exact W1. cbn [dr s2]. rewrite rd_wr_same by (rewrite (proj1 K1); exact C). apply cleared. }
  unfold analogRead, analogValidRead. rewrite P. auto.
Qed.
Print Assumptions C107_off.

(** analogBegin switches the converter on and its bus clock, nothing else, and divides the clock to at least 2.4 MHz and less than 4.8 MHz (at most 3.6 MHz from 4.8 MHz upwards; the manual allows 4.5 MHz); analogEnd undoes the first two *)
Theorem C107_begin p b clock div : is_u32 p -> is_u32 b -> 0 < div -> 2400000 <= clock / div < 256 * 2400000 ->
  let '(p', b', c') := analogBegin p b clock div in
  let divider := c' / 256 + 1 in
  (forall i, 0 <= i -> Z.testbit p' i = if i =? 4 then false else Z.testbit p i) /\ (forall i, 0 <= i -> Z.testbit b' i = if i =? 13 then true else Z.testbit b i) /\
  is_u32 c' /\ c' mod 256 = 0 /\ 1 <= divider <= 256 /\ 2400000 * divider <= clock / div < 2400000 * (divider + 1) /\ Z.land (Z.shiftr c' 24) 7 = 0.
Proof.
  intros P B D C. unfold analogBegin. cbv zeta.
  assert (Cl : clock / div / ADC_CLOCK = clock / div / 2400000) by reflexivity. rewrite Cl. set (f := clock / div) in *. clearbody f.
  pose proof (Z.div_mod f 2400000 ltac:(lia)) as E. pose proof (Z.mod_pos_bound f 2400000 ltac:(lia)) as M. set (k := f / 2400000) in *. clearbody k. assert (1 <= k <= 255) by lia.
  rewrite (u32_id (k - 1)) by (unfold is_u32; lia). rewrite (Z.shiftl_mul_pow2 (k - 1) 8) by lia. change (2 ^ 8) with 256. rewrite (u32_id ((k - 1) * 256)) by (unfold is_u32; lia). rewrite Z.div_mul, Z.mod_mul by lia.
  split; [|split; [|split; [|split; [|split; [|split]]]]]; [ | |unfold is_u32; lia|reflexivity|lia|lia|].
  - intros i I. rewrite Z.land_spec. destruct (Z_lt_le_dec i 32) as [L|L].
    + unfold u32. change 4294967296 with (2 ^ 32). rewrite Z.mod_pow2_bits_low by lia. rewrite Z.lnot_spec by exact I. change (Z.shiftl 1 4) with (2 ^ 4). rewrite Z.pow2_bits_eqb by lia. rewrite (Z.eqb_sym 4 i). destruct (i =? 4); [apply andb_false_r|apply andb_true_r].
    + rewrite (bits_above_lt p 32) by (unfold is_u32 in P; lia). destruct (i =? 4); reflexivity.
  - intros i I. rewrite Z.lor_spec. change (Z.shiftl 1 13) with (2 ^ 13). rewrite Z.pow2_bits_eqb by lia. rewrite (Z.eqb_sym 13 i). destruct (i =? 13); [apply orb_true_r|apply orb_false_r].
  - rewrite Z.shiftr_div_pow2 by lia. rewrite Z.div_small by lia. reflexivity.
Qed.
Print Assumptions C107_begin.
Theorem C107_end p b : is_u32 p -> is_u32 b -> let '(p', b') := analogEnd p b in
  (forall i, 0 <= i -> Z.testbit p' i = if i =? 4 then true else Z.testbit p i) /\ (forall i, 0 <= i -> Z.testbit b' i = if i =? 13 then false else Z.testbit b i).
Proof.
  intros P B. unfold analogEnd. split; intros i I.
  - rewrite Z.lor_spec. change (Z.shiftl 1 4) with (2 ^ 4). rewrite Z.pow2_bits_eqb by lia. rewrite (Z.eqb_sym 4 i). destruct (i =? 4); [apply orb_true_r|apply orb_false_r].
  - rewrite Z.land_spec. destruct (Z_lt_le_dec i 32) as [L|L].
    + unfold u32. change 4294967296 with (2 ^ 32). rewrite Z.mod_pow2_bits_low by lia. rewrite Z.lnot_spec by exact I. change (Z.shiftl 1 13) with (2 ^ 13). rewrite Z.pow2_bits_eqb by lia. rewrite (Z.eqb_sym 13 i). destruct (i =? 13); [apply andb_false_r|apply andb_true_r].
    + rewrite (bits_above_lt b 32) by (unfold is_u32 in B; lia). destruct (i =? 13); reflexivity.
Qed.
Print Assumptions C107_end.

(** a stale result of channel 3, marked as lost; conversions take three accesses *)
Definition bench : world := {| volts := fun t c => (Z.of_nat (t * 100 + c)) mod 1024; takes := fun _ => 3%nat |}.
Definition stale : adc := {| on := true; cr := 0x1304; dr := wr (repeat 0 8) 3 0xC0003FC0; work := None; now := 0 |}.
Example C107_read_example : tenbit bench /\ ready stale /\ (exists s', analogRead (lpc bench) 10 stale 3 = Some (s', 803) /\ cr s' = 0x1308) /\ (exists s', readings bench 10 stale [3; 7; 3]%nat = Some (s', [803; 883; 955])).
Proof.
  split; [intros t c; apply Z.mod_pos_bound; reflexivity|]. split.
  - split; [reflexivity|]. split; [split; [discriminate|reflexivity]|]. split; [reflexivity|]. split; [reflexivity|]. repeat (constructor; [split; [discriminate|reflexivity]|]). constructor.
  - split; eexists; vm_compute; [split; reflexivity|reflexivity].
Qed.
Example C107_off_example : analogRead (lpc bench) 1000 {| on := false; cr := 0x1300; dr := repeat 0 8; work := None; now := 0 |} 3 = None.
Proof. vm_compute. reflexivity. Qed.
(** 48 MHz: divided by 20 *)
Example C107_begin_example : analogBegin 0xFDF0 0x1C5F 48000000 1 = (0xFDE0, 0x3C5F, 0x1300) /\ analogEnd 0xFDE0 0x3C5F = (0xFDF0, 0x1C5F).
Proof. split; vm_compute; reflexivity. Qed.
