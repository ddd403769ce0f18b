(** C106: the calls on digital pins configure exactly the pin named. *)
From Verif Require Import Base Bits Pin_Model Pin_Spec Pin_Proofs Pin_Effects.

(** registers for examples: everything 0, the pin SSEL1 placed elsewhere *)
Definition blank : regs := let z := repeat 0 4 in {| DATA := z; DIR := z; IS := z; IBE := z; IEV := z; IE := z; IOCON := wr (repeat 0 54) 6 1 |}.
Lemma all_u32 l : forallb (fun x => (0 <=? x) && (x <? 4294967296)) l = true -> Forall is_u32 l.
Proof. intro H. rewrite forallb_forall in H. apply Forall_forall. intros x I. specialize (H x I). unfold is_u32. lia. Qed.
Lemma blank_whole : whole blank.
Proof. split; [reflexivity|]. split; [apply all_u32; vm_compute; reflexivity|]. apply port_regs; (split; [reflexivity|apply all_u32; vm_compute; reflexivity]). Qed.

(** ** pinMode *)
(** every pin, every request for a role the pin has: the pin gets the role, resistor, hysteresis, open drain and direction asked for, pins with an A/D bit are switched to digital unless analog input is asked for,
    the signal is led to the pin; no other pin and no other register of this pin is touched.
    Missing: the signals SSEL1 at PIO2_0 and DSR, DCD, RI are not led to the pin (C106_routing_refuted) *)
Theorem C106_pin_mode_partial g p q : whole g -> In p pins -> number p (wanted q) <> None ->
  exists g', pinMode g (name p) (mode_of q) = Back g' /\ whole g' /\ serves g' p (wanted q) /\ pulled g' p (res q) /\ hysteresis g' p = hyst q /\ open_drain g' p = drain q /\
    (analog_mode g' p = true <-> admode p = true /\ wanted q = Analog) /\ output g' p = outward q /\ kept [DATA; IS; IBE; IEV; IE] g g' p /\
    (forall p', In p' pins -> p' <> p -> spared g g' p') /\
    (sensible q -> wanted q <> Dsr -> wanted q <> Dcd -> wanted q <> Ri -> ~ (wanted q = Ssel /\ name p = PIO2_0) -> routed g' (wanted q) p) /\
    (forall w, w <> word p -> (forall v, place (wanted q) p <> Some (w, v)) -> rd (IOCON g') w = rd (IOCON g) w).
Proof.
  intros W H N. destruct (number p (wanted q)) as [n|] eqn:E; [|congruence].
  destruct (pin_mode_effect g p q n W H E) as (g' & A1 & A2 & A3 & A4 & A5 & A6 & A7 & A8 & A9 & A10 & A11 & A12). exists g'.
  split; [exact A1|]. split; [exact A2|]. split; [exact A3|]. split; [exact A4|]. split; [exact A5|]. split; [exact A6|].
  split. { rewrite A7. rewrite andb_true_iff. split; intros [B1 B2]; (split; [exact B1|]); [destruct (wanted q); try discriminate; reflexivity|rewrite B2; reflexivity]. }
  split; [exact A8|]. split; [exact A9|]. split; [exact A10|]. split.
  - intros [S1 S2] D1 D2 D3 D4. apply A11. unfold astray. destruct (wanted q) eqn:Q; try reflexivity; try congruence.
    + rewrite S2 by reflexivity. reflexivity.
    + apply Nat.eqb_neq. intro Wp. apply D4. split; [reflexivity|].
      assert (C : forallb (fun p => implb (word p =? 2)%nat (name p =? PIO2_0)) pins = true) by (vm_compute; reflexivity).
      rewrite forallb_forall in C. specialize (C p H). rewrite Wp in C. cbn [Nat.eqb implb] in C. apply Z.eqb_eq, C.
    + rewrite S1 by reflexivity. reflexivity.
  - intros w D F. apply A12; auto.
Qed.
Print Assumptions C106_pin_mode_partial.
(** a pull-up input; the receive line of the serial port at PIO2_7; a PWM output *)
Example C106_pin_mode_example :
  (number p1_4 Gpio <> None /\ exists g', pinMode blank (name p1_4) (mode_of {| what := Inward; func := None; res := PullUp; hyst := true; drain := false |}) = Back g' /\ rd (IOCON g') 37 = 0xB0) /\
  (exists g', pinMode blank (name p2_7) (mode_of {| what := Inward; func := Some Rxd; res := NoPull; hyst := false; drain := false |}) = Back g' /\ rd (IOCON g') 8 = 2 /\ rd (IOCON g') 53 = 1) /\
  (exists g', pinMode blank (name p1_9) (mode_of {| what := OutMatch; func := None; res := NoPull; hyst := false; drain := true |}) = Back g' /\ rd (IOCON g') 14 = 0x401 /\ rd (DIR g') 1 = 512).
Proof.
  split; [split; [discriminate|eexists; split; vm_compute; reflexivity]|]. split; eexists; repeat split; vm_compute; reflexivity.
Qed.

(** a role the pin does not have: the call ends in fatalError *)
Theorem C106_pin_mode_fatal g p q : whole g -> In p pins -> (pinMode g (name p) (mode_of q) = Fatal <-> number p (wanted q) = None).
Proof.
  intros W H. pose proof (pin_mode g p q W H) as M. destruct (number p (wanted q)) as [n|]; [|tauto].
  destruct M as (v & M & _). rewrite M. split; discriminate.
Qed.
Print Assumptions C106_pin_mode_fatal.
Example C106_pin_mode_fatal_example : number p2_10 Rxd = None /\ pinMode blank PIO2_10 (INPUT + PF_RXD * 262144) = Fatal /\ number p0_11 Analog = Some 2.
Proof. repeat split; vm_compute; reflexivity. Qed.

(** the select line of the second SPI port at PIO2_0, and the modem lines of the serial port: the call returns, but the signal stays where it was *)
Theorem C106_routing_refuted g p q : whole g -> In (p, wanted q) [(p2_0, Ssel); (p2_1, Dsr); (p3_1, Dsr); (p2_2, Dcd); (p3_2, Dcd); (p2_3, Ri); (p3_3, Ri)] -> ~ routed g (wanted q) p ->
  exists g', pinMode g (name p) (mode_of q) = Back g' /\ serves g' p (wanted q) /\ ~ routed g' (wanted q) p.
Proof.
  intros W I N.
  assert (H : In p pins) by (repeat (destruct I as [E|I]; [inversion E; cbn; tauto|]); destruct I).
  assert (X : number p (wanted q) <> None) by (repeat (destruct I as [E|I]; [injection E; intros K1 K2; rewrite <- K1, <- K2; discriminate|]); destruct I).
  assert (Y : astray q p = true) by (unfold astray; repeat (destruct I as [E|I]; [injection E; intros K1 K2; rewrite <- K1, <- ?K2; reflexivity|]); destruct I).
  destruct (number p (wanted q)) as [n|] eqn:E; [|congruence].
  destruct (pin_mode_effect g p q n W H E) as (g' & A1 & _ & A3 & _ & _ & _ & _ & _ & _ & _ & _ & A12). exists g'. split; [exact A1|]. split; [exact A3|].
  unfold routed in *. destruct (place (wanted q) p) as [[w v]|] eqn:Q; [|tauto].
  rewrite A12; [exact N| |left; exact Y].
  destruct (placed_ok p H) as (_ & _ & _ & _ & _ & P6 & P7 & _). pose proof (proj1 (place_far _ _ _ _ H Q)). lia.
Qed.
Print Assumptions C106_routing_refuted.
(** SSEL1 was at PIO2_4; after pinMode(PIO2_0, OUTPUT | SPI_SSEL) it still is. The location is written for PIO2_2, which has no such function *)
Example C106_routing_example :
  let q := {| what := Outward; func := Some Ssel; res := NoPull; hyst := false; drain := false |} in
  sensible q /\ ~ routed blank Ssel p2_0 /\ In (p2_0, wanted q) [(p2_0, Ssel); (p2_1, Dsr)] /\ pinMode blank PIO2_2 (mode_of q) = Fatal.
Proof. split; [split; discriminate|]. split; [discriminate|]. split; [left; reflexivity|vm_compute; reflexivity]. Qed.

(** ** levels *)
(** a pin configured as output takes the level written to it and keeps it whatever the outside does; reading it gives that level; no other pin's level changes *)
Theorem C106_write_read g p q v e levels g1 : whole g -> In p pins -> number p (wanted q) <> None -> outward q = true -> drain q = false -> pinMode g (name p) (mode_of q) = Back g1 ->
  let g2 := digitalWrite g1 (name p) v in
  shown g2 e levels -> level g2 e p = v /\ digitalRead levels (name p) = v /\ (forall p', In p' pins -> p' <> p -> level g2 e p' = level g e p' /\ digitalRead levels (name p') = level g e p').
Proof.
  intros W H N O D M g2 S. destruct (number p (wanted q)) as [n|] eqn:E; [|congruence].
  destruct (pin_mode_effect g p q n W H E) as (g' & A1 & A2 & A3 & A4 & A5 & A6 & A7 & A8 & A9 & A10 & _). assert (g' = g1) by congruence. subst g'.
  destruct (write_effect g1 p v A2 H) as (B1 & B2 & B3 & B4 & B5). fold g2 in B1, B2, B3, B4, B5.
  assert (L : level g2 e p = v).
  { unfold level, output, open_drain. rewrite B4, B2. rewrite (B5 DIR) by (cbn; tauto). unfold output, open_drain in A8, A6. rewrite A8, A6, O, D. destruct v; reflexivity. }
  split; [exact L|]. split; [rewrite (read_effect g2 e) by auto; exact L|].
  intros p' H' K. rewrite (read_effect g2 e) by auto. assert (L' : level g2 e p' = level g e p').
  { apply spared_level. apply spared_trans with g1; auto. }
  split; exact L'.
Qed.
Print Assumptions C106_write_read.
(** open drain: low is driven, high is left to the outside *)
Theorem C106_open_drain g p v e g1 q : whole g -> In p pins -> number p (wanted q) <> None -> outward q = true -> drain q = true -> pinMode g (name p) (mode_of q) = Back g1 ->
  level (digitalWrite g1 (name p) v) e p = v && e (port p) (num p).
Proof.
  intros W H N O D M. destruct (number p (wanted q)) as [n|] eqn:E; [|congruence].
  destruct (pin_mode_effect g p q n W H E) as (g' & A1 & A2 & A3 & A4 & A5 & A6 & A7 & A8 & A9 & A10 & _). assert (g' = g1) by congruence. subst g'.
  destruct (write_effect g1 p v A2 H) as (B1 & B2 & B3 & B4 & B5).
  unfold level, output, open_drain. rewrite B4, B2. rewrite (B5 DIR) by (cbn; tauto). unfold output, open_drain in A8, A6. rewrite A8, A6, O, D. destruct v; reflexivity.
Qed.
Print Assumptions C106_open_drain.
(** an input shows what the outside does, whatever was written before *)
Theorem C106_read_input g p q e levels g1 : whole g -> In p pins -> number p (wanted q) <> None -> outward q = false -> pinMode g (name p) (mode_of q) = Back g1 -> shown g1 e levels ->
  digitalRead levels (name p) = e (port p) (num p).
Proof.
  intros W H N O M S. destruct (number p (wanted q)) as [n|] eqn:E; [|congruence].
  destruct (pin_mode_effect g p q n W H E) as (g' & A1 & A2 & A3 & A4 & A5 & A6 & A7 & A8 & _). assert (g' = g1) by congruence. subst g'.
  rewrite (read_effect g1 e) by auto. unfold level. rewrite A8, O. reflexivity.
Qed.
Print Assumptions C106_read_input.
Example C106_levels_example :
  let q := {| what := Outward; func := None; res := NoPull; hyst := false; drain := false |} in
  exists g1, pinMode blank PIO1_9 (mode_of q) = Back g1 /\ outward q = true /\ shown (digitalWrite g1 PIO1_9 true) (fun _ _ => false) [0; 512; 0; 0] /\ digitalRead [0; 512; 0; 0] PIO1_9 = true /\ digitalRead [0; 512; 0; 0] PIO1_8 = false.
Proof.
  intro q. eexists. split; [vm_compute; reflexivity|]. split; [reflexivity|]. split; [|split; vm_compute; reflexivity].
  intros p I. repeat (destruct I as [<-|I]; [vm_compute; reflexivity|]). destruct I.
Qed.

(** ** direction and interrupts *)
Theorem C106_direction g p (out : bool) : whole g -> In p pins ->
  let g' := pinDirection g (name p) (if out then OUTPUT else INPUT) in
  whole g' /\ output g' p = out /\ IOCON g' = IOCON g /\ kept [DATA; IS; IBE; IEV; IE] g g' p /\ (forall p', In p' pins -> p' <> p -> spared g g' p').
Proof.
  intros W H g'. destruct (direction_effect g p (if out then OUTPUT else INPUT) W H) as (A & B & C & D & E). split; [exact A|]. split; [unfold g'; rewrite B; destruct out; reflexivity|]. auto.
Qed.
Print Assumptions C106_direction.
Example C106_direction_example : rd (DIR (pinDirection blank PIO2_3 OUTPUT)) 2 = 8 /\ rd (DIR (pinDirection (pinDirection blank PIO2_3 OUTPUT) PIO2_3 INPUT)) 2 = 0.
Proof. split; vm_compute; reflexivity. Qed.

(** the interrupt reacts to what was asked for and is enabled if and only if asked for; the pin becomes a plain input: resistor, hysteresis and open drain are switched off (a pull-up set before is lost) *)
Theorem C106_interrupt g p t (on : bool) : whole g -> In p pins ->
  exists g', pinInterruptMode g (name p) (trigger_code t + if on then 0x1000 else 0) = Back g' /\ whole g' /\ senses g' p = t /\ armed g' p = on /\
    output g' p = false /\ serves g' p Gpio /\ pulled g' p NoPull /\ hysteresis g' p = false /\ open_drain g' p = false /\ analog_mode g' p = false /\ kept [DATA] g g' p /\
    (forall p', In p' pins -> p' <> p -> spared g g' p').
Proof.
  intros W H. destruct (placed_ok p H) as (P1 & P2 & P3 & P4 & P5 & P6 & P7 & _ & _ & P10).
  set (q := {| what := Inward; func := None; res := NoPull; hyst := false; drain := false |}).
  destruct (number p Gpio) as [n|] eqn:E; [|congruence].
  destruct (pin_mode_effect g p q n W H E) as (g1 & A1 & A2 & A3 & A4 & A5 & A6 & A7 & A8 & A9 & A10 & _).
  set (mode := trigger_code t + if on then 0x1000 else 0).
  set (s := negb (Z.land mode 0x0100 =? 0)). set (b := negb (Z.land mode 0x0010 =? 0)). set (v := negb (Z.land mode 0x0001 =? 0)). set (o := negb (Z.land mode 0x1000 =? 0)).
  assert (O : o = on) by (subst o mode; destruct t, on; reflexivity).
  assert (T : (if s then if v then HighLevel else LowLevel else if b then BothEdges else if v then Rising else Falling) = t) by (subst s b v mode; destruct t, on; reflexivity).
  set (k := 2 ^ Z.of_nat (num p)) in *.
  set (g2 := setIS g1 (port p) (flagged s (rd (IS g1) (port p)) k)).
  set (g3 := setIBE g2 (port p) (flagged b (rd (IBE g2) (port p)) k)).
  set (g4 := setIEV g3 (port p) (flagged v (rd (IEV g3) (port p)) k)).
  set (g5 := setIE g4 (port p) (flagged o (rd (IE g4) (port p)) k)).
  exists g5. split. { unfold pinInterruptMode. change (pinMode g (name p) INPUT) with (pinMode g (name p) (mode_of q)). rewrite A1. cbv zeta. rewrite P1, P2. reflexivity. }
  assert (Len : forall l, List.In l [DIR; DATA; IS; IBE; IEV; IE] -> length (l g1) = 4%nat) by (intros l L; exact (proj1 (proj2 (proj2 A2) l L))).
  split; [apply whole_IE, whole_IEV, whole_IBE, whole_IS, A2|].
  split. { unfold senses, bit_of, g5, g4, g3, g2, k. cbn [IS IBE IEV IE setIS setIBE setIEV setIE]. rewrite !bit_here by (auto; apply Len; cbn; tauto). exact T. }
  split. { unfold armed, bit_of, g5, g4, g3, g2, k. cbn [IS IBE IEV IE setIS setIBE setIEV setIE]. rewrite !bit_here by (auto; apply Len; cbn; tauto). exact O. }
  split; [exact A8|]. split; [exact A3|]. split; [exact A4|]. split; [exact A5|]. split; [exact A6|]. split; [change (analog_mode g5 p) with (analog_mode g1 p); rewrite A7; apply andb_false_r|].
  split. { intros f [<-|[]]. exact (A9 DATA ltac:(cbn; tauto)). }
  intros p' H' N. apply spared_trans with g1; [auto|]. destruct (placed_ok p' H') as (_ & _ & _ & _ & P5' & _). pose proof (proj2 (apart_ok _ _ H H' N)) as Ap.
  split; [reflexivity|]. unfold g5, g4, g3, g2, k. apply port_regs; cbn [IS IBE IEV IE DIR DATA setIS setIBE setIEV setIE]; try reflexivity; apply bit_there; auto; apply Len; cbn; tauto.
Qed.
Print Assumptions C106_interrupt.
Theorem C106_interrupt_switch g p : whole g -> In p pins ->
  (armed (pinEnableInterrupt g (name p)) p = true /\ armed (pinDisableInterrupt g (name p)) p = false) /\
  forall g', g' = pinEnableInterrupt g (name p) \/ g' = pinDisableInterrupt g (name p) ->
    whole g' /\ IOCON g' = IOCON g /\ kept [DIR; DATA; IS; IBE; IEV] g g' p /\ forall p', In p' pins -> p' <> p -> spared g g' p'.
Proof.
  intros W H. destruct (placed_ok p H) as (P1 & P2 & P3 & P4 & P5 & _).
  assert (L : length (IE g) = 4%nat) by exact (proj1 (proj2 (proj2 W) IE ltac:(cbn; tauto))).
  assert (E1 : pinEnableInterrupt g (name p) = setIE g (port p) (flagged true (rd (IE g) (port p)) (2 ^ Z.of_nat (num p)))) by (unfold pinEnableInterrupt, flagged; rewrite P1, P2; reflexivity).
  assert (E2 : pinDisableInterrupt g (name p) = setIE g (port p) (flagged false (rd (IE g) (port p)) (2 ^ Z.of_nat (num p)))) by (unfold pinDisableInterrupt, flagged; rewrite P1, P2; reflexivity).
  rewrite E1, E2. split; [split; unfold armed, bit_of; cbn [setIE IE]; apply bit_here; auto|].
  assert (K : forall on, let g' := setIE g (port p) (flagged on (rd (IE g) (port p)) (2 ^ Z.of_nat (num p))) in whole g' /\ IOCON g' = IOCON g /\ kept [DIR; DATA; IS; IBE; IEV] g g' p /\ forall p', In p' pins -> p' <> p -> spared g g' p').
  { intros on g'. split; [apply whole_IE, W|]. split; [reflexivity|]. split; [intros f F; cbn in F; destruct F as [<-|[<-|[<-|[<-|[<-|[]]]]]]; reflexivity|].
    intros p' H' N. destruct (placed_ok p' H') as (_ & _ & _ & _ & P5' & _). split; [reflexivity|]. apply port_regs; try reflexivity. cbn [setIE IE g']. unfold g'. cbn [setIE IE]. apply bit_there; auto. exact (proj2 (apart_ok _ _ H H' N)). }
  intros g' [->| ->]; apply K.
Qed.
Print Assumptions C106_interrupt_switch.
Example C106_interrupt_example : exists g', pinInterruptMode blank PIO2_5 (trigger_code Rising + 0x1000) = Back g' /\ senses g' p2_5 = Rising /\ armed g' p2_5 = true /\ armed (pinDisableInterrupt g' PIO2_5) p2_5 = false.
Proof. eexists. split; [vm_compute; reflexivity|]. repeat split; vm_compute; reflexivity. Qed.

(** ** whole ports *)
(** every pin of the mask gets resistor, hysteresis, open drain and direction; the others are left alone; pins that serve as digital pins by function number 0 and have no A/D bit become digital pins.
    Missing: the other pins (C106_port_mode_refuted) *)
Theorem C106_port_mode_partial g po mask q : whole g -> (po < 4)%nat -> names_pins po mask -> func q = None -> what q = Inward \/ what q = Outward ->
  exists g', portMode g po mask (mode_of q) = Back g' /\ whole g' /\
    (forall p, In p pins -> port p = po -> Z.testbit mask (Z.of_nat (num p)) = true ->
       pulled g' p (res q) /\ hysteresis g' p = hyst q /\ open_drain g' p = drain q /\ output g' p = outward q /\ kept [DATA; IS; IBE; IEV; IE] g g' p /\
       (serves g' p Gpio <-> number p Gpio = Some 0) /\ analog_mode g' p = admode p) /\
    (forall p, In p pins -> port p <> po \/ Z.testbit mask (Z.of_nat (num p)) = false -> spared g g' p).
Proof.
  intros W P M F K. destruct (port_mode_effect g po mask (mode_of q) W P M) as (g' & A1 & A2 & A3 & A4). exists g'. split; [exact A1|]. split; [exact A2|]. split; [|exact A4].
  intros p H Q T. destruct (A3 p H Q T) as (B1 & B2 & B3). unfold pulled, hysteresis, open_drain, serves, analog_mode. rewrite B1, B2.
  destruct q as [k f r h d]. cbn [what func res hyst drain] in *. subst f.
  destruct K as [-> | ->]; destruct r, h, d; (repeat split; try reflexivity; try exact B3; try (intro X; exact X)); cbn; apply andb_true_r.
Qed.
Print Assumptions C106_port_mode_partial.
Example C106_port_mode_example : names_pins 2 0x22 /\ exists g', portMode blank 2 0x22 (OUTPUT + 0x400) = Back g' /\ rd (DIR g') 2 = 0x22 /\ rd (IOCON g') (word p2_5) = 0x400 /\ rd (IOCON g') (word p2_1) = 0x400.
Proof.
  split; [|eexists; repeat split; vm_compute; reflexivity]. split; [lia|]. intros m M T.
  destruct (Z_lt_le_dec m 8) as [L|L]; [|rewrite (bits_above_lt 0x22 8) in T by lia; discriminate].
  assert (m = 1 \/ m = 5) as [-> | ->].
  { assert (m = 0 \/ m = 1 \/ m = 2 \/ m = 3 \/ m = 4 \/ m = 5 \/ m = 6 \/ m = 7) as D by lia. intuition (subst; vm_compute in T; discriminate). }
  - exists p2_1. repeat split. cbn. tauto.
  - exists p2_5. repeat split. cbn. tauto.
Qed.
(** portMode leaves these pins in analog mode or out of GPIO: as digital inputs they do not work; pinMode handles them *)
Theorem C106_port_mode_refuted g p q : whole g -> In p [p0_0; p0_10; p0_11; p1_0; p1_1; p1_2; p1_3; p1_4; p1_10; p1_11] -> func q = None -> what q = Inward \/ what q = Outward ->
  (exists g', portMode g (port p) (2 ^ Z.of_nat (num p)) (mode_of q) = Back g' /\ (~ serves g' p Gpio \/ analog_mode g' p = true)) /\
  (exists g', pinMode g (name p) (mode_of q) = Back g' /\ serves g' p Gpio /\ analog_mode g' p = false).
Proof.
  intros W I F K. assert (H : In p pins) by (cbn in *; tauto). destruct (placed_ok p H) as (_ & _ & _ & P4 & P5 & _ & _ & _ & _ & P10).
  assert (M : names_pins (port p) (2 ^ Z.of_nat (num p))).
  { split; [lia|]. intros m M T. rewrite Z.pow2_bits_eqb in T by lia. apply Z.eqb_eq in T. exists p. repeat split; auto. }
  assert (Wq : wanted q = Gpio) by (unfold wanted; rewrite F; destruct K as [-> | ->]; reflexivity).
  split.
  - destruct (C106_port_mode_partial g (port p) _ q W P4 M F K) as (g' & A1 & A2 & A3 & A4). exists g'. split; [exact A1|].
    destruct (A3 p H eq_refl) as (_ & _ & _ & _ & _ & B6 & B7); [apply Z.pow2_bits_true; lia|].
    destruct (admode p) eqn:Q; [right; exact B7|left]. rewrite B6. repeat (destruct I as [<-|I]; [try discriminate; cbn; discriminate|]). destruct I.
  - rewrite <- Wq in P10. destruct (C106_pin_mode_partial g p q W H P10) as (g' & A1 & _ & A3 & _ & _ & _ & A7 & _). exists g'. split; [exact A1|]. split; [rewrite <- Wq; exact A3|].
    destruct (analog_mode g' p); [|reflexivity]. destruct (proj1 A7 eq_refl) as [_ X]. rewrite Wq in X. discriminate.
Qed.
Print Assumptions C106_port_mode_refuted.
(** a bit of a pin that does not exist on port 3: the configuration of PIO2_6 is overwritten; beyond bit 11: read outside the table *)
Theorem C106_port_mask_refuted g mode : whole g ->
  (exists g', portMode g 3 0x40 mode = Back g' /\ rd (IOCON g') (word p2_6) = Z.land mode 0xfff) /\ (forall po, (po < 4)%nat -> portMode g po 0x1000 mode = Undefined).
Proof.
  intro W. split.
  - unfold portMode. cbv zeta. set (i := Z.land mode 4095).
    set (r := if (Z.land mode 61440 =? OUTPUT) || (Z.land mode 61440 =? OUTPUT_MATCH) then _ else _).
    assert (L : length (IOCON r) = 54%nat) by (unfold r; destruct ((Z.land mode 61440 =? OUTPUT) || (Z.land mode 61440 =? OUTPUT_MATCH)); exact (proj1 W)).
    assert (I : is_u32 i). { unfold i. change 4095 with (Z.ones 12). rewrite Z.land_ones by lia. pose proof (Z.mod_pos_bound mode (2 ^ 12) ltac:(lia)). unfold is_u32. lia. }
    clearbody r i. exists (setIOCON r 0 i). split; [reflexivity|]. cbn [setIOCON IOCON word p2_6]. rewrite rd_same by lia. apply u32_small, I.
  - intros po P. unfold portMode. cbv zeta. generalize (Z.land mode 4095) as i. intro i.
    set (r := if (Z.land mode 61440 =? OUTPUT) || (Z.land mode 61440 =? OUTPUT_MATCH) then _ else _). clearbody r.
    destruct po as [|[|[|[|]]]]; try lia; reflexivity.
Qed.
Print Assumptions C106_port_mask_refuted.
Example C106_port_mask_example : exists g', portMode blank 3 0x7F (OUTPUT + 0x400) = Back g' /\ rd (IOCON g') (word p2_6) = 0x400.
Proof. eexists. split; vm_compute; reflexivity. Qed.
