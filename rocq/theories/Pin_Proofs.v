(** Proofs about the pins: the effect of each call as a plan that does not depend on the registers, checked over all pins and requests. *)
From Verif Require Import Base Pin_Model Pin_Spec.

(** ** one register *)
Lemma u32_bits v m : 0 <= m < 32 -> Z.testbit (u32 v) m = Z.testbit v m.
Proof. intro H. unfold u32. change 4294967296 with (2 ^ 32). apply Z.mod_pow2_bits_low. lia. Qed.
Lemma u32_small v : is_u32 v -> u32 v = v.
Proof. intro H. unfold u32. apply Z.mod_small. exact H. Qed.
Lemma u32_range v : is_u32 (u32 v).
Proof. unfold u32, is_u32. apply Z.mod_pos_bound. lia. Qed.
Lemma wr_u32 l i v : Forall is_u32 l -> Forall is_u32 (wr l i (u32 v)).
Proof.
  intro H. revert i. induction H as [|x l Hx Hl IH]; intros [|i]; cbn [wr]; constructor; auto. apply u32_range.
Qed.
Lemma rd_same l i v : (i < length l)%nat -> rd (wr l i (u32 v)) i = u32 v.
Proof. intro H. apply rd_wr_same, H. Qed.
Lemma rd_other l i j v : i <> j -> rd (wr l i (u32 v)) j = rd l j.
Proof. intro H. unfold rd. apply nth_wr_other. exact H. Qed.

(** ** bits of a port register *)
Lemma flagged_bits on d n m : 0 <= n < 32 -> 0 <= m < 32 -> Z.testbit (u32 (flagged on d (2 ^ n))) m = if n =? m then on else Z.testbit d m.
Proof.
  intros Hn Hm. rewrite u32_bits by exact Hm. unfold flagged. destruct on.
  - rewrite Z.lor_spec, Z.pow2_bits_eqb by lia. destruct (n =? m); [apply orb_true_r|apply orb_false_r].
  - rewrite Z.land_spec, Z.lnot_spec, Z.pow2_bits_eqb by lia. destruct (n =? m); cbn [negb]; [apply andb_false_r|apply andb_true_r].
Qed.
Lemma masked_bits v d n m : 0 <= n < 32 -> 0 <= m < 32 ->
  Z.testbit (u32 (Z.lor (Z.land d (Z.lnot (2 ^ n))) (Z.land (if v : bool then 2 ^ n else 0) (2 ^ n)))) m = if n =? m then v else Z.testbit d m.
Proof.
  intros Hn Hm. rewrite u32_bits by exact Hm. rewrite Z.lor_spec, !Z.land_spec, Z.lnot_spec, Z.pow2_bits_eqb by lia.
  destruct v.
  - rewrite Z.pow2_bits_eqb by lia. destruct (n =? m), (Z.testbit d m); reflexivity.
  - rewrite Z.bits_0. destruct (n =? m), (Z.testbit d m); reflexivity.
Qed.

(** ** pinMode without the registers *)
Definition planDir (pin type func : Z) : option (bool * list (nat * Z) * Z) :=
  if (type =? OUTPUT) || (type =? OUTPUT_MATCH) then Some (true, [], if type =? OUTPUT_MATCH then PF_MAT else func)
  else if type =? INPUT_CAPTURE then
    Some (false, if pin =? PIO0_2 then [(CT16B0_CAP0_LOC, 0)] else if pin =? PIO3_3 then [(CT16B0_CAP0_LOC, 1)]
                 else if pin =? PIO1_5 then [(CT32B0_CAP0_LOC, 0)] else if pin =? PIO2_9 then [(CT32B0_CAP0_LOC, 1)] else [], PF_CAP)
  else if type =? INPUT_ANALOG then Some (false, [], PF_AD)
  else if func =? PF_RXD then match pinLocation pin rxPinLocation 0 with Some l => Some (false, [(RXD_LOC, l)], func) | None => None end
  else Some (false, [], func).
Definition planSpi (pin func : Z) : list (nat * Z) :=
  if func =? PF_MISO then if pin =? PIO2_2 then [(MISO1_LOC, 0)] else if pin =? PIO1_10 then [(MISO1_LOC, 1)] else []
  else if func =? PF_MOSI then if pin =? PIO2_3 then [(MOSI1_LOC, 0)] else if pin =? PIO1_9 then [(MOSI1_LOC, 1)] else []
  else if func =? PF_SCK then
    if pin =? PIO0_10 then [(SCK_LOC, 0)] else if pin =? PIO2_11 then [(SCK_LOC, 1)] else if pin =? PIO0_6 then [(SCK_LOC, 2)]
    else if pin =? PIO2_1 then [(SCK1_LOC, 0)] else if pin =? PIO3_2 then [(SCK1_LOC, 1)] else []
  else if func =? PF_SSEL then if pin =? PIO2_2 then [(SSEL1_LOC, 0)] else if pin =? PIO2_4 then [(SSEL1_LOC, 1)] else []
  else [].
Definition stores (l : list (nat * Z)) (r : regs) : regs := fold_left (fun r x => setIOCON r (fst x) (snd x)) l r.
Definition turn (r : regs) (port : nat) (mask : Z) (out : bool) : regs := setDIR r port (flagged out (rd (DIR r) port) mask).
Inductive plan := PFatal | PUndefined | PBack (out : bool) (locs : list (nat * Z)) (w : nat) (v : Z).
Definition planMode (pin mode : Z) : plan :=
  let type := Z.land mode 0xf000 in
  let func := Z.land (Z.shiftr mode 18) 31 in
  match planDir pin type (if func =? 0 then PF_PIO else func) with
  | None => PFatal
  | Some (out, l, func) =>
      let iocon := Z.land mode 0xfff in
      let iocon := if negb (Z.land pin PFL_ADMODE =? 0) && negb (func =? PF_AD) then Z.lor iocon 0x80 else iocon in
      let funcNum := getPinFunctionNumber pin func in
      if 0 <=? funcNum then match ioconPointer pin with Some w => PBack out (l ++ planSpi pin func) w (Z.lor iocon funcNum) | None => PUndefined end
      else PFatal
  end.
Lemma planDir_ok r pin type func :
  pinModeDir r pin type func = match planDir pin type func with None => None | Some (out, l, f) => Some (stores l (turn r (digitalPinToPort pin) (u16 (digitalPinToBitMask pin)) out), f) end.
Proof.
  unfold pinModeDir, planDir.
  repeat match goal with |- context [if ?c then _ else _] => destruct c; try reflexivity end.
  destruct (pinLocation pin rxPinLocation 0); reflexivity.
Qed.
Lemma planSpi_ok r pin func : pinModeSpi r pin func = stores (planSpi pin func) r.
Proof. unfold pinModeSpi, planSpi. repeat match goal with |- context [if ?c then _ else _] => destruct c; try reflexivity end. Qed.
Lemma planMode_ok r pin mode :
  pinMode r pin mode = match planMode pin mode with PFatal => Fatal | PUndefined => Undefined
    | PBack out l w v => Back (stores (l ++ [(w, v)]) (turn r (digitalPinToPort pin) (u16 (digitalPinToBitMask pin)) out)) end.
Proof.
  unfold pinMode, planMode. cbv beta zeta. rewrite planDir_ok.
  destruct (planDir _ _ _) as [[[out l] f]|]; [|reflexivity].
  rewrite planSpi_ok.
  destruct (0 <=? getPinFunctionNumber pin f); [|reflexivity].
  destruct (ioconPointer pin); [|reflexivity].
  unfold stores. rewrite <- app_assoc, !fold_left_app. reflexivity.
Qed.

(** ** all pins and requests *)
Definition all_roles : list role := [Gpio; Analog; Reset; SwdIo; SwdClk; Match; Capture; ClkOut; Sda; Scl; Ssel; Miso; Mosi; Sck; Rxd; Txd; Rts; Dtr; Dsr; Cts; Dcd; Ri].
Definition all_requests : list request :=
  flat_map (fun k => flat_map (fun f => flat_map (fun r => flat_map (fun h => map (fun d => {| what := k; func := f; res := r; hyst := h; drain := d |}) [true; false]) [true; false])
    [NoPull; PullDown; PullUp; Repeater]) (None :: map Some all_roles)) [Inward; InCapture; InAnalog; Outward; OutMatch].
Lemma all_requests_ok q : In q all_requests.
Proof.
  destruct q as [k f r h d]. unfold all_requests.
  apply in_flat_map. exists k. split; [destruct k; cbn; tauto|].
  apply in_flat_map. exists f. split; [destruct f as [[]|]; cbn; tauto|].
  apply in_flat_map. exists r. split; [destruct r; cbn; tauto|].
  apply in_flat_map. exists h. split; [destruct h; cbn; tauto|].
  apply in_map_iff. exists d. split; [reflexivity|destruct d; cbn; tauto].
Qed.
(** the requests whose signal is not led to the pin *)
Definition astray (q : request) (p : pin) : bool :=
  match wanted q with
  | Dsr | Dcd | Ri => true
  | Ssel => (word p =? 2)%nat
  | Rxd => match what q with Inward => false | _ => true end
  | Capture => match what q with InCapture => false | _ => true end
  | _ => false
  end.
Definition locs_of (q : request) (p : pin) : list (nat * Z) := if astray q p then [] else match place (wanted q) p with Some x => [x] | None => [] end.
Fixpoint same_locs (a b : list (nat * Z)) : bool :=
  match a, b with [], [] => true | (x, v) :: a', (y, w) :: b' => (x =? y)%nat && (v =? w) && same_locs a' b' | _, _ => false end.
Lemma same_locs_ok a b : same_locs a b = true -> a = b.
Proof.
  revert b. induction a as [|[x v] a IH]; intros [|[y w] b]; cbn; intro H; try discriminate; [reflexivity|].
  apply andb_prop in H as [H1 H2]. apply andb_prop in H1 as [H0 H1]. apply Nat.eqb_eq in H0. apply Z.eqb_eq in H1. subst. f_equal. auto.
Qed.
Definition checked (p : pin) (q : request) : bool :=
  match planMode (name p) (mode_of q), number p (wanted q) with
  | PFatal, None => true
  | PBack out l w v, Some n =>
      Bool.eqb out (outward q) && same_locs l (locs_of q p) && (w =? word p)%nat && (0 <=? v) && (v <? 4294967296) && (Z.land v 7 =? n)
      && (Z.land (Z.shiftr v 3) 3 =? pull_code (res q)) && Bool.eqb (Z.testbit v 5) (hyst q) && Bool.eqb (Z.testbit v 10) (drain q)
      && implb (admode p) (Bool.eqb (Z.testbit v 7) (negb (role_eqb (wanted q) Analog)))
  | _, _ => false
  end.
Lemma checked_all : forallb (fun p => forallb (checked p) all_requests) pins = true.
Proof. vm_cast_no_check (eq_refl true). Qed.
Lemma checked_ok p q : In p pins -> checked p q = true.
Proof.
  intro H. pose proof checked_all as C. rewrite forallb_forall in C. specialize (C p H). rewrite forallb_forall in C. apply C, all_requests_ok.
Qed.
(** the places of the pins *)
Definition placed (p : pin) : bool :=
  (digitalPinToPort (name p) =? port p)%nat && (u16 (digitalPinToBitMask (name p)) =? 2 ^ Z.of_nat (num p)) && (digitalPinToBitMask (name p) =? 2 ^ Z.of_nat (num p)) && (port p <? 4)%nat && (num p <? 12)%nat && (word p <? 44)%nat
  && negb (word p =? 6)%nat && match ioconPointer (name p) with Some w => (w =? word p)%nat | None => false end
  && match ioconOf (port p) (Z.of_nat (num p)) with Some w => (w =? word p)%nat | None => false end && match number p Gpio with Some _ => true | None => false end.
Lemma placed_all : forallb placed pins = true.
Proof. vm_cast_no_check (eq_refl true). Qed.
Lemma placed_ok p : In p pins ->
  digitalPinToPort (name p) = port p /\ u16 (digitalPinToBitMask (name p)) = 2 ^ Z.of_nat (num p) /\ digitalPinToBitMask (name p) = 2 ^ Z.of_nat (num p) /\
  (port p < 4)%nat /\ (num p < 12)%nat /\ (word p < 44)%nat /\ word p <> 6%nat /\ ioconPointer (name p) = Some (word p) /\ ioconOf (port p) (Z.of_nat (num p)) = Some (word p) /\ number p Gpio <> None.
Proof.
  intro H. pose proof placed_all as C. rewrite forallb_forall in C. specialize (C p H). unfold placed in C.
  repeat match type of C with _ && _ = true => let D := fresh "D" in apply andb_prop in C as [C D] end.
  destruct (ioconPointer (name p)) as [w|] eqn:E1; [|discriminate]. destruct (ioconOf (port p) (Z.of_nat (num p))) as [w'|] eqn:E2; [|discriminate].
  destruct (number p Gpio) eqn:E3; [|discriminate].
  apply Nat.eqb_eq in C. rewrite Z.eqb_eq in D7, D6. apply Nat.ltb_lt in D5, D4, D3. apply negb_true_iff in D2. apply Nat.eqb_neq in D2. apply Nat.eqb_eq in D1, D0. subst w w'.
  repeat split; auto. discriminate.
Qed.
Definition apart (p p' : pin) : bool := ((port p =? port p')%nat && (num p =? num p')%nat) || (negb (word p =? word p')%nat).
Definition same_place (p p' : pin) : bool := implb ((port p =? port p')%nat && (num p =? num p')%nat || (word p =? word p')%nat) (name p =? name p').
Lemma apart_all : forallb (fun p => forallb (fun p' => apart p p' && same_place p p') pins) pins = true.
Proof. vm_cast_no_check (eq_refl true). Qed.
Lemma names_inj : NoDup (map name pins).
Proof. repeat constructor; try (cbv; intuition discriminate). Qed.
Lemma name_inj p p' : In p pins -> In p' pins -> name p = name p' -> p = p'.
Proof.
  intros H H' E. pose proof names_inj as N. revert N H H' E. generalize pins. intro l. induction l as [|x l IH]; cbn; [tauto|].
  intros N H H' E. inversion N as [|? ? N1 N2]; subst. destruct H as [->|H], H' as [->|H']; auto.
  - exfalso. apply N1. rewrite E. apply in_map, H'.
  - exfalso. apply N1. rewrite <- E. apply in_map, H.
Qed.
Lemma apart_ok p p' : In p pins -> In p' pins -> p' <> p -> word p' <> word p /\ (port p' = port p -> num p' <> num p).
Proof.
  intros H H' N. pose proof apart_all as C. rewrite forallb_forall in C. specialize (C p H). rewrite forallb_forall in C. specialize (C p' H').
  apply andb_prop in C as [_ C]. unfold same_place in C.
  assert (Q : name p =? name p' = false) by (apply Z.eqb_neq; intro E; apply N; symmetry; apply name_inj; auto).
  rewrite Q in C. destruct (_ || _) eqn:E in C; [discriminate|]. apply orb_false_iff in E as [E1 E2]. apply Nat.eqb_neq in E2. split; [congruence|].
  intros P Q'. rewrite P, Q', !Nat.eqb_refl in E1. discriminate.
Qed.
Definition in_reach (l : list (nat * Z)) : bool := forallb (fun x => ((fst x =? 6)%nat || (44 <=? fst x)%nat && (fst x <? 54)%nat) && (0 <=? snd x) && (snd x <? 4)) l.
Lemma reach_all : forallb (fun p => forallb (fun r => in_reach (match place r p with Some x => [x] | None => [] end)) all_roles) pins = true.
Proof. vm_cast_no_check (eq_refl true). Qed.
Lemma place_far r p w v : In p pins -> place r p = Some (w, v) -> (w = 6 \/ 44 <= w < 54)%nat /\ 0 <= v < 4.
Proof.
  intros H E. pose proof reach_all as C. rewrite forallb_forall in C. specialize (C p H). rewrite forallb_forall in C.
  specialize (C r ltac:(destruct r; cbn; tauto)). rewrite E in C. cbn [in_reach forallb fst snd] in C. lia.
Qed.

(** ** the effect of a plan *)
Lemma stores_other l g w : (forall x, In x l -> fst x <> w) -> rd (IOCON (stores l g)) w = rd (IOCON g) w.
Proof.
  revert g. induction l as [|[x v] l IH]; intros g H; [reflexivity|]. cbn [stores fold_left]. unfold stores in IH. rewrite IH by (intros; apply H; right; assumption).
  cbn [setIOCON IOCON fst snd]. apply rd_other. exact (H (x, v) (or_introl eq_refl)).
Qed.
Lemma stores_rest l g : DATA (stores l g) = DATA g /\ DIR (stores l g) = DIR g /\ IS (stores l g) = IS g /\ IBE (stores l g) = IBE g /\ IEV (stores l g) = IEV g /\ IE (stores l g) = IE g.
Proof. revert g. induction l as [|x l IH]; intro g; [repeat split|]. cbn [stores fold_left]. unfold stores in IH. specialize (IH (setIOCON g (fst x) (snd x))). exact IH. Qed.
Lemma stores_app a b g : stores (a ++ b) g = stores b (stores a g).
Proof. unfold stores. apply fold_left_app. Qed.
Lemma stores_length l g : length (IOCON (stores l g)) = length (IOCON g).
Proof. revert g. induction l as [|x l IH]; intro g; [reflexivity|]. cbn [stores fold_left]. unfold stores in IH. rewrite IH. cbn [setIOCON IOCON]. apply wr_length. Qed.
Lemma stores_u32 l g : Forall is_u32 (IOCON g) -> Forall is_u32 (IOCON (stores l g)).
Proof. revert g. induction l as [|x l IH]; intros g H; [exact H|]. cbn [stores fold_left]. unfold stores in IH. apply IH. cbn [setIOCON IOCON]. apply wr_u32, H. Qed.
Lemma port_regs (P : (regs -> list Z) -> Prop) : P DIR -> P DATA -> P IS -> P IBE -> P IEV -> P IE -> forall l, List.In l [DIR; DATA; IS; IBE; IEV; IE] -> P l.
Proof. intros. cbn in *. intuition (subst; auto). Qed.
Lemma whole_stores l g : whole g -> whole (stores l g).
Proof.
  intros (W1 & W2 & W3). destruct (stores_rest l g) as (E1 & E2 & E3 & E4 & E5 & E6). split; [rewrite stores_length; exact W1|]. split; [apply stores_u32, W2|].
  apply port_regs; rewrite ?E1, ?E2, ?E3, ?E4, ?E5, ?E6; apply W3; cbn; tauto.
Qed.
Lemma wr_ok l p v : length l = 4%nat /\ Forall is_u32 l -> length (wr l p (u32 v)) = 4%nat /\ Forall is_u32 (wr l p (u32 v)).
Proof. intros [L F]. split; [rewrite wr_length; exact L|apply wr_u32, F]. Qed.
Ltac whole_tac := intros (W1 & W2 & W3); split; [exact W1|]; split; [exact W2|]; apply port_regs; cbn [DIR DATA IS IBE IEV IE setDIR setDATA setIS setIBE setIEV setIE];
  try (apply wr_ok); apply W3; cbn; tauto.
Lemma whole_DIR g p v : whole g -> whole (setDIR g p v). Proof. whole_tac. Qed.
Lemma whole_DATA g p v : whole g -> whole (setDATA g p v). Proof. whole_tac. Qed.
Lemma whole_IS g p v : whole g -> whole (setIS g p v). Proof. whole_tac. Qed.
Lemma whole_IBE g p v : whole g -> whole (setIBE g p v). Proof. whole_tac. Qed.
Lemma whole_IEV g p v : whole g -> whole (setIEV g p v). Proof. whole_tac. Qed.
Lemma whole_IE g p v : whole g -> whole (setIE g p v). Proof. whole_tac. Qed.

(** a bit of a port register after a change of one pin's bit *)
Lemma bit_here l p on : length l = 4%nat -> (port p < 4)%nat -> (num p < 12)%nat ->
  Z.testbit (rd (wr l (port p) (u32 (flagged on (rd l (port p)) (2 ^ Z.of_nat (num p))))) (port p)) (Z.of_nat (num p)) = on.
Proof. intros L P N. rewrite rd_same by lia. rewrite flagged_bits by lia. rewrite Z.eqb_refl. reflexivity. Qed.
Lemma bit_there l p p' on : length l = 4%nat -> (port p < 4)%nat -> (num p < 12)%nat -> (num p' < 12)%nat -> (port p' = port p -> num p' <> num p) ->
  Z.testbit (rd (wr l (port p) (u32 (flagged on (rd l (port p)) (2 ^ Z.of_nat (num p))))) (port p')) (Z.of_nat (num p')) = Z.testbit (rd l (port p')) (Z.of_nat (num p')).
Proof.
  intros L P N N' D. destruct (Nat.eq_dec (port p') (port p)) as [E|E].
  - rewrite E, rd_same by lia. rewrite flagged_bits by lia. specialize (D E). destruct (Z.eqb_spec (Z.of_nat (num p)) (Z.of_nat (num p'))); [lia|reflexivity].
  - rewrite rd_other by congruence. reflexivity.
Qed.

(** ** pinMode *)
Lemma pin_mode g p q : whole g -> In p pins ->
  match number p (wanted q) with
  | None => pinMode g (name p) (mode_of q) = Fatal
  | Some n => exists v,
      pinMode g (name p) (mode_of q) = Back (stores (locs_of q p ++ [(word p, v)]) (turn g (port p) (2 ^ Z.of_nat (num p)) (outward q))) /\ is_u32 v /\ Z.land v 7 = n /\
      Z.land (Z.shiftr v 3) 3 = pull_code (res q) /\ Z.testbit v 5 = hyst q /\ Z.testbit v 10 = drain q /\ (admode p = true -> Z.testbit v 7 = negb (role_eqb (wanted q) Analog))
  end.
Proof.
  intros W H. pose proof (checked_ok p q H) as C. destruct (placed_ok p H) as (P1 & P2 & _). rewrite planMode_ok, P1, P2. unfold checked in C.
  destruct (planMode (name p) (mode_of q)) as [| |out l w v]; destruct (number p (wanted q)) as [n|]; try discriminate; [reflexivity|].
  repeat match type of C with _ && _ = true => let D := fresh "D" in apply andb_prop in C as [C D] end.
  apply eqb_prop in C, D0, D1. apply same_locs_ok in D7. apply Nat.eqb_eq in D6. apply Z.leb_le in D5. apply Z.ltb_lt in D4. apply Z.eqb_eq in D3, D2. subst.
  exists v. repeat split; auto. intro A. rewrite A in D. cbn [implb] in D. apply eqb_prop in D. exact D.
Qed.
