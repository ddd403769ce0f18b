(** Proofs for C121 *)
From Coq Require Export Qround Lqa.
From Verif Require Export Sht1_Model Sht1_Spec.
From Verif Require Import Bits.
Open Scope Z_scope.

Section Chip.
  Context (k : nature).
  Let w := sensor k.
  (** ** One bit read *)
  Lemma bit_step la b l n od st : (n < 8)%nat -> let m := mkPins false false la (mkChip (Giving (b :: l) n) 0 false od st) in
    read w (clock w m true) = b /\ clock w (clock w m true) false = mkPins false false la (mkChip (if (n =? 7)%nat then Asked l false else Giving l (S n)) 0 false b st).
  Proof. intros N m. subst m. do 8 (destruct n as [|n]; [destruct b, od; split; cbv; reflexivity|]). lia. Qed.
  Lemma shiftIn_S m v j : shiftIn w m v (S j) = shiftIn w (clock w (clock w m true) false) (Z.lor v (Z.shiftl (if read w (clock w m true) then 1 else 0) (Z.of_nat j))) j.
  Proof. reflexivity. Qed.
  Definition value8 (b7 b6 b5 b4 b3 b2 b1 b0 : bool) : Z := Z.b2z b0 + 2 * Z.b2z b1 + 4 * Z.b2z b2 + 8 * Z.b2z b3 + 16 * Z.b2z b4 + 32 * Z.b2z b5 + 64 * Z.b2z b6 + 128 * Z.b2z b7.
  Lemma byte_in la b7 b6 b5 b4 b3 b2 b1 b0 l od st :
    shiftIn w (mkPins false false la (mkChip (Giving (b7 :: b6 :: b5 :: b4 :: b3 :: b2 :: b1 :: b0 :: l) 0) 0 false od st)) 0 8 = (mkPins false false la (mkChip (Asked l false) 0 false b0 st), value8 b7 b6 b5 b4 b3 b2 b1 b0).
  Proof.
    do 8 (rewrite shiftIn_S; match goal with |- context [mkPins false false la (mkChip (Giving (?b :: ?l) ?n) 0 false ?od st)] =>
      let R := fresh in let C := fresh in destruct (bit_step la b l n od st ltac:(lia)) as (R & C); cbn [Nat.eqb] in C; rewrite R, C; clear R C end).
    cbn [shiftIn]. f_equal. unfold value8. destruct b7, b6, b5, b4, b3, b2, b1, b0; reflexivity.
  Qed.
  (** after the byte: acknowledged *)
  Lemma byte_ack la b l n od st : 
    releaseDataPin w (clockCycle w (data w (activateDataPin w (mkPins false false la (mkChip (Asked (b :: l) n) 0 false od st))) false)) = mkPins false false false (mkChip (Giving (b :: l) 0) 0 false b st).
  Proof. destruct la, od, n, b; cbv; reflexivity. Qed.
  (** or not *)
  Lemma byte_nak la l n od st : skipCrcSHT w (mkPins false false la (mkChip (Asked l n) 0 false od st)) = mkPins false false true (mkChip Idle 0 false true st).
  Proof. destruct la, od, n, l; cbv; reflexivity. Qed.
  Lemma value8_bits v : is_byte v -> forall l, exists b7 b6 b5 b4 b3 b2 b1 b0, bits8 v ++ l = b7 :: b6 :: b5 :: b4 :: b3 :: b2 :: b1 :: b0 :: l /\ value8 b7 b6 b5 b4 b3 b2 b1 b0 = v /\ b7 = Z.testbit v 7.
  Proof.
    intros V l. do 8 eexists. split; [reflexivity|]. split; [|reflexivity]. apply Z.eqb_eq. revert v V. apply (byte_forall (fun v => value8 (Z.testbit v 7) (Z.testbit v 6) (Z.testbit v 5) (Z.testbit v 4) (Z.testbit v 3) (Z.testbit v 2) (Z.testbit v 1) (Z.testbit v 0) =? v)). vm_compute. reflexivity.
  Qed.
  (** ** Sending *)
  Definition acked (la : bool) (p : phase) (st : Z) : pins chip := mkPins false false la (mkChip p 0 false false st).
  Lemma next_status c c' x v : status c = status c' -> next k c x v = next k c' x v.
  Proof. intros E. unfold next. rewrite E. reflexivity. Qed.
  Lemma ack_phase la x v odl st c : status c = st -> let m := clock w (releaseDataPin w (mkPins false true la (mkChip (Acking x v false) 0 false odl st))) true in
    read w m = false /\ clock w m false = let '(p, s) := next k c x v in acked la (rises k p) s.
  Proof.
    intros C m. assert (M : m = mkPins true false la (mkChip (Acking x v true) 0 true false st)) by (unfold m; destruct la, odl; vm_compute; reflexivity). rewrite M. split; [reflexivity|].
    unfold clock, tell, drive. cbn [out latch clk world w sensor lines]. unfold sees. cbn [doing pulls oc od negb andb status start seen Bool.eqb Nat.eqb]. unfold on_falling. cbn [doing].
    rewrite (next_status _ c x v) by (rewrite C; reflexivity). destruct (next k c x v) as [p s]. reflexivity.
  Qed.
  Lemma command_out m v : there k = true -> resting m -> In v commands ->
    shiftOut w (sendTransmissionStart w (activateDataPin w m)) v 8 = mkPins false true (Z.odd v) (mkChip (Acking false v false) 0 false (Z.odd v) (status (world m))).
  Proof.
    intros TH (O & D & C & ST) V. destruct m as [c o la [dg sr ocl odl st]]. cbn [out world doing oc clk start] in *. subst o dg ocl sr. subst w. destruct k as [xT xH xtT xtH xc xr xt]. cbn [there] in TH. subst xt.
    cbn in V. destruct V as [<- |[<- |[<- |[<- |[<- |[]]]]]]; destruct c, la, odl; vm_compute; reflexivity.
  Qed.
  Lemma send_cmd m v : there k = true -> resting m -> In v commands ->
    sendByteToSHT w m v true = let '(p, s) := next k (world m) false v in ackLoop w (acked (Z.odd v) (rises k p) s) 25.
  Proof.
    intros TH R V. unfold sendByteToSHT. cbv zeta. rewrite (command_out m v TH R V). destruct (ack_phase (Z.odd v) false v (Z.odd v) (status (world m)) (world m) eq_refl) as (A & B). cbv zeta in A, B. rewrite A, B. destruct (next k (world m) false v). reflexivity.
  Qed.
  Lemma send_absent m v : there k = false -> resting m -> In v commands -> exists m', sendByteToSHT w m v true = (m', false) /\ resting m' /\ status (world m') = status (world m).
  Proof.
    intros TH (O & D & C & ST) V. destruct m as [c o la [dg sr ocl odl st]]. cbn [out world doing oc clk start] in *. subst o dg ocl sr. subst w. destruct k as [xT xH xtT xtH xc xr xt]. cbn [there] in TH. subst xt.
    cbn in V. destruct V as [<- |[<- |[<- |[<- |[<- |[]]]]]]; destruct c, la, odl; (eexists; split; [vm_compute; reflexivity|]; split; [repeat split|reflexivity]).
  Qed.
  (** the contents of the register *)
  Lemma shiftOut_S m v j : shiftOut w m v (S j) = shiftOut w (clock w (clock w (data w m (negb (Z.land v (Z.shiftl 1 (Z.of_nat j)) =? 0))) true) false) v j.
  Proof. reflexivity. Qed.
  Lemma bit_out la v n b od st : (n < 7)%nat -> clock w (clock w (data w (mkPins false true la (mkChip (Taking true n v) 0 false od st)) b) true) false = mkPins false true b (mkChip (Taking true (S n) (2 * v + Z.b2z b)) 0 false b st).
  Proof. intros N. do 7 (destruct n as [|n]; [destruct b, od, la; cbv -[Z.mul Z.add Z.b2z]; reflexivity|]). lia. Qed.
  Lemma bit_last la v b od st : there k = true -> clock w (clock w (data w (mkPins false true la (mkChip (Taking true 7 v) 0 false od st)) b) true) false = mkPins false true b (mkChip (Acking true (2 * v + Z.b2z b) false) 0 false b st).
  Proof. intros TH. subst w. destruct k as [xT xH xtT xtH xc xr xt]. cbn [there] in TH. subst xt. destruct b, od, la; cbv -[Z.mul Z.add Z.b2z]; reflexivity. Qed.
  Lemma send_contents la od st v : there k = true -> is_byte v ->
    exists l, sendByteToSHT w (mkPins false false la (mkChip (Taking true 0 0) 0 false od st)) v false = ackLoop w (acked l (rises k Idle) v) 25.
  Proof.
    intros TH V. unfold sendByteToSHT. cbv zeta.
    assert (A : activateDataPin w (mkPins false false la (mkChip (Taking true 0 0) 0 false od st)) = mkPins false true true (mkChip (Taking true 0 0) 0 false true st)) by (destruct la, od; cbv; reflexivity). rewrite A.
    do 7 (rewrite shiftOut_S, bit_out by lia). rewrite shiftOut_S, (bit_last _ _ _ _ _ TH). cbn [shiftOut]. set (b0 := negb (Z.land v (Z.shiftl 1 (Z.of_nat 0)) =? 0)).
    match goal with |- context [Acking true ?x false] => assert (E : x = v) end.
    { apply Z.eqb_eq. subst b0. revert v V. apply byte_forall. vm_compute. reflexivity. }
    rewrite E. exists b0. destruct (ack_phase b0 true v b0 st (mkChip Idle 0 false false st) eq_refl) as (B & C). cbv zeta in B, C. rewrite B, C. reflexivity.
  Qed.
  (** ** Waiting *)
  Lemma ack_wait la p st : pulls p = false -> forall i t, 0 < t -> ackLoop w (acked la (Rising t p) st) (S i) = if t <=? 4000 * Z.of_nat i then (acked la p st, true) else (fst (ackLoop w (acked la (Rising t p) st) (S i)), false).
  Proof.
    intros P i. induction i as [|i IH]; intros t TP.
    - replace (t <=? 4000 * Z.of_nat 0) with false by (symmetry; apply Z.leb_gt; lia). reflexivity.
    - assert (E : ackLoop w (acked la (Rising t p) st) (S (S i)) = ackLoop w (pass w (acked la (Rising t p) st) MAX_DELAY_MICROSECONDS) (S i)) by reflexivity. rewrite E.
      assert (E2 : pass w (acked la (Rising t p) st) MAX_DELAY_MICROSECONDS = acked la (if t <=? 4000 then p else Rising (t - 4000) p) st) by reflexivity. rewrite E2. destruct (Z.leb_spec t 4000) as [L|L].
      + replace (t <=? 4000 * Z.of_nat (S i)) with true by (symmetry; apply Z.leb_le; lia). cbn [ackLoop]. unfold read, drive, acked. cbn [out world low w sensor doing]. rewrite P. reflexivity.
      + rewrite (IH (t - 4000)) by lia. replace (t <=? 4000 * Z.of_nat (S i)) with (t - 4000 <=? 4000 * Z.of_nat i); [destruct (t - 4000 <=? 4000 * Z.of_nat i); reflexivity|]. apply eq_true_iff_eq. rewrite !Z.leb_le. lia.
  Qed.
  Lemma ack_rises la p st : pulls p = false -> rise k <= 96000 -> ackLoop w (acked la (rises k p) st) 25 = (acked la p st, true).
  Proof.
    intros P R. unfold rises. destruct (Z.leb_spec (rise k) 0); [cbn [ackLoop]; unfold read, drive, acked; cbn [out world low w sensor doing]; rewrite P; reflexivity|].
    rewrite (ack_wait la p st P 24 (rise k)) by lia. change (4000 * Z.of_nat 24) with 96000. replace (rise k <=? 96000) with true by (symmetry; apply Z.leb_le; lia). reflexivity.
  Qed.
  Lemma ack_slow la p st : pulls p = false -> 96000 < rise k -> snd (ackLoop w (acked la (rises k p) st) 25) = false.
  Proof.
    intros P R. unfold rises. destruct (Z.leb_spec (rise k) 0); [lia|]. rewrite (ack_wait la p st P 24 (rise k)) by lia. change (4000 * Z.of_nat 24) with 96000. replace (rise k <=? 96000) with false by (symmetry; apply Z.leb_gt; lia). reflexivity.
  Qed.
  (** a sensor that shows a 0 at once *)
  Lemma ack_never la l st i : ackLoop w (acked la (Giving (false :: l) 0) st) i = (acked la (Giving (false :: l) 0) st, false).
  Proof. induction i as [|i IH]; [reflexivity|]. cbn [ackLoop]. exact IH. Qed.
  Lemma ack_never_rises la l st : forall i t, 0 < t -> snd (ackLoop w (acked la (Rising t (Giving (false :: l) 0)) st) i) = false.
  Proof.
    induction i as [|i IH]; intros t TP; [reflexivity|]. assert (E : ackLoop w (acked la (Rising t (Giving (false :: l) 0)) st) (S i) = ackLoop w (acked la (if t <=? 4000 then Giving (false :: l) 0 else Rising (t - 4000) (Giving (false :: l) 0)) st) i) by reflexivity. rewrite E.
    destruct (Z.leb_spec t 4000); [rewrite ack_never; reflexivity|apply IH; lia].
  Qed.
  Lemma measured la l st od : forall i t, 0 < t ->
    let m t := mkPins false false la (mkChip (Measuring t (false :: l)) 0 false od st) in
    waitLoop w (m t) (S i) = if t <=? 20000 * Z.of_nat i then (mkPins false false la (mkChip (Giving (false :: l) 0) 0 false od st), true) else (fst (waitLoop w (m t) (S i)), false).
  Proof.
    cbv zeta. intros i. induction i as [|i IH]; intros t TP.
    - replace (t <=? 20000 * Z.of_nat 0) with false by (symmetry; apply Z.leb_gt; lia). reflexivity.
    - set (m := mkPins _ _ _ _). assert (E : waitLoop w m (S (S i)) = waitLoop w (mkPins false false la (mkChip (if t <=? 20000 then Giving (false :: l) 0 else Measuring (t - 20000) (false :: l)) 0 false od st)) (S i)) by reflexivity. rewrite E. destruct (Z.leb_spec t 20000) as [L|L].
      + replace (t <=? 20000 * Z.of_nat (S i)) with true by (symmetry; apply Z.leb_le; lia). reflexivity.
      + rewrite (IH (t - 20000)) by lia. replace (t <=? 20000 * Z.of_nat (S i)) with (t - 20000 <=? 20000 * Z.of_nat i); [destruct (t - 20000 <=? 20000 * Z.of_nat i); reflexivity|]. apply eq_true_iff_eq. rewrite !Z.leb_le. lia.
  Qed.
  (** ** A measurement *)
  Lemma data_in la od st v c : 0 <= v < 65536 -> is_byte c ->
    getData16SHT w (mkPins false false la (mkChip (Giving (bits16 v ++ bits8 c) 0) 0 false od st)) = (mkPins false false false (mkChip (Asked (bits8 c) false) 0 false (Z.testbit v 0) st), v).
  Proof.
    intros V C. assert (VH : is_byte (v / 256)) by (split; [apply Z.div_pos; lia|apply Z.div_lt_upper_bound; lia]). assert (VL : is_byte (v mod 256)) by (apply Z.mod_pos_bound; lia).
    unfold bits16. rewrite <- app_assoc. unfold getData16SHT.
    destruct (value8_bits _ VH (bits8 (v mod 256) ++ bits8 c)) as (h7 & h6 & h5 & h4 & h3 & h2 & h1 & h0 & EH & WH & _).
    rewrite EH. assert (R : forall x, exists od', releaseDataPin w (mkPins false false la (mkChip (Giving x 0) 0 false od st)) = mkPins false false la (mkChip (Giving x 0) 0 false od' st)).
    { intros x. destruct x as [|[] x], od; eexists; cbv; reflexivity. }
    destruct (R (h7 :: h6 :: h5 :: h4 :: h3 :: h2 :: h1 :: h0 :: bits8 (v mod 256) ++ bits8 c)) as (od' & ->). cbv zeta. rewrite byte_in. rewrite WH.
    change (bits8 (v mod 256) ++ bits8 c) with (Z.testbit (v mod 256) 7 :: map (Z.testbit (v mod 256)) [6; 5; 4; 3; 2; 1; 0] ++ bits8 c) at 1. rewrite byte_ack.
    cbn [map app]. rewrite byte_in. assert (B0 : Z.testbit (v mod 256) 0 = Z.testbit v 0) by (change 256 with (2 ^ 8); apply Z.mod_pow2_bits_low; lia). rewrite B0 at 1. f_equal.
    destruct (value8_bits _ VL []) as (l7 & l6 & l5 & l4 & l3 & l2 & l1 & l0 & EL & WL & _). cbn [bits8 map app] in EL. injection EL as <- <- <- <- <- <- <- <-. rewrite WL, !u8_id by assumption.
    unfold u16. rewrite Z.mod_small by (rewrite Z.shiftl_mul_pow2 by lia; unfold is_byte in VH; lia). rewrite word_bytes by exact VL. rewrite (Z.div_mod v 256) at 3 by lia. lia.
  Qed.
  Lemma first_bit v l : 0 <= v < 32768 -> exists r, bits16 v ++ l = false :: r.
  Proof.
    intros V. eexists. unfold bits16, bits8. cbn [map app]. f_equal. assert (V2 : 0 <= v / 256 < 2 ^ 7) by (split; [apply Z.div_pos; lia|apply Z.div_lt_upper_bound; lia]).
    destruct (Z.eq_dec (v / 256) 0) as [E|E]; [rewrite E; reflexivity|]. apply Z.bits_above_log2; [lia|]. apply Z.log2_lt_pow2; lia.
  Qed.
  Lemma ask_ok m v t val c st : there k = true -> resting m -> In v commands -> next k (world m) false v = (measure t (bits16 val ++ bits8 c), st) -> 0 <= val < 32768 -> is_byte c -> 0 < t ->
    (rise k <= 96000 -> t <= 340000 -> ask w m v = (mkPins false false true (mkChip Idle 0 false true st), Some val)) /\
    (96000 < rise k \/ 340000 < t -> snd (ask w m v) = None).
  Proof.
    intros TH R V N VL C TP. unfold ask. rewrite (send_cmd m v TH R V), N. unfold measure. replace (t <=? 0) with false by (symmetry; apply Z.leb_gt; lia). destruct (first_bit val (bits8 c) VL) as (r & FB).
    assert (P : pulls (Measuring t (bits16 val ++ bits8 c)) = false) by reflexivity.
    assert (W : forall l, waitForResultSHT w (acked l (Measuring t (bits16 val ++ bits8 c)) st) = waitLoop w (mkPins false false l (mkChip (Measuring t (false :: r)) 0 false true st)) 18) by (intros l; rewrite FB; reflexivity).
    assert (RK : rise k <= 96000 -> forall l, ackLoop w (acked l (rises k (Measuring t (bits16 val ++ bits8 c))) st) 25 = (acked l (Measuring t (bits16 val ++ bits8 c)) st, true)) by (intros RR l; apply ack_rises; assumption).
    split.
    - intros RR TT. rewrite (RK RR). cbn [negb]. rewrite W, (measured _ r st true 17 t TP). change (20000 * Z.of_nat 17) with 340000. replace (t <=? 340000) with true by (symmetry; apply Z.leb_le; lia). cbn [negb]. rewrite <- FB, data_in by (assumption || lia). cbv zeta. rewrite byte_nak. reflexivity.
    - intros H. destruct (Z.le_gt_cases (rise k) 96000) as [RR|RR].
      + rewrite (RK RR). cbn [negb]. rewrite W, (measured _ r st true 17 t TP). change (20000 * Z.of_nat 17) with 340000. replace (t <=? 340000) with false by (symmetry; apply Z.leb_gt; lia). reflexivity.
      + pose proof (ack_slow (Z.odd v) _ st P RR) as S0. destruct (ackLoop w (acked (Z.odd v) (rises k (Measuring t (bits16 val ++ bits8 c))) st) 25) as [m1 b]. cbn [snd] in S0. subst b. reflexivity.
  Qed.
  Lemma ask_absent m v : there k = false -> resting m -> In v commands -> exists m', ask w m v = (m', None) /\ resting m' /\ status (world m') = status (world m).
  Proof. intros TH R V. unfold ask. destruct (send_absent m v TH R V) as (m' & E & X). rewrite E. exists m'. split; [reflexivity|exact X]. Qed.
  (** the clocks before the status is asked for *)
  Lemma reset_clocks m : resting m -> let m' := Nat.iter 10 (clockCycle w) (activateDataPin w m) in out m' = true /\ latch m' = true /\ clk m' = false /\ doing (world m') = Idle /\ oc (world m') = false /\ start (world m') = 0%nat /\ status (world m') = status (world m).
  Proof. intros (O & D & C & ST). destruct m as [c o la [dg sr ocl odl st]]. cbn [out world doing oc clk start] in *. subst o dg ocl sr. destruct c, la, odl; vm_compute; repeat split. Qed.
  (** the status register cannot be read *)
  Lemma status_never m : there k = true -> resting m -> snd (getStatusRegister w m) = None.
  Proof.
    intros TH R. destruct (reset_clocks m R) as (A1 & A2 & A3 & A4 & A5 & A6 & A7). unfold getStatusRegister. set (m1 := Nat.iter 10 (clockCycle w) (activateDataPin w m)) in *. clearbody m1. destruct m1 as [c o la [dg sr ocl odl st]]. cbn [out latch clk world doing oc start status] in *. subst o la c dg ocl sr.
    unfold ask. assert (S1 : sendByteToSHT w (mkPins false true true (mkChip Idle 0 false odl st)) sht1xReadStatusRegister true = ackLoop w (acked true (rises k (Giving (bits8 st ++ bits8 (crc k)) 0)) st) 25).
    { unfold sendByteToSHT. cbv zeta. assert (CO : shiftOut w (sendTransmissionStart w (activateDataPin w (mkPins false true true (mkChip Idle 0 false odl st)))) sht1xReadStatusRegister 8 = mkPins false true true (mkChip (Acking false 7 false) 0 false true st)).
      { subst w. destruct k as [xT xH xtT xtH xc xr xt]. cbn [there] in TH. subst xt. destruct odl; vm_compute; reflexivity. }
      rewrite CO. destruct (ack_phase true false 7 true st (mkChip Idle 0 false false st) eq_refl) as (B & C). cbv zeta in B, C. rewrite B, C. reflexivity. }
    rewrite S1. set (l := bits8 st ++ bits8 (crc k)). assert (L : exists b r, l = b :: r) by (eexists; eexists; reflexivity). destruct L as (b & r & L). rewrite L. clearbody l. destruct b.
    - (* the first bit is 1: the end of the acknowledgement is seen, but never a result *)
      assert (W : forall la' i x, snd (waitLoop w (mkPins false false la' (mkChip (Giving (true :: r) 0) 0 false x st)) i) = false).
      { intros la' i x. induction i as [|i IH]; [reflexivity|]. exact IH. }
      assert (RL : forall la', releaseDataPin w (acked la' (Giving (true :: r) 0) st) = mkPins false false la' (mkChip (Giving (true :: r) 0) 0 false true st)) by reflexivity.
      destruct (Z.le_gt_cases (rise k) 96000) as [RR|RR].
      + rewrite (ack_rises true (Giving (true :: r) 0) st eq_refl RR). cbn [negb]. unfold waitForResultSHT. rewrite RL. pose proof (W true (Z.to_nat (MAX_WAIT_MS / WAIT_STEP_MS + 1)) true) as W1. match type of W1 with snd ?x = _ => destruct x as [m2 b] end. cbn [snd] in W1. subst b. reflexivity.
      + pose proof (ack_slow true (Giving (true :: r) 0) st eq_refl RR) as S0. match type of S0 with snd ?x = _ => destruct x as [m2 b] end. cbn [snd] in S0. subst b. reflexivity.
    - assert (S0 : snd (ackLoop w (acked true (rises k (Giving (false :: r) 0)) st) 25) = false) by (unfold rises; destruct (Z.leb_spec (rise k) 0); [rewrite ack_never; reflexivity|apply ack_never_rises; lia]).
      match type of S0 with snd ?x = _ => destruct x as [m2 b] end. cbn [snd] in S0. subst b. reflexivity.
  Qed.
End Chip.

(** ** Numbers *)
Lemma towards0_pos q : (0 <= q)%Q -> towards0 q = Qfloor q.
Proof. intros N. destruct q as [x y]. unfold towards0, Qle in *. cbn [Qnum Qden] in *. rewrite Z.quot_div_nonneg by lia. reflexivity. Qed.
Lemma towards0_neg q : (q <= 0)%Q -> towards0 q = Qceiling q.
Proof. intros N. destruct q as [x y]. unfold towards0, Qle, Qceiling, Qopp, Qfloor in *. cbn [Qnum Qden] in *. rewrite <- (Z.opp_involutive x) at 1. rewrite Z.quot_opp_l, Z.quot_div_nonneg by lia. reflexivity. Qed.
Lemma towards0_int q z : (q == inject_Z z)%Q -> towards0 q = z.
Proof. intros E. destruct q as [x y]. unfold towards0, Qeq, inject_Z in *. cbn [Qnum Qden] in *. replace x with (z * Z.pos y) by lia. apply Z.quot_mul. lia. Qed.
Lemma celsius_ok raw : (convertRawTemperature (inject_Z raw) CELCIUS == celsius raw)%Q.
Proof. unfold convertRawTemperature, celsius, Qeq, inject_Z. cbn [Qplus Qminus Qmult Qopp Qnum Qden]. lia. Qed.
Lemma hundredth raw : (convertRawTemperature (inject_Z raw) CELCIUS * 100 == inject_Z (raw - 3970))%Q.
Proof. unfold convertRawTemperature, Qeq, inject_Z. cbn [Qplus Qminus Qmult Qopp Qnum Qden]. lia. Qed.
