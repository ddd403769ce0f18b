(** Sending against another sender. *)
From Verif Require Import Base Bits Bus_Model Bus_Spec Bus_Frame Bus_Inv Bus_Recv Bus_Handle Bus_Handle2 Bus_Send Bus_Steps Bus_Hist Bus_Pos Bus_BitSpec Bus_Bits Bus_Wave Bus_ArbSpec.

(** ** The sender *)
Lemma withParity_word c : is_byte c -> withParity c = word c.
Proof. intros H. apply Z.eqb_eq. revert c H. apply byte_forall. vm_compute. reflexivity. Qed.
Lemma land_pw c q : Z.land c (pw q) = if Z.testbit c (Z.of_nat q) then pw q else 0.
Proof.
  unfold pw. apply Z.bits_inj'. intros n Hn. rewrite Z.land_spec, Z.pow2_bits_eqb by lia. destruct (Z.eqb_spec (Z.of_nat q) n) as [<-|N].
  - rewrite andb_true_r. destruct (Z.testbit c (Z.of_nat q)); [|now rewrite Z.bits_0]. rewrite Z.pow2_bits_eqb by lia. symmetry. apply Z.eqb_eq. reflexivity.
  - rewrite andb_false_r. destruct (Z.testbit c (Z.of_nat q)); [|now rewrite Z.bits_0]. rewrite Z.pow2_bits_eqb by lia. symmetry. apply Z.eqb_neq. exact N.
Qed.
Lemma pw_nz q : (pw q =? 0) = false.
Proof. pose proof (pw_pos q). apply Z.eqb_neq. lia. Qed.
(** the next own low pulse after position [q] is bit [m]; 9: none is left *)
Definition nextZero (c : Z) (q m : nat) : Prop := (q <= m <= 9)%nat /\ ones c q m /\ ((m < 9)%nat -> Z.testbit c (Z.of_nat m) = false).
Lemma nextZero_ex c : forall n q, (q + n = 9)%nat -> exists m, nextZero c q m.
Proof.
  induction n as [|n IH]; intros q H.
  - exists q. split; [lia|]. split; [intros j Hj; lia|lia].
  - destruct (Z.testbit c (Z.of_nat q)) eqn:B.
    + destruct (IH (S q) ltac:(lia)) as (m & M1 & M2 & M3). exists m. split; [lia|]. split; [|exact M3]. intros j Hj. destruct (Nat.eq_dec j q) as [->|]; [exact B|]. apply M2. lia.
    + exists q. split; [lia|]. split; [intros j Hj; lia|auto].
Qed.
Lemma nextLow_zero c m : forall d n q t, (q + d = m)%nat -> nextZero c q m -> (d <= n)%nat -> nextLow n c (pw q) t = (pw m, t + 104 * Z.of_nat d).
Proof.
  induction d as [|d IH]; intros n q t E (Q & O & Z0) N.
  - replace m with q in * by lia. replace (t + 104 * Z.of_nat 0) with t by lia. destruct n as [|n]; cbn [nextLow]; [reflexivity|].
    rewrite land_pw. destruct (Nat.eq_dec q 9) as [->|].
    + change (pw 9 <=? 0x100) with false. rewrite andb_false_r. reflexivity.
    + rewrite Z0 by lia. reflexivity.
  - destruct n as [|n]; [lia|]. cbn [nextLow]. rewrite land_pw. rewrite (O q) by lia. rewrite pw_nz. rewrite pw_256 by lia. cbn [negb andb]. rewrite <- pw_S. rewrite (IH n (S q)); try lia.
    + f_equal. change BIT_TIME with 104. lia.
    + split; [lia|]. split; [intros j Hj; apply O; lia|exact Z0].
Qed.
(** [q] bits of word [c] are out, the timer has just restarted or runs; [m] is the next own low bit *)
Definition sending (c : Z) (q m : nat) (b : bus) : Prop :=
  state b = SEND_BITS_OF_BYTE /\ nextZero c q m /\ currentByte b = c /\ bitMask b = pw (S m) /\ mTime b = 104 * (Z.of_nat m - Z.of_nat q + 1) - 1 /\
  mPwm b = (if (m =? 9)%nat then 0xffff else 104 * (Z.of_nat m - Z.of_nat q + 1) - 35).
Lemma next_sending c q z : (q <= 9)%nat -> state z = SEND_BITS_OF_BYTE -> currentByte z = c -> bitMask z = pw q -> exists m, sending c q m (sendNextBit z).
Proof.
  intros Q Sz C M. destruct (nextZero_ex c (9 - q) q ltac:(lia)) as (m & N). pose proof N as (N1 & _). exists m.
  assert (E : nextLow 9 c (pw q) BIT_TIME = (pw m, 104 + 104 * Z.of_nat (m - q))) by (apply nextLow_zero; auto; lia).
  unfold sendNextBit. rewrite M, C. destruct (Z.leb_spec (pw q) 0x200) as [_|X].
  2:{ exfalso. unfold pw in X. pose proof (Z.pow_le_mono_r 2 (Z.of_nat q) 9 ltac:(lia) ltac:(lia)). change (2 ^ 9) with 0x200 in *. lia. }
  rewrite E. unfold sending. fields. split; [exact Sz|]. split; [exact N|]. split; [exact C|]. rewrite pw_S. split; [reflexivity|]. split; [lia|].
  rewrite <- pw_S. destruct (Nat.eqb_spec m 9) as [->|].
  - change (0x200 <? pw 10) with true. reflexivity.
  - destruct (Z.ltb_spec 0x200 (pw (S m))) as [X|_]; [|change BIT_PULSE_TIME with 35; lia]. exfalso. unfold pw in X. pose proof (Z.pow_le_mono_r 2 (Z.of_nat (S m)) 9 ltac:(lia) ltac:(lia)). change (2 ^ 9) with 0x200 in *. lia.
Qed.
Lemma tick_sending L c q m b o : sending c q m b -> (m < 9)%nat -> tick o -> bstep L b o = Some (sendNextBit b, []) /\ exists m1, sending c (S m) m1 (sendNextBit b).
Proof.
  intros (Sb & N & C & M & T & P) Hm (e & i & -> & Ci & Mi). split; [apply tick_bits; assumption|]. apply next_sending; auto.
Qed.
Lemma harmless_step L c q m b o : sending c q m b -> (m < 9)%nat -> harmless q m o -> bstep L b o = Some (b, []).
Proof.
  intros (Sb & (N & _) & C & M & T & P) Hm (t & (e & i & -> & _ & Ci & Mi & Sp & Ht & T0) & H). cbn [bstep]. unfold timerInterruptHandler. rewrite Sp, andb_false_r, Sb. unfold sendBits. rewrite Mi, Ht. cbn [negb].
  change REFLECTION_IGNORE_DELAY with 3. destruct (Z.ltb_spec t 3) as [|G]; [reflexivity|]. destruct H as [H|(d & Hd & E)]; [lia|].
  unfold clock, nominal in E. change (BIT_WAIT_TIME - BIT_OFFSET_MIN) with 62. change BIT_TIME with 104. change BIT_OFFSET_MIN with 7.
  assert (E2 : t = (69 + d) + (Z.of_nat m - Z.of_nat q) * 104) by lia.
  assert (Em : t mod 104 = 69 + d) by (rewrite E2, Z.mod_add, Z.mod_small; lia). rewrite Em. destruct (Z.ltb_spec (69 + d) 62); [lia|].
  rewrite P. destruct (Nat.eqb_spec m 9); [lia|]. unfold u32. rewrite Z.mod_small by lia. destruct (Z.ltb_spec t (104 * (Z.of_nat m - Z.of_nat q + 1) - 35 - 7)); [lia|]. reflexivity.
Qed.
Lemma harmless_run L c q m b es : sending c q m b -> (m < 9)%nat -> Forall (harmless q m) es -> bruns L es b = Some (b, []).
Proof.
  intros Sb Hm F. induction F as [|o es H F IH]; cbn [bruns]; [reflexivity|]. rewrite (harmless_step L c q m b o Sb Hm H), IH. reflexivity.
Qed.
(** the own low pulses among the bits [q] up to [q + d] are sent: as without the others *)
Lemma shared_run L c d : forall q p m b ops, (q + d <= 9)%nat -> (p <= q)%nat -> ones c p q -> sending c p m b -> shared p (filter (fun j => negb (Z.testbit c (Z.of_nat j))) (seq q d)) ops ->
  exists b1 m1 p1, bruns L ops b = Some (b1, []) /\ sending c p1 m1 b1 /\ (p1 <= q + d)%nat /\ ones c p1 (q + d) /\
    p1 = fold_left (fun _ z => S z) (filter (fun j => negb (Z.testbit c (Z.of_nat j))) (seq q d)) p /\
    forall ts, Forall tick ts -> length ts = length (filter (fun j => negb (Z.testbit c (Z.of_nat j))) (seq q d)) -> bruns L ts b = Some (b1, []).
Proof.
  induction d as [|d IH]; intros q p m b ops Q Hp O Sd Sh.
  - cbn [seq filter shared] in Sh. subst ops. exists b, m, p. cbn [bruns seq filter fold_left]. rewrite Nat.add_0_r. split; [reflexivity|]. split; [exact Sd|]. split; [exact Hp|]. split; [exact O|]. split; [reflexivity|].
    intros ts _ E. destruct ts; [reflexivity|discriminate].
  - cbn [seq filter] in *. destruct (Z.testbit c (Z.of_nat q)) eqn:B; cbn [negb] in *.
    + replace (q + S d)%nat with (S q + d)%nat by lia. apply (IH (S q) p m b ops); auto; try lia. intros j Hj. destruct (Nat.eq_dec j q) as [->|]; [exact B|]. apply O. lia.
    + cbn [shared] in Sh. destruct Sh as (es & o & ops1 & -> & He & To & Sh).
      assert (m = q). { destruct Sd as (_ & (N1 & N2 & N3) & _). destruct (Nat.lt_trichotomy m q) as [X|[X|X]]; [|exact X|].
        - exfalso. assert (Z.testbit c (Z.of_nat m) = true) by (apply O; lia). rewrite N3 in H by lia. discriminate.
        - exfalso. assert (Z.testbit c (Z.of_nat q) = true) by (apply N2; lia). congruence. }
      subst m. destruct (tick_sending L c p q b o Sd ltac:(lia) To) as (E & m1 & S1).
      destruct (IH (S q) (S q) m1 (sendNextBit b) ops1 ltac:(lia) (le_n _) ltac:(intros j Hj; lia) S1 Sh) as (b1 & m2 & p1 & R & S2 & P1 & O1 & F1 & G).
      replace (q + S d)%nat with (S q + d)%nat by lia. exists b1, m2, p1. split; [|split; [exact S2|]; split; [exact P1|]; split; [exact O1|]; split; [exact F1|]].
      * rewrite (bruns_app L es _ b b [] (harmless_run L c p q b es Sd ltac:(lia) He)). cbn [bruns]. rewrite E, R. reflexivity.
      * intros ts Ft El. cbn [length] in El. destruct ts as [|o1 ts]; [discriminate|]. inversion Ft as [|? ? To1 Ft1]; subst. cbn [bruns].
        destruct (tick_sending L c p q b o1 Sd ltac:(lia) To1) as (E1 & _). rewrite E1. rewrite (G ts Ft1 ltac:(injection El; auto)). reflexivity.
Qed.

(** ** The receiver, its clock shifted *)
Definition shifted (s : Z) (b : bus) : bus := set_bitTime (bitTime b + s) b.
Lemma highBits_shift s : forall n t b, highBits n (t + s) (shifted s b) = shifted s (highBits n t b).
Proof.
  induction n as [|n IH]; intros t b; cbn [highBits]; [reflexivity|]. unfold shifted at 1 2. fields.
  replace (bitTime b + s + BIT_WAIT_TIME <=? t + s) with (bitTime b + BIT_WAIT_TIME <=? t) by (destruct (Z.leb_spec (bitTime b + BIT_WAIT_TIME) t); destruct (Z.leb_spec (bitTime b + s + BIT_WAIT_TIME) (t + s)); lia || reflexivity).
  destruct (_ && _); [|reflexivity]. rewrite <- IH. change (bitTime (shifted s b)) with (bitTime b + s). replace (bitTime b + s + BIT_TIME) with (bitTime b + BIT_TIME + s) by lia. reflexivity.
Qed.
Lemma findBit_shift s t b : findBit (t + s) (shifted s b) = shifted s (findBit t b).
Proof.
  unfold findBit. unfold shifted at 1. fields. replace (bitTime b + s + BIT_TIME - 35 <=? t + s) with (bitTime b + BIT_TIME - 35 <=? t) by (destruct (Z.leb_spec (bitTime b + BIT_TIME - 35) t); destruct (Z.leb_spec (bitTime b + s + BIT_TIME - 35) (t + s)); lia || reflexivity).
  destruct (_ <=? t); [|reflexivity]. cbv zeta. 
  assert (E : set_bitTime (bitTime (shifted s b) + BIT_TIME) (shifted s b) = shifted s (set_bitTime (bitTime b + BIT_TIME) b)) by (change (bitTime (shifted s b)) with (bitTime b + s); replace (bitTime b + s + BIT_TIME) with (bitTime b + BIT_TIME + s) by lia; reflexivity).
  rewrite E. change (bitTime (shifted s (set_bitTime ?x b))) with (x + s). change (bitTime (set_bitTime ?x b)) with x. change (bitTime (shifted s b)) with (bitTime b + s).
  replace (t + s - (bitTime b + s + BIT_TIME) - BIT_WAIT_TIME + 1) with (t - (bitTime b + BIT_TIME) - BIT_WAIT_TIME + 1) by lia. rewrite highBits_shift. reflexivity.
Qed.
Lemma shifted_back s b : shifted s (shifted (- s) b) = b.
Proof. unfold shifted. change (bitTime (set_bitTime ?x b)) with x. replace (bitTime b + - s + s) with (bitTime b) by lia. destruct b. reflexivity. Qed.
Lemma edges_shift L s : forall ts es b, Forall2 edgeOp ts es -> state b = RECV_BITS_OF_BYTE -> bruns L es (shifted s b) = Some (shifted s (fold_left (fun x t => findBit (t - s) x) ts b), []).
Proof.
  induction ts as [|t ts IH]; intros es b F S; inversion F as [|? o ? es1 F1 F2]; subst; cbn [bruns fold_left]; [reflexivity|]. rewrite (edge_step L o t (shifted s b) F1 S).
  replace t with (t - s + s) at 1 by lia. rewrite findBit_shift, IH; auto. destruct (findBit_form (t - s) b) as (m & t0 & pr & c & ->). exact S.
Qed.
(** the edges after bit [k], which was low *)
Lemma fold_got w d : forall q p b ts, (q + d = 9)%nat -> (p <= q)%nat -> got w p b -> ones w p q -> Forall2 onTime (filter (fun k => negb (Z.testbit w (Z.of_nat k))) (seq q d)) ts ->
  exists p1, got w p1 (fold_left (fun x t => findBit t x) ts b) /\ (p1 <= 9)%nat /\ ones w p1 9 /\ calm b (fold_left (fun x t => findBit t x) ts b).
Proof.
  induction d as [|d IH]; intros q p b ts Hq Hp G Ho F.
  - inversion F; subst. exists p. cbn [fold_left]. split; [exact G|]. split; [lia|]. split; [intros j Hj; apply Ho; lia|]. exists (bitMask b), (bitTime b), (parity b), (currentByte b). destruct b; reflexivity.
  - cbn [seq filter] in F. destruct (Z.testbit w (Z.of_nat q)) eqn:B; cbn [negb] in F.
    + apply (IH (S q) p b ts); auto; try lia. intros j Hj. destruct (Nat.eq_dec j q) as [->|]; [exact B|]. apply Ho. lia.
    + inversion F as [|? t ? ts1 F1 F2]; subst. pose proof (findBit_edge w p q t b G ltac:(lia) Ho B F1) as G1. destruct (findBit_form t b) as (m & t0 & pr & c & Ff). cbn [fold_left].
      destruct (IH (S q) (S q) (findBit t b) ts1 ltac:(lia) ltac:(lia) G1 ltac:(intros j Hj; lia) F2) as (p1 & G2 & P1 & O1 & Cm). exists p1. split; [exact G2|]. split; [exact P1|]. split; [exact O1|].
      eapply calm_trans; [|exact Cm]. exists m, t0, pr, c. exact Ff.
Qed.
Lemma fold_map s ts b : fold_left (fun x t => findBit (t - s) x) ts b = fold_left (fun x t => findBit t x) (map (fun t => t - s) ts) b.
Proof. revert b. induction ts as [|t ts IH]; intros b; cbn [fold_left map]; auto. Qed.
(** the rest of a byte of which the bits before [q] are known *)
Lemma rest_shifted L w q s ts es x b : is_word w -> (q <= 9)%nat -> state b = RECV_BITS_OF_BYTE -> mTime b = BYTE_TIME_INCL_STOP + s - 1 -> got w q (shifted (- s) b) -> Forall2 edgeOp ts es ->
  Forall2 (fun j t => onTime j (t - s)) (lows w q 9) ts -> quiet x ->
  legal_run L (es ++ [x]) b /\ exists b1, bruns L (es ++ [x]) b = Some (b1, [RxByte (w mod 256) (evenWord w)]) /\ state b1 = RECV_WAIT_FOR_STARTBIT_OR_TELEND.
Proof.
  intros W Q Sb Mt G Es En Qx. destruct (word_facts w W) as [W1 W2]. set (b0 := shifted (- s) b) in *.
  assert (Eb : b = shifted s b0) by (unfold b0; now rewrite shifted_back). assert (S0 : state b0 = RECV_BITS_OF_BYTE) by exact Sb.
  assert (R : bruns L es b = Some (shifted s (fold_left (fun x t => findBit t x) (map (fun t => t - s) ts) b0), [])) by (rewrite Eb at 1; rewrite (edges_shift L s ts es b0 Es S0), fold_map; reflexivity).
  assert (F : Forall2 onTime (filter (fun k => negb (Z.testbit w (Z.of_nat k))) (seq q (9 - q))) (map (fun t => t - s) ts)) by (unfold lows in En; clear - En; induction En; cbn [map]; constructor; auto).
  destruct (fold_got w (9 - q) q q b0 _ ltac:(lia) (le_n _) G ltac:(intros j Hj; lia) F) as (p1 & G1 & P1 & O1 & (m & t & pr & c & Cm)).
  set (b1 := fold_left (fun x t => findBit t x) (map (fun t => t - s) ts) b0) in *. assert (S1 : state (shifted s b1) = RECV_BITS_OF_BYTE) by (unfold shifted; fields; rewrite Cm; exact S0). split.
  - apply legal_run_app; [apply (edges_legal L ts); auto|]. intros b2 os R2. assert (b2 = shifted s b1) by congruence. subst b2. cbn [legal_run]. split; [apply quiet_legal; auto|]. intros; exact I.
  - rewrite (bruns_app L es [x] b (shifted s b1) [] R). destruct Qx as (e & i & -> & _ & _ & C & M). cbn [bruns bstep]. unfold timerInterruptHandler. rewrite C, S1. cbn [andb]. unfold recvBits. rewrite M.
    assert (Me : mTime (shifted s b1) + 1 = BYTE_TIME_INCL_STOP + s). { unfold shifted. fields. rewrite Cm. fields. change (mTime b0) with (mTime b). rewrite Mt. lia. }
    rewrite Me, findBit_shift. destruct (findBit_end w p1 b1 G1 P1 O1) as [F1 F2]. set (b2 := findBit BYTE_TIME_INCL_STOP b1) in *.
    unfold endOfByte. cbv zeta. change (currentByte (shifted s b2)) with (currentByte b2). rewrite F1, W1. cbn [also option_map fst snd app].
    match goal with |- exists b2, Some (?a, [RxByte _ (parity ?z)]) = _ /\ _ => exists a; assert (Y : parity z = evenWord w) end.
    { change (parity (set_valid ?q ?z)) with (parity z). destruct (_ <? _)%nat; unfold shifted; fields; congruence. }
    rewrite Y. split; reflexivity.
Qed.

(** ** The collision *)
Lemma pw_half j : pw (S j) / 2 = pw j.
Proof. rewrite pw_S, Z.mul_comm. apply Z.div_mul. lia. Qed.
Lemma sentBits_spec cur : forall j n ms par, (j < n)%nat -> sentBits n (pw j) cur ms par = (ms - Z.of_nat (S j), xorb par (negb (evenOnes cur (S j)))).
Proof.
  induction j as [|j IH]; intros n ms par H; destruct n as [|n]; try lia; cbn [sentBits]; rewrite pw_nz, land_pw.
  - change (pw 0 / 2) with 0. assert (E : forall p, sentBits n 0 cur (ms - 1) p = (ms - 1, p)) by (intros p; destruct n; reflexivity). rewrite E. f_equal. cbn [evenOnes]. destruct (Z.testbit cur (Z.of_nat 0)); destruct par; reflexivity.
  - rewrite pw_half, IH by lia. f_equal; [lia|]. change (evenOnes cur (S (S j))) with (xorb (evenOnes cur (S j)) (Z.testbit cur (Z.of_nat (S j)))). destruct (Z.testbit cur (Z.of_nat (S j))); [rewrite pw_nz|]; cbn [Z.eqb]; destruct par, (evenOnes cur (S j)); reflexivity.
Qed.
Lemma evenOnes_ext a b k : (forall j, (j < k)%nat -> Z.testbit a (Z.of_nat j) = Z.testbit b (Z.of_nat j)) -> evenOnes a k = evenOnes b k.
Proof. induction k as [|k IH]; intros H; cbn [evenOnes]; [reflexivity|]. rewrite IH, H; auto. Qed.
Lemma sofar_ext a b k : (forall j, (j < k)%nat -> Z.testbit a (Z.of_nat j) = Z.testbit b (Z.of_nat j)) -> sofar a k = sofar b k.
Proof.
  intros H. unfold sofar, pw. apply Z.bits_inj'. intros n Hn. destruct (Z.ltb_spec n (Z.of_nat k)).
  - rewrite !Z.mod_pow2_bits_low by lia. rewrite <- (Z2Nat.id n) by lia. apply H. lia.
  - rewrite !Z.mod_pow2_bits_high by lia. reflexivity.
Qed.
Lemma sofar_bit c k j : (j < k)%nat -> Z.testbit (sofar c k) (Z.of_nat j) = Z.testbit c (Z.of_nat j).
Proof. intros H. unfold sofar, pw. apply Z.mod_pow2_bits_low. lia. Qed.
Lemma land_sofar c k : Z.land c (pw k - 1) = sofar c k.
Proof. unfold sofar, pw. rewrite <- Z.land_ones by lia. rewrite Z.ones_equiv. reflexivity. Qed.
Lemma shiftr_pw m k : (k <= m)%nat -> Z.shiftr (pw (S m)) (Z.of_nat m - Z.of_nat k + 1) = pw k.
Proof.
  intros H. rewrite Z.shiftr_div_pow2 by lia. unfold pw. replace (Z.of_nat (S m)) with (Z.of_nat k + (Z.of_nat m - Z.of_nat k + 1)) by lia. rewrite Z.pow_add_r by lia. apply Z.div_mul. apply Z.pow_nonzero; lia.
Qed.
Lemma collide_form b : sendAck (encounteredCollision b) = sendAck b /\ sendCur (encounteredCollision b) = sendCur b /\ nextByteIndex (encounteredCollision b) = nextByteIndex b /\ mTime (encounteredCollision b) = mTime b /\
  bitMask (encounteredCollision b) = bitMask b /\ currentByte (encounteredCollision b) = currentByte b.
Proof. unfold encounteredCollision. destruct (sendAck b =? 0); repeat split. Qed.
Definition before (v : view) : list Z := match on v with Some (false, l) => removelast l | _ => [] end.
Lemma takeOver_inv L v b : inv L v b -> state b = SEND_BITS_OF_BYTE -> exists b1, takeOver (encounteredCollision b) = Some (b1, before v) /\ mTime b1 = mTime b /\ bitMask b1 = bitMask b /\ currentByte b1 = currentByte b /\ parity b1 = true.
Proof.
  intros (x & C & P) S. unfold phase in P. rewrite S in P. destruct P as (_ & _ & P). destruct (collide_form b) as (E1 & E2 & E3 & E4 & E5 & E6). unfold takeOver. fields. rewrite E1. unfold before.
  destruct P as [(_ & A1 & A2 & A3)|(n & _ & (A1 & A2 & A3 & f & F1 & F2 & F3 & F4 & _))].
  - rewrite A1, A3. cbn [negb Z.eqb SB_BUS_ACK]. eexists. split; [reflexivity|]. fields. auto.
  - rewrite A1, E2, E3, F1, A2, F4. change (negb (0 =? 0)) with false. cbv iota. destruct (job_bytes L v b x f C F1) as [Lf _]. rewrite (removelast_firstn f) by (pose proof (size_range f); unfold largest in *; lia).
    eexists. split; [reflexivity|]. fields. auto.
Qed.
Lemma collided_step L c w k q m b v o d : inv L v b -> sending c q m b -> (q <= k < m)%nat -> loses c w k -> edgeOp (clock q (nominal k + d)) o -> -7 <= d <= 32 ->
  exists b1, bstep L b o = Some (b1, [RxBegin (before v)]) /\ state b1 = RECV_BITS_OF_BYTE /\ mTime b1 = BYTE_TIME_INCL_STOP + clock q d - 1 /\ got w (S k) (shifted (- clock q d) b1).
Proof.
  intros Iv (Sb & N & C & M & T & P) Hk (K8 & Ag & B1 & B2) (e & i & -> & _ & Ci & Mi & Sp & Ht & T0) Hd. destruct N as (N1 & N2 & N3). cbn [bstep]. unfold timerInterruptHandler. rewrite Sp, andb_false_r, Sb. unfold sendBits. rewrite Mi, Ht. cbn [negb].
  set (t := clock q (nominal k + d)) in *. assert (Et : t = (69 + d) + (Z.of_nat k - Z.of_nat q) * 104) by (unfold t, clock, nominal; lia). assert (Es : clock q d = t - 104 * (Z.of_nat k + 1)) by (unfold t, clock, nominal; lia). rewrite Es. clearbody t.
  change REFLECTION_IGNORE_DELAY with 3. destruct (Z.ltb_spec t 3) as [|_]; [lia|]. change (BIT_WAIT_TIME - BIT_OFFSET_MIN) with 62. change BIT_TIME with 104. change BIT_OFFSET_MIN with 7.
  assert (Em : t mod 104 = 69 + d) by (rewrite Et, Z.mod_add, Z.mod_small; lia). rewrite Em. destruct (Z.ltb_spec (69 + d) 62); [lia|].
  assert (G : (t <? u32 (mPwm b - 7)) = true). { rewrite P. unfold u32. destruct (Nat.eqb_spec m 9); rewrite Z.mod_small by lia; apply Z.ltb_lt; lia. }
  rewrite G. unfold collided. destruct (takeOver_inv L v b Iv Sb) as (b1 & E & M1 & M2 & M3 & M4). rewrite E, M1, M2, M3, M4, M, C, T, Ht. cbv zeta. change (BIT_OFFSET_MAX - BIT_PULSE_TIME) with (-2). change BIT_TIME with 104.
  assert (Ec : u32 (104 * (Z.of_nat m - Z.of_nat q + 1) - 1 - t + -2) / 104 = Z.of_nat m - Z.of_nat k).
  { unfold u32. rewrite Z.mod_small by lia. rewrite Et. replace (104 * (Z.of_nat m - Z.of_nat q + 1) - 1 - (69 + d + (Z.of_nat k - Z.of_nat q) * 104) + -2) with ((32 - d) + (Z.of_nat m - Z.of_nat k) * 104) by lia. rewrite Z.div_add, Z.div_small; lia. }
  rewrite Ec. destruct (Z.leb_spec 32 (Z.of_nat m - Z.of_nat k + 1)); [lia|]. rewrite shiftr_pw by lia. rewrite land_sofar.
  assert (Eb : sentBits 32 (pw k / 2) (sofar c k) 10 true = (10 - Z.of_nat k, evenOnes w k)).
  { destruct k as [|k]; [change (pw 0 / 2) with 0; reflexivity|]. rewrite pw_half, sentBits_spec by lia. f_equal. rewrite xorb_true_l, negb_involutive. apply evenOnes_ext. intros j Hj. rewrite sofar_bit by lia. apply Ag. lia. }
  rewrite Eb. unfold recvBits. fields. rewrite Mi, Ht. unfold findBit. fields. change BIT_TIME with 104. destruct (Z.leb_spec (t - 104 + 104 - 35) t); [|lia]. cbv zeta. fields. replace (t - 104 + 104) with t by lia. change BIT_WAIT_TIME with 69. replace (Z.to_nat (t - t - 69 + 1)) with 0%nat by lia. cbn [highBits].
  cbn [also option_map fst snd app]. eexists. split; [reflexivity|]. fields. split; [reflexivity|]. split; [change BYTE_TIME_INCL_STOP with 1144; lia|]. unfold got, shifted. fields. rewrite pw_S. split; [reflexivity|]. split; [lia|].
  split; [rewrite (sofar_ext c w k Ag); now apply sofar_zero|]. cbn [evenOnes]. now rewrite B2, xorb_false_r.
Qed.
