(** Decoding and encoding of single bytes. *)
From Verif Require Import Base Bits Bus_Model Bus_Spec Bus_Frame Bus_Inv Bus_Recv Bus_Handle Bus_Handle2 Bus_Send Bus_Steps Bus_Hist Bus_Pos Bus_BitSpec.

(** the receiver after [q] bits of the word *)
Fixpoint evenOnes (w : Z) (q : nat) : bool := match q with O => true | S k => xorb (evenOnes w k) (Z.testbit w (Z.of_nat k)) end.
Definition pw (q : nat) : Z := 2 ^ Z.of_nat q.
Definition sofar (w : Z) (q : nat) : Z := w mod pw q.
Lemma pw_pos q : 0 < pw q.
Proof. unfold pw. apply Z.pow_pos_nonneg; lia. Qed.
Lemma pw_S q : pw (S q) = 2 * pw q.
Proof. unfold pw. rewrite Nat2Z.inj_succ, Z.pow_succ_r; lia. Qed.
Lemma sofar_one w q : Z.testbit w (Z.of_nat q) = true -> Z.lor (sofar w q) (pw q) = sofar w (S q).
Proof.
  intros H. unfold sofar, pw. apply Z.bits_inj'. intros n Hn. rewrite Z.lor_spec.
  rewrite Z.pow2_bits_eqb by lia. destruct (Z.ltb_spec n (Z.of_nat q)).
  - rewrite !Z.mod_pow2_bits_low by lia. destruct (Z.eqb_spec (Z.of_nat q) n); [lia|]. apply orb_false_r.
  - rewrite (Z.mod_pow2_bits_high w (Z.of_nat q)) by lia. cbn [orb]. destruct (Z.eqb_spec (Z.of_nat q) n) as [<-|].
    + rewrite Z.mod_pow2_bits_low by lia. now rewrite H.
    + rewrite Z.mod_pow2_bits_high by lia. reflexivity.
Qed.
Lemma sofar_zero w q : Z.testbit w (Z.of_nat q) = false -> sofar w q = sofar w (S q).
Proof.
  intros H. unfold sofar, pw. apply Z.bits_inj'. intros n Hn. destruct (Z.ltb_spec n (Z.of_nat q)).
  - rewrite !Z.mod_pow2_bits_low by lia. reflexivity.
  - rewrite (Z.mod_pow2_bits_high w (Z.of_nat q)) by lia. destruct (Z.eqb_spec (Z.of_nat q) n) as [<-|].
    + rewrite Z.mod_pow2_bits_low by lia. now rewrite H.
    + rewrite Z.mod_pow2_bits_high by lia. reflexivity.
Qed.
Definition got (w : Z) (q : nat) (b : bus) : Prop := bitMask b = pw q /\ bitTime b = 104 * Z.of_nat q /\ currentByte b = sofar w q /\ parity b = evenOnes w q.
Definition ahead (w : Z) (q : nat) (b : bus) : Prop := bitMask b = pw q /\ bitTime b = 104 * (Z.of_nat q + 1) /\ currentByte b = sofar w q /\ parity b = evenOnes w q.
Definition ones (w : Z) (q k : nat) : Prop := forall j, (q <= j < k)%nat -> Z.testbit w (Z.of_nat j) = true.
Lemma pw_256 q : (q < 9)%nat -> (pw q <=? 0x100) = true.
Proof. intros H. apply Z.leb_le. unfold pw. change 0x100 with (2 ^ 8). apply Z.pow_le_mono_r; lia. Qed.
Lemma highBits_ones w time d : forall n q b, ahead w q b -> (q + d <= 9)%nat -> ones w q (q + d) -> 104 * Z.of_nat (q + d) + 69 <= time -> ((q + d)%nat = 9%nat \/ time < 104 * (Z.of_nat (q + d) + 1) + 69) -> (d <= n)%nat ->
  ahead w (q + d) (highBits n time b).
Proof.
  induction d as [|d IH]; intros n q b A Hq Ho Ht Hs Hn.
  - rewrite Nat.add_0_r in *. destruct n as [|n]; cbn [highBits]; [exact A|]. destruct A as (A1 & A2 & A3 & A4). rewrite A1, A2. change BIT_WAIT_TIME with 69.
    assert (E : (104 * (Z.of_nat q + 1) + 69 <=? time) && (pw q <=? 0x100) = false).
    { destruct Hs as [-> | Hs]; [apply andb_false_r|]. destruct (Z.leb_spec (104 * (Z.of_nat q + 1) + 69) time); [lia|reflexivity]. }
    rewrite E. unfold ahead. auto.
  - destruct n as [|n]; [lia|]. cbn [highBits]. destruct A as (A1 & A2 & A3 & A4). rewrite A1, A2. change BIT_WAIT_TIME with 69. rewrite pw_256 by lia.
    destruct (Z.leb_spec (104 * (Z.of_nat q + 1) + 69) time); [|lia]. cbn [andb]. replace (q + S d)%nat with (S q + d)%nat in * by lia. apply IH; auto; try lia.
    + unfold ahead. fields. rewrite pw_S. split; [reflexivity|]. split; [change BIT_TIME with 104; lia|]. assert (T : Z.testbit w (Z.of_nat q) = true) by (apply Ho; lia). split; [rewrite A3; now apply sofar_one|].
      rewrite A4. cbn [evenOnes]. rewrite T. now rewrite xorb_true_r.
    + intros j Hj. apply Ho. lia.
Qed.
(** an edge for bit [k] *)
Lemma findBit_edge w q k t b : got w q b -> (q <= k <= 8)%nat -> ones w q k -> Z.testbit w (Z.of_nat k) = false -> onTime k t -> got w (S k) (findBit t b).
Proof.
  intros (G1 & G2 & G3 & G4) Hk Ho Z0 [T1 T2]. unfold nominal in *. unfold findBit. rewrite G2. change BIT_TIME with 104. destruct (Z.leb_spec (104 * Z.of_nat q + 104 - 35) t); [|lia]. cbv zeta. fields.
  set (b1 := set_bitTime _ b). set (n := Z.to_nat _). assert (A : ahead w q b1) by (unfold ahead, b1; fields; repeat split; auto; lia).
  assert (X : ahead w k (highBits n t b1)).
  { replace k with (q + (k - q))%nat by lia. apply highBits_ones; auto; try (replace (q + (k - q))%nat with k by lia); auto; try lia; try (right; lia). unfold n. change BIT_WAIT_TIME with 69. lia. }
  destruct X as (X1 & X2 & X3 & X4). unfold got. fields. rewrite X1, X2, X3, X4, pw_S. split; [reflexivity|]. split; [lia|]. split; [now apply sofar_zero|]. cbn [evenOnes]. now rewrite Z0, xorb_false_r.
Qed.
Lemma findBit_end w q b : got w q b -> (q <= 9)%nat -> ones w q 9 -> currentByte (findBit BYTE_TIME_INCL_STOP b) = sofar w 9 /\ parity (findBit BYTE_TIME_INCL_STOP b) = evenOnes w 9.
Proof.
  intros (G1 & G2 & G3 & G4) Hk Ho. unfold findBit. rewrite G2. change BIT_TIME with 104. change BYTE_TIME_INCL_STOP with 1144. destruct (Z.leb_spec (104 * Z.of_nat q + 104 - 35) 1144); [|lia]. cbv zeta. fields.
  set (b1 := set_bitTime _ b). set (n := Z.to_nat _). assert (A : ahead w q b1) by (unfold ahead, b1; fields; repeat split; auto; lia).
  assert (X : ahead w 9 (highBits n 1144 b1)).
  { replace 9%nat with (q + (9 - q))%nat by lia. apply highBits_ones; auto; try (replace (q + (9 - q))%nat with 9%nat by lia); auto; try lia; try (left; lia). unfold n. change BIT_WAIT_TIME with 69. lia. }
  destruct X as (X1 & X2 & X3 & X4). auto.
Qed.
(** the members the bit reader does not touch *)
Definition calm (b b1 : bus) : Prop := exists m t p c, b1 = set_bitMask m (set_bitTime t (set_parity p (set_currentByte c b))).
Lemma calm_trans a b c : calm a b -> calm b c -> calm a c.
Proof. intros (m & t & p & q & ->) (m1 & t1 & p1 & q1 & ->). exists m1, t1, p1, q1. reflexivity. Qed.
Lemma edge_step L o t b : edgeOp t o -> state b = RECV_BITS_OF_BYTE -> bstep L b o = Some (findBit t b, []).
Proof.
  intros (e & i & -> & _ & C & M & Sp & <- & _) S. cbn [bstep]. unfold timerInterruptHandler. rewrite C, Sp, S. rewrite andb_false_r. unfold recvBits. rewrite M. reflexivity.
Qed.
Lemma edges_run L w d : forall q p b ts es, (q + d = 9)%nat -> (p <= q)%nat -> got w p b -> ones w p q -> state b = RECV_BITS_OF_BYTE ->
  Forall2 onTime (filter (fun k => negb (Z.testbit w (Z.of_nat k))) (seq q d)) ts -> Forall2 edgeOp ts es ->
  exists b1 p1, bruns L es b = Some (b1, []) /\ got w p1 b1 /\ (p1 <= 9)%nat /\ ones w p1 9 /\ calm b b1.
Proof.
  induction d as [|d IH]; intros q p b ts es Hq Hp G Ho S F E.
  - inversion F; subst. inversion E; subst. exists b, p. cbn [bruns]. split; [reflexivity|]. split; [exact G|]. split; [lia|]. split; [intros j Hj; apply Ho; lia|]. exists (bitMask b), (bitTime b), (parity b), (currentByte b). destruct b; reflexivity.
  - cbn [seq filter] in F. destruct (Z.testbit w (Z.of_nat q)) eqn:B; cbn [negb] in F.
    + apply (IH (Datatypes.S q) p b ts es); auto; try lia. intros j Hj. destruct (Nat.eq_dec j q) as [->|]; [exact B|]. apply Ho. lia.
    + inversion F as [|? t ? ts1 F1 F2]; subst. inversion E as [|? o ? es1 E1 E2]; subst. pose proof (findBit_edge w p q t b G ltac:(lia) Ho B F1) as G1.
      destruct (findBit_form t b) as (m & t0 & pr & c & Ff).
      destruct (IH (Datatypes.S q) (Datatypes.S q) (findBit t b) ts1 es1 ltac:(lia) ltac:(lia) G1) as (b1 & p1 & R & G2 & P1 & O1 & Cm); auto.
      { intros j Hj. lia. }
      { rewrite Ff. exact S. }
      exists b1, p1. cbn [bruns]. rewrite (edge_step L o t b E1 S), R. split; [reflexivity|]. split; [exact G2|]. split; [exact P1|]. split; [exact O1|]. eapply calm_trans; [|exact Cm]. exists m, t0, pr, c. exact Ff.
Qed.
Lemma word_facts w : is_word w -> Z.land (sofar w 9) 255 = w mod 256 /\ evenOnes w 9 = evenWord w.
Proof.
  intros H. split.
  - unfold sofar, pw. rewrite Z.mod_small by (change (2 ^ Z.of_nat 9) with 512; exact H). apply land_255.
  - unfold evenWord. cbn [seq map fold_left]. cbn [evenOnes]. repeat match goal with |- context [Z.testbit w ?k] => destruct (Z.testbit w k) end; reflexivity.
Qed.
Lemma word_byte c : is_byte c -> is_word (word c) /\ word c mod 256 = c /\ evenWord (word c) = true.
Proof.
  intros H. assert (X : forall c, is_byte c -> ((0 <=? word c) && (word c <? 512) && (word c mod 256 =? c) && evenWord (word c)) = true) by (apply byte_forall; vm_compute; reflexivity).
  specialize (X c H). rewrite !andb_true_iff in X. destruct X as [[[X1 X2] X3] X4]. apply Z.leb_le in X1. apply Z.ltb_lt in X2. apply Z.eqb_eq in X3. unfold is_word. auto.
Qed.
Lemma edge_legal t o b : edgeOp t o -> state b = RECV_BITS_OF_BYTE \/ state b = RECV_WAIT_FOR_STARTBIT_OR_TELEND \/ listening b -> legal b o.
Proof.
  intros (e & i & -> & Ev & C & M & Sp & <- & T) S. cbn [legal]. rewrite C. split; [reflexivity|]. split; [exact T|]. split; [exact Ev|].
  intros X. exfalso. unfold listening in S. destruct S as [S|[S|[S|[S|[S|S]]]]]; rewrite S in X; destruct X as [X|[X|X]]; discriminate.
Qed.
Lemma quiet_legal o b : quiet o -> state b = RECV_BITS_OF_BYTE -> legal b o.
Proof.
  intros (e & i & -> & Ev & M & C & Sp) S. cbn [legal]. rewrite C, Sp. split; [reflexivity|]. split; [exact M|]. split; [exact Ev|]. intros _ X. discriminate.
Qed.
Lemma edges_legal L : forall ts es b, Forall2 edgeOp ts es -> state b = RECV_BITS_OF_BYTE -> legal_run L es b.
Proof.
  induction ts as [|t ts IH]; intros es b F S; inversion F as [|? o ? es1 F1 F2]; subst; cbn [legal_run]; [exact I|]. split; [apply (edge_legal t); auto|].
  intros b1 out E. rewrite (edge_step L o t b F1 S) in E. apply (IH es1); [exact F2|]. destruct (findBit_form t b) as (m & t0 & pr & c & Ff). assert (b1 = findBit t b) by congruence. subst b1. rewrite Ff. exact S.
Qed.
Lemma legal_run_app L l1 l2 b : legal_run L l1 b -> (forall b1 os, bruns L l1 b = Some (b1, os) -> legal_run L l2 b1) -> legal_run L (l1 ++ l2) b.
Proof.
  revert b. induction l1 as [|o r IH]; intros b H1 H2; cbn [app]; [apply (H2 b []); reflexivity|]. cbn [legal_run] in *. destruct H1 as [Lg H1]. split; [exact Lg|]. intros b1 out E. apply IH; [apply (H1 b1 out E)|].
  intros b2 os R. apply (H2 b2 (out ++ os)). cbn [bruns]. rewrite E, R. reflexivity.
Qed.
Lemma bruns_app L l1 l2 b b1 os : bruns L l1 b = Some (b1, os) -> bruns L (l1 ++ l2) b = also os (bruns L l2 b1).
Proof.
  revert b os. induction l1 as [|o r IH]; intros b os R; cbn [app bruns] in *.
  - inversion R; subst. destruct (bruns L l2 b1) as [[b2 o2]|]; reflexivity.
  - destruct (bstep L b o) as [[b2 o2]|]; [|discriminate]. destruct (bruns L r b2) as [[b3 o3]|] eqn:R3; cbn [also option_map fst snd] in R; [|discriminate]. assert (b3 = b1 /\ o2 ++ o3 = os) as [-> <-] by (split; congruence).
    rewrite (IH b2 o3 R3). destruct (bruns L l2 b1) as [[b4 o4]|]; cbn [also option_map fst snd]; [rewrite app_assoc|]; reflexivity.
Qed.
(** one byte, the start bit having been taken *)
Lemma rest_run L w ts es x b : is_word w -> state b = RECV_BITS_OF_BYTE -> mTime b = BYTE_TIME_INCL_STOP - 1 -> got w 0 b -> Forall2 edgeOp ts es -> encodes w ts -> quiet x ->
  legal_run L (es ++ [x]) b /\ exists b1, bruns L (es ++ [x]) b = Some (b1, [RxByte (w mod 256) (evenWord w)]) /\ state b1 = RECV_WAIT_FOR_STARTBIT_OR_TELEND.
Proof.
  intros W S Mt G Es En Q. destruct (word_facts w W) as [W1 W2].
  destruct (edges_run L w 9 0 0 b ts es eq_refl (le_n _) G ltac:(intros j Hj; lia) S En Es) as (b1 & p1 & R & G1 & P1 & O1 & (m & t & pr & c & Cm)).
  assert (S1 : state b1 = RECV_BITS_OF_BYTE) by (rewrite Cm; exact S). split.
  - apply legal_run_app; [apply (edges_legal L ts); auto|]. intros b2 os R2. assert (b2 = b1) by congruence. subst b2. cbn [legal_run]. split; [apply quiet_legal; auto|]. intros; exact I.
  - rewrite (bruns_app L es [x] b b1 [] R). destruct Q as (e & i & -> & _ & _ & C & M). cbn [bruns bstep]. unfold timerInterruptHandler. rewrite C, S1. cbn [andb]. unfold recvBits. rewrite M.
    replace (mTime b1 + 1) with BYTE_TIME_INCL_STOP by (rewrite Cm; fields; rewrite Mt; reflexivity). destruct (findBit_end w p1 b1 G1 P1 O1) as [F1 F2].
    unfold endOfByte. cbv zeta. rewrite F1, W1. cbn [also option_map fst snd app]. 
    match goal with |- exists b2, Some (?a, [RxByte _ (parity ?z)]) = _ /\ _ => exists a; assert (Y : parity z = evenWord w) end.
    { change (parity (set_valid ?q ?z)) with (parity z). destruct (_ <? _)%nat; fields; congruence. }
    rewrite Y. split; reflexivity.
Qed.
Definition started (b b1 : bus) : Prop := state b1 = RECV_BITS_OF_BYTE /\ mTime b1 = BYTE_TIME_INCL_STOP - 1 /\ bitMask b1 = 1 /\ bitTime b1 = 0 /\ currentByte b1 = 0 /\ parity b1 = true.
Lemma started_got w b b1 : started b b1 -> got w 0 b1.
Proof. intros (S1 & S2 & S3 & S4 & S5 & S6). unfold got. split; [exact S3|]. split; [exact S4|]. split; [|exact S6]. rewrite S5. unfold sofar, pw. cbn [Z.of_nat]. rewrite Z.pow_0_r, Z.mod_1_r. reflexivity. Qed.
Lemma start_next L t o b : edgeOp t o -> state b = RECV_WAIT_FOR_STARTBIT_OR_TELEND -> exists b1, bstep L b o = Some (b1, []) /\ started b b1.
Proof.
  intros (e & i & -> & _ & C & M & Sp & _ & _) S. cbn [bstep]. unfold timerInterruptHandler. rewrite Sp, andb_false_r, S. unfold recvWait. rewrite C. cbn [negb]. eexists. split; [reflexivity|]. unfold started. fields. auto 10.
Qed.
Lemma start_first L t o b : edgeOp t o -> listening b -> exists b1, bstep L b o = Some (b1, [RxBegin []]) /\ started b b1.
Proof.
  intros (e & i & -> & _ & C & M & Sp & _ & _) S. cbn [bstep]. unfold timerInterruptHandler. rewrite Sp, andb_false_r.
  destruct S as [S|[S|[S|S]]]; rewrite S; unfold wait50, recvAckStart, waitForAck, initRx, recvWait; rewrite C; cbn [negb also option_map fst snd app]; (eexists; split; [reflexivity|]; unfold started; fields; auto 10).
Qed.
Definition rxWord (w : Z) : bout := RxByte (w mod 256) (evenWord w).
Lemma word_next L w ops b : is_word w -> byteOps w ops -> state b = RECV_WAIT_FOR_STARTBIT_OR_TELEND ->
  legal_run L ops b /\ exists b1, bruns L ops b = Some (b1, [rxWord w]) /\ state b1 = RECV_WAIT_FOR_STARTBIT_OR_TELEND.
Proof.
  intros W (s & t & es & ts & x & -> & E0 & E & En & Q) S. destruct (start_next L t s b E0 S) as (b1 & B1 & St). destruct (rest_run L w ts es x b1 W (proj1 St) (proj1 (proj2 St)) (started_got w b b1 St) E En Q) as (Lg & b2 & R & S2).
  split.
  - cbn [legal_run]. split; [apply (edge_legal t); auto|]. intros b3 out B3. assert (b3 = b1) by congruence. subst b3. exact Lg.
  - exists b2. cbn [bruns]. rewrite B1, R. auto.
Qed.
Lemma word_first L w ops b : is_word w -> byteOps w ops -> listening b ->
  legal_run L ops b /\ exists b1, bruns L ops b = Some (b1, [RxBegin []; rxWord w]) /\ state b1 = RECV_WAIT_FOR_STARTBIT_OR_TELEND.
Proof.
  intros W (s & t & es & ts & x & -> & E0 & E & En & Q) S. destruct (start_first L t s b E0 S) as (b1 & B1 & St). destruct (rest_run L w ts es x b1 W (proj1 St) (proj1 (proj2 St)) (started_got w b b1 St) E En Q) as (Lg & b2 & R & S2).
  split.
  - cbn [legal_run]. split; [apply (edge_legal t); auto|]. intros b3 out B3. assert (b3 = b1) by congruence. subst b3. exact Lg.
  - exists b2. cbn [bruns]. rewrite B1, R. auto.
Qed.
Lemma words_next L ws : forall ops b, Forall is_word ws -> wordsOps ws ops -> state b = RECV_WAIT_FOR_STARTBIT_OR_TELEND ->
  legal_run L ops b /\ exists b1, bruns L ops b = Some (b1, map rxWord ws) /\ state b1 = RECV_WAIT_FOR_STARTBIT_OR_TELEND.
Proof.
  induction ws as [|w ws IH]; intros ops b F (ls & Fl & ->) S.
  - inversion Fl; subst. cbn [concat legal_run bruns map]. split; [exact I|]. exists b. auto.
  - inversion Fl as [|? l ? ls1 F1 F2]; subst. inversion F; subst. cbn [concat map]. destruct (word_next L w l b) as (Lg & b1 & R & S1); auto. destruct (IH (concat ls1) b1) as (Lg2 & b2 & R2 & S2); [assumption|exists ls1; auto|exact S1|].
    split.
    + apply legal_run_app; [exact Lg|]. intros b3 os R3. assert (b3 = b1) by congruence. subst b3. exact Lg2.
    + exists b2. rewrite (bruns_app L l _ b b1 _ R), R2. auto.
Qed.
Lemma words_first L w ws ops b : Forall is_word (w :: ws) -> wordsOps (w :: ws) ops -> listening b ->
  legal_run L ops b /\ exists b1, bruns L ops b = Some (b1, RxBegin [] :: map rxWord (w :: ws)) /\ state b1 = RECV_WAIT_FOR_STARTBIT_OR_TELEND.
Proof.
  intros F (ls & Fl & ->) S. inversion Fl as [|? l ? ls1 F1 F2]; subst. inversion F; subst. cbn [concat map]. destruct (word_first L w l b) as (Lg & b1 & R & S1); auto.
  destruct (words_next L ws (concat ls1) b1) as (Lg2 & b2 & R2 & S2); [assumption|exists ls1; auto|exact S1|].
  split.
  - apply legal_run_app; [exact Lg|]. intros b3 os R3. assert (b3 = b1) by congruence. subst b3. exact Lg2.
  - exists b2. rewrite (bruns_app L l _ b b1 _ R), R2. auto.
Qed.
Lemma after_app L junk l l2 b v b1 os : after L junk l b v -> legal_run L l2 b -> bruns L l2 b = Some (b1, os) -> after L junk (l ++ l2) b1 (sees v os).
Proof.
  intros (Lg & os0 & R & ->) Lg2 R2. split.
  - apply legal_run_app; [exact Lg|]. intros b3 os3 R3. assert (b3 = b) by congruence. subst b3. exact Lg2.
  - exists (os0 ++ os). rewrite (bruns_app L l l2 _ b os0 R), R2. split; [reflexivity|]. symmetry. apply sees_app.
Qed.
Lemma sees_words ws : forall v, let v1 := sees v (map rxWord ws) in heard v1 = heard v ++ map (fun w => w mod 256) ws /\ sound v1 = sound v && forallb evenWord ws /\ held v1 = held v /\ latest v1 = latest v.
Proof.
  induction ws as [|w ws IH]; intros v; cbn [map sees fold_left forallb]; [rewrite app_nil_r, andb_true_r; auto|]. destruct (IH (see v (rxWord w))) as (H1 & H2 & H3 & H4). unfold sees in *. rewrite H1, H2, H3, H4.
  cbn [see rxWord heard sound held latest]. rewrite <- app_assoc, andb_assoc. auto.
Qed.
