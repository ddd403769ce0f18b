(** C98: transfers on the I2C bus *)
From Verif Require Import Base Bits I2c_Model I2c_Spec I2c_Proofs.

(** Every transfer of at least one byte comes to an end, whatever the others on the bus do: what is seen on the lines is a transfer as the bus prescribes it, with the bytes of the caller in order, the bytes read are exactly those the others supplied,
    the status says how it ended, and no memory outside the buffers is used *)
Theorem C98_transfer {S} (w : bus S) h a tx n size st : idle h -> 0 <= a < 128 -> tx <> [] \/ (0 < n)%nat -> (n <= size)%nat ->
  exists tr o k l h' x, MasterTransfer w h (mkXfer a tx (Z.of_nat (length tx)) [] size (Z.of_nat n) st) = Done (h', x) /\
  log h' = log h ++ tr /\ plays w (world h) tr (world h') /\ transfer a tx n tr o k l /\ idle h' /\
  xstatus x = outcome o /\ txSz x = Z.of_nat (length tx) - Z.of_nat k /\ rxSz x = Z.of_nat n - Z.of_nat (length l) /\ rxBuff x = l.
Proof.
  intros I A NZ R. destruct (transfer_ok w h a tx [] [] size n st I A NZ R) as (tr & o & k & l & h' & E & L & P & T & I' & K). rewrite !app_nil_r in E. exists tr, o, k, l, h'. eexists. split; [exact E|]. split; [exact L|]. split; [exact P|]. split; [exact T|]. split; [exact I'|]. cbn. repeat split; lia.
Qed.
Print Assumptions C98_transfer.

(** An example: a device at address 0x50 with a bank of registers; the first byte written is the number of a register *)
Record bank := mkBank { regs : list Z; ptr : nat; first : bool }.
Definition next (b : bank) : nat := (ptr b + 1) mod length (regs b).
Definition device (addr : Z) : bus bank := mkBus bank
  (fun b => mkBank (regs b) (ptr b) true) (fun b a _ => (b, if a =? addr then Ack else Nak))
  (fun b v => ((if first b then mkBank (regs b) (Z.to_nat v mod length (regs b)) false else mkBank (wr (regs b) (ptr b) v) (next b) false), Ack))
  (fun b _ => (mkBank (regs b) (next b) (first b), Byte (rd (regs b) (ptr b)))) (fun b => b).
Definition off {S} (s : S) : hw S := mkHw false false false false false 0xF8 0 s [].
Definition bank0 : bank := mkBank [10; 20; 30; 40; 50] 0 false.
Definition seen {S} (r : res (hw S * Z * list Z)) : res (Z * list Z * list ev) := match r with Done (h, z, l) => Done (z, l, log h) | Fault => Fault | Hang => Hang end.
Definition told {S} (r : res (hw S * Z)) : res (Z * list ev) := match r with Done (h, z) => Done (z, log h) | Fault => Fault | Hang => Hang end.
Example C98_transfer_example : idle (off bank0) /\ 0 <= 0x50 < 128 /\ [3] <> [] /\ (4 <= 4)%nat /\
  seen (MasterWriteRead (device 0x50) 1 (off bank0) 0x50 [3] 4 1 4) = Done (4, [40; 50; 10; 20], [Start; Addr 0x50 false Ack; Wr 3 Ack; Start; Addr 0x50 true Ack; Rd 40 true; Rd 50 true; Rd 10 true; Rd 20 false; Stop]) /\
  seen (MasterWriteRead (device 0x50) 1 (off bank0) 0x51 [3] 4 1 4) = Done (0, [], [Start; Addr 0x51 false Nak; Stop]).
Proof. split; [left; reflexivity|]. split; [lia|]. split; [discriminate|]. split; [lia|]. split; reflexivity. Qed.

(** ** The calls *)
(** losing the bus to another master *)
Definition only_at_start {S} (w : bus S) (tx : list Z) : Prop := (forall s a, tx <> [] -> snd (select w s a true) <> Lost) /\ (forall s b, snd (accept w s b) <> Lost) /\ (forall s k, snd (supply w s k) <> Trouble true).
Lemma plays_inv {S} (w : bus S) tr1 e tr2 s s' : plays w s (tr1 ++ e :: tr2) s' -> exists s1, plays w s1 (e :: tr2) s'.
Proof.
  revert s. induction tr1 as [|x tr1 IH]; intros s P; [exists s; exact P|]. cbn [app plays] in P. destruct x; [exact (IH _ P)| | | | |exact (IH _ P)].
  - destruct P as (t & _ & P). exact (IH _ P).
  - destruct P as (t & _ & P). exact (IH _ P).
  - destruct P as (t & b0 & _ & _ & P). exact (IH _ P).
  - destruct P as (t & _ & P). exact (IH _ P).
Qed.
Lemma lost_where {S} (w : bus S) a tx n tr k l s s' : only_at_start w tx -> transfer a tx n tr Lost k l -> plays w s tr s' -> tr = [Start; Addr a (match tx with [] => true | _ => false end) Lost] /\ k = 0%nat /\ l = [].
Proof.
  intros (S1 & S2 & S3) T P. assert (R : forall tr2 l2 tr0, receiving a n tr2 Lost l2 -> forall s0 s2, plays w s0 (tr0 ++ tr2) s2 -> tx <> [] -> False).
  { intros tr2 l2 tr0 RC s0 s2 PL NE. inversion RC as [o NO Q1 Q2 Q3|l0 lost L0 Q1 Q2 Q3|]; subst.
    - apply plays_inv in PL. destruct PL as (s1 & t & PL & _). apply (S1 (start w s1) a NE). rewrite PL. reflexivity.
    - destruct lost; [|discriminate]. rewrite !app_assoc in PL. apply plays_inv in PL. destruct PL as (s1 & t & PL & _). apply (S3 s1 (Datatypes.S (length l2) <? n)%nat). rewrite PL. reflexivity. }
  inversion T as [tr0 o l0 TX N RC Q1 Q2 Q3 Q4|tr0 o k0 TX N SD Q1 Q2 Q3 Q4|tr1 tr2 o k0 l0 TX N SD RC Q1 Q2 Q3 Q4]; subst; cbn [ending] in *.
  - rewrite app_nil_r in *. inversion RC as [o NO Q1 Q2 Q3|l0 lost L0 Q1 Q2 Q3|]; subst; [auto|]. destruct lost; [|discriminate]. rewrite app_assoc in P. apply plays_inv in P. destruct P as (s1 & t & P & _). exfalso. apply (S3 s1 (Datatypes.S (length l) <? n)%nat). rewrite P. reflexivity.
  - rewrite app_nil_r in *. inversion SD as [o NO Q1 Q2 Q3|l0 b r o TE NO Q1 Q2 Q3|]; subst; [destruct tx; [destruct (TX eq_refl)|auto]|]. rewrite app_assoc in P. apply plays_inv in P. destruct P as (s1 & t & P & _). exfalso. apply (S2 s1 b). rewrite P. reflexivity.
  - rewrite app_nil_r in *. exfalso. exact (R tr2 l tr1 RC _ _ P TX).
Qed.
Lemma attempts {S} (w : bus S) a tx e size n m : only_at_start w tx -> 0 <= a < 128 -> tx <> [] \/ (0 < n)%nat -> (n <= size)%nat -> forall h st, idle h ->
  untilWon w m h (mkXfer a (tx ++ e) (Z.of_nat (length tx)) [] size (Z.of_nat n) st) = Hang \/
  exists j tr o k l h' x, o <> Lost /\ untilWon w m h (mkXfer a (tx ++ e) (Z.of_nat (length tx)) [] size (Z.of_nat n) st) = Done (h', x) /\ xstatus x = outcome o /\ txSz x = Z.of_nat (length tx) - Z.of_nat k /\ rxSz x = Z.of_nat n - Z.of_nat (length l) /\ rxBuff x = l /\
    (j < m)%nat /\ log h' = log h ++ concat (repeat [Start; Addr a (match tx with [] => true | _ => false end) Lost] j) ++ tr /\ plays w (world h) (concat (repeat [Start; Addr a (match tx with [] => true | _ => false end) Lost] j) ++ tr) (world h') /\ transfer a tx n tr o k l /\ idle h'.
Proof.
  intros ST A NZ R. induction m as [|m IH]; intros h st I; [left; reflexivity|]. cbn [untilWon]. destruct (transfer_ok w h a tx e [] size n st I A NZ R) as (tr & o & k & l & h' & E & L & P & T & I' & K). rewrite E. cbn [xstatus].
  assert (D : o = Lost \/ o <> Lost) by (destruct o; (left; reflexivity) || (right; discriminate)). destruct D as [-> |NL].
  - destruct (lost_where w a tx n tr k l _ _ ST T P) as (-> & -> & ->). cbn [outcome skipn length]. rewrite !Nat.sub_0_r, Z.sub_0_r, app_nil_r. destruct (IH h' ARBLOST I') as [H|(j & tr & o & k & l & h2 & x & NO & H1 & H2 & H3 & H4 & H5 & H6 & H7 & H8 & H9 & H10)]; [left; exact H|].
    right. exists (Datatypes.S j), tr, o, k, l, h2, x. split; [exact NO|]. split; [exact H1|]. do 4 (split; [assumption|]). split; [lia|]. cbn [repeat concat]. split; [rewrite H7, L, <- !app_assoc; reflexivity|]. split; [rewrite <- app_assoc; apply (plays_app _ _ _ _ _ _ P H8)|]. auto.
  - right. exists 0%nat, tr, o, k, l, h'. eexists. split; [exact NL|]. split; [destruct o; [reflexivity|reflexivity|destruct (NL eq_refl)|reflexivity]|]. cbn [xstatus txSz rxSz rxBuff repeat concat app]. split; [reflexivity|]. split; [lia|]. split; [reflexivity|]. split; [reflexivity|]. split; [lia|]. auto.
Qed.
(** Sending: if other masters win the bus at most at the address, the whole transfer is repeated until the bus is won; the device gets the bytes of the caller in order, and the number of bytes put on the bus is returned *)
Theorem C98_send_partial {S} (w : bus S) m h a buff len : only_at_start w (firstn (Z.to_nat len) buff) -> idle h -> 0 <= a < 128 -> 0 < len <= 255 -> len <= Z.of_nat (length buff) ->
  MasterSend w m h a buff len = Hang \/
  exists j tr o k h', o <> Lost /\ MasterSend w m h a buff len = Done (h', Z.of_nat k) /\ (j < m)%nat /\ log h' = log h ++ concat (repeat [Start; Addr a false Lost] j) ++ tr /\
    plays w (world h) (concat (repeat [Start; Addr a false Lost] j) ++ tr) (world h') /\ transfer a (firstn (Z.to_nat len) buff) 0 tr o k [] /\ idle h'.
Proof.
  intros ST I A L LB. unfold MasterSend. set (tx := firstn (Z.to_nat len) buff) in *. assert (TL : Z.of_nat (length tx) = len) by (unfold tx; rewrite firstn_length; lia). assert (TN : tx <> []) by (intros E; rewrite E in TL; cbn in TL; lia). assert (BE : buff = tx ++ skipn (Z.to_nat len) buff) by (unfold tx; symmetry; apply firstn_skipn).
  pose proof (attempts w a tx (skipn (Z.to_nat len) buff) 0 0 m ST A (or_introl TN) (le_n 0) h DONE I) as H. rewrite <- BE, TL in H. change (Z.of_nat 0) with 0 in H. destruct H as [-> |(j & tr & o & k & l & h' & x & NO & -> & H2 & H3 & H4 & H5 & H6 & H7 & H8 & H9 & H10)]; [left; reflexivity|].
  right. exists j, tr, o, k, h'. split; [exact NO|]. split; [do 2 f_equal; lia|]. replace (match tx with [] => true | _ => false end) with false in * by (clear - TN; destruct tx; [destruct (TN eq_refl)|reflexivity]). assert (l = []) as ->; [|auto 10]. clear - H9 TN. clearbody tx. inversion H9 as [tr0 o0 l0 TX N RC|tr0 o0 k0 TX N SD|tr1 tr2 o0 k0 l0 TX N SD RC]; [destruct (TN TX)|reflexivity|lia].
Qed.
Print Assumptions C98_send_partial.
(** Reading, with or without bytes sent before: likewise; returned and stored are exactly the bytes that were supplied *)
Theorem C98_read_partial {S} (w : bus S) m h a cmd size n : only_at_start w cmd -> idle h -> 0 <= a < 128 -> (0 < n <= size)%nat ->
  let called := match cmd with [] => MasterRead w m h a size (Z.of_nat n) | [c] => MasterCmdRead w m h a c size (Z.of_nat n) | _ => MasterWriteRead w m h a cmd size (Z.of_nat (length cmd)) (Z.of_nat n) end in
  let lost := Addr a (match cmd with [] => true | _ => false end) Lost in
  called = Hang \/
  exists j tr o k l h', o <> Lost /\ called = Done (h', Z.of_nat (length l), l) /\ (length l <= n)%nat /\ (o = Ack <-> length l = n) /\ (j < m)%nat /\ log h' = log h ++ concat (repeat [Start; lost] j) ++ tr /\
    plays w (world h) (concat (repeat [Start; lost] j) ++ tr) (world h') /\ transfer a cmd n tr o k l /\ idle h'.
Proof.
  intros ST I A N. cbv zeta. assert (E : match cmd with [] => MasterRead w m h a size (Z.of_nat n) | [c] => MasterCmdRead w m h a c size (Z.of_nat n) | _ => MasterWriteRead w m h a cmd size (Z.of_nat (length cmd)) (Z.of_nat n) end = MasterWriteRead w m h a cmd size (Z.of_nat (length cmd)) (Z.of_nat n)) by (destruct cmd as [|c [|c2 r]]; reflexivity).
  rewrite E. unfold MasterWriteRead. pose proof (attempts w a cmd [] size n m ST A (or_intror (proj1 N)) (proj2 N) h DONE I) as H. rewrite app_nil_r in H. destruct H as [-> |(j & tr & o & k & l & h' & x & NO & -> & H2 & H3 & H4 & H5 & H6 & H7 & H8 & H9 & H10)]; [left; reflexivity|].
  right. exists j, tr, o, k, l, h'. split; [exact NO|]. split; [rewrite H5; do 3 f_equal; lia|].
  assert (RL : forall t o l, receiving a n t o l -> (length l <= n)%nat /\ (o = Ack <-> length l = n)). { clear - N. intros t o l RC. inversion RC as [o' NO|l0 lost L0|l0 b L0]; subst; [split; [cbn; lia|split; [intros ->; destruct (NO eq_refl)|cbn; lia]]|split; [lia|split; [destruct lost; discriminate|lia]]|]. rewrite app_length. cbn [length]. split; [lia|]. split; [intros; lia|reflexivity]. }
  assert (LL : (length l <= n)%nat /\ (o = Ack <-> length l = n)). { inversion H9; subst; [eapply RL; eassumption| |eapply RL; eassumption]. split; [cbn; lia|]. split; [intros ->; intuition lia|cbn; lia]. }
  destruct LL as (L1 & L2). auto 10.
Qed.
Print Assumptions C98_read_partial.
(** another master wins the bus [n] times when the device is addressed for writing *)
Definition contended (addr : Z) : bus (nat * bank) := mkBus (nat * bank)
  (fun s => (fst s, start (device addr) (snd s))) (fun s a r => match fst s, r with Datatypes.S n, false => ((n, snd s), Lost) | _, _ => let p := select (device addr) (snd s) a r in ((fst s, fst p), snd p) end)
  (fun s v => let p := accept (device addr) (snd s) v in ((fst s, fst p), snd p)) (fun s k => let p := supply (device addr) (snd s) k in ((fst s, fst p), snd p)) (fun s => s).
Example C98_send_example : only_at_start (contended 0x50) [3; 7; 8] /\ idle (off (2%nat, bank0)) /\ 0 <= 0x50 < 128 /\ 0 < 3 <= 255 /\ 3 <= Z.of_nat (length [3; 7; 8; 9]) /\ firstn (Z.to_nat 3) [3; 7; 8; 9] = [3; 7; 8] /\
  told (MasterSend (contended 0x50) 5 (off (2%nat, bank0)) 0x50 [3; 7; 8; 9] 3) = Done (3, [Start; Addr 0x50 false Lost; Start; Addr 0x50 false Lost; Start; Addr 0x50 false Ack; Wr 3 Ack; Wr 7 Ack; Wr 8 Ack; Stop]).
Proof. split; [split; [intros [n s] a _; cbn; destruct n; cbn; destruct (a =? 80); discriminate|split; [intros [n s] b; cbn; discriminate|intros [n s] k; cbn; discriminate]]|]. split; [left; reflexivity|]. repeat split; try (cbn; lia). Qed.
Example C98_read_example : only_at_start (contended 0x50) [1] /\ idle (off (1%nat, bank0)) /\ (0 < 2 <= 2)%nat /\
  seen (MasterCmdRead (contended 0x50) 2 (off (1%nat, bank0)) 0x50 1 2 2) = Done (2, [20; 30], [Start; Addr 0x50 false Lost; Start; Addr 0x50 false Ack; Wr 1 Ack; Start; Addr 0x50 true Ack; Rd 20 true; Rd 30 false; Stop]).
Proof. split; [split; [intros [n s] a _; cbn; destruct n; cbn; destruct (a =? 80); discriminate|split; [intros [n s] b; cbn; discriminate|intros [n s] k; cbn; discriminate]]|]. split; [left; reflexivity|]. split; [lia|reflexivity]. Qed.

(** ** A device with registers *)
Lemma dev_read a tr s' l : forall b, (0 < length (regs b))%nat -> (ptr b < length (regs b))%nat -> Forall is_byte (regs b) -> plays (device a) b (map (fun v => Rd v true) l ++ tr) s' ->
  l = map (fun i => rd (regs b) ((ptr b + i) mod length (regs b))) (seq 0 (length l)) /\ plays (device a) (mkBank (regs b) ((ptr b + length l) mod length (regs b)) (first b)) tr s'.
Proof.
  induction l as [|v l IH]; intros b N0 PT FB P.
  - split; [reflexivity|]. cbn [length]. rewrite Nat.add_0_r, Nat.mod_small by exact PT. destruct b; exact P.
  - cbn [map app plays] in P. destruct P as (s1 & b0 & E & -> & P). cbn [supply device] in E. injection E as <- <-.
    assert (PN : (next b < length (regs b))%nat) by (apply Nat.mod_upper_bound; lia). destruct (IH (mkBank (regs b) (next b) (first b)) N0 PN FB P) as (L & P2). cbn [regs ptr first] in *.
    assert (EB : rd (regs b) (ptr b) mod 256 = rd (regs b) (ptr b)) by (apply Z.mod_small; unfold rd; rewrite Forall_forall in FB; apply FB, nth_In; exact PT).
    assert (SH : forall i, ((next b + i) mod length (regs b) = (ptr b + Datatypes.S i) mod length (regs b))%nat) by (intros i; unfold next; rewrite Nat.add_mod_idemp_l by lia; f_equal; lia).
    split.
    + cbn [length seq map]. rewrite Nat.add_0_r, (Nat.mod_small (ptr b)) by exact PT. rewrite EB. f_equal. rewrite L at 1. rewrite <- seq_shift, map_map. apply map_ext. intros i. rewrite SH. reflexivity.
    + cbn [length]. rewrite <- SH. exact P2.
Qed.
(** Reading [n] bytes after the number of a register: the contents of that and the following registers *)
Theorem C98_registers_read a b h r size n : 0 <= a < 128 -> idle h -> world h = b -> (0 < length (regs b))%nat -> Forall is_byte (regs b) -> (0 < n <= size)%nat ->
  exists h', MasterCmdRead (device a) 1 h a r size (Z.of_nat n) = Done (h', Z.of_nat n, map (fun i => rd (regs b) ((Z.to_nat r + i) mod length (regs b))) (seq 0 n)) /\ regs (world h') = regs b /\ idle h'.
Proof.
  intros A I W N0 FB N. assert (AL : only_at_start (device a) [r]) by (split; [intros s a' _; cbn; destruct (a' =? a); discriminate|split; intros; cbn; discriminate]).
  destruct (transfer_ok (device a) h a [r] [] [] size n DONE I A ltac:(left; discriminate) (proj2 N)) as (tr & o & k & l & h' & E & _ & P & T & I' & _). unfold MasterCmdRead, MasterWriteRead. cbn [untilWon]. change (Z.of_nat (length [r])) with 1 in E. cbn [app] in E. rewrite E. cbn [xstatus rxSz rxBuff]. clear E. rewrite W in P.
  inversion T as [tr0 o0 l0 TX|tr0 o0 k0 TX NO SD|tr1 tr2 o0 k0 l0 TX NP SD RC]; subst; [discriminate| |].
  - exfalso. inversion SD as [o1 NA|l1 b1 r1 o1 TE NA|]; subst.
    + destruct P as (s1 & E & _). cbn in E. rewrite Z.eqb_refl in E. injection E as _ <-. destruct (NA eq_refl).
    + rewrite <- !app_assoc in P. apply plays_inv with (tr1 := [Start; Addr a false Ack] ++ map (fun c => Wr c Ack) l1) (e := Wr b1 o) in P. destruct P as (s1 & s2 & E & _). cbn in E. injection E as _ <-. destruct (NA eq_refl).
    + destruct NO as [NO|NO]; [destruct (NO eq_refl)|lia].
  - inversion SD as [o1 NA|l1 b1 r1 o1 TE NA|]; subst; [destruct (NA eq_refl)|destruct (NA eq_refl)|]. cbn [app map plays] in P. destruct P as (s1 & E1 & s2 & E2 & P). cbn in E1. rewrite Z.eqb_refl in E1. injection E1 as <-. cbn in E2. injection E2 as <-.
    inversion RC as [o1 NA|l1 lost L1|l1 b1 L1]; subst.
    + exfalso. cbn [app plays] in P. destruct P as (s1 & E & _). cbn in E. rewrite Z.eqb_refl in E. injection E as _ <-. destruct (NA eq_refl).
    + exfalso. rewrite <- !app_assoc in P. cbn [app plays] in P. destruct P as (s1 & E & P). apply plays_inv with (e := RdTrouble (Datatypes.S (length l) <? n)%nat lost) in P. destruct P as (s3 & s2 & Q & _). discriminate Q.
    + rewrite <- !app_assoc in P. cbn [app plays] in P. destruct P as (s1 & E & P). cbn in E. rewrite Z.eqb_refl in E. injection E as <-. set (p0 := (Z.to_nat r mod length (regs (world h)))%nat) in *. assert (PT : (p0 < length (regs (world h)))%nat) by (apply Nat.mod_upper_bound; lia).
      apply (dev_read a _ _ l1 (mkBank (regs (world h)) p0 true) N0 PT FB) in P. cbn [regs ptr first] in P. destruct P as (L & s3 & b0 & E & EB & P). cbn [supply device] in E. injection E as <- <-. cbn [plays] in P.
      assert (SH : forall i, ((p0 + i) mod length (regs (world h)) = (Z.to_nat r + i) mod length (regs (world h)))%nat) by (intros i; unfold p0; apply Nat.add_mod_idemp_l; lia).
      exists h'. split; [|split; [rewrite P; reflexivity|exact I']]. cbn [outcome]. rewrite app_length. cbn [length]. rewrite Nat.add_1_r. cbv beta iota delta [rxSz rxBuff xstatus]. match goal with |- Done (h', ?u, _) = Done (h', ?v, _) => replace u with v by (clear; lia) end. f_equal. f_equal. rewrite seq_S, map_app. cbn [map app plus]. f_equal.
      * rewrite L at 1. apply map_ext. intros i. rewrite SH. reflexivity.
      * f_equal. rewrite EB, <- SH. cbn [regs ptr]. apply Z.mod_small. unfold rd. rewrite Forall_forall in FB. apply FB, nth_In, Nat.mod_upper_bound. lia.
Qed.
Print Assumptions C98_registers_read.
Example C98_registers_read_example : 0 <= 0x50 < 128 /\ idle (off bank0) /\ (0 < length (regs bank0))%nat /\ Forall is_byte (regs bank0) /\ (0 < 3 <= 3)%nat /\ match MasterCmdRead (device 0x50) 1 (off bank0) 0x50 4 3 3 with Done (_, n, l) => n = 3 /\ l = [50; 10; 20] | _ => False end.
Proof. split; [lia|]. split; [left; reflexivity|]. split; [cbn; lia|]. split; [repeat constructor; unfold is_byte; lia|]. split; [lia|]. vm_compute. split; reflexivity. Qed.
Lemma dev_write a tr s' l : forall b, first b = false -> (ptr b + length l <= length (regs b))%nat -> (ptr b < length (regs b))%nat -> plays (device a) b (map (fun v => Wr v Ack) l ++ tr) s' ->
  exists b', plays (device a) b' tr s' /\ length (regs b') = length (regs b) /\ forall i, rd (regs b') i = if ((ptr b <=? i) && (i <? ptr b + length l))%nat then nth (i - ptr b) l 0 else rd (regs b) i.
Proof.
  induction l as [|v l IH]; intros b F LE PT P.
  - exists b. split; [exact P|]. split; [reflexivity|]. intros i. destruct ((ptr b <=? i) && (i <? ptr b + length []))%nat eqn:Q; [cbn [length] in Q; lia|reflexivity].
  - cbn [map app plays] in P. destruct P as (s1 & E & P). cbn [accept device] in E. rewrite F in E. injection E as <-. cbn [length] in LE. destruct (Nat.eq_dec (ptr b + 1) (length (regs b))) as [EN|NE].
    + assert (l = []) as -> by (destruct l; [reflexivity|cbn [length] in LE; lia]). exists (mkBank (wr (regs b) (ptr b) v) (next b) false). split; [exact P|]. cbn [regs]. split; [apply wr_length|]. intros i. cbn [length]. destruct ((ptr b <=? i) && (i <? ptr b + 1))%nat eqn:Q.
      * assert (i = ptr b) as -> by lia. rewrite Nat.sub_diag. apply rd_wr_same. exact PT.
      * apply rd_wr_other. lia.
    + assert (NX : next b = (ptr b + 1)%nat) by (unfold next; apply Nat.mod_small; lia). destruct (IH (mkBank (wr (regs b) (ptr b) v) (next b) false) eq_refl) as (b' & P2 & L2 & R2); cbn [ptr regs]; [rewrite wr_length; lia|rewrite wr_length; lia|exact P|]. cbn [ptr regs] in *.
      exists b'. split; [exact P2|]. rewrite L2, wr_length. split; [reflexivity|]. intros i. rewrite R2, NX. cbn [length]. destruct (Nat.eq_dec i (ptr b)) as [->|NI].
      * replace ((ptr b + 1 <=? ptr b) && (ptr b <? ptr b + 1 + length l))%nat with false by (symmetry; apply andb_false_intro1, Nat.leb_gt; lia). replace ((ptr b <=? ptr b) && (ptr b <? ptr b + Datatypes.S (length l)))%nat with true by (symmetry; apply andb_true_intro; split; [apply Nat.leb_le|apply Nat.ltb_lt]; lia). rewrite Nat.sub_diag. apply rd_wr_same. exact PT.
      * replace ((ptr b <=? i) && (i <? ptr b + Datatypes.S (length l)))%nat with ((ptr b + 1 <=? i) && (i <? ptr b + 1 + length l))%nat by (apply eq_true_iff_eq; rewrite !andb_true_iff, !Nat.leb_le, !Nat.ltb_lt; lia). destruct ((ptr b + 1 <=? i) && (i <? ptr b + 1 + length l))%nat eqn:Q.
        -- replace (i - ptr b)%nat with (Datatypes.S (i - (ptr b + 1))) by lia. reflexivity.
        -- apply rd_wr_other. auto.
Qed.
(** Writing: the bytes after the number of a register go to that and the following registers, nothing else changes *)
Theorem C98_registers_write a b h r vals : 0 <= a < 128 -> idle h -> world h = b -> 0 <= r -> (Z.to_nat r + length vals <= length (regs b))%nat -> (Z.to_nat r < length (regs b))%nat -> (length vals < 255)%nat ->
  exists h', MasterSend (device a) 1 h a (r :: vals) (Z.of_nat (length vals) + 1) = Done (h', Z.of_nat (length vals) + 1) /\ idle h' /\ length (regs (world h')) = length (regs b) /\
  forall i, rd (regs (world h')) i = if ((Z.to_nat r <=? i) && (i <? Z.to_nat r + length vals))%nat then nth (i - Z.to_nat r) vals 0 else rd (regs b) i.
Proof.
  intros A I W R LE LT LV. destruct (transfer_ok (device a) h a (r :: vals) [] [] 0 0 DONE I A ltac:(left; discriminate) (le_n 0)) as (tr & o & k & l & h' & E & _ & P & T & I' & _). unfold MasterSend. cbn [untilWon]. cbn [app length] in E. rewrite app_nil_r in E. replace (Z.of_nat (Datatypes.S (length vals))) with (Z.of_nat (length vals) + 1) in E by lia. change (Z.of_nat 0) with 0 in E. rewrite E. clear E. cbn [xstatus txSz]. rewrite W in P.
  inversion T as [tr0 o0 l0 TX|tr0 o0 k0 TX NO SD|tr1 tr2 o0 k0 l0 TX NP SD RC]; subst; [discriminate| |lia].
  inversion SD as [o1 NA|l1 b1 r1 o1 TE NA|]; subst.
  - exfalso. destruct P as (s1 & E & _). cbn in E. rewrite Z.eqb_refl in E. injection E as _ <-. destruct (NA eq_refl).
  - exfalso. rewrite <- !app_assoc in P. apply plays_inv with (tr1 := [Start; Addr a false Ack] ++ map (fun c => Wr c Ack) l1) (e := Wr b1 o) in P. destruct P as (s1 & s2 & E & _). cbn in E. injection E as _ <-. destruct (NA eq_refl).
  - cbn [app map plays] in P. destruct P as (s1 & E1 & s2 & E2 & P). cbn in E1. rewrite Z.eqb_refl in E1. injection E1 as <-. cbn in E2. injection E2 as <-. rewrite Nat.mod_small in P by exact LT.
    apply dev_write in P; [|reflexivity|exact LE|exact LT]. destruct P as (b' & P & L & RR). cbn [ending plays stop device] in P. exists h'. cbn [outcome]. rewrite Nat.sub_diag. split; [cbv beta iota delta [xstatus txSz]; do 2 f_equal; lia|]. split; [exact I'|]. rewrite P. split; [exact L|exact RR].
Qed.
Print Assumptions C98_registers_write.
Example C98_registers_write_example : 0 <= 0x50 < 128 /\ idle (off bank0) /\ (Z.to_nat 1 + length [7; 8; 9] <= length (regs bank0))%nat /\ match MasterSend (device 0x50) 1 (off bank0) 0x50 [1; 7; 8; 9] 4 with Done (h, n) => n = 4 /\ regs (world h) = [10; 7; 8; 9; 50] | _ => False end.
Proof. split; [lia|]. split; [left; reflexivity|]. split; [cbn; lia|]. vm_compute. split; reflexivity. Qed.

(** ** What does not hold *)
(** each byte on the bus may be lost to another master: [true] in the list *)
Definition rival (addr : Z) : bus (list bool * bank) := mkBus (list bool * bank)
  (fun s => (fst s, start (device addr) (snd s))) (fun s a r => match fst s with true :: t => ((t, snd s), Lost) | t => let p := select (device addr) (snd s) a r in ((tl t, fst p), snd p) end)
  (fun s v => match fst s with true :: t => ((t, snd s), Lost) | t => let p := accept (device addr) (snd s) v in ((tl t, fst p), snd p) end)
  (fun s k => match fst s with true :: t => ((t, snd s), Trouble true) | t => let p := supply (device addr) (snd s) k in ((tl t, fst p), snd p) end) (fun s => s).
(** If the bus is lost within the data, the repetition begins with the next byte: the device takes a data byte for the register number, and the call returns the full number *)
Theorem C98_lost_data_refuted : exists h', idle h' /\ MasterSend (rival 0x50) 5 (off ([false; false; true], bank0)) 0x50 [1; 3; 99] 3 = Done (h', 3) /\
  log h' = [Start; Addr 0x50 false Ack; Wr 1 Ack; Wr 3 Lost; Start; Addr 0x50 false Ack; Wr 99 Ack; Stop] /\ regs (snd (world h')) = regs bank0.
Proof. eexists. split; [|split; [vm_compute; reflexivity|split; reflexivity]]. left. reflexivity. Qed.
Print Assumptions C98_lost_data_refuted.
(** If the bus is lost at the repeated START, the register number is not sent again: other registers are read, and the call returns the full number *)
Theorem C98_lost_command_refuted : exists h', MasterCmdRead (rival 0x50) 5 (off ([false; true; true], mkBank [10; 20; 30; 40; 50] 2 false)) 0x50 4 2 2 = Done (h', 2, [30; 40]) /\ ~ In (Wr 4 Ack) (log h').
Proof. eexists. split; [vm_compute; reflexivity|]. cbn. intuition discriminate. Qed.
Print Assumptions C98_lost_command_refuted.
(** "Number of bytes successfully transfered": a byte that the device refuses is counted; a refusal of the last byte looks like success *)
Definition picky : bus unit := mkBus unit (fun s => s) (fun s _ _ => (s, Ack)) (fun s v => (s, if v <? 100 then Ack else Nak)) (fun s _ => (s, Byte 0)) (fun s => s).
Theorem C98_refused_byte_refuted : exists h', MasterSend picky 1 (off tt) 0x50 [1; 200] 2 = Done (h', 2) /\ log h' = [Start; Addr 0x50 false Ack; Wr 1 Ack; Wr 200 Nak; Stop].
Proof. eexists. split; vm_compute; reflexivity. Qed.
Print Assumptions C98_refused_byte_refuted.
(** Nothing to send (a probe for a device): the device is addressed for reading, and a byte is read and stored through a null pointer; likewise for a read of 0 bytes *)
Theorem C98_empty_refuted : forall buff, MasterSend (device 0x50) 1 (off bank0) 0x50 buff 0 = Fault /\ MasterRead (device 0x50) 1 (off bank0) 0x50 0 0 = Fault.
Proof. intros buff. split; reflexivity. Qed.
Print Assumptions C98_empty_refuted.
