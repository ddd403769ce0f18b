(** C123: the I2C driver as a slave *)
From Verif Require Export Slv_Safe.
Open Scope Z_scope.

Definition unset : hw own := mkHw false false false false false 0xF8 0 (mkOwn (fun _ => 0) (fun _ => 0) Away) [].
Definition nobody : drv unit := mkDrv None (fun _ => None) tt [].

(** The first slave that is set up turns the peripheral on, and it waits for the address given, with the don't care bits given; what was set up before stays *)
Theorem C123_setup {U} (h : hw own) (d : drv U) (sid : nat) x mask :
  (1 <= sid <= 4)%nat -> is_byte (slaveAddr x) -> is_byte mask -> sane (world h) -> part (world h) = Away -> sXfer d = None ->
  let '(h', d', active) := SlaveSetup h d false sid x mask in
  waits h' d' /\ active = true /\ sane (world h') /\ slaves d' sid = Some x /\ (forall n, n <> sid -> slaves d' n = slaves d n) /\
  (forall b, agrees (world h') (sid - 1) b <-> forall i, 1 <= i <= 7 -> Z.testbit mask i = false -> Z.testbit (slaveAddr x) i = Z.testbit b i) /\
  Z.testbit (ADR (world h') (sid - 1)%nat) 0 = Z.testbit (slaveAddr x) 0 /\
  (forall n b, n <> (sid - 1)%nat -> agrees (world h') n b <-> agrees (world h) n b).
Proof.
  intros Sd Ba Bm Sa P Sx. unfold SlaveSetup. destruct (Nat.eqb_spec sid 0) as [E|N]; [lia|]. cbn [negb]. unfold startSlaverXfer, setSlaveAddr, CONSET, CONCLR, waits. cbn [sta sto si aa i2en world part ADR MASK sXfer slaves].
  split; [split; [cbn; rewrite !andb_false_r; reflexivity|]; split; [cbn; rewrite !andb_false_r; reflexivity|]; split; [cbn; rewrite !andb_false_r; reflexivity|]; split; [apply orb_true_r|]; split; [apply orb_true_r|]; split; assumption|].
  split; [reflexivity|]. split; [intros n L; cbn [ADR MASK]; destruct (Nat.eqb n (sid - 1)); [split; assumption|exact (Sa n L)]|]. split; [apply setSlave_same|]. split; [intros n M; apply setSlave_other; exact M|].
  unfold agrees. cbn [ADR MASK]. rewrite Nat.eqb_refl. split; [reflexivity|]. split; [reflexivity|]. intros n b M. destruct (Nat.eqb_spec n (sid - 1)); [contradiction|reflexivity].
Qed.
Print Assumptions C123_setup.

(** the address 0x10 with two don't care bits, as in the documentation *)
Definition buf : xfer := mkXfer 0x20 [0x11; 0x22; 0x33] 3 [] 4 5 DONE.
Definition start : hw own * drv unit := fst (SlaveSetup unset nobody false 1%nat buf 0x06).
Definition keeps (_ : nat) (e : Z) (u : unit) (x : xfer) : unit * xfer := (u, if e =? 2 then buf else x).
Example C123_setup_example : waits (fst start) (snd start) /\ meant (world (fst start)) 0x20 1 /\ meant (world (fst start)) 0x26 1 /\ meant (world (fst start)) 0x25 1 /\ foreign (world (fst start)) 0x28.
Proof.
  split; [exact (proj1 (C123_setup unset nobody 1 buf 0x06 ltac:(lia) ltac:(cbv; intuition discriminate) ltac:(cbv; intuition discriminate) ltac:(intros n L; cbv; intuition discriminate) eq_refl eq_refl))|].
  assert (A : forall b, answers (world (fst start)) 0 b = true -> 2 <= b < 256 -> meant (world (fst start)) b 1).
  { intros b An B. unfold meant. destruct (Z.eqb_spec b 0); [lia|]. split; [exact B|]. exists 0%nat. split; [lia|]. split; [reflexivity|]. split; [apply answers_spec; exact An|lia]. }
  split; [apply A; [reflexivity|lia]|]. split; [apply A; [reflexivity|lia]|]. split; [apply A; [reflexivity|lia]|]. split; [lia|]. right. intros n L H. apply answers_spec in H. destruct n as [|[|[|[|n]]]]; [| | | |lia]; vm_compute in H; discriminate.
Qed.
Lemma keeps_discreet : discreet keeps. Proof. intros s e u x N. unfold keeps. destruct (Z.eqb_spec e 2); [contradiction|reflexivity]. Qed.
Lemma keeps_renews : renews keeps. Proof. intros s u x. cbv. intuition discriminate. Qed.
Lemma start_sane : sane (world (fst start)). Proof. intros n L. destruct n as [|[|[|[|n]]]]; [| | | |lia]; vm_compute; intuition discriminate. Qed.

(** A master that writes to the address of a slave: the first rxSz - 1 bytes are acknowledged, put into the buffer in order, each told as an event; then the event DONE, once, with the address used; afterwards the driver waits for the next transfer. (Missing: the last byte of the buffer, see C123_full_refuted) *)
Theorem C123_write_partial {U} (event : nat -> Z -> U -> xfer -> U * xfer) h d b sid x l :
  discreet event -> waits h d -> sane (world h) -> meant (world h) b sid -> Z.even b = true -> slaves d sid = Some x -> rxSz x <= Z.of_nat (room x) + 1 ->
  let k := Z.to_nat (rxSz x - 1) in
  exists h' d', serves event h d (Call b :: map Send l ++ [Finish]) = Some (h', d', Acked true :: taken k l ++ [Nothing]) /\ waits h' d' /\
    ADR (world h') = ADR (world h) /\ MASK (world h') = MASK (world h) /\
    reported event d d' sid (repeat 5 (Nat.min k (length l))) (received x b (firstn k l)).
Proof.
  intros Q W Sa M Ev Sl Ro k. assert (T : Z.testbit b 0 = false) by (rewrite Z.bit0_odd, <- Z.negb_even, Ev; reflexivity).
  destruct (write_body event Q h d b sid x l W Sa M T Sl Ro) as (h1 & d1 & h2 & d2 & E & I & W2 & [GA GM] & R). fold k in E, R. exists h2, d2. split; [|split; [exact W2|]; split; [exact GA|]; split; [exact GM|exact R]].
  change (Call b :: map Send l ++ [Finish]) with ((Call b :: map Send l) ++ [Finish]). rewrite serves_app, E. cbn [serves serve fst snd]. rewrite I. reflexivity.
Qed.
Print Assumptions C123_write_partial.

Example C123_write_example : exists h d, serves keeps (fst start) (snd start) [Call 0x24; Send 1; Send 2; Finish] = Some (h, d, [Acked true; Acked true; Acked true; Nothing]) /\ told d = [(1%nat, 5); (1%nat, 5); (1%nat, 2)].
Proof. eexists. eexists. vm_compute. split; reflexivity. Qed.
Example C123_write_hypotheses : exists h' d', serves keeps (fst start) (snd start) (Call 0x26 :: map Send [7; 8; 9] ++ [Finish]) = Some (h', d', [Acked true; Acked true; Acked true; Acked true; Nothing]) /\
  reported keeps (snd start) d' 1 [5; 5; 5] (mkXfer 0x26 [0x11; 0x22; 0x33] 3 [7; 8; 9] 1 2 DONE).
Proof.
  destruct C123_setup_example as (W & _ & M & _). destruct (C123_write_partial keeps _ _ 0x26 1 buf [7; 8; 9] keeps_discreet W start_sane M eq_refl eq_refl ltac:(vm_compute; discriminate)) as (h' & d' & E & _ & _ & _ & R).
  exists h', d'. split; [exact E|exact R].
Qed.

(** a general call, with the general slave set up *)
Definition startG : hw own * drv unit := let r := fst (SlaveSetup unset nobody false 1%nat (mkXfer 0x21 [1] 1 [] 4 4 DONE) 0) in fst (SlaveSetup (fst r) (snd r) true 0%nat buf 0).
Example C123_general_call_example : exists h d, serves keeps (fst startG) (snd startG) [Call 0; Send 1; Send 2; Finish] = Some (h, d, [Acked true; Acked true; Acked true; Nothing]) /\ told d = [(0%nat, 5); (0%nat, 5); (0%nat, 2)].
Proof. eexists. eexists. vm_compute. split; reflexivity. Qed.

(** A master that reads: it gets the first txSz bytes of the buffer in order, then 0xff; each byte is told, at the end the event DONE, once, and the driver waits again *)
Theorem C123_read {U} (event : nat -> Z -> U -> xfer -> U * xfer) h d b sid x n :
  discreet event -> waits h d -> sane (world h) -> meant (world h) b sid -> Z.odd b = true -> slaves d sid = Some x -> 1 <= txSz x <= Z.of_nat (length (txBuff x)) ->
  let k := Z.to_nat (txSz x) in
  exists h' d', serves event h d (Call b :: reading n ++ [Finish]) = Some (h', d', Acked true :: given (firstn k (txBuff x)) (n + 1) ++ [Nothing]) /\ waits h' d' /\
    ADR (world h') = ADR (world h) /\ MASK (world h') = MASK (world h) /\
    reported event d d' sid (repeat 6 (Nat.min k (n + 1))) (delivered x b (Nat.min k (n + 1))).
Proof.
  intros Q W Sa M Ev Sl Sz k. assert (T : Z.testbit b 0 = true) by (rewrite Z.bit0_odd; exact Ev).
  destruct (read_body event Q h d b sid x n W Sa M T Sl Sz) as (h1 & d1 & E & W1 & [GA GM] & R). fold k in E, R. exists h1, d1. split; [|split; [exact W1|]; split; [exact GA|]; split; [exact GM|exact R]].
  change (Call b :: reading n ++ [Finish]) with ((Call b :: reading n) ++ [Finish]). rewrite serves_app, E. cbn [serves serve fst snd]. rewrite (still event h1 d1 W1). reflexivity.
Qed.
Print Assumptions C123_read.

Example C123_read_example : exists h' d', serves keeps (fst start) (snd start) [Call 0x25; Fetch true; Fetch true; Fetch true; Fetch false; Finish] = Some (h', d', [Acked true; Got 0x11; Got 0x22; Got 0x33; Got 0xff; Nothing]) /\
  reported keeps (snd start) d' 1 [6; 6; 6] (mkXfer 0x24 [] 0 [] 4 5 DONE).
Proof.
  destruct C123_setup_example as (W & _ & _ & M & _). destruct (C123_read keeps _ _ 0x25 1 buf 3 keeps_discreet W start_sane M eq_refl eq_refl ltac:(vm_compute; intuition discriminate)) as (h' & d' & E & _ & _ & _ & R).
  exists h', d'. split; [exact E|exact R].
Qed.

(** A write followed by a repeated START and a read: the handler hears of the end of the write first, and what it then hands over is what the master reads *)
Theorem C123_write_read {U} (event : nat -> Z -> U -> xfer -> U * xfer) h d b sid x l n :
  discreet event -> renews event -> waits h d -> sane (world h) -> Z.even b = true -> b <> 0 -> meant (world h) b sid -> meant (world h) (b + 1) sid -> slaves d sid = Some x -> fit x -> Z.of_nat (length l) < rxSz x ->
  exists h' d' u, let x2 := snd (event sid 2 u (received x b l)) in let k := Z.to_nat (txSz x2) in
    serves event h d (Call b :: map Send l ++ Call (b + 1) :: reading n ++ [Finish]) = Some (h', d', Acked true :: repeat (Acked true) (length l) ++ Acked true :: given (firstn k (txBuff x2)) (n + 1) ++ [Nothing]) /\ waits h' d' /\
    told d' = told d ++ map (fun e => (sid, e)) (repeat 5 (length l) ++ [2] ++ repeat 6 (Nat.min k (n + 1)) ++ [2]).
Proof.
  intros Q Rn W Sa Ev N0 M M1 Sl [Fr Ft] L. assert (T : Z.testbit b 0 = false) by (rewrite Z.bit0_odd, <- Z.negb_even, Ev; reflexivity).
  assert (T1 : Z.odd (b + 1) = true) by (rewrite Z.odd_add, <- (Z.negb_even b), Ev; reflexivity).
  destruct (write_body event Q h d b sid x l W Sa M T Sl Fr) as (h1 & d1 & h2 & d2 & E & I & W2 & G2 & (R1 & (u & R2) & R3)). cbv zeta in E, R1, R2. set (k0 := Z.to_nat (rxSz x - 1)) in *. assert (Lk : (length l <= k0)%nat) by (unfold k0; lia).
  rewrite (@firstn_all2 Z k0 l Lk) in R2. replace (Nat.min k0 (length l)) with (length l) in R1 by lia.
  assert (Sl2 : slaves d2 sid = Some (snd (event sid 2 u (received x b l)))) by congruence.
  assert (M2 : meant (world h2) (b + 1) sid). { destruct G2 as [GA GM]. unfold meant, agrees in *. rewrite GA, GM. exact M1. }
  destruct (C123_read event h2 d2 (b + 1) sid _ n Q W2 (sane_regs _ _ G2 Sa) M2 T1 Sl2 (proj2 (Rn sid u _))) as (h3 & d3 & E3 & W3 & _ & _ & (R4 & _)). cbv zeta in E3, R4.
  exists h3, d3, u. cbv zeta. split; [|split; [exact W3|rewrite R4, R1, <- app_assoc, <- map_app, <- app_assoc; reflexivity]].
  change (Call b :: map Send l ++ Call (b + 1) :: reading n ++ [Finish]) with ((Call b :: map Send l) ++ (Call (b + 1) :: reading n ++ [Finish])). rewrite serves_app, E.
  assert (Sw : serves event h1 d1 (Call (b + 1) :: reading n ++ [Finish]) = serves event h2 d2 (Call (b + 1) :: reading n ++ [Finish])). { assert (Sc : serve event h1 d1 (Call (b + 1)) = serve event h2 d2 (Call (b + 1))) by (unfold serve; rewrite I, (still event h2 d2 W2); reflexivity). cbn [serves]. rewrite Sc. reflexivity. }
  rewrite Sw, E3. cbn [app]. do 3 f_equal. unfold taken. f_equal. rewrite <- (seq_length (length l) 0) at 2. rewrite <- map_const. apply map_ext_in. intros i Hi. apply in_seq in Hi. f_equal. apply Nat.ltb_lt. lia.
Qed.
Print Assumptions C123_write_read.

(** a handler that offers the byte after the one written: [number] then [answer] *)
Definition table (_ : nat) (e : Z) (u : unit) (x : xfer) : unit * xfer := (u, if e =? 2 then mkXfer 0 [match rxBuff x with r :: _ => r + 100 | [] => 0 end; 0x55] 2 [] 4 5 DONE else x).
Example C123_write_read_example : exists h' d', serves table (fst start) (snd start) [Call 0x20; Send 7; Call 0x21; Fetch true; Fetch false; Finish] = Some (h', d', [Acked true; Acked true; Acked true; Got 107; Got 0x55; Nothing]).
Proof. eexists. eexists. vm_compute. reflexivity. Qed.
Example C123_write_read_hypotheses : discreet table /\ renews table /\ fit buf /\ Z.of_nat (length [7]) < rxSz buf.
Proof. split; [intros s e u x N; unfold table; destruct (Z.eqb_spec e 2); [contradiction|reflexivity]|]. split; [intros s u x; cbv; intuition discriminate|]. split; [vm_compute; intuition discriminate|reflexivity]. Qed.

(** A transfer with another device changes nothing, whatever is sent or read *)
Theorem C123_foreign {U} (event : nat -> Z -> U -> xfer -> U * xfer) h (d : drv U) b l : waits h d -> foreign (world h) b -> Forall (fun a => match a with Send _ | Fetch _ => True | _ => False end) l ->
  exists h', serves event h d (Call b :: l ++ [Finish]) = Some (h', d, Acked false :: map (fun a => match a with Send _ => Acked false | _ => Got 0xff end) l ++ [Nothing]) /\ waits h' d /\ ADR (world h') = ADR (world h) /\ MASK (world h') = MASK (world h).
Proof.
  intros W F A. pose proof W as (W1 & W2 & W3 & W4 & W5 & W6 & W7). exists (leaves h). assert (W' : waits (leaves h) d) by (repeat split; assumption). split; [|split; [exact W'|split; reflexivity]].
  cbn [serves]. assert (E : serve event h d (Call b) = Some (leaves h, d, Acked false)) by (unfold serve; rewrite (still event h d W), (addressed_foreign h b F); cbn [fst snd]; unfold interrupt; change (si (leaves h)) with (si h); rewrite W3; reflexivity).
  rewrite E. assert (R : serves event (leaves h) d (l ++ [Finish]) = Some (leaves h, d, map (fun a => match a with Send _ => Acked false | _ => Got 0xff end) l ++ [Nothing])).
  { clear E F. induction A as [|a l Ha A IH]; cbn [app map].
    - cbn [serves serve fst snd]. rewrite (still event _ _ W'). reflexivity.
    - cbn [serves]. assert (Es : serve event (leaves h) d a = Some (leaves h, d, match a with Send _ => Acked false | _ => Got 0xff end)) by (destruct a; try contradiction; unfold serve, sent, fetched; cbn [leaves part world fst snd]; unfold interrupt; change (si (mkHw _ _ (si h) _ _ _ _ _ _)) with (si h); cbn [leaves si]; rewrite W3; reflexivity).
      rewrite Es, IH. reflexivity. }
  rewrite R. reflexivity.
Qed.
Print Assumptions C123_foreign.

Example C123_foreign_example : exists h', serves keeps (fst start) (snd start) [Call 0x28; Send 1; Fetch true; Finish] = Some (h', snd start, [Acked false; Acked false; Got 0xff; Nothing]).
Proof. eexists. vm_compute. reflexivity. Qed.

(** Whatever other masters do - any sequence of addresses, bytes and ends in any order -, no access goes outside a buffer or through NULL, and every address byte is acknowledged exactly if it is the one of a slave. (Missing: a START or STOP in the middle of a byte, see C123_buserr_refuted) *)
Theorem C123_safe_partial {U} (event : nat -> Z -> U -> xfer -> U * xfer) h d l b :
  discreet event -> renews event -> waits h d -> sane (world h) -> ready (world h) d -> Forall (fun a => match a with Call b => is_byte b | Broken => False | _ => True end) l -> is_byte b ->
  exists h' d' r s, serves event h d (l ++ [Call b]) = Some (h', d', r ++ [s]) /\ length r = length l /\
    ((exists sid, meant (world h) b sid) -> s = Acked true) /\ (foreign (world h) b -> s = Acked false).
Proof.
  intros Q Rn W Sa [Rd Rf] G B. assert (I : inv h d) by (split; [split; assumption|left; split; assumption]).
  destruct (inv_run event Q Rn l h d I G) as (h1 & d1 & r & E & I1 & G1). destruct (inv_step event Q Rn h1 d1 (Call b) I1 B) as (h2 & d2 & s & E2 & _ & _ & P1 & P2).
  exists h2, d2, r, s. split; [rewrite serves_app, E; cbn [serves]; rewrite E2; reflexivity|]. split.
  - clear - E. revert h d h1 d1 r E. induction l as [|a l IH]; intros h d h1 d1 r E; cbn [serves] in E; [injection E as <- <- <-; reflexivity|]. destruct (serve event h d a) as [[[h2 d2] s]|]; [|discriminate]. destruct (serves event h2 d2 l) as [[[h3 d3] r3]|] eqn:E3; [|discriminate]. injection E as <- <- <-. cbn [length]. f_equal. exact (IH h2 d2 h3 d3 r3 E3).
  - destruct G1 as [GA GM]. unfold meant, foreign, agrees in *. rewrite GA, GM in P1, P2. split; [intros (sid & M); exact (P1 sid M)|exact P2].
Qed.
Print Assumptions C123_safe_partial.

Lemma start_ready : ready (world (fst start)) (snd start).
Proof.
  split.
  - intros b sid M. unfold meant in M. destruct (Z.eqb_spec b 0) as [E|N]; [destruct M as (_ & n & L & T); destruct n as [|[|[|[|n]]]]; [| | | |lia]; vm_compute in T; discriminate|]. destruct M as (B & n & L & -> & A & _). destruct n as [|n]; [vm_compute; discriminate|]. exfalso.
    assert (Zb : forall i, 1 <= i <= 7 -> Z.testbit b i = false). { intros i Hi. specialize (A i Hi). destruct n as [|[|[|n]]]; [| | |lia]; change (Z.testbit 0 i = false -> Z.testbit 0 i = Z.testbit b i) in A; rewrite Z.testbit_0_l in A; symmetry; exact (A eq_refl). }
    assert (Hb : b / 2 = 0). { apply Z.bits_inj_0. intros i. destruct (Z.ltb_spec i 0); [apply Z.testbit_neg_r; assumption|]. change (b / 2) with (b / 2 ^ 1). rewrite <- Z.shiftr_div_pow2, Z.shiftr_spec by lia. destruct (Z.leb_spec (i + 1) 7); [apply Zb; lia|]. apply bit_byte; [unfold is_byte; lia|lia]. }
    pose proof (Z.div_mod b 2 ltac:(lia)). pose proof (Z.mod_pos_bound b 2 ltac:(lia)). lia.
  - intros sid x X. destruct sid as [|[|sid]]; vm_compute in X; try discriminate. injection X as <-. vm_compute. intuition discriminate.
Qed.
Example C123_safe_example : exists h' d' r, serves keeps (fst start) (snd start) ([Call 0x20; Send 1; Fetch true; Call 0x40; Call 0x21; Fetch true; Send 3; Call 0; Finish; Finish] ++ [Call 0x22]) = Some (h', d', r ++ [Acked true]).
Proof.
  destruct C123_setup_example as (W & _).
  destruct (C123_safe_partial keeps (fst start) (snd start) [Call 0x20; Send 1; Fetch true; Call 0x40; Call 0x21; Fetch true; Send 3; Call 0; Finish; Finish] 0x22 keeps_discreet keeps_renews W start_sane start_ready) as (h' & d' & r & s & E & _ & A & _).
  - repeat constructor; discriminate.
  - split; [discriminate|reflexivity].
  - exists h', d', r. rewrite E, A; [reflexivity|]. exists 1%nat. split; [lia|]. exists 0%nat. split; [lia|]. split; [reflexivity|]. split; [apply answers_spec; reflexivity|lia].
Qed.

(** A buffer of rxSz bytes takes only rxSz - 1: the last byte is not acknowledged and not stored although there is room for it; with rxSz = 1 none at all *)
Theorem C123_full_refuted {U} (event : nat -> Z -> U -> xfer -> U * xfer) h d b sid x l c : discreet event -> waits h d -> sane (world h) -> meant (world h) b sid -> Z.even b = true -> slaves d sid = Some x -> 1 <= rxSz x -> rxSz x = Z.of_nat (room x) -> Z.of_nat (length l) = rxSz x - 1 ->
  exists h' d', serves event h d (Call b :: map Send (l ++ [c]) ++ [Finish]) = Some (h', d', Acked true :: repeat (Acked true) (length l) ++ [Acked false; Nothing]) /\ reported event d d' sid (repeat 5 (length l)) (received x b l).
Proof.
  intros Q W Sa M Ev Sl P Ro L. destruct (C123_write_partial event h d b sid x (l ++ [c]) Q W Sa M Ev Sl ltac:(lia)) as (h' & d' & E & _ & _ & _ & R). cbv zeta in E, R. replace (Z.to_nat (rxSz x - 1)) with (length l) in E, R by lia. exists h', d'.
  rewrite firstn_app, Nat.sub_diag, firstn_all, app_nil_r in R. rewrite app_length in R. replace (Nat.min (length l) (length l + length [c])) with (length l) in R by lia. split; [|exact R]. rewrite E. do 3 f_equal. unfold taken. rewrite app_length. cbn [length]. rewrite seq_app, map_app. cbn [plus seq map]. rewrite Nat.ltb_irrefl, <- app_assoc. f_equal.
  rewrite <- (seq_length (length l) 0) at 2. rewrite <- map_const. apply map_ext_in. intros i Hi. apply in_seq in Hi. f_equal. apply Nat.ltb_lt. lia.
Qed.
Print Assumptions C123_full_refuted.

Definition start4 : hw own * drv unit := fst (SlaveSetup unset nobody false 1%nat (mkXfer 0x20 [1] 1 [] 2 2 DONE) 0).
Example C123_full_example : exists h d, serves keeps (fst start4) (snd start4) [Call 0x20; Send 1; Send 2; Finish] = Some (h, d, [Acked true; Acked true; Acked false; Nothing]).
Proof. eexists. eexists. vm_compute. reflexivity. Qed.

(** The event for a byte sent comes before it is sent: as soon as the master has sent the address, even if it then reads nothing (documented: when the byte was sent successfully) *)
Theorem C123_sent_refuted {U} (event : nat -> Z -> U -> xfer -> U * xfer) h d b sid x : discreet event -> waits h d -> sane (world h) -> meant (world h) b sid -> Z.odd b = true -> slaves d sid = Some x -> 1 <= txSz x <= Z.of_nat (length (txBuff x)) ->
  exists h' d', serves event h d [Call b] = Some (h', d', [Acked true]) /\ told d' = told d ++ [(sid, 6)].
Proof.
  intros Q W Sa M Ev Sl Sz. destruct (call_talk event Q h d b sid x W Sa M ltac:(rewrite Z.bit0_odd; exact Ev) Sl Sz) as (h1 & d1 & b0 & t & _ & E & _ & _ & T & _). exists h1, d1. split; [cbn [serves]; rewrite E; reflexivity|exact T].
Qed.
Print Assumptions C123_sent_refuted.

Example C123_sent_example : exists h d, serves keeps (fst start) (snd start) [Call 0x21] = Some (h, d, [Acked true]) /\ told d = [(1%nat, 6)].
Proof. eexists. eexists. vm_compute. split; reflexivity. Qed.

(** A slave with nothing to send: a master that reads gets the byte behind the buffer *)
Theorem C123_empty_refuted {U} (event : nat -> Z -> U -> xfer -> U * xfer) h d b sid x : waits h d -> sane (world h) -> meant (world h) b sid -> Z.odd b = true -> slaves d sid = Some x -> txBuff x = [] -> serves event h d [Call b] = None.
Proof.
  intros W Sa M Ev Sl Em. pose proof W as (W1 & W2 & W3 & W4 & W5 & W6 & W7). assert (T : Z.testbit b 0 = true) by (rewrite Z.bit0_odd; exact Ev). destruct (lookup_meant _ _ _ Sa M) as (Bb & Lk & _). assert (N : (b =? 0) = false) by (apply Z.eqb_neq; intros ->; discriminate).
  cbn [serves]. unfold serve. rewrite (still event h d W), (addressed_meant h b sid Sa M W5 W4). cbn [fst snd]. unfold roleOf, codeOf. rewrite N, T. set (h1 := becomes h _ _ b).
  assert (Gi : getSlaveIndex h1 = sid). { unfold getSlaveIndex. change (stat h1) with 0xA8. change (dat h1) with b. rewrite (u8_id b Bb). change (lookupSlaveIndex (world h1) b) with (lookupSlaveIndex (world h) b). rewrite Lk. reflexivity. }
  unfold interrupt. change (si h1) with true. cbv iota. unfold i2c_state_handling. change (Z.land (stat h1) 0xF8 <? 0x60) with false. cbv iota. unfold SlaveStateHandler. rewrite W7, Gi, Sl. unfold handleSlaveXferState. change (stat h1) with 0xA8. unfold load. cbn [Z.land Pos.land Pos.Nsucc_double Pos.Ndouble Z.of_N Z.eqb Pos.eqb orb setAddr setStatus txBuff]. rewrite Em. reflexivity.
Qed.
Print Assumptions C123_empty_refuted.

Definition start3 : hw own * drv unit := fst (SlaveSetup unset nobody false 1%nat (mkXfer 0x20 [] 0 [] 4 4 DONE) 0).
Example C123_empty_example : serves keeps (fst start3) (snd start3) [Call 0x21] = None.
Proof. vm_compute. reflexivity. Qed.

(** A START or STOP in the middle of a byte sent to the slave: the status 0 counts as one of the master, whose transfer is NULL *)
Theorem C123_buserr_refuted {U} (event : nat -> Z -> U -> xfer -> U * xfer) h d b sid x : waits h d -> sane (world h) -> meant (world h) b sid -> Z.even b = true -> slaves d sid = Some x -> serves event h d [Call b; Broken] = None.
Proof.
  intros W Sa M Ev Sl. assert (T : Z.testbit b 0 = false) by (rewrite Z.bit0_odd, <- Z.negb_even, Ev; reflexivity).
  destruct (call_listen event h d b sid x W Sa M T Sl) as (h1 & d1 & E & (_ & _ & _ & _ & P & _) & _). cbn [serves]. rewrite E. unfold serve. rewrite P. reflexivity.
Qed.
Print Assumptions C123_buserr_refuted.

Example C123_buserr_example : serves keeps (fst start) (snd start) [Call 0x20; Broken] = None.
Proof. vm_compute. reflexivity. Qed.

(** A register other than the general one with bit 0 set, and I2C_SLAVE_GENERAL not set up: a general call goes through NULL *)
Theorem C123_general_refuted {U} (event : nat -> Z -> U -> xfer -> U * xfer) h d : waits h d -> sane (world h) -> meant (world h) 0 0 -> slaves d 0%nat = None -> serves event h d [Call 0] = None.
Proof.
  intros W Sa M Sl. pose proof W as (W1 & W2 & W3 & W4 & W5 & W6 & W7). cbn [serves]. unfold serve. rewrite (still event h d W), (addressed_meant h 0 0 Sa M W5 W4). cbn [fst snd]. set (h1 := becomes h _ _ 0).
  unfold interrupt. change (si h1) with true. cbv iota. unfold i2c_state_handling. change (Z.land (stat h1) 0xF8 <? 0x60) with false. cbv iota. unfold SlaveStateHandler. rewrite W7. change (getSlaveIndex h1) with 0%nat. rewrite Sl. reflexivity.
Qed.
Print Assumptions C123_general_refuted.

Definition start1 : hw own * drv unit := fst (SlaveSetup unset nobody false 1%nat (mkXfer 0x21 [1] 1 [] 4 4 DONE) 0).
Example C123_general_example : serves keeps (fst start1) (snd start1) [Call 0] = None.
Proof. vm_compute. reflexivity. Qed.
