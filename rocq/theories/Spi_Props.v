(** C108: SPI. *)
From Verif Require Export Spi_Sync Spi_Settings.
Local Open Scope nat_scope.

(** A port as the constructor and begin() leave it, idle; an object never used. *)
Definition fresh : port := mkPort 7 2 2 0 [] None [] [] false.
Definition off : port := mkPort 7 0 2 0 [] None [] [] false.
Definition obj (h : ports) : spi ports := mkSpi h [] None 0 0 false false false false.
(** A slave that answers the number of words it got, plus 100; a frame per access. *)
Definition counter : world := {| pace := fun _ _ => 1; slave := fun _ h => (100 + Z.of_nat (length h))%Z; junk := fun _ => 55%Z; irqAt := fun _ => true |}.

(** transfer() on an idle port: the word, cut to the data size, is sent, and what the slave sends with it is returned; old words in the receive FIFO do not matter. It returns, however slow the bus. *)
Theorem C108_transfer wd no s v m : fair wd -> irqOn s = false -> on (sel no (hw s)) = true -> idle (sel no (hw s)) ->
  let p := sel no (hw s) in
  exists n0 h, (forall n, n0 <= n -> transfer (lpc wd) n no s v m = Some (setHw s h, fit (bits p) (slave wd no (sent p ++ [fit (bits p) v])))) /\
    let q := sel no h in sent q = sent p ++ [fit (bits p) v] /\ idle q /\ rx q = [] /\ still p q.
Proof. apply transfer_ok. Qed.
Print Assumptions C108_transfer.
Example C108_transfer_example : fair counter /\ let s := obj (mkPorts off (mkPort 3 2 2 0 [] None [7; 8]%Z [1]%Z true) 5) in
  irqOn s = false /\ on (sel true (hw s)) = true /\ idle (sel true (hw s)) /\ option_map snd (transfer (lpc counter) 9 true s 0x123 SPI_LAST) = Some 6%Z.
Proof. split; [intros no k; exists k; split; [lia|cbn; lia]|]. cbv zeta. repeat split. Qed.

(** Without begin() it never returns. *)
Theorem C108_transfer_off wd no s v m n : irqOn s = false -> on (sel no (hw s)) = false -> idle (sel no (hw s)) -> transfer (lpc wd) n no s v m = None.
Proof. apply transfer_off. Qed.
Print Assumptions C108_transfer_off.
Example C108_transfer_off_example : let s := obj (mkPorts off off 0) in irqOn s = false /\ on (sel false (hw s)) = false /\ idle (sel false (hw s)).
Proof. repeat split. Qed.

(** Wanted: transferBlock() on any idle port sends the words in their order and stores what the slave sends with them, in order, at the beginning of the array, and returns.
    Proved for port 0: if it returns, that is what it has done. Missing: that it returns (next theorem), port 1 (refuted below). *)
Theorem C108_block_partial wd s snd N rec n s' :
  irqOn s = false -> fault s = false -> on (portA (hw s)) = true -> idle (portA (hw s)) -> N <= length snd -> match rec with None => True | Some a => N <= length a end ->
  transferBlock (lpc wd) n false s snd (Z.of_nat N) rec false = Some s' ->
  let p := portA (hw s) in let q := portA (hw s') in let words := map (fit (bits p)) (firstn N snd) in
  sent q = sent p ++ words /\ idle q /\ rx q = [] /\ finished s' = true /\ fault s' = false /\ irqOn s' = false /\
  recData s' = match rec with None => None | Some a => Some (filled a (answers (fun h => fit (bits p) (slave wd false h)) (sent p) words), N) end.
Proof. intros A B C D E F G. exact (block_safe wd s snd N rec A B C D E F n s' G). Qed.
Print Assumptions C108_block_partial.
Definition words20 : list Z := map Z.of_nat (seq 1 20).
Example C108_block_example : let s := obj (mkPorts (mkPort 7 2 2 0 [] None [9]%Z [] true) off 0) in
  irqOn s = false /\ fault s = false /\ on (portA (hw s)) = true /\ idle (portA (hw s)) /\ 20 <= length words20 /\ 20 <= length (repeat 0%Z 22) /\
  option_map (fun s => (recData s, sent (portA (hw s)))) (transferBlock (lpc counter) 40 false s words20 20 (Some (repeat 0%Z 22)) false) =
    Some (Some (map (fun k => 100 + Z.of_nat k)%Z (seq 1 20) ++ [0; 0]%Z, 20), words20).
Proof. vm_compute. repeat split; repeat constructor. Qed.

(** It returns if the bus goes on and the block has at most 8 words, or the processor is fast enough. Missing: other blocks (refuted below). *)
Theorem C108_block_returns_partial wd s snd N rec :
  irqOn s = false -> fault s = false -> on (portA (hw s)) = true -> idle (portA (hw s)) -> N <= length snd -> match rec with None => True | Some a => N <= length a end ->
  fair wd -> N <= 8 \/ brisk wd -> length (rx (portA (hw s))) <= 8 ->
  exists n0 s', forall n, n0 <= n -> transferBlock (lpc wd) n false s snd (Z.of_nat N) rec false = Some s'.
Proof. intros A B C D E F. exact (block_returns wd s snd N rec A B C D E F). Qed.
Print Assumptions C108_block_returns_partial.
Definition brisk_world : world := {| pace := fun _ k => if k mod 5 =? 0 then 1 else 0; slave := fun _ h => (100 + Z.of_nat (length h))%Z; junk := fun _ => 55%Z; irqAt := fun _ => true |}.
Example C108_block_returns_example : fair brisk_world /\ brisk brisk_world.
Proof.
  split.
  - intros no k. exists (k * 5). split; [lia|]. unfold brisk_world, pace. rewrite Nat.mod_mul by lia. cbn. lia.
  - intros k. unfold brisk_world, pace. clear. pose proof (Nat.div_mod k 5 ltac:(lia)) as E. set (q := k / 5) in *. pose proof (Nat.mod_upper_bound k 5 ltac:(lia)) as B.
    assert (G : forall i, (k + i) mod 5 = (k mod 5 + i) mod 5) by (intros i; rewrite Nat.add_mod_idemp_l by lia; reflexivity).
    rewrite (G 1), (G 2), (G 3), (G 4). set (r := k mod 5) in *. clearbody r q. clear G E.
    do 5 (destruct r as [|r]; [vm_compute; lia|]). lia.
Qed.

Lemma finalize_step {S} (w : ssp S) n no s : recCount s <> 0%Z -> (forall n, finalizeBlockTransfer w n no (continueBlockTransfer w (handler w no) no s) = None) -> finalizeBlockTransfer w n no s = None.
Proof. intros R H. destruct n as [|n]; cbn [finalizeBlockTransfer]; (destruct (Z.eqb_spec (recCount s) 0); [contradiction|]); auto. Qed.

(** With a longer block and one delay of nine frames an answer is lost, and the call never returns. *)
Definition delayed : world := {| pace := fun _ k => if k <=? 41 then 0 else 9; slave := fun _ h => (100 + Z.of_nat (length h))%Z; junk := fun _ => 55%Z; irqAt := fun _ => true |}.
Theorem C108_overrun_refuted : exists wd s snd N rec,
  fair wd /\ irqOn s = false /\ fault s = false /\ on (portA (hw s)) = true /\ idle (portA (hw s)) /\ rx (portA (hw s)) = [] /\ N <= length snd /\ N <= length rec /\
  forall n, transferBlock (lpc wd) n false s snd (Z.of_nat N) (Some rec) false = None.
Proof.
  exists delayed, (obj (mkPorts fresh off 0)), words20, 20, (repeat 0%Z 20).
  split; [intros no k; exists (k + 42); split; [lia|]; cbn [delayed pace]; destruct (Nat.leb_spec (k + 42) 41); lia|].
  do 7 (split; [vm_compute; auto|]).
  set (s := obj (mkPorts fresh off 0)). set (rec := repeat 0%Z 20).
  assert (NL : 20 <= length words20) by (vm_compute; lia). assert (RL : 20 <= length rec) by (vm_compute; lia).
  pose proof (started_ok delayed s words20 20 (Some rec) eq_refl eq_refl eq_refl (conj eq_refl eq_refl) NL) as ST.
  set (h := portA (hw s)) in *.
  assert (CL : forall n, clearReceived (lpc delayed) n false s = Some (setHw s (elapse delayed (hw s)))) by (intros n; destruct n; vm_compute; reflexivity).
  pose proof (ST RL 0) as ST0. rewrite CL in ST0. destruct ST0 as (h1 & E & I & _ & _). clear ST.
  pose proof (Hrec' s words20 20 (Some rec) eq_refl eq_refl eq_refl NL RL) as HR.
  set (C := fun s => continueBlockTransfer (lpc delayed) skip false s).
  assert (LOST : (0 < lost (C (C (C (started s words20 20 (Some rec) h1)))))%Z /\ recCount (C (started s words20 20 (Some rec) h1)) <> 0%Z /\ recCount (C (C (started s words20 20 (Some rec) h1))) <> 0%Z).
  { rewrite <- E. split; [|split]; vm_compute; congruence. }
  destruct LOST as (L & R1 & R2).
  set (s0 := started s words20 20 (Some rec) h1) in *.
  pose proof (continue_off (lpc delayed) false s0 eq_refl) as (Q1 & H1). change (fun s0 : spi ports => s0) with skip in *. fold (C s0) in Q1, H1.
  destruct (continue_ok delayed (bits h) (sent h) (firstn 20 words20) (skipn 20 words20) (Some rec) (bits_range h) HR _ _ _ I) as (k1 & p1 & I1 & _). cbv zeta in I1. fold (C s0) in I1.
  pose proof (continue_off (lpc delayed) false (C s0) H1) as (Q2 & H2). change (fun s0 : spi ports => s0) with skip in *. fold (C (C s0)) in Q2, H2.
  destruct (continue_ok delayed (bits h) (sent h) (firstn 20 words20) (skipn 20 words20) (Some rec) (bits_range h) HR _ _ _ I1) as (k2 & p2 & I2 & _). cbv zeta in I2. fold (C (C s0)) in I2.
  pose proof (continue_off (lpc delayed) false (C (C s0)) H2) as (Q3 & H3). change (fun s0 : spi ports => s0) with skip in *. fold (C (C (C s0))) in Q3, H3.
  destruct (continue_ok delayed (bits h) (sent h) (firstn 20 words20) (skipn 20 words20) (Some rec) (bits_range h) HR _ _ _ I2) as (k3 & p3 & I3 & _). cbv zeta in I3. fold (C (C (C s0))) in I3.
  intros n. unfold transferBlock. rewrite CL. cbv zeta. cbn [negb]. rewrite E, Q1.
  assert (G : forall n, finalizeBlockTransfer (lpc delayed) n false (C (C (C s0))) = None) by (intros m; exact (finalize_lost delayed (bits h) (sent h) (firstn 20 words20) (skipn 20 words20) (Some rec) (bits_range h) HR m _ _ _ I3 H3 L)).
  apply finalize_step; [exact R1|]. intros n1. rewrite Q2. apply finalize_step; [exact R2|]. intros n2. rewrite Q3. apply G.
Qed.
Print Assumptions C108_overrun_refuted.

(** On port 1 a block transfer never returns, whatever the words, the slave, the timing: the words go out on port 0. *)
Theorem C108_port1_refuted wd s n snd bytes rec : irqOn s = false -> shift (portB (hw s)) = None -> bytes <> 0%Z -> transferBlock (lpc wd) n true s snd bytes rec false = None.
Proof. apply portB_block. Qed.
Print Assumptions C108_port1_refuted.
Theorem C108_port1_words_refuted : exists wd s,
  on (portB (hw s)) = true /\ idle (portB (hw s)) /\ forall n, exists m, n <= m /\
  let s' := Nat.iter m (continueBlockTransfer (lpc wd) (handler (lpc wd) true) true) s in sndData s' = [] /\ sent (portB (hw s')) = [] /\ sent (portA (hw s')) = [1; 2; 3]%Z.
Proof.
  exists counter, (mkSpi (mkPorts fresh fresh 0) [1; 2; 3]%Z None 3 3 false false false false).
  split; [reflexivity|]. split; [split; reflexivity|]. intros n. exists (2 + n). split; [lia|]. cbv zeta.
  set (s := mkSpi _ _ _ _ _ _ _ _ _).
  assert (G : forall n, let s' := Nat.iter (2 + n) (continueBlockTransfer (lpc counter) (handler (lpc counter) true) true) s in
            sndData s' = [] /\ sndCount s' = 0%Z /\ irqOn s' = false /\ portA (hw s') = mkPort 7 2 2 0 [] None (rx (portA (hw s'))) [1; 2; 3]%Z false /\ portB (hw s') = fresh /\ recCount s' = 3%Z).
  { clear n. induction n as [|n IH].
    - vm_compute. repeat split.
    - cbv zeta in *. change (2 + S n) with (S (2 + n)). change (Nat.iter (S (2 + n)) ?f s) with (f (Nat.iter (2 + n) f s)).
      set (t := Nat.iter (2 + n) _ s) in *. destruct IH as (A1 & A2 & A3 & A4 & A5 & A6). clearbody t.
      destruct t as [[a b w] sd rd sc rc fi ins irq fa]. cbn [sndData sndCount irqOn hw portA portB recCount] in *. subst sd sc irq b rc. destruct a as [x1 x2 x3 x4 x5 x6 x7 x8 x9]. injection A4 as -> -> -> -> -> -> -> ->.
      cbn. repeat split. }
  destruct (G n) as (A1 & _ & _ & A4 & A5 & _). split; auto. rewrite A4, A5. split; reflexivity.
Qed.
Print Assumptions C108_port1_words_refuted.
Example C108_port1_example : let s := obj (mkPorts fresh fresh 0) in irqOn s = false /\ shift (portB (hw s)) = None /\ 3%Z <> 0%Z.
Proof. vm_compute. repeat split. discriminate. Qed.

(** A block of more than 8 words in the background (port 0): the program waits while the interrupt handler works; when [finished] is set and finalizeBlockTransfer() returns, everything is sent and stored. Missing: blocks of at most 8 words (refuted below). *)
Theorem C108_background_partial wd s snd N rec n s1 m n' s' :
  irqOn s = false -> fault s = false -> on (portA (hw s)) = true -> idle (portA (hw s)) -> N <= length snd -> match rec with None => True | Some a => N <= length a end -> 8 < N ->
  transferBlock (lpc wd) n false s snd (Z.of_nat N) rec true = Some s1 ->
  let s2 := wait (lpc wd) (elapse wd) m false s1 in finished s2 = true ->
  finalizeBlockTransfer (lpc wd) n' false s2 = Some s' ->
  let p := portA (hw s) in let q := portA (hw s') in let words := map (fit (bits p)) (firstn N snd) in
  sent q = sent p ++ words /\ idle q /\ rx q = [] /\ finished s' = true /\ fault s' = false /\ irqOn s' = false /\
  recData s' = match rec with None => None | Some a => Some (filled a (answers (fun h => fit (bits p) (slave wd false h)) (sent p) words), N) end.
Proof. intros A B C D E F G H s2 I J. exact (async_safe wd s snd N rec A B C D E F n s1 m n' s' G H I J). Qed.
Print Assumptions C108_background_partial.
Example C108_background_example : let s := obj (mkPorts fresh off 0) in irqOn s = false /\ fault s = false /\ on (portA (hw s)) = true /\ idle (portA (hw s)) /\ 8 < 20 <= length words20 /\
  option_map (fun s1 => (finished s1, let s2 := wait (lpc counter) (elapse counter) 60 false s1 in (finished s2, option_map recData (finalizeBlockTransfer (lpc counter) 9 false s2))))
    (transferBlock (lpc brisk_world) 9 false s words20 20 (Some (repeat 0%Z 20)) true) = Some (false, (true, Some (Some (map (fun k => 100 + Z.of_nat k)%Z (seq 1 20), 20)))).
Proof. vm_compute. repeat split; repeat constructor. Qed.

(** A block of 8 words in the background: [finished] is set at once, so the program may call finalizeBlockTransfer(), while the interrupt is still to come. If it comes after the status is read, a word that was never received is stored and an answer is missing. *)
Definition bad_moment : world :=
  {| pace := fun _ k => if k <? 38 then 0 else if k =? 38 then 2 else if k =? 39 then 1 else if k mod 10 =? 0 then 1 else 0; slave := fun _ h => (100 + Z.of_nat (length h))%Z; junk := fun _ => 55%Z; irqAt := fun _ => true |}.
Theorem C108_background_short_refuted : exists wd s snd rec n s1 s',
  irqOn s = false /\ fault s = false /\ on (portA (hw s)) = true /\ idle (portA (hw s)) /\ length snd = 8 /\ length rec = 8 /\
  transferBlock (lpc wd) n false s snd 8 (Some rec) true = Some s1 /\ finished s1 = true /\ finalizeBlockTransfer (lpc wd) n false s1 = Some s' /\
  ~ In 55%Z (answers (slave wd false) [] snd) /\ exists a, recData s' = Some (a, 8) /\ In 55%Z a.
Proof.
  exists bad_moment, (obj (mkPorts fresh off 0)), [1; 2; 3; 4; 5; 6; 7; 8]%Z, (repeat 0%Z 8), 300.
  destruct (transferBlock (lpc bad_moment) 300 false (obj (mkPorts fresh off 0)) [1; 2; 3; 4; 5; 6; 7; 8]%Z 8 (Some (repeat 0%Z 8)) true) as [s1|] eqn:E; [|vm_compute in E; discriminate].
  destruct (finalizeBlockTransfer (lpc bad_moment) 300 false s1) as [s'|] eqn:F.
  - exists s1, s'. vm_compute in E. injection E as <-. vm_compute in F. injection F as <-. vm_compute. repeat split; auto.
    + intros X. repeat (destruct X as [X|X]; [discriminate|]). destruct X.
    + eexists. split; [reflexivity|]. simpl. auto 9.
  - vm_compute in E. injection E as <-. vm_compute in F. discriminate.
Qed.
Print Assumptions C108_background_short_refuted.

Local Open Scope Z_scope.
(** setClockDivider() sets the divider (1..256), setDataSize() the data size (4..16), begin() and end() switch the port on and off; nothing else of the port's settings is changed, and nothing of the other port's. *)
Theorem C108_clock wd no h d : is_u32 (c0 (sel no h)) -> 1 <= d <= 256 ->
  let p := sel no h in let q := sel no (setClockDivider (lpc wd) no h d) in
  divider (c0 q) = d /\ (forall i, 0 <= i < 8 \/ 16 <= i -> Z.testbit (c0 q) i = Z.testbit (c0 p) i) /\ c1 q = c1 p /\ cps q = cps p /\ msk q = msk p /\
  still (sel (negb no) h) (sel (negb no) (setClockDivider (lpc wd) no h d)).
Proof.
  intros U D. cbv zeta. unfold setClockDivider. cbn [get put lpc].
  destruct (change_still wd no CR0 (fun v => u32 (Z.lor (Z.land v (u32 (Z.lnot 0xff00))) (Z.shiftl (Z.land (d - 1) 255) 8))) h (or_introl eq_refl)) as (A & B & C & E & F). cbv zeta in *.
  destruct (clock_value _ d U D) as [G H]. cbv zeta in *. rewrite A. auto 9.
Qed.
Print Assumptions C108_clock.
Theorem C108_data_size wd no h n : is_u32 (c0 (sel no h)) -> 4 <= n <= 16 ->
  let p := sel no h in let q := sel no (setDataSize (lpc wd) no h n) in
  bits q = n /\ (forall i, 4 <= i -> Z.testbit (c0 q) i = Z.testbit (c0 p) i) /\ c1 q = c1 p /\ cps q = cps p /\ msk q = msk p /\
  still (sel (negb no) h) (sel (negb no) (setDataSize (lpc wd) no h n)).
Proof.
  intros U D. cbv zeta. unfold setDataSize. cbn [get put lpc].
  destruct (change_still wd no CR0 (fun v => u32 (Z.lor (Z.land v (u32 (Z.lnot 15))) (SPI_DATA_SIZE_OFFS n))) h (or_introl eq_refl)) as (A & B & C & E & F). cbv zeta in *.
  destruct (size_value _ n U D) as [G H]. cbv zeta in *. unfold bits. rewrite A. auto 9.
Qed.
Print Assumptions C108_data_size.
Theorem C108_begin_end wd no h : is_u32 (c1 (sel no h)) ->
  let p := sel no h in let q := sel no (begin (lpc wd) no h) in let r := sel no (end_ (lpc wd) no h) in
  on q = true /\ on r = false /\ (forall i, 0 <= i -> i <> 1 -> Z.testbit (c1 q) i = Z.testbit (c1 p) i /\ Z.testbit (c1 r) i = Z.testbit (c1 p) i) /\
  c0 q = c0 p /\ cps q = cps p /\ msk q = msk p /\ c0 r = c0 p /\ cps r = cps p /\ msk r = msk p /\
  still (sel (negb no) h) (sel (negb no) (begin (lpc wd) no h)) /\ still (sel (negb no) h) (sel (negb no) (end_ (lpc wd) no h)).
Proof.
  intros U. cbv zeta. unfold begin, end_. cbn [get put lpc].
  destruct (change_still wd no CR1 (fun v => Z.lor v SSP_CR1_ENABLED) h (or_intror eq_refl)) as (A & B & C & E & F).
  destruct (change_still wd no CR1 (fun v => Z.land v (u32 (Z.lnot SSP_CR1_ENABLED))) h (or_intror eq_refl)) as (A' & B' & C' & E' & F'). cbv zeta in *.
  unfold on. rewrite B, B'. split; [rewrite begin_bits by lia; apply orb_true_r|]. split; [rewrite end_bits by (auto; lia); apply andb_false_r|].
  split; [intros i I N; rewrite begin_bits, end_bits by auto; destruct (Z.eqb_spec i 1); [contradiction|]; rewrite orb_false_r, andb_true_r; auto|]. auto 9.
Qed.
Print Assumptions C108_begin_end.
Example C108_settings_example : is_u32 (c0 (sel true (mkPorts fresh off 0))) /\ c0 (sel true (setClockDivider (lpc counter) true (mkPorts fresh off 0) 100)) = 0x6307 /\
  c0 (sel true (setDataSize (lpc counter) true (mkPorts fresh off 0) 16)) = 0xf /\ c1 (sel true (begin (lpc counter) true (mkPorts fresh off 0))) = 2.
Proof. vm_compute. repeat split; discriminate. Qed.

(** The constructor: 8 bits, the wanted clock polarity and phase, divider 1, prescaler 2, master, off; bus clock, reset line and divider of this port and the clock of the pins; nothing of the other port. *)
Theorem C108_construct wd no h (polarity phase : bool) : let mode := Z.lor (if polarity then SPI_CPOL_HIGH else SPI_CPOL_LOW) (if phase then SPI_CPHASE_FALL else SPI_CPHASE_RAISE) in
  let h' := constructPort (lpc wd) no h mode in let q := sel no h' in
  bits q = 8 /\ format (c0 q) = 0 /\ Z.testbit (c0 q) 6 = polarity /\ Z.testbit (c0 q) 7 = phase /\ divider (c0 q) = 1 /\ c1 q = 0 /\ cps q = 2 /\ still (sel (negb no) h) (sel (negb no) h').
Proof.
  cbv zeta. unfold constructPort. cbn [put lpc]. unfold writing. cbv zeta. rewrite sel_upd.
  set (v := u32 _). set (h1 := upd no (elapse wd h) _). set (h2 := upd no (elapse wd h1) _).
  assert (E1 : c0 (sel no h1) = v) by (unfold h1; rewrite sel_upd; reflexivity).
  assert (E2 : c0 (sel no h2) = v /\ c1 (sel no h2) = 0).
  { unfold h2. rewrite sel_upd. assert (BF : forall p, still p (begin_frame p)) by (intros p; unfold begin_frame, still; destruct (on p); auto; destruct (shift p); auto; destruct (tx p); auto).
    destruct (BF (set_c1 (sel no (elapse wd h1)) SSP_CR1_MASTER)) as (A & B & _). rewrite A, B. cbn [set_c1 c0 c1]. destruct (elapse_still wd no h1) as (C & _). rewrite C, E1. auto. }
  destruct (elapse_still wd no h2) as (A & B & _). destruct E2 as [E2 E3].
  assert (O : still (sel (negb no) h) (sel (negb no) (upd no (elapse wd h2) (set_cps (sel no (elapse wd h2)) 2)))).
  { rewrite sel_other. eapply still_tr; [|apply elapse_still]. unfold h2. rewrite sel_other. eapply still_tr; [|apply elapse_still]. unfold h1. rewrite sel_other. apply elapse_still. }
  unfold bits. cbn [set_cps c0 c1 cps]. rewrite A, B, E2, E3. split; [|split; [|split; [|split; [|split]]]]; [..|auto]; unfold v; destruct polarity, phase; vm_compute; reflexivity.
Qed.
Print Assumptions C108_construct.
Theorem C108_construct_chip (no : bool) c : let c' := constructChip no c in
  (forall i, 0 <= i -> Z.testbit (SYSAHBCLKCTRL c') i = Z.testbit (SYSAHBCLKCTRL c) i || (i =? 6) || (i =? if no then 18 else 11)) /\
  (forall i, 0 <= i -> Z.testbit (PRESETCTRL c') i = Z.testbit (PRESETCTRL c) i || (i =? if no then 2 else 0)) /\
  (if no then SSP1CLKDIV c' = 2 /\ prio1 c' = 1 /\ SSP0CLKDIV c' = SSP0CLKDIV c /\ prio0 c' = prio0 c else SSP0CLKDIV c' = 2 /\ prio0 c' = 1 /\ SSP1CLKDIV c' = SSP1CLKDIV c /\ prio1 c' = prio1 c).
Proof.
  cbv zeta. unfold constructChip.
  destruct no; cbn [negb SYSAHBCLKCTRL PRESETCTRL SSP0CLKDIV SSP1CLKDIV prio0 prio1]; repeat split; intros i I; rewrite !Z.lor_spec;
    repeat (rewrite (Z.shiftl_1_l)); rewrite !Z.pow2_bits_eqb by lia; rewrite ?(Z.eqb_sym _ i); reflexivity.
Qed.
Print Assumptions C108_construct_chip.
Example C108_construct_example : c0 (sel false (constructPort (lpc counter) false (mkPorts off off 0) (Z.lor SPI_CPOL_HIGH SPI_CPHASE_RAISE))) = 0x47 /\
  constructChip true (mkChip 0 0 0 0 0 0) = mkChip 0x40040 4 0 2 0 1.
Proof. vm_compute. auto. Qed.

(** The frame formats of TI and Microwire cannot be chosen: their constants are that of SPI. *)
Theorem C108_format_refuted wd no h : format (c0 (sel no (constructPort (lpc wd) no h SPI_FORMAT_TI))) <> 1 /\ format (c0 (sel no (constructPort (lpc wd) no h SPI_FORMAT_MICROWIRE))) <> 2.
Proof.
  pose proof (C108_construct wd no h false false) as (_ & F & _). cbv zeta in F. change (Z.lor SPI_CPOL_LOW SPI_CPHASE_RAISE) with 0 in F.
  change SPI_FORMAT_TI with 0. change SPI_FORMAT_MICROWIRE with 0. rewrite F. split; discriminate.
Qed.
Print Assumptions C108_format_refuted.
(** SPI_CONTINUE is documented to leave slave select active; it does not. *)
Theorem C108_continue_refuted wd no s v n s' x : fair wd -> irqOn s = false -> on (sel no (hw s)) = true -> idle (sel no (hw s)) ->
  transfer (lpc wd) n no s v SPI_CONTINUE = Some (s', x) -> ~ selected (sel no (hw s')).
Proof.
  intros F H O I T. destruct (transfer_ok wd no s v SPI_CONTINUE F H O I) as (n0 & h & G & Q). cbv zeta in *. unfold selected.
  assert (M : forall m, (n <= m)%nat -> transfer (lpc wd) m no s v SPI_CONTINUE = Some (s', x)).
  { intros m L. revert T. unfold transfer. clear - L.
    assert (G1 : forall a c s0 s1, (a <= c)%nat -> clearReceived (lpc wd) a no s0 = Some s1 -> clearReceived (lpc wd) c no s0 = Some s1).
    { induction a as [|a IHa]; intros c s0 s1 L0 Q; destruct c as [|c]; try lia; auto; cbn [clearReceived] in *; destruct (load _ _ no SR s0) as [y z]; destruct (Z.land z _ =? 0)%Z; auto; try discriminate.
      destruct (load _ _ no DR y) as [y' z']. apply (IHa c); auto; lia. }
    assert (G2 : forall a c s0 s1, (a <= c)%nat -> waitBusy (lpc wd) a no s0 = Some s1 -> waitBusy (lpc wd) c no s0 = Some s1).
    { induction a as [|a IHa]; intros c s0 s1 L0 Q; destruct c as [|c]; try lia; auto; cbn [waitBusy] in *; destruct (load _ _ no SR s0) as [y z]; destruct (Z.land z _ =? 0)%Z; auto; try discriminate.
      apply (IHa c); auto; lia. }
    destruct (clearReceived (lpc wd) n no s) as [s1|] eqn:C; [|discriminate]. rewrite (G1 _ m _ _ L C). cbv zeta.
    match goal with |- context [waitBusy (lpc wd) n no ?y] => destruct (waitBusy (lpc wd) n no y) as [s2|] eqn:W; [|discriminate]; rewrite (G2 _ m _ _ L W) end. auto. }
  specialize (M (max n n0) ltac:(lia)). rewrite G in M by lia. injection M as <- _. cbn [hw setHw]. destruct Q as (_ & (_ & S0) & _). rewrite S0. auto.
Qed.
Print Assumptions C108_continue_refuted.
Example C108_continue_example : exists s' x, transfer (lpc counter) 5 false (obj (mkPorts fresh off 0)) 0x42 SPI_CONTINUE = Some (s', x).
Proof. vm_compute. eauto. Qed.
