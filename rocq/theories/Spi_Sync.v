(** Proofs about SPI: block transfers on port 0, with and without waiting. *)
From Verif Require Export Spi_Calls.
Local Open Scope nat_scope.

Section Sync.
  Variables (wd : world) (b : Z) (base raw extra : list Z) (rec0 : option (list Z)).
  Hypothesis Hb : (1 <= b <= 16)%Z.
  Hypothesis Hrec : match rec0 with None => True | Some a => length raw <= length a end.
  Notation pA s := (portA (hw s)).
  Notation Inv := (Inv wd b base raw extra rec0).
  Notation N := (length raw).
  Notation whole := (whole base).
  Notation words := (map (fit b) raw).
  Notation reply := (answers (fun h => fit b (slave wd false h)) base words).

  Lemma inv_end s k pop : Inv s k pop -> recCount s = 0%Z ->
    k = N /\ idle (pA s) /\ rx (pA s) = [] /\ sent (pA s) = base ++ words /\ pop = reply /\ fault s = false /\
    recData s = match rec0 with None => None | Some a => Some (filled a reply, N) end /\ on (pA s) = true /\ bits (pA s) = b.
  Proof.
    intros (K & KN & A1 & A2 & A3 & A4 & A5) R.
    destruct (okp_counts _ _ _ _ _ _ _ K KN) as [C1 C2].
    assert (KE : k = N) by lia. assert (F : flight (pA s) = 0) by lia. assert (RX : length (rx (pA s)) = 0) by lia.
    assert (LP : length pop = N) by lia.
    destruct K as (d & O & B & S & Q & U & T & RR & E). subst k.
    assert (H1 : opt (shift (pA s)) ++ tx (pA s) = []) by (apply length_zero_iff_nil; rewrite app_length; unfold flight in F; exact F).
    rewrite H1 in Q. cbn in Q. rewrite app_nil_r, <- (map_length (fit b)), firstn_all in Q. subst d.
    assert (X : rx (pA s) = []) by (apply length_zero_iff_nil; auto). rewrite X, app_nil_r in U.
    assert (P : pop = reply) by (apply sub_all; [exact U|unfold ans; rewrite answers_length, map_length; auto]).
    split; auto. split. { destruct (shift (pA s)) eqn:W; [discriminate|]. split; auto. }
    split; auto. split; auto. split; auto. split; auto. split; [|auto]. rewrite A4. unfold stored. destruct rec0; auto. rewrite LP, P. auto.
  Qed.

  Lemma finalize_safe n : forall s k pop s', Inv s k pop -> irqOn s = false -> (k = N -> finished s = true) ->
    finalizeBlockTransfer (lpc wd) n false s = Some s' -> exists pop', Inv s' N pop' /\ recCount s' = 0%Z /\ irqOn s' = false /\ finished s' = true.
  Proof.
    induction n as [|n IH]; intros s k pop s' I H F; cbn [finalizeBlockTransfer].
    all: destruct (Z.eqb_spec (recCount s) 0) as [R|R].
    - intros [= <-]. destruct (inv_end _ _ _ I R) as (-> & _). eauto 9.
    - discriminate.
    - intros [= <-]. destruct (inv_end _ _ _ I R) as (-> & _). eauto 9.
    - destruct (continue_off (lpc wd) false s H) as [-> H1]. change (fun s0 : spi ports => s0) with skip in *.
      destruct (continue_ok wd b base raw extra rec0 Hb Hrec s k pop I) as (k' & pop' & I' & KK & _ & _ & _ & SM & FI & _). cbv zeta in *.
      intros Q. apply (IH _ k' pop' s' I' H1); auto. intros E. apply FI; auto.
  Qed.

  Lemma finalize_lost n : forall s k pop, Inv s k pop -> irqOn s = false -> (0 < lost s)%Z -> finalizeBlockTransfer (lpc wd) n false s = None.
  Proof.
    induction n as [|n IH]; intros s k pop I H L; cbn [finalizeBlockTransfer].
    all: destruct (Z.eqb_spec (recCount s) 0) as [R|R].
    all: try (exfalso; destruct I as (_ & _ & A1 & _); unfold lost in L; lia).
    - auto.
    - destruct (continue_off (lpc wd) false s H) as [-> H1]. change (fun s0 : spi ports => s0) with skip in *.
      destruct (continue_ok wd b base raw extra rec0 Hb Hrec s k pop I) as (k' & pop' & I' & KK & (_ & _ & L' & _) & _). cbv zeta in *.
      apply (IH _ k' pop' I' H1). lia.
  Qed.

  Definition calm (s : spi ports) : Prop := N <= 8 \/ (brisk wd /\ rounds s <= 1).
  Lemma finalize_returns : fair wd -> forall M d s k pop, mu s <= M -> Inv s k pop -> irqOn s = false -> whole (pA s) pop -> calm s ->
    (flight (pA s) = 0 \/ exists j, now (hw s) <= j /\ 0 < pace wd false j /\ j - now (hw s) <= d) ->
    exists n0 s', forall n, n0 <= n -> finalizeBlockTransfer (lpc wd) n false s = Some s'.
  Proof.
    intros F. induction M as [M IHM] using lt_wf_ind. induction d as [d IHd] using lt_wf_ind. intros s k pop LM I H W C J.
    destruct (Z.eqb_spec (recCount s) 0) as [R|R].
    { exists 0, s. intros n _. destruct n; cbn [finalizeBlockTransfer]; rewrite R; reflexivity. }
    assert (MP : 0 < mu s).
    { destruct (Nat.eq_0_gt_0_cases (mu s)) as [Z0|]; auto. exfalso. apply R. unfold mu in Z0. destruct I as (K & KN & A1 & A2 & _).
      destruct (okp_counts _ _ _ _ _ _ _ K KN) as [C1 C2]. unfold Spi_Proofs.whole in W. lia. }
    destruct (continue_off (lpc wd) false s H) as [EQ H1]. change (fun s0 : spi ports => s0) with skip in *.
    destruct (continue_ok wd b base raw extra rec0 Hb Hrec s k pop I) as (k' & pop' & I' & KK & (A1 & A2 & _ & A3) & T & P & SM & FI & V1 & V2). cbv zeta in *.
    set (s1 := continueBlockTransfer (lpc wd) skip false s) in *.
    assert (W1 : whole (pA s1) pop' /\ calm s1). { destruct C as [C|[C1 C2]]; [split; [auto|left; auto]|]. destruct (V2 C1 W C2). split; auto. right; auto. }
    destruct W1 as [W1 C1].
    assert (G : exists n0 s', forall n, n0 <= n -> finalizeBlockTransfer (lpc wd) n false s1 = Some s').
    { destruct (Nat.eq_dec (mu s1) (mu s)) as [E|NE].
      - destruct J as [J|(j & J1 & J2 & J3)]; [specialize (P J MP); lia|].
        destruct (A3 E) as [F1 F2]. destruct (Nat.eq_0_gt_0_cases (flight (pA s))) as [Z0|FP]; [specialize (P Z0 MP); lia|].
        assert (JN : now (hw s1) <= j). { destruct (Nat.lt_ge_cases j (now (hw s1))); auto. specialize (F2 FP j ltac:(lia)). lia. }
        specialize (T R). destruct d as [|d]; [lia|]. apply (IHd d) with k' pop'; auto; try lia. right. exists j. repeat split; auto; lia.
      - destruct (F false (now (hw s1))) as (j & J1 & J2). apply (IHM (mu s1)) with (d := j - now (hw s1)) (k := k') (pop := pop'); auto; try lia. right. exists j. auto. }
    destruct G as (n0 & s' & G). exists (S n0), s'. intros n Hn. destruct n as [|n]; [lia|]. cbn [finalizeBlockTransfer]. destruct (Z.eqb_spec (recCount s) 0); [lia|]. rewrite EQ. apply G. lia.
  Qed.
End Sync.

(** the beginning *)
Section Start.
  Variables (wd : world) (s : spi ports) (snd : list Z) (N : nat) (rec : option (list Z)).
  Hypothesis Hirq : irqOn s = false.
  Hypothesis Hfault : fault s = false.
  Hypothesis Hon : on (portA (hw s)) = true.
  Hypothesis Hidle : idle (portA (hw s)).
  Hypothesis Hsnd : N <= length snd.
  Hypothesis Hrec : match rec with None => True | Some a => N <= length a end.
  Notation p := (portA (hw s)).
  Notation raw := (firstn N snd).
  Notation InvN := (Inv wd (bits p) (sent p) raw (skipn N snd) rec).
  Definition started (h : ports) : spi ports :=
    setHw (setFinished (setRecCount (setSndCount (setRec (setSnd s snd) (match rec with None => None | Some a => Some (a, O) end)) (Z.of_nat N)) (Z.of_nat N)) false) h.
  Lemma raw_length : length raw = N.
  Proof. rewrite firstn_length. lia. Qed.
  Lemma started_ok n : match clearReceived (lpc wd) n false s with
    | None => n < length (rx p)
    | Some s1 => exists h, store (lpc wd) (handler (lpc wd) false) false ICR (setFinished (setRecCount (setSndCount (setRec (setSnd s1 snd) (match rec with None => None | Some a => Some (a, O) end)) (Z.of_nat N)) (Z.of_nat N)) false) SSP_ICR_BITMASK = started h /\
        InvN (started h) 0 [] /\ whole (sent p) (portA h) [] /\ rounds (started h) = 0
    end.
  Proof.
    pose proof (clear_ok wd false n s Hirq (proj2 Hidle)) as C. destruct (clearReceived (lpc wd) n false s) as [s1|]; [|exact C].
    destruct C as (h1 & -> & E1). exists (writing wd false ICR h1 SSP_ICR_BITMASK). rewrite store_put by exact Hirq. split; [reflexivity|].
    destruct Hidle as (T & S0).
    assert (E2 : portA (writing wd false ICR h1 SSP_ICR_BITMASK) = set_ror (set_rx p []) false).
    { unfold writing. cbv zeta. change (portA (upd false ?a ?b)) with b. rewrite sel_elapse_idle by (rewrite E1; exact S0). rewrite E1. reflexivity. }
    split; [|split; [unfold whole; rewrite E2; cbn; lia|unfold rounds; cbn [hw started setHw]; rewrite E2; reflexivity]].
    split. { cbn [hw started setHw]. rewrite E2. exists []. cbn [set_ror set_rx on bits c0 c1 sent shift tx rx]. rewrite T, S0, app_nil_r. unfold on, bits. cbn. repeat split; auto; try lia. constructor. }
    cbn [started sndCount recCount sndData recData fault setHw setFinished setRecCount setSndCount setRec setSnd]. rewrite raw_length, Nat.sub_0_r. cbn [length skipn]. rewrite Nat.sub_0_r, firstn_skipn.
    split; [lia|]. split; [reflexivity|]. split; [reflexivity|]. split; [reflexivity|]. split; [|exact Hfault]. unfold stored. destruct rec; reflexivity.
  Qed.
  Lemma Hrec' : match rec with None => True | Some a => length raw <= length a end.
  Proof. rewrite raw_length. exact Hrec. Qed.

  Notation words := (map (fit (bits p)) raw).
  Notation reply := (answers (fun h => fit (bits p) (slave wd false h)) (sent p) words).
  Definition complete (s' : spi ports) : Prop :=
    sent (portA (hw s')) = sent p ++ words /\ idle (portA (hw s')) /\ rx (portA (hw s')) = [] /\ finished s' = true /\ fault s' = false /\ irqOn s' = false /\
    recData s' = match rec with None => None | Some a => Some (filled a reply, N) end.

  (** what a returning call has done *)
  Theorem block_safe n s' : transferBlock (lpc wd) n false s snd (Z.of_nat N) rec false = Some s' -> complete s'.
  Proof.
    unfold transferBlock. pose proof (started_ok n) as ST. destruct (clearReceived (lpc wd) n false s) as [s1|]; [|discriminate].
    destruct ST as (h & E & I & _ & _). cbv zeta. cbn [negb]. rewrite E.
    destruct (continue_off (lpc wd) false (started h) Hirq) as [-> H1]. change (fun s0 : spi ports => s0) with skip in *.
    destruct (continue_ok wd _ _ _ _ _ (bits_range p) Hrec' _ _ _ I) as (k' & pop' & I' & _ & _ & _ & _ & _ & FI & _). cbv zeta in *.
    intros Q. destruct (finalize_safe wd _ _ _ _ _ (bits_range p) Hrec' n _ k' pop' s' I' H1 (fun e => proj2 (proj2 (FI e))) Q) as (pop2 & I2 & R2 & H2 & F2).
    destruct (inv_end wd _ _ _ _ _ Hrec' _ _ _ I2 R2) as (_ & D & X & S1 & _ & F & RC & _). rewrite raw_length in RC. unfold complete. repeat split; auto; apply D.
  Qed.
  (** when it returns *)
  Theorem block_returns : fair wd -> (N <= 8 \/ brisk wd) -> length (rx p) <= 8 ->
    exists n0 s', forall n, n0 <= n -> transferBlock (lpc wd) n false s snd (Z.of_nat N) rec false = Some s'.
  Proof.
    intros F C RX.
    assert (CL : exists h1, (forall n, 8 <= n -> clearReceived (lpc wd) n false s = Some h1)).
    { pose proof (started_ok 8) as ST. destruct (clearReceived (lpc wd) 8 false s) as [s1|] eqn:E1; [|lia]. exists s1. intros n L.
      assert (G : forall a c s0 s1, a <= c -> clearReceived (lpc wd) a false s0 = Some s1 -> clearReceived (lpc wd) c false s0 = Some s1).
      { induction a as [|a IHa]; intros c s0 s2 L0 Q; destruct c as [|c]; try lia; auto; cbn [clearReceived] in *; destruct (load _ _ false SR s0) as [x y]; destruct (Z.land y _ =? 0)%Z; auto; try discriminate.
        destruct (load _ _ false DR x) as [x' y']. apply (IHa c); auto; lia. }
      apply (G _ n _ _ L E1). }
    destruct CL as (s1 & CL). pose proof (started_ok 8) as ST. rewrite CL in ST by lia. destruct ST as (h & E & I & W & R).
    destruct (continue_off (lpc wd) false (started h) Hirq) as [EQ H1]. change (fun s0 : spi ports => s0) with skip in *.
    destruct (continue_ok wd _ _ _ _ _ (bits_range p) Hrec' _ _ _ I) as (k' & pop' & I' & _ & _ & _ & _ & _ & FI & V1 & V2). cbv zeta in *.
    set (s2 := continueBlockTransfer (lpc wd) skip false (started h)) in *.
    assert (WC : whole (sent p) (portA (hw s2)) pop' /\ calm wd raw s2).
    { unfold calm. rewrite raw_length in *. destruct C as [C|C]; [split; [apply V1; auto|auto]|]. destruct (V2 C W ltac:(lia)). auto. }
    destruct WC as [W2 C2]. destruct (F false (now (hw s2))) as (j & J1 & J2).
    destruct (finalize_returns wd _ _ _ _ _ (bits_range p) Hrec' F (mu s2) (j - now (hw s2)) s2 k' pop' ltac:(lia) I' H1 W2 C2) as (n0 & s' & G); [right; exists j; auto|].
    exists (n0 + 8), s'. intros n L. unfold transferBlock. rewrite CL by lia. cbv zeta. cbn [negb]. rewrite E, EQ. apply G. lia.
  Qed.

  (** in the background *)
  Definition going (s' : spi ports) : Prop :=
    exists k pop, InvN s' k pop /\ (irqOn s' = true -> instance s' = true) /\ (finished s' = true -> irqOn s' = false) /\ (irqOn s' = false -> k = N) /\ (k = N -> finished s' = true).
  Lemma going_handler s' : going s' -> going (handler (lpc wd) false s').
  Proof.
    intros (k & pop & I & A & B & C & D). unfold handler. destruct (irqOn s') eqn:Q; cbn [andb]; [|exists k, pop; rewrite Q; auto 9].
    destruct (due (lpc wd) false (hw s')); [|exists k, pop; rewrite Q; auto 9]. rewrite A by auto. change (fun s0 : spi ports => s0) with skip.
    destruct (continue_ok wd _ _ _ _ _ (bits_range p) Hrec' _ _ _ I) as (k' & pop' & I' & KK & _ & _ & _ & SM & FI & _). cbv zeta in *. rewrite raw_length in *.
    assert (KN : k' <= N) by (destruct I' as (_ & KN & _); rewrite raw_length in KN; auto).
    exists k', pop'. split; [exact I'|]. destruct (Nat.eq_dec k' N) as [E|NE].
    - destruct (FI E) as (X1 & X2 & X3). rewrite X1, X2, X3. repeat split; auto; discriminate.
    - destruct (SM ltac:(clear - KN NE; lia)) as (X1 & X2 & X3). rewrite X1, X2, X3, Q. split; [auto|]. split; [intros H; specialize (B H); discriminate|]. split; [discriminate|]. intros EE. contradiction.
  Qed.
  Lemma going_wait m : forall s', going s' -> going (wait (lpc wd) (elapse wd) m false s').
  Proof.
    induction m as [|m IH]; intros s' G; cbn [wait]; auto. apply IH, going_handler. destruct G as (k & pop & I & R). exists k, pop. split; [|exact R].
    exact (proj1 (E_ok wd _ _ _ _ _ _ _ _ I)).
  Qed.
  Lemma Inv_ext u v k pop x : InvN u k pop -> portA (hw v) = set_msk (portA (hw u)) x -> sndCount v = sndCount u -> recCount v = recCount u ->
    sndData v = sndData u -> recData v = recData u -> fault v = fault u -> InvN v k pop.
  Proof.
    unfold Inv. intros (K & R) -> -> -> -> -> ->. split; [|exact R]. eapply okp_same; [exact K|..]; reflexivity.
  Qed.
  Lemma arm_ok s3 k pop s1 : InvN s3 k pop -> irqOn s3 = false -> finished s3 = false -> k < N ->
    (let s := setInstance s3 true in
     let '(s, m) := load (lpc wd) (handler (lpc wd) false) false IMSC s in
     let s := store (lpc wd) (handler (lpc wd) false) false IMSC s (Z.lor m (Z.shiftl 1 3)) in
     Some (handler (lpc wd) false (setIrq s true))) = Some s1 -> going s1.
  Proof.
    intros I H F KN. cbv zeta. rewrite load_get by exact H. unfold reading. cbv zeta. rewrite store_put by exact H.
    assert (I3 : InvN (setInstance s3 true) k pop) by exact I.
    pose proof (proj1 (E_ok wd _ _ _ _ _ _ _ _ I3)) as I4. pose proof (proj1 (E_ok wd _ _ _ _ _ _ _ _ I4)) as I5.
    intros [= <-]. apply going_handler. exists k, pop.
    split; [eapply Inv_ext; [exact I5|reflexivity..]|]. cbn [irqOn instance finished setIrq setHw setInstance]. rewrite F.
    split; [auto|]. split; [discriminate|]. split; [discriminate|]. clear - KN. lia.
  Qed.
  Theorem async_safe n s1 m n' s' : 8 < N ->
    transferBlock (lpc wd) n false s snd (Z.of_nat N) rec true = Some s1 ->
    let s2 := wait (lpc wd) (elapse wd) m false s1 in finished s2 = true ->
    finalizeBlockTransfer (lpc wd) n' false s2 = Some s' -> complete s'.
  Proof.
    intros N8. unfold transferBlock. pose proof (started_ok n) as ST. destruct (clearReceived (lpc wd) n false s) as [s0|]; [|discriminate].
    destruct ST as (h & E & I & _ & _). cbv zeta. cbn [negb]. rewrite E.
    destruct (continue_off (lpc wd) false (started h) Hirq) as [-> H1]. change (fun s0 : spi ports => s0) with skip in *.
    destruct (continue_ok wd _ _ _ _ _ (bits_range p) Hrec' _ _ _ I) as (k' & pop' & I' & KK & _ & _ & _ & SM & _). cbv zeta in *. rewrite raw_length in SM.
    specialize (SM ltac:(clear - KK N8; lia)). destruct SM as (_ & _ & FF). change (finished (started h)) with false in FF.
    set (s3 := continueBlockTransfer (lpc wd) skip false (started h)) in *. clearbody s3.
    intros ARM FIN. pose proof (going_wait m _ (arm_ok s3 k' pop' s1 I' H1 FF ltac:(clear - KK N8; lia) ARM)) as (k & pop & I7 & _ & B & C & _).
    pose proof (B FIN) as IO. intros Q.
    destruct (finalize_safe wd _ _ _ _ _ (bits_range p) Hrec' n' _ k pop s' I7 IO (fun _ => FIN) Q) as (pop2 & I2 & R2 & H2 & F2).
    destruct (inv_end wd _ _ _ _ _ Hrec' _ _ _ I2 R2) as (_ & D & X & S1 & _ & F & RC & _). rewrite raw_length in RC. unfold complete. repeat split; auto; apply D.
  Qed.
  (** a call in the background returns at once *)
  Theorem async_returns n : length (rx p) <= n -> exists s1, transferBlock (lpc wd) n false s snd (Z.of_nat N) rec true = Some s1.
  Proof.
    intros L. unfold transferBlock. pose proof (started_ok n) as ST. destruct (clearReceived (lpc wd) n false s) as [s0|]; [|lia].
    cbv zeta. cbn [negb]. destruct (load _ _ false IMSC _) as [x y]. eauto.
  Qed.
End Start.
