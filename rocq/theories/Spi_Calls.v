(** Proofs about SPI: the calls. *)
From Verif Require Export Spi_Block.
Local Open Scope nat_scope.

(** without interrupts the handler does nothing *)
Lemma handler_off {S} (w : ssp S) no s : irqOn s = false -> handler w no s = s.
Proof. unfold handler. intros ->. reflexivity. Qed.
Section Quiet.
  Context {S : Type} (w : ssp S) (no : bool).
  Notation id0 := (fun s : spi S => s).
  Lemma load_off no' r s : irqOn s = false -> load w (handler w no) no' r s = load w id0 no' r s /\ irqOn (fst (load w id0 no' r s)) = false.
  Proof. unfold load. intros H. destruct (get w no' r (hw s)). cbn [fst]. split; [rewrite handler_off by exact H; auto|exact H]. Qed.
  Lemma store_off no' r s v : irqOn s = false -> store w (handler w no) no' r s v = store w id0 no' r s v /\ irqOn (store w id0 no' r s v) = false.
  Proof. unfold store. intros H. split; [rewrite handler_off by exact H; auto|exact H]. Qed.
  Lemma keep_irq (s : spi S) v : irqOn (keep s v) = irqOn s.
  Proof. unfold keep. destruct (recData s) as [[a i]|]; [destruct (i <? length a)|]; reflexivity. Qed.
  Lemma fill_off m : forall s, irqOn s = false -> fillLoop w (handler w no) no m s = fillLoop w id0 no m s /\ irqOn (fillLoop w id0 no m s) = false.
  Proof.
    induction m as [|m IH]; intros s H; cbn [fillLoop]; destruct (sndCount s =? 0)%Z; auto.
    - destruct (load_off no SR s H) as [-> H1]. destruct (load w id0 no SR s) as [s1 v1]. cbn [fst] in H1. destruct (Z.land v1 _ =? 0)%Z; auto.
    - destruct (load_off no SR s H) as [-> H1]. destruct (load w id0 no SR s) as [s1 v1]. cbn [fst] in H1. destruct (Z.land v1 _ =? 0)%Z; auto.
      destruct (load_off no SR (setSndCount s1 (sndCount s1 - 1)) H1) as [-> H2]. destruct (load w id0 no SR _) as [s2 v2]. cbn [fst] in H2.
      assert (G : exists s3, (if (Z.land v2 SSP_SR_RNE =? 0)%Z then s2 else let '(s, tmpVal) := load w (handler w no) no DR (setRecCount s2 (recCount s2 - 1)) in keep s tmpVal) = s3 /\
                (if (Z.land v2 SSP_SR_RNE =? 0)%Z then s2 else let '(s, tmpVal) := load w id0 no DR (setRecCount s2 (recCount s2 - 1)) in keep s tmpVal) = s3 /\ irqOn s3 = false).
      { destruct (Z.land v2 SSP_SR_RNE =? 0)%Z; [eauto|]. cbv zeta. destruct (load_off no DR (setRecCount s2 (recCount s2 - 1)) H2) as [-> H3]. destruct (load w id0 no DR _) as [s3 v3]. cbn [fst] in H3.
        eexists; split; [reflexivity|]. split; [reflexivity|]. rewrite keep_irq. exact H3. }
      destruct G as (s3 & -> & -> & H3).
      assert (G : irqOn (fst (match sndData s3 with [] => (setFault s3, 0%Z) | v :: t => (setSnd s3 t, v) end)) = false) by (destruct (sndData s3); exact H3).
      destruct (match sndData s3 with [] => (setFault s3, 0%Z) | v :: t => (setSnd s3 t, v) end) as [s4 v4]. cbn [fst] in G.
      destruct (store_off false DR s4 v4 G) as [-> H5]. destruct (load_off no RIS (store w id0 false DR s4 v4) H5) as [-> H6].
      destruct (load w id0 no RIS _) as [s6 v6]. cbn [fst] in H6. auto.
  Qed.
  Lemma drain_off m : forall s, irqOn s = false -> drainLoop w (handler w no) no m s = drainLoop w id0 no m s /\ irqOn (drainLoop w id0 no m s) = false.
  Proof.
    induction m as [|m IH]; intros s H; cbn [drainLoop]; destruct (recCount s =? 0)%Z; auto.
    - destruct (load_off no SR s H) as [-> H1]. destruct (load w id0 no SR s) as [s1 v1]. cbn [fst] in H1. destruct (Z.land v1 _ =? 0)%Z; auto.
    - destruct (load_off no SR s H) as [-> H1]. destruct (load w id0 no SR s) as [s1 v1]. cbn [fst] in H1. destruct (Z.land v1 _ =? 0)%Z; auto.
      destruct (load_off no DR (setRecCount s1 (recCount s1 - 1)) H1) as [-> H2]. destruct (load w id0 no DR _) as [s2 v2]. cbn [fst] in H2.
      assert (H3 : irqOn (keep s2 v2) = false) by (rewrite keep_irq; auto).
      destruct (load_off no RIS (keep s2 v2) H3) as [-> H4]. destruct (load w id0 no RIS _) as [s3 v3]. cbn [fst] in H4. auto.
  Qed.
  Lemma continue_off s : irqOn s = false ->
    continueBlockTransfer w (handler w no) no s = continueBlockTransfer w id0 no s /\ irqOn (continueBlockTransfer w id0 no s) = false.
  Proof.
    intros H. unfold continueBlockTransfer. cbv zeta. destruct (fill_off 8 s H) as [-> H1].
    destruct (drain_off (Z.to_nat (recCount (fillLoop w id0 no 8 s))) _ H1) as [-> H2].
    set (s2 := drainLoop _ _ _ _ _) in *. unfold allSent. destruct (sndCount s2 =? 0)%Z; auto. cbv zeta.
    destruct (load_off no IMSC (setInstance (setIrq s2 false) false) eq_refl) as [-> H3]. destruct (load w id0 no IMSC _) as [s3 v3]. cbn [fst] in H3.
    destruct (store_off no IMSC s3 (u32 (Z.land v3 (Z.lnot (Z.shiftl 1 3)))) H3) as [-> H4]. split; [reflexivity|exact H4].
  Qed.
End Quiet.

(** a port without a frame *)
Lemma idle_frame sl p : shift p = None -> frame sl p = p.
Proof. unfold frame. intros ->. destruct (on p); auto. Qed.
Lemma idle_frames sl n p : shift p = None -> Nat.iter n (frame sl) p = p.
Proof. intros H. induction n; auto. change (Nat.iter (S n) (frame sl) p) with (frame sl (Nat.iter n (frame sl) p)). rewrite IHn. apply idle_frame; auto. Qed.
Lemma sel_elapse wd no h : sel no (elapse wd h) = advance wd no (now h) (sel no h).
Proof. destruct no; reflexivity. Qed.
Lemma sel_upd no h p : sel no (upd no h p) = p.
Proof. destruct no; reflexivity. Qed.
Lemma now_upd no h p : now (upd no h p) = now h.
Proof. destruct no; reflexivity. Qed.
Lemma sel_elapse_idle wd no h : shift (sel no h) = None -> sel no (elapse wd h) = sel no h.
Proof. intros H. rewrite sel_elapse. apply idle_frames; auto. Qed.

Lemma load_get wd no r s : irqOn s = false -> load (lpc wd) (handler (lpc wd) no) no r s = let '(h, v) := reading wd no r (hw s) in (setHw s h, v).
Proof. intros H. destruct (load_off (lpc wd) no no r s H) as [-> _]. reflexivity. Qed.
Lemma store_put wd no r s v : irqOn s = false -> store (lpc wd) (handler (lpc wd) no) no r s v = setHw s (writing wd no r (hw s) v).
Proof. intros H. destruct (store_off (lpc wd) no no r s v H) as [-> _]. reflexivity. Qed.

(** the words left from before *)
Lemma clear_ok wd no n : forall s, irqOn s = false -> shift (sel no (hw s)) = None ->
  match clearReceived (lpc wd) n no s with
  | None => n < length (rx (sel no (hw s)))
  | Some s1 => exists h, s1 = setHw s h /\ sel no h = set_rx (sel no (hw s)) []
  end.
Proof.
  assert (G : forall s, shift (sel no (hw s)) = None -> rx (sel no (hw s)) = [] -> exists h, setHw s (elapse wd (hw s)) = setHw s h /\ sel no h = set_rx (sel no (hw s)) []).
  { intros s H R. exists (elapse wd (hw s)). split; auto. rewrite sel_elapse_idle by auto. destruct (sel no (hw s)); cbn in *; subst; auto. }
  induction n as [|n IH]; intros s H S0; cbn [clearReceived].
  all: rewrite load_get by auto; unfold reading; cbv zeta; rewrite sel_elapse_idle by auto.
  all: destruct (status_bits (sel no (hw s))) as (_ & RB & _); rewrite RB; destruct (rx (sel no (hw s))) as [|x t] eqn:RX; cbn [length Nat.eqb]; auto; try lia.
  rewrite load_get by exact H. unfold reading. cbv zeta. cbn [hw setHw].
  assert (X : sel no (elapse wd (elapse wd (hw s))) = sel no (hw s)) by (rewrite !sel_elapse_idle; auto; rewrite sel_elapse_idle; auto).
  rewrite X, RX. set (h1 := upd no _ _).
  assert (H1 : sel no h1 = set_rx (sel no (hw s)) t) by (unfold h1; rewrite sel_upd; reflexivity).
  change (setHw (setHw s (elapse wd (hw s))) h1) with (setHw s h1).
  specialize (IH (setHw s h1) H). cbn [hw setHw] in IH. rewrite H1 in IH. specialize (IH S0).
  destruct (clearReceived (lpc wd) n no (setHw s h1)) as [s2|]; [|cbn [set_rx rx] in IH; lia].
  destruct IH as (h & -> & E). exists h. split; auto.
Qed.

(** the number of frames a status read waits for *)
Definition begun (p : port) (w : Z) : Prop := on p = true /\ shift p = Some w /\ tx p = [].
Definition done_ (sl : list Z -> Z) (p : port) (w : Z) : port :=
  mkPort (c0 p) (c1 p) (cps p) (msk p) [] None (rx p ++ [fit (bits p) (sl (sent p ++ [fit (bits p) w]))]) (sent p ++ [fit (bits p) w]) (ror p).
Lemma frame_begun sl p w n : begun p w -> length (rx p) < 8 -> Nat.iter (S n) (frame sl) p = done_ sl p w.
Proof.
  intros (O & H & T) R. induction n as [|n IH].
  - cbn. unfold frame. rewrite O, H. destruct (Nat.ltb_spec (length (rx p)) 8); [|lia]. unfold begin_frame. destruct (on _); cbn [shift tx]; rewrite ?T; cbn [negb]; rewrite ?orb_false_r; unfold done_; rewrite ?T; auto.
  - change (Nat.iter (S (S n)) (frame sl) p) with (frame sl (Nat.iter (S n) (frame sl) p)). rewrite IH. apply idle_frame. reflexivity.
Qed.
Lemma wait_busy wd no w : forall d s j, irqOn s = false -> begun (sel no (hw s)) w -> length (rx (sel no (hw s))) < 8 ->
  now (hw s) <= j -> 0 < pace wd no j -> j - now (hw s) = d ->
  exists n0 h, sel no h = done_ (slave wd no) (sel no (hw s)) w /\ forall n, n0 <= n -> waitBusy (lpc wd) n no s = Some (setHw s h).
Proof.
  induction d as [|d IH]; intros s j H B R J P D.
  - exists 0, (elapse wd (hw s)). assert (j = now (hw s)) by lia. subst j.
    assert (X : sel no (elapse wd (hw s)) = done_ (slave wd no) (sel no (hw s)) w).
    { rewrite sel_elapse. unfold advance. destruct (pace wd no (now (hw s))); [lia|]. apply frame_begun; auto. }
    split; auto. intros n _. destruct n; cbn [waitBusy]; rewrite load_get by auto; unfold reading; cbv zeta; rewrite X; destruct (status_bits (done_ (slave wd no) (sel no (hw s)) w)) as (_ & _ & BB); rewrite BB; reflexivity.
  - destruct (pace wd no (now (hw s))) as [|q] eqn:Q.
    + assert (X : sel no (elapse wd (hw s)) = sel no (hw s)) by (rewrite sel_elapse; unfold advance; rewrite Q; reflexivity).
      assert (T : now (elapse wd (hw s)) = S (now (hw s))) by reflexivity.
      destruct (IH (setHw s (elapse wd (hw s))) j H) as (n0 & h & E & G); cbn [hw setHw]; rewrite ?X, ?T; auto; try lia.
      exists (S n0), h. cbn [hw setHw] in E. rewrite X in E. split; auto. intros n N. destruct n as [|n]; [lia|]. cbn [waitBusy]. rewrite load_get by auto. unfold reading. cbv zeta.
      rewrite X. destruct (status_bits (sel no (hw s))) as (_ & _ & BB). rewrite BB. assert (busy (sel no (hw s)) = true) as -> by (destruct B as (_ & B & _); unfold busy; rewrite B; destruct (tx _); auto). cbn [negb].
      rewrite G by lia. reflexivity.
    + exists 0, (elapse wd (hw s)).
      assert (X : sel no (elapse wd (hw s)) = done_ (slave wd no) (sel no (hw s)) w).
      { rewrite sel_elapse. unfold advance. rewrite Q. apply frame_begun; auto. }
      split; auto. intros n _. destruct n; cbn [waitBusy]; rewrite load_get by auto; unfold reading; cbv zeta; rewrite X; destruct (status_bits (done_ (slave wd no) (sel no (hw s)) w)) as (_ & _ & BB); rewrite BB; reflexivity.
Qed.

Lemma fit_cut b v : (1 <= b <= 16)%Z -> fit b (u32 v mod 65536) = fit b v.
Proof.
  intros H. unfold fit, u32. rewrite <- (Znumtheory.Zmod_div_mod (2 ^ b) 65536); try lia.
  - rewrite <- (Znumtheory.Zmod_div_mod (2 ^ b) 4294967296); auto; try lia. change 4294967296%Z with (2 ^ 32)%Z. exists (2 ^ (32 - b))%Z. rewrite <- Z.pow_add_r by lia. f_equal; lia.
  - change 65536%Z with (2 ^ 16)%Z. exists (2 ^ (16 - b))%Z. rewrite <- Z.pow_add_r by lia. f_equal; lia.
Qed.
Lemma bits_range p : (1 <= bits p <= 16)%Z.
Proof. unfold bits. pose proof (Z.mod_pos_bound (c0 p) 16). lia. Qed.
Lemma fit_range b v : (1 <= b <= 16)%Z -> (0 <= fit b v < 65536)%Z.
Proof. intros H. unfold fit. assert (0 <= v mod 2 ^ b < 2 ^ b)%Z by (apply Z.mod_pos_bound; lia). assert (2 ^ b <= 2 ^ 16)%Z by (apply Z.pow_le_mono_r; lia). change (2 ^ 16)%Z with 65536%Z in *. lia. Qed.

(** one word *)
Theorem transfer_ok wd no s v m : fair wd -> irqOn s = false -> on (sel no (hw s)) = true -> idle (sel no (hw s)) ->
  let p := sel no (hw s) in
  exists n0 h, (forall n, n0 <= n -> transfer (lpc wd) n no s v m = Some (setHw s h, fit (bits p) (slave wd no (sent p ++ [fit (bits p) v])))) /\
    let q := sel no h in sent q = sent p ++ [fit (bits p) v] /\ idle q /\ rx q = [] /\ still p q.
Proof.
  intros F H O (T & S0) p. fold p in O, T, S0.
  set (p1 := set_rx p []).
  (* the state after the queueing, whatever h the clearing gives: choose n large once *)
  assert (CL : exists h1, (forall n, length (rx p) <= n -> clearReceived (lpc wd) n no s = Some (setHw s h1)) /\ sel no h1 = p1).
  { pose proof (clear_ok wd no (length (rx p)) s H S0) as C. fold p in C.
    destruct (clearReceived (lpc wd) (length (rx p)) no s) as [s1|] eqn:E1; [|lia]. destruct C as (h & -> & E). exists h. split; auto. intros n N.
    assert (G : forall a c s0 s1, a <= c -> clearReceived (lpc wd) a no s0 = Some s1 -> clearReceived (lpc wd) c no s0 = Some s1).
    { induction a as [|a IHa]; intros c s0 s1 L Q; destruct c as [|c]; try lia; auto; cbn [clearReceived] in *; destruct (load _ _ no SR s0) as [x y]; destruct (Z.land y _ =? 0)%Z; auto; try discriminate.
      destruct (load _ _ no DR x) as [x' y']. apply (IHa c); auto; lia. }
    apply (G _ n _ _ N E1). }
  destruct CL as (h1 & CL & E1).
  set (h2 := writing wd no ICR h1 SSP_ICR_BITMASK).
  assert (E2 : sel no h2 = set_ror p1 false). { unfold h2, writing. cbv zeta. rewrite sel_upd, sel_elapse_idle by (rewrite E1; exact S0). rewrite E1. reflexivity. }
  set (h3 := writing wd no DR h2 (u32 v)).
  set (w := (u32 v mod 65536)%Z).
  set (q0 := mkPort (c0 p) (c1 p) (cps p) (msk p) [] (Some w) [] (sent p) false).
  assert (E3 : sel no h3 = q0).
  { unfold h3, writing. cbv zeta. rewrite sel_upd, sel_elapse_idle by (rewrite E2; exact S0). rewrite E2. unfold queue. cbn [set_ror p1 set_rx tx]. rewrite T. cbn [length Nat.ltb Nat.leb].
    unfold begin_frame, on. cbn [set_tx c1 shift tx set_ror p1 set_rx app]. change (Z.testbit (c1 p) 1) with (on p). rewrite O, S0. reflexivity. }
  destruct (F no (now h3)) as (j & J & P).
  destruct (wait_busy wd no w _ (setHw s h3) j H ltac:(cbn [hw setHw]; rewrite E3; repeat split; exact O) ltac:(cbn [hw setHw]; rewrite E3; cbn; lia) J P eq_refl) as (n1 & h4 & E4 & W).
  cbn [hw setHw] in E4. rewrite E3 in E4. cbn in E4.
  assert (E5 : exists h5, sel no h5 = set_rx (sel no h4) [] /\ reading wd no DR h4 = (h5, fit (bits p) (slave wd no (sent p ++ [fit (bits p) v])))).
  { unfold reading. cbv zeta. rewrite sel_elapse_idle by (rewrite E4; reflexivity). rewrite E4. unfold done_. cbn [rx q0 app]. eexists. split; [rewrite sel_upd; reflexivity|].
    assert (B : bits q0 = bits p) by reflexivity. rewrite B. f_equal. cbn [sent q0]. unfold w. rewrite fit_cut by apply bits_range. reflexivity. }
  destruct E5 as (h5 & E5 & RD). exists (max (length (rx p)) n1), h5. split.
  - intros n N. unfold transfer. rewrite CL by lia.
    cbv zeta. rewrite (store_put wd no ICR) by exact H. rewrite (store_put wd no DR) by exact H. cbn [hw setHw]. fold h2. fold h3.
    change (setHw (setHw (setHw s h1) h2) h3) with (setHw s h3). rewrite W by lia.
    change (setHw (setHw s h3) h4) with (setHw s h4). rewrite load_get by exact H. cbn [hw setHw]. rewrite RD. change (setHw (setHw s h4) h5) with (setHw s h5).
    do 2 f_equal. pose proof (fit_range (bits p) (slave wd no (sent p ++ [fit (bits p) v])) (bits_range p)) as FR. unfold s32, u32. rewrite Z.mod_small by lia. destruct (Z.ltb_spec (fit (bits p) (slave wd no (sent p ++ [fit (bits p) v]))) 2147483648); lia.
  - cbv zeta. rewrite E5, E4. unfold done_. assert (B : bits q0 = bits p) by reflexivity. rewrite B. cbn [set_rx sent rx tx shift q0]. unfold w. rewrite fit_cut by apply bits_range. repeat split.
Qed.
(** without begin() *)
Theorem transfer_off wd no s v m n : irqOn s = false -> on (sel no (hw s)) = false -> idle (sel no (hw s)) -> transfer (lpc wd) n no s v m = None.
Proof.
  intros H O (T & S0). unfold transfer. pose proof (clear_ok wd no n s H S0) as C. destruct (clearReceived (lpc wd) n no s) as [s1|]; auto.
  destruct C as (h1 & -> & E1). cbv zeta. rewrite (store_put wd no ICR) by exact H. rewrite (store_put wd no DR) by exact H. cbn [hw setHw].
  set (h2 := writing wd no ICR h1 SSP_ICR_BITMASK). set (h3 := writing wd no DR h2 (u32 v)).
  assert (E2 : shift (sel no h2) = None /\ tx (sel no h2) = [] /\ on (sel no h2) = false). { unfold h2, writing. cbv zeta. rewrite sel_upd, sel_elapse_idle by (rewrite E1; exact S0). rewrite E1. repeat split; auto. }
  destruct E2 as (A1 & A2 & A3).
  assert (E3 : shift (sel no h3) = None /\ busy (sel no h3) = true).
  { unfold h3, writing. cbv zeta. rewrite sel_upd, sel_elapse_idle by auto. unfold queue. rewrite A2. cbn [length Nat.ltb Nat.leb].
    unfold begin_frame. change (on (set_tx (sel no h2) ([] ++ [(u32 v mod 65536)%Z]))) with (on (sel no h2)). rewrite A3. split; [exact A1|reflexivity]. }
  change (setHw (setHw (setHw s h1) h2) h3) with (setHw s h3). destruct E3 as (B1 & B2).
  assert (G : forall n h, shift (sel no h) = None -> busy (sel no h) = true -> waitBusy (lpc wd) n no (setHw s h) = None).
  { clear - H. induction n as [|n IH]; intros h A B; cbn [waitBusy]; rewrite load_get by exact H; unfold reading; cbv zeta; cbn [hw setHw]; rewrite sel_elapse_idle by auto;
      destruct (status_bits (sel no h)) as (_ & _ & BB); rewrite BB, B; cbn [negb]; auto.
    change (setHw (setHw s h) (elapse wd h)) with (setHw s (elapse wd h)). apply IH; rewrite sel_elapse_idle by auto; auto. }
  rewrite G by auto. reflexivity.
Qed.

(** port 1: the words go to port 0 *)
Section PortB.
  Variable wd : world.
  Notation id0 := (fun s : spi ports => s).
  Definition deaf (s : spi ports) (p : port) (c : Z) : Prop :=
    shift (portB (hw s)) = None /\ rx (portB (hw s)) = [] /\ sent (portB (hw s)) = sent p /\ recCount s = c /\ irqOn s = false.
  Lemma deaf_elapse s p c : deaf s p c -> deaf (setHw s (elapse wd (hw s))) p c.
  Proof. intros (A & B & C & D). unfold deaf. cbn [hw setHw recCount]. change (portB (elapse wd (hw s))) with (sel true (elapse wd (hw s))). rewrite sel_elapse_idle by exact A. auto. Qed.
  Lemma deaf_load r s p c : r <> DR -> deaf s p c -> deaf (fst (load (lpc wd) id0 true r s)) p c /\ (r = SR -> (Z.land (snd (load (lpc wd) id0 true r s)) SSP_SR_RNE =? 0)%Z = true).
  Proof.
    intros R D. pose proof (deaf_elapse _ _ _ D) as E. destruct r; try congruence; cbn [load get lpc reading fst snd]; (split; [exact E|]); intros Q; try discriminate.
    destruct (status_bits (portB (elapse wd (hw s)))) as (_ & X & _). cbn [sel]. rewrite X. destruct E as (_ & E & _). cbn [hw setHw] in E. rewrite E. reflexivity.
  Qed.
  Lemma deaf_fill m : forall s p c, deaf s p c -> deaf (fillLoop (lpc wd) id0 true m s) p c.
  Proof.
    induction m as [|m IH]; intros s p c D; cbn [fillLoop]; destruct (sndCount s =? 0)%Z; auto.
    - destruct (deaf_load SR s p c ltac:(discriminate) D) as [D1 _]. destruct (load (lpc wd) id0 true SR s) as [s1 v1]. destruct (Z.land v1 _ =? 0)%Z; auto.
    - destruct (deaf_load SR s p c ltac:(discriminate) D) as [D1 _]. destruct (load (lpc wd) id0 true SR s) as [s1 v1]. cbn [fst] in D1. destruct (Z.land v1 _ =? 0)%Z; auto.
      destruct (deaf_load SR (setSndCount s1 (sndCount s1 - 1)) p c ltac:(discriminate) D1) as [D2 R]. specialize (R eq_refl). destruct (load (lpc wd) id0 true SR (setSndCount s1 (sndCount s1 - 1))) as [s2 v2]. cbn [fst snd] in *. rewrite R.
      assert (D3 : deaf (fst (match sndData s2 with [] => (setFault s2, 0%Z) | v :: t => (setSnd s2 t, v) end)) p c) by (destruct (sndData s2); exact D2).
      destruct (match sndData s2 with [] => (setFault s2, 0%Z) | v :: t => (setSnd s2 t, v) end) as [s3 v3]. cbn [fst] in D3.
      assert (D4 : deaf (store (lpc wd) id0 false DR s3 v3) p c) by exact (deaf_elapse _ _ _ D3).
      destruct (deaf_load RIS _ p c ltac:(discriminate) D4) as [D5 _]. destruct (load (lpc wd) id0 true RIS _) as [s5 v5]. auto.
  Qed.
  Lemma deaf_continue s p c : deaf s p c -> deaf (continueBlockTransfer (lpc wd) id0 true s) p c.
  Proof.
    intros D. unfold continueBlockTransfer. cbv zeta. pose proof (deaf_fill 8 s p c D) as D1. set (s1 := fillLoop _ _ _ _ _) in *.
    assert (D2 : deaf (drainLoop (lpc wd) id0 true (Z.to_nat (recCount s1)) s1) p c).
    { generalize (Z.to_nat (recCount s1)). intros n. destruct n; cbn [drainLoop]; (destruct (recCount s1 =? 0)%Z; [exact D1|]);
        destruct (deaf_load SR s1 p c ltac:(discriminate) D1) as [D2 R]; specialize (R eq_refl); destruct (load (lpc wd) id0 true SR s1) as [s2 v2]; cbn [fst snd] in *; rewrite R; exact D2. }
    set (s2 := drainLoop _ _ _ _ _) in *. unfold allSent. destruct (sndCount s2 =? 0)%Z; auto. cbv zeta.
    assert (D3 : deaf (setInstance (setIrq s2 false) false) p c) by (destruct D2 as (? & ? & ? & ? & ?); repeat split; auto).
    destruct (deaf_load IMSC _ p c ltac:(discriminate) D3) as [D4 _]. destruct (load (lpc wd) id0 true IMSC _) as [s4 v4]. cbn [fst] in D4.
    pose proof (deaf_elapse _ _ _ D4) as (A & B & C & D5 & D6). repeat split; auto.
  Qed.
  Lemma deaf_finalize n : forall s p c, deaf s p c -> c <> 0%Z -> finalizeBlockTransfer (lpc wd) n true s = None.
  Proof.
    induction n as [|n IH]; intros s p c D N; cbn [finalizeBlockTransfer]; assert (R : recCount s = c) by apply D; rewrite R; destruct (Z.eqb_spec c 0); try lia; auto.
    destruct (continue_off (lpc wd) true s ltac:(apply D)) as [-> _]. eapply IH; [apply deaf_continue; exact D|auto].
  Qed.
  Theorem portB_block s n snd bytes rec : irqOn s = false -> shift (portB (hw s)) = None -> bytes <> 0%Z -> transferBlock (lpc wd) n true s snd bytes rec false = None.
  Proof.
    intros H S0 B. unfold transferBlock. pose proof (clear_ok wd true n s H S0) as C. destruct (clearReceived (lpc wd) n true s) as [s1|]; auto.
    destruct C as (h & -> & E). cbn [sel] in E. cbv zeta. cbn [negb]. rewrite store_put by exact H.
    match goal with |- context [continueBlockTransfer (lpc wd) _ true ?x] => set (s2 := x) end.
    assert (D : deaf s2 (portB (hw s)) bytes).
    { unfold s2, deaf. cbn [hw setHw recCount irqOn setFinished setRecCount setRec setSnd setSndCount].
      assert (Q : portB (writing wd true ICR h SSP_ICR_BITMASK) = set_ror (set_rx (portB (hw s)) []) false).
      { unfold writing. cbv zeta. change (portB (upd true ?a ?b)) with b. change (sel true (elapse wd h)) with (sel true (elapse wd h)).
        rewrite sel_elapse_idle by (cbn [sel]; rewrite E; exact S0). cbn [sel]. rewrite E. reflexivity. }
      rewrite Q. cbn. auto. }
    destruct (continue_off (lpc wd) true s2 ltac:(apply D)) as [-> _]. eapply deaf_finalize; [apply deaf_continue; exact D|auto].
  Qed.
End PortB.
