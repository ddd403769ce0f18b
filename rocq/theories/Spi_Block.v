(** Proofs about SPI: block transfers on port 0. *)
From Verif Require Export Spi_Proofs.
Local Open Scope nat_scope.

Lemma filled_wr a pop x : length pop < length a -> wr (filled a pop) (length pop) x = filled a (pop ++ [x]).
Proof.
  unfold filled. intros L. rewrite app_length. cbn [length]. rewrite <- app_assoc. cbn [app].
  revert a L. induction pop as [|y pop IH]; intros a L; destruct a as [|z a]; simpl in L; try lia.
  - reflexivity.
  - cbn [length app skipn wr Nat.add]. f_equal. rewrite IH by lia. reflexivity.
Qed.
Lemma filled_length a pop : length pop <= length a -> length (filled a pop) = length a.
Proof. unfold filled. intros. rewrite app_length, skipn_length. lia. Qed.

(** bits of the status register *)
Lemma status_bits p :
  (Z.land (status p) SSP_SR_TNF =? 0)%Z = negb (length (tx p) <? 8) /\
  (Z.land (status p) SSP_SR_RNE =? 0)%Z = (length (rx p) =? 0) /\
  (Z.land (status p) SSP_SR_BSY =? 0)%Z = negb (busy p).
Proof.
  unfold status. destruct (length (tx p) =? 0), (length (tx p) <? 8), (length (rx p) =? 0), (length (rx p) =? 8), (busy p); cbn; auto.
Qed.

Definition skip (s : spi ports) := s.

Section Block.
  Variables (wd : world) (b : Z) (base raw extra : list Z) (rec0 : option (list Z)).
  Hypothesis Hb : (1 <= b <= 16)%Z.
  Hypothesis Hrec : match rec0 with None => True | Some a => length raw <= length a end.
  Notation sl := (slave wd false).
  Notation pA s := (portA (hw s)).
  Notation okp := (okp sl b base raw).
  Notation whole := (whole base).
  Notation N := (length raw).

  Definition stored (pop : list Z) : option (list Z * nat) := match rec0 with None => None | Some a => Some (filled a pop, length pop) end.
  Definition Inv (s : spi ports) (k : nat) (pop : list Z) : Prop :=
    okp (pA s) k pop /\ k <= N /\ sndCount s = Z.of_nat (N - k) /\ recCount s = Z.of_nat (N - length pop) /\
    sndData s = skipn k raw ++ extra /\ recData s = stored pop /\ fault s = false.
  Definition mu (s : spi ports) : nat := 3 * Z.to_nat (sndCount s) + 2 * flight (pA s) + length (rx (pA s)).
  (** the words sent whose answers are gone *)
  Definition lost (s : spi ports) : Z := (recCount s - sndCount s - Z.of_nat (flight (pA s)) - Z.of_nat (length (rx (pA s))))%Z.
  Definition adv (s s' : spi ports) : Prop :=
    mu s' <= mu s /\ now (hw s) <= now (hw s') /\ (lost s <= lost s')%Z /\
    (mu s' = mu s -> flight (pA s') = flight (pA s) /\ (0 < flight (pA s) -> forall j, now (hw s) <= j < now (hw s') -> pace wd false j = 0)).
  Lemma adv_refl s : adv s s.
  Proof. unfold adv. split; [lia|]. split; [lia|]. split; [lia|]. intros _. split; auto. intros; lia. Qed.
  Lemma adv_trans a c d : adv a c -> adv c d -> adv a d.
  Proof.
    intros (M1 & T1 & Lo1 & E1) (M2 & T2 & Lo2 & E2). unfold adv. split; [lia|]. split; [lia|]. split; [lia|]. intros E.
    destruct E1 as [F1 P1]; [lia|]. destruct E2 as [F2 P2]; [lia|]. split; [congruence|]. intros F j J.
    destruct (Nat.lt_ge_cases j (now (hw c))); [apply P1; auto; lia|apply P2; [congruence|lia]].
  Qed.

  Definition same (s s' : spi ports) : Prop := irqOn s' = irqOn s /\ instance s' = instance s /\ finished s' = finished s.
  Lemma same_refl s : same s s. Proof. firstorder. Qed.
  Lemma same_trans a c d : same a c -> same c d -> same a d. Proof. unfold same; intuition congruence. Qed.

  (** time passes *)
  Definition E (s : spi ports) : spi ports := setHw s (elapse wd (hw s)).
  Lemma E_ok s k pop : Inv s k pop ->
    Inv (E s) k pop /\ adv s (E s) /\ now (hw (E s)) = S (now (hw s)) /\ same s (E s) /\
    length (rx (pA s)) <= length (rx (pA (E s))) <= length (rx (pA s)) + pace wd false (now (hw s)) /\
    length (tx (pA (E s))) <= length (tx (pA s)) /\ (flight (pA s) = 0 -> pA (E s) = pA s) /\ still (pA s) (pA (E s)) /\
    (length (rx (pA s)) + pace wd false (now (hw s)) <= 8 -> whole (pA s) pop -> whole (pA (E s)) pop) /\
    (N <= 8 -> whole (pA s) pop -> whole (pA (E s)) pop).
  Proof.
    intros (K & KN & A1 & A2 & A3 & A4 & A5).
    destruct (frames_ok sl b base raw (pace wd false (now (hw s))) _ _ _ K) as (K' & M & Z0 & D & Fl & L0 & L1 & Tot & W1 & W2).
    cbv zeta in *. change (Nat.iter (pace wd false (now (hw s))) (frame sl) (pA s)) with (pA (E s)) in *.
    destruct (okp_counts _ _ _ _ _ _ _ K KN) as [C1 C2].
    split; [split; [exact K'|]; repeat split; auto|].
    assert (LO : (lost s <= lost (E s))%Z) by (unfold lost; change (recCount (E s)) with (recCount s); change (sndCount (E s)) with (sndCount s); lia).
    split. { unfold adv, mu. cbn [E setHw sndCount hw] in *. change (portA (elapse wd (hw s))) with (pA (E s)) in *.
      split; [lia|]. split; [cbn; lia|]. split; [exact LO|]. intros Q. assert (flight (pA (E s)) = flight (pA s)) by lia. split; auto. intros F j J. cbn in J. replace j with (now (hw s)) by lia.
      destruct (Nat.eq_0_gt_0_cases (pace wd false (now (hw s)))) as [Z|Z]; auto. specialize (D Z F). lia. }
    split; [reflexivity|]. split; [repeat split|]. split; [lia|].
    split. { destruct K' as (? & _ & _ & _ & _ & _ & _ & _ & X). destruct K as (? & _ & _ & _ & _ & _ & _ & _ & Y). unfold flight in Fl.
      destruct (shift (pA (E s))); [|rewrite X by auto; simpl; lia]. destruct (shift (pA s)); simpl in *; [lia|rewrite Y in * by auto; simpl in *; lia]. }
    split; [exact Z0|]. split; [exact M|]. split; [exact W1|]. intros S8 W. apply W2; auto. unfold Spi_Proofs.whole in W. lia.
  Qed.

  Lemma load_SR s : load (lpc wd) skip false SR s = (E s, status (pA (E s))). Proof. reflexivity. Qed.
  Lemma load_RIS s : load (lpc wd) skip false RIS s = (E s, raw_status (pA (E s))). Proof. reflexivity. Qed.
  Lemma load_IMSC s : load (lpc wd) skip false IMSC s = (E s, msk (pA (E s))). Proof. reflexivity. Qed.
  Lemma load_DR s x t : rx (pA (E s)) = x :: t -> load (lpc wd) skip false DR s = (setHw (E s) (upd false (hw (E s)) (set_rx (pA (E s)) t)), x).
  Proof. intros H. unfold load. cbn [get lpc reading]. unfold reading, sel. change (portA (elapse wd (hw s))) with (pA (E s)). rewrite H. reflexivity. Qed.

  (** recCount--; tmpVal = DR; keep it *)
  Definition take (s : spi ports) : spi ports :=
    let s := setRecCount s (recCount s - 1) in let '(s, v) := load (lpc wd) skip false DR s in keep s v.
  Lemma take_ok s k pop : Inv s k pop -> rx (pA s) <> [] ->
    exists pop', Inv (take s) k pop' /\ length pop' = S (length pop) /\ adv s (take s) /\ mu (take s) < mu s /\ now (hw (take s)) = S (now (hw s)) /\ same s (take s) /\
    S (length (rx (pA (take s)))) <= length (rx (pA s)) + pace wd false (now (hw s)) /\ length (tx (pA (take s))) <= length (tx (pA s)) /\
    (length (rx (pA s)) + pace wd false (now (hw s)) <= 8 -> whole (pA s) pop -> whole (pA (take s)) pop') /\
    (N <= 8 -> whole (pA s) pop -> whole (pA (take s)) pop').
  Proof.
    intros I R.
    assert (PN : length pop < N).
    { destruct I as (K & KN & _). destruct (okp_counts _ _ _ _ _ _ _ K KN). destruct (rx (pA s)); [congruence|]. simpl in *. lia. }
    assert (EE : forall c, pA (E (setRecCount s c)) = pA (E s)) by reflexivity.
    destruct (E_ok _ _ _ I) as (I' & (M & T & Lo & _) & Tn & _ & (L0 & L1) & TX & _ & _ & W1 & W2).
    destruct (rx (pA (E s))) as [|x t] eqn:X; [destruct (rx (pA s)); [congruence|simpl in *; lia]|].
    destruct I' as (K & KN & A1 & A2 & A3 & A4 & A5). destruct (pop_ok _ _ _ _ _ _ _ _ _ K X) as (K' & Fx & W').
    unfold take. rewrite (load_DR _ x t) by exact X. 
    assert (V : u16 x = x). { rewrite Fx. unfold u16, fit. apply Z.mod_small. assert (0 <= x mod 2 ^ b < 2 ^ b)%Z by (apply Z.mod_pos_bound; lia). assert (2 ^ b <= 2 ^ 16)%Z by (apply Z.pow_le_mono_r; lia). change (2 ^ 16)%Z with 65536%Z in *. lia. }
    assert (KP : exists s', keep (setHw (E (setRecCount s (recCount s - 1))) (upd false (hw (E (setRecCount s (recCount s - 1)))) (set_rx (pA (E s)) t))) x = s' /\
                 hw s' = upd false (hw (E s)) (set_rx (pA (E s)) t) /\ Inv s' k (pop ++ [x]) /\ same s s' /\ sndCount s' = sndCount s /\ recCount s' = (recCount s - 1)%Z).
    { eexists. split; [reflexivity|]. unfold keep. cbn [recData setHw setRecCount E].
      change (recData (E s)) with (recData s) in A4. rewrite A4. unfold stored. destruct rec0 as [a|] eqn:RE.
      - rewrite filled_length by lia. destruct (Nat.ltb_spec (length pop) (length a)); [|lia].
        cbn [setRec hw setHw E sndCount]. split; [reflexivity|]. split; [|split; [repeat split|split; reflexivity]].
        unfold Inv. cbn [hw setRec sndCount recCount sndData recData fault setHw E setRecCount upd portA]. split; [exact K'|]. split; [exact KN|]. split; [exact A1|].
        split; [change (recCount (E s)) with (recCount s) in A2; rewrite A2, app_length; cbn [length]; lia|]. split; [exact A3|]. split; [|exact A5].
        unfold stored. rewrite RE, V, filled_wr, app_length by lia. cbn [length]. rewrite Nat.add_1_r. reflexivity.
      - cbn [setHw hw]. split; [reflexivity|]. split; [|split; [repeat split|split; reflexivity]].
        unfold Inv. cbn [hw setRec sndCount recCount sndData recData fault setHw E setRecCount upd portA]. split; [exact K'|]. split; [exact KN|]. split; [exact A1|].
        split; [change (recCount (E s)) with (recCount s) in A2; rewrite A2, app_length; cbn [length]; lia|]. split; [exact A3|]. split; [|exact A5].
        rewrite A4. unfold stored. rewrite RE. reflexivity. }
    destruct KP as (s' & Es & H1 & H2 & H3 & H4 & H5). change (set_rx (pA (E (setRecCount s (recCount s - 1)))) t) with (set_rx (pA (E s)) t). rewrite Es. exists (pop ++ [x]).
    assert (PS : pA s' = set_rx (pA (E s)) t) by (rewrite H1; reflexivity).
    assert (NS : now (hw s') = S (now (hw s))) by (rewrite H1; reflexivity).
    assert (MM : mu s' < mu s). { unfold mu in M |- *. rewrite H4, PS. unfold flight in M |- *. cbn [E setHw sndCount] in M. change (portA (hw (setHw s (elapse wd (hw s))))) with (pA (E s)) in M. rewrite X in M. cbn [set_rx shift tx rx length] in *. lia. }
    split; [exact H2|]. split; [rewrite app_length; simpl; lia|]. 
    split; [unfold adv; split; [lia|]; split; [lia|]; split; [|intros; lia]; unfold lost in Lo |- *; rewrite H4, H5, PS; change (recCount (E s)) with (recCount s) in Lo; change (sndCount (E s)) with (sndCount s) in Lo; unfold flight in Lo |- *; rewrite X in Lo; cbn [set_rx shift tx rx length] in *; lia|]. split; [exact MM|]. split; [exact NS|]. split; [exact H3|].
    rewrite PS. simpl in L1. split; [cbn [set_rx rx]; lia|]. split; [exact TX|]. split; auto.
  Qed.

  (** the word goes out *)
  Definition give (s : spi ports) : spi ports :=
    let '(s, v) := match sndData s with v :: t => (setSnd s t, v) | [] => (setFault s, 0%Z) end in
    store (lpc wd) skip false DR s v.
  Lemma give_ok s k pop : Inv (setSndCount s (Z.of_nat (N - k))) k pop -> sndCount s = Z.of_nat (N - S k) -> k < N -> length (tx (pA s)) < 8 ->
    Inv (give s) (S k) pop /\ mu (give s) < mu (setSndCount s (Z.of_nat (N - k))) /\ (lost (setSndCount s (Z.of_nat (N - k))) <= lost (give s))%Z /\ now (hw (give s)) = S (now (hw s)) /\ same s (give s) /\
    length (rx (pA (give s))) <= length (rx (pA s)) + pace wd false (now (hw s)) /\
    (length (rx (pA s)) + pace wd false (now (hw s)) <= 8 -> whole (pA s) pop -> whole (pA (give s)) pop) /\
    (N <= 8 -> whole (pA s) pop -> whole (pA (give s)) pop).
  Proof.
    intros I SC KL TL. destruct (E_ok _ _ _ I) as (I' & (M & _ & Lo & _) & _ & _ & (L0 & L1) & TX & _ & _ & W1 & W2).
    set (s0 := setSndCount s (Z.of_nat (N - k))) in *. change (pA (E s0)) with (pA (E s)) in *. change (pA s0) with (pA s) in *. change (now (hw s0)) with (now (hw s)) in *.
    destruct I' as (K & KN & A1 & A2 & A3 & A4 & A5). change (pA (E s0)) with (pA (E s)) in *.
    destruct (queue_ok _ _ _ _ _ _ _ K Hb ltac:(lia) KL) as (Q & QF & QR & QS & QM).
    assert (SD : sndData s = nth k raw 0%Z :: skipn (S k) raw ++ extra).
    { change (sndData (E s0)) with (sndData s) in A3. rewrite A3. clear - KL. assert (G : forall l i, i < length l -> skipn i l = nth i l 0%Z :: skipn (S i) l).
      { induction l as [|y l IH]; intros i H; simpl in *; [lia|]. destruct i; auto. apply (IH i). lia. }
      rewrite (G raw k KL). reflexivity. }
    assert (Eg : give s = setHw (setSnd s (skipn (S k) raw ++ extra)) (upd false (elapse wd (hw s)) (queue (pA (E s)) (nth k raw 0%Z)))).
    { unfold give. rewrite SD. reflexivity. }
    rewrite Eg. cbn [hw setHw upd portA now sndCount recCount fault recData sndData setSnd].
    assert (mu (setHw (setSnd s (skipn (S k) raw ++ extra)) (upd false (elapse wd (hw s)) (queue (pA (E s)) (nth k raw 0%Z)))) < mu s0) as MU.
    { unfold mu in *. cbn [hw setHw upd portA sndCount setSnd]. rewrite SC, QF, QR. change (pA (E s0)) with (pA (E s)) in M. change (sndCount (E s0)) with (Z.of_nat (N - k)) in M. change (sndCount s0) with (Z.of_nat (N - k)) in *. lia. }
    split. { split; [exact Q|]. split; [lia|]. split; [exact SC|]. split; [exact A2|]. split; [reflexivity|]. split; [exact A4|exact A5]. }
    split; [exact MU|].
    split. { unfold lost in *. cbn [hw setHw upd portA sndCount recCount setSnd]. rewrite SC, QF, QR. change (pA (E s0)) with (pA (E s)) in Lo. change (sndCount (E s0)) with (Z.of_nat (N - k)) in Lo. change (recCount (E s0)) with (recCount s) in Lo. lia. }
    split; [reflexivity|]. split; [repeat split|]. rewrite QR. split; [exact L1|]. unfold Spi_Proofs.whole in *. rewrite QR, QS. auto.
  Qed.
  Lemma mu_lt s s' : mu s' < mu s -> now (hw s) <= now (hw s') -> (lost s <= lost s')%Z -> adv s s'.
  Proof. unfold adv. intros. split; [lia|]. split; [lia|]. split; [lia|]. intros; lia. Qed.

  Definition rounds (s : spi ports) : nat := length (rx (pA s)).
  (** the body of the first loop after the room was seen *)
  Definition put1 (s : spi ports) : spi ports :=
    let s := setSndCount s (sndCount s - 1) in
    let '(s, sr) := load (lpc wd) skip false SR s in
    let s := if (Z.land sr SSP_SR_RNE =? 0)%Z then s else take s in
    let s := give s in
    fst (load (lpc wd) skip false RIS s).
  Lemma fillLoop_eq m s : fillLoop (lpc wd) skip false m s =
    if (sndCount s =? 0)%Z then s else
    if (Z.land (status (pA (E s))) SSP_SR_TNF =? 0)%Z then E s else
    match m with O => E s | S m => fillLoop (lpc wd) skip false m (put1 (E s)) end.
  Proof.
    destruct m; cbn [fillLoop]; destruct (sndCount s =? 0)%Z; auto; rewrite load_SR; destruct (Z.land _ _ =? 0)%Z; auto.
    unfold put1. cbv zeta. rewrite load_SR. unfold take, give. cbv zeta.
    match goal with |- context [if ?c then _ else let '(_, _) := ?l in _] => destruct c; [|destruct l as [s1 v1]] end;
    match goal with |- context [match sndData ?x with _ => _ end] => destruct (sndData x) end; reflexivity.
  Qed.
  Lemma Inv_count s k pop c : Inv s k pop -> setSndCount (setSndCount s c) (Z.of_nat (N - k)) = s.
  Proof. intros (_ & _ & H & _). destruct s; cbn in *; subst; auto. Qed.

  (** the five accesses of a pass, from [t] on *)
  Lemma put1_ok s k pop : Inv s k pop -> k < N -> length (tx (pA s)) < 8 ->
    exists pop', Inv (put1 s) (S k) pop' /\ mu (put1 s) < mu s /\ now (hw s) <= now (hw (put1 s)) /\ (lost s <= lost (put1 s))%Z /\ same s (put1 s) /\
    (N <= 8 -> whole (pA s) pop -> whole (pA (put1 s)) pop') /\
    ((pace wd false (now (hw s)) + pace wd false (now (hw s) + 1) + pace wd false (now (hw s) + 2) + pace wd false (now (hw s) + 3)) <= 1 ->
      whole (pA s) pop -> rounds s <= 2 -> whole (pA (put1 s)) pop' /\
      rounds (put1 s) + (if rounds s =? 0 then 0 else 1) <= rounds s + (pace wd false (now (hw s)) + pace wd false (now (hw s) + 1) + pace wd false (now (hw s) + 2) + pace wd false (now (hw s) + 3))).
  Proof.
    intros I KL TL. set (c := (sndCount s - 1)%Z).
    assert (C : c = Z.of_nat (N - S k)) by (destruct I as (_ & _ & H & _); subst c; rewrite H; lia).
    destruct (E_ok _ _ _ I) as (I1 & (M1 & _ & Lo1 & _) & T1 & S1 & (L1 & L2) & X1 & _ & _ & W1 & W2).
    unfold put1. cbv zeta. change (sndCount s - 1)%Z with c. rewrite load_SR. change (E (setSndCount s c)) with (setSndCount (E s) c).
    change (pA (setSndCount (E s) c)) with (pA (E s)). destruct (status_bits (pA (E s))) as (_ & RB & _). rewrite RB.
    unfold rounds.
    (* the received word *)
    assert (TK : exists s2 pop2, (if length (rx (pA (E s))) =? 0 then setSndCount (E s) c else take (setSndCount (E s) c)) = setSndCount s2 c /\ Inv s2 k pop2 /\ (mu s2 <= mu s /\ (lost s <= lost s2)%Z) /\ same s s2 /\
       ((length (rx (pA (E s))) = 0 /\ now (hw s2) = now (hw s) + 1 /\ pA s2 = pA (E s)) \/ (length (rx (pA (E s))) <> 0 /\ now (hw s2) = now (hw s) + 2 /\ S (length (rx (pA s2))) <= length (rx (pA (E s))) + pace wd false (now (hw s) + 1))) /\
       length (tx (pA s2)) <= length (tx (pA s)) /\ (N <= 8 -> whole (pA s) pop -> whole (pA s2) pop2) /\
       (length (rx (pA s)) + pace wd false (now (hw s)) + pace wd false (now (hw s) + 1) <= 8 -> whole (pA s) pop -> whole (pA s2) pop2)).
    { destruct (length (rx (pA (E s))) =? 0) eqn:Z0.
      - exists (E s), pop. split; auto. split; [exact I1|]. split; [split; [exact M1|exact Lo1]|]. split; [exact S1|]. split; [left; split; [lia|split; [lia|auto]]|]. split; [exact X1|]. split; [exact W2|]. intros; apply W1; auto; lia.
      - assert (RN : rx (pA (E s)) <> []) by (intros Q; rewrite Q in Z0; discriminate).
        destruct (take_ok _ _ _ I1 RN) as (pop2 & I2 & P2 & (M2 & _ & Lo2 & _) & _ & T2 & S2 & L3 & X2 & V1 & V2).
        exists (take (E s)), pop2. split.
        { unfold take. cbv zeta. destruct (rx (pA (E (E s)))) as [|x t] eqn:RX.
          - exfalso. destruct (E_ok _ _ _ I1) as (_ & _ & _ & _ & (B1 & _) & _). rewrite RX in B1. destruct (rx (pA (E s))); [congruence|simpl in B1; lia].
          - rewrite (load_DR _ x t) by exact RX. rewrite (load_DR _ x t) by exact RX. unfold keep. cbn [recData setHw setRecCount E setSndCount].
            destruct (recData s) as [[a i]|]; [destruct (i <? length a)|]; reflexivity. }
        split; [exact I2|]. split; [lia|]. split; [exact (same_trans _ _ _ S1 S2)|]. rewrite T1 in *. split; [right; split; [lia|split; [lia|]]; replace (now (hw s) + 1) with (S (now (hw s))) by lia; exact L3|]. split; [lia|].
        split; [auto|]. intros G W. replace (now (hw s) + 1) with (S (now (hw s))) in G by lia. apply V1; [lia|apply W1; auto; lia]. }
    destruct TK as (s2 & pop2 & Eq & I2 & (M2 & Lo2) & S2 & CA & X2 & V2 & V1). rewrite Eq.
    assert (I2' : Inv (setSndCount (setSndCount s2 c) (Z.of_nat (N - k))) k pop2) by (erewrite Inv_count; eauto).
    destruct (give_ok (setSndCount s2 c) k pop2 I2' C KL ltac:(cbn; lia)) as (I3 & M3 & Lo3 & T3 & S3 & L3 & V3 & V4).
    rewrite (Inv_count s2 k pop2 c) in M3, Lo3 by auto.
    set (s3 := give (setSndCount s2 c)) in *.
    destruct (E_ok _ _ _ I3) as (I4 & (M4 & N4 & Lo4 & _) & T4 & S4 & (L5 & L6) & X4 & _ & _ & V5 & V6).
    rewrite load_RIS. cbn [fst]. exists pop2.
    change (hw (setSndCount s2 c)) with (hw s2) in *. change (pA (setSndCount s2 c)) with (pA s2) in *.
    split; [exact I4|]. split; [lia|]. split; [rewrite T4, T3; destruct CA as [(_ & -> & _)|(_ & -> & _)]; lia|]. split; [lia|].
    split; [eapply same_trans; [exact S2|]; eapply same_trans; [|exact S4]; exact S3|].
    split; [auto|]. intros G W Rn.
    assert (BB : length (rx (pA s3)) + pace wd false (now (hw s3)) + (if length (rx (pA s)) =? 0 then 0 else 1) <=
                 length (rx (pA s)) + (pace wd false (now (hw s)) + pace wd false (now (hw s) + 1) + pace wd false (now (hw s) + 2) + pace wd false (now (hw s) + 3)) /\
                 length (rx (pA s2)) + pace wd false (now (hw s2)) <= 8).
    { rewrite T3. destruct CA as [(CZ & CN & CP)|(CZ & CN & CL)]; rewrite CN in *.
      - rewrite CP in *. replace (S (now (hw s) + 1)) with (now (hw s) + 2) by lia. assert (length (rx (pA s)) = 0) as RZ by lia. rewrite RZ. cbn [Nat.eqb]. lia.
      - replace (S (now (hw s) + 2)) with (now (hw s) + 3) by lia. destruct (length (rx (pA s)) =? 0); lia. }
    destruct BB as [B1 B2].
    split; [apply V5; [lia|apply V3; [exact B2|apply V1; auto; lia]]|]. lia.
  Qed.

  Lemma fill_ok m : forall s k pop, Inv s k pop -> exists k' pop', let s' := fillLoop (lpc wd) skip false m s in
    Inv s' k' pop' /\ k <= k' <= k + m /\ adv s s' /\ same s s' /\ (flight (pA s) = 0 -> k < N -> 0 < m -> mu s' < mu s) /\ (k < N -> now (hw s) < now (hw s')) /\
    (N <= 8 -> whole (pA s) pop -> whole (pA s') pop') /\
    (brisk wd -> whole (pA s) pop -> rounds s <= 1 -> whole (pA s') pop' /\ rounds s' <= 2).
  Proof.
    induction m as [|m IH]; intros s k pop I; rewrite fillLoop_eq.
    all: destruct (sndCount s =? 0)%Z eqn:SZ.
    all: try (exists k, pop; cbv zeta; assert (k = N) by (destruct I as (_ & ? & HH & _); rewrite HH in SZ; lia); split; [exact I|]; split; [lia|]; split; [apply adv_refl|]; split; [apply same_refl|]; split; [intros; lia|]; split; [intros; lia|]; split; [auto|intros; split; auto; lia]; fail).
    all: assert (KL : k < N) by (destruct I as (_ & ? & HH & _); rewrite HH in SZ; lia).
    all: destruct (E_ok _ _ _ I) as (I1 & A1 & T1 & S1 & (L1 & L2) & X1 & F1 & _ & W1 & W2).
    all: assert (BR : brisk wd -> pace wd false (now (hw s)) <= 1) by (intros HB; specialize (HB (now (hw s))); lia).
    - assert (RS : exists k' pop', Inv (E s) k' pop' /\ k <= k' <= k + 0 /\ adv s (E s) /\ same s (E s) /\ (flight (pA s) = 0 -> k < N -> 0 < 0 -> mu (E s) < mu s) /\ (k < N -> now (hw s) < now (hw (E s))) /\
        (N <= 8 -> whole (pA s) pop -> whole (pA (E s)) pop') /\ (brisk wd -> whole (pA s) pop -> rounds s <= 1 -> whole (pA (E s)) pop' /\ rounds (E s) <= 2)).
      { exists k, pop. unfold rounds. split; [exact I1|]. split; [lia|]. split; [exact A1|]. split; [exact S1|]. split; [lia|]. split; [lia|]. split; [exact W2|]. intros HB W R. specialize (BR HB). split; [apply W1; auto; lia|lia]. }
      destruct (Z.land _ _ =? 0)%Z; exact RS.
    - destruct (status_bits (pA (E s))) as (TB & _). rewrite TB. destruct (Nat.ltb_spec (length (tx (pA (E s)))) 8) as [TL|TL]; cbn [negb].
      + destruct (put1_ok _ _ _ I1 KL TL) as (pop1 & I2 & M2 & T2 & Lo2 & S2 & V1 & V2).
        destruct (IH _ _ _ I2) as (k' & pop' & I3 & KK & A3 & S3 & P3 & Q3 & V3 & V4). cbv zeta in *.
        exists k', pop'. split; [exact I3|]. split; [lia|].
        assert (mu (fillLoop (lpc wd) skip false m (put1 (E s))) < mu s) by (destruct A3 as (? & _); destruct A1 as (? & _); lia).
        destruct A3 as (_ & T3 & Lo3 & _).
        split; [apply mu_lt; [auto|lia|destruct A1 as (_ & _ & ? & _); lia]|]. split; [exact (same_trans _ _ _ S1 (same_trans _ _ _ S2 S3))|]. split; [auto|]. split; [lia|].
        split; [auto|]. intros HB W R. specialize (BR HB).
        assert (WE : whole (pA (E s)) pop) by (apply W1; auto; unfold rounds in R; lia).
        pose proof (HB (now (hw s))) as HB1. rewrite T1 in V2. replace (now (hw s) + 1) with (S (now (hw s))) in HB1 by lia. replace (now (hw s) + 2) with (S (now (hw s)) + 1) in HB1 by lia.
        replace (now (hw s) + 3) with (S (now (hw s)) + 2) in HB1 by lia. replace (now (hw s) + 4) with (S (now (hw s)) + 3) in HB1 by lia.
        destruct V2 as [WP RP]; [lia|exact WE|unfold rounds in *; lia|]. apply V4; auto. unfold rounds in *.
        destruct (Nat.eqb_spec (length (rx (pA (E s)))) 0); lia.
      + exists k, pop. cbv zeta. unfold rounds. split; [exact I1|]. split; [lia|]. split; [exact A1|]. split; [exact S1|].
        split. { intros FZ _ _. rewrite (F1 FZ) in TL. unfold flight in FZ. destruct (tx (pA s)); simpl in *; lia. }
        split; [lia|]. split; [exact W2|]. intros HB W R. specialize (BR HB). split; [apply W1; auto; lia|lia].
  Qed.

  Lemma drainLoop_eq m s : drainLoop (lpc wd) skip false m s =
    if (recCount s =? 0)%Z then s else
    if (Z.land (status (pA (E s))) SSP_SR_RNE =? 0)%Z then E s else
    match m with O => setFault (E s) | S m => drainLoop (lpc wd) skip false m (E (take (E s))) end.
  Proof.
    destruct m; cbn [drainLoop]; destruct (recCount s =? 0)%Z; auto; rewrite load_SR; destruct (Z.land _ _ =? 0)%Z; auto.
    unfold take. cbv zeta. match goal with |- context [let '(_, _) := ?l in _] => destruct l as [s1 v1] end; reflexivity.
  Qed.
  Lemma drain_ok m : forall s k pop, Inv s k pop -> m = N - length pop -> exists pop', let s' := drainLoop (lpc wd) skip false m s in
    Inv s' k pop' /\ adv s s' /\ same s s' /\ length (rx (pA s')) = 0 /\ (rx (pA s) <> [] -> mu s' < mu s) /\ (m <> 0 -> now (hw s) < now (hw s')) /\
    (N <= 8 -> whole (pA s) pop -> whole (pA s') pop') /\
    (brisk wd -> whole (pA s) pop -> rounds s <= 2 -> whole (pA s') pop').
  Proof.
    induction m as [|m IH]; intros s k pop I MN; rewrite drainLoop_eq; cbv zeta.
    - assert (RZ : recCount s = 0%Z) by (destruct I as (_ & _ & _ & HH & _); lia). rewrite RZ. cbn [Z.eqb].
      assert (RX : length (rx (pA s)) = 0) by (destruct I as (K & KN & _); destruct (okp_counts _ _ _ _ _ _ _ K KN); lia).
      exists pop. split; [exact I|]. split; [apply adv_refl|]. split; [apply same_refl|]. split; [exact RX|]. split; [intros Q; destruct (rx (pA s)); [congruence|discriminate]|]. split; [lia|]. split; auto.
    - assert (RZ : (recCount s =? 0)%Z = false) by (destruct I as (_ & _ & _ & HH & _); lia). rewrite RZ.
      destruct (E_ok _ _ _ I) as (I1 & A1 & T1 & S1 & (L1 & L2) & X1 & F1 & _ & W1 & W2).
      destruct (status_bits (pA (E s))) as (_ & RB & _). rewrite RB. destruct (Nat.eqb_spec (length (rx (pA (E s)))) 0) as [Z0|Z0].
      + exists pop. split; [exact I1|]. split; [exact A1|]. split; [exact S1|]. split; [exact Z0|]. split; [intros Q; destruct (rx (pA s)); [congruence|simpl in *; lia]|]. split; [lia|]. split; [exact W2|].
        intros HB W R. unfold rounds in R. apply W1; auto. specialize (HB (now (hw s))). lia.
      + assert (RN : rx (pA (E s)) <> []) by (intros Q; rewrite Q in Z0; apply Z0; reflexivity).
        destruct (take_ok _ _ _ I1 RN) as (pop2 & I2 & P2 & A2 & M2 & T2 & S2 & L3 & X2 & V1 & V2).
        destruct (E_ok _ _ _ I2) as (I3 & A3 & T3 & S3 & (L5 & L6) & X3 & _ & _ & V5 & V6).
        destruct (IH _ _ _ I3 ltac:(lia)) as (pop' & I4 & A4 & S4 & R4 & _ & _ & V7 & V8). cbv zeta in *.
        exists pop'. split; [exact I4|]. split; [exact (adv_trans _ _ _ A1 (adv_trans _ _ _ A2 (adv_trans _ _ _ A3 A4)))|].
        split; [exact (same_trans _ _ _ S1 (same_trans _ _ _ S2 (same_trans _ _ _ S3 S4)))|]. split; [exact R4|].
        split. { intros _. destruct A1 as (? & _), A3 as (? & _), A4 as (? & _). lia. }
        split. { intros _. destruct A4 as (_ & ? & _). lia. }
        split; [auto|]. intros HB W R. unfold rounds in *. pose proof (HB (now (hw s))) as H1.
        rewrite T1 in *. rewrite T2 in *. replace (now (hw s) + 1) with (S (now (hw s))) in H1 by lia. replace (now (hw s) + 2) with (S (S (now (hw s)))) in H1 by lia.
        apply V8; auto; [|lia]. apply V5; [lia|]. apply V1; [lia|]. apply W1; auto; lia.
  Qed.

  (** IMSC is cleared *)
  Lemma allSent_ok s k pop : Inv s k pop -> length (rx (pA s)) = 0 -> exists s', allSent (lpc wd) skip false s = s' /\
    Inv s' k pop /\ adv s s' /\ (k < N -> same s s' /\ s' = s) /\ (k = N -> irqOn s' = false /\ instance s' = false /\ finished s' = true) /\
    (N <= 8 -> whole (pA s) pop -> whole (pA s') pop) /\ (brisk wd -> whole (pA s) pop -> whole (pA s') pop /\ rounds s' <= 1).
  Proof.
    intros I RX. eexists; split; [reflexivity|]. unfold allSent. destruct (sndCount s =? 0)%Z eqn:SZ.
    - assert (k = N) by (destruct I as (_ & ? & HH & _); rewrite HH in SZ; lia). rewrite load_IMSC.
      assert (I0 : Inv (setInstance (setIrq s false) false) k pop) by exact I. set (s0 := setInstance (setIrq s false) false) in *.
      destruct (E_ok _ _ _ I0) as (I1 & A1 & T1 & S1 & (L1 & L2) & X1 & F1 & _ & W1 & W2).
      destruct (E_ok _ _ _ I1) as (I2 & A2 & T2 & S2 & (L3 & L4) & X2 & F2 & _ & W3 & W4).
      set (v := u32 _). set (s' := setFinished _ true).
      assert (HW : hw s' = upd false (hw (E (E s0))) (set_msk (pA (E (E s0))) v)) by reflexivity.
      assert (P : c0 (pA s') = c0 (pA (E (E s0))) /\ c1 (pA s') = c1 (pA (E (E s0))) /\ tx (pA s') = tx (pA (E (E s0))) /\ shift (pA s') = shift (pA (E (E s0))) /\ rx (pA s') = rx (pA (E (E s0))) /\ sent (pA s') = sent (pA (E (E s0)))) by (rewrite HW; repeat split).
      destruct P as (P1 & P2 & P3 & P4 & P5 & P6).
      assert (MU : mu s' = mu (E (E s0))) by (unfold mu, flight; rewrite P3, P4, P5; reflexivity).
      split. { destruct I2 as (K & R). split; [eapply okp_same; eauto|exact R]. }
      split. { destruct (adv_trans _ _ _ A1 A2) as (B1 & B2 & B4 & B3). unfold adv. rewrite MU. assert (LO : lost s' = lost (E (E s0))) by (unfold lost, flight; rewrite P3, P4, P5; reflexivity). rewrite LO. change (lost s) with (lost s0). change (mu s) with (mu s0). change (pA s) with (pA s0). change (now (hw s)) with (now (hw s0)). unfold flight in *. rewrite P3, P4. split; [exact B1|]. split; [exact B2|]. split; [exact B4|exact B3]. }
      split; [lia|]. split; [intros _; repeat split|]. unfold Spi_Proofs.whole, rounds in *. rewrite P5, P6. split; [auto|].
      intros HB W. pose proof (HB (now (hw s))) as H1. change (now (hw s0)) with (now (hw s)) in *. rewrite T1 in *. replace (now (hw s) + 1) with (S (now (hw s))) in H1 by lia. change (pA s0) with (pA s) in *.
      split; [|lia]. apply W3; [lia|]. apply W1; auto; lia.
    - assert (k < N) by (destruct I as (_ & ? & HH & _); rewrite HH in SZ; lia).
      split; [exact I|]. split; [apply adv_refl|]. split; [intros _; split; [apply same_refl|auto]|]. split; [lia|]. split; [auto|]. intros; split; auto. unfold rounds. lia.
  Qed.

  Lemma continue_ok s k pop : Inv s k pop -> exists k' pop', let s' := continueBlockTransfer (lpc wd) skip false s in
    Inv s' k' pop' /\ k <= k' <= k + 8 /\ adv s s' /\ (recCount s <> 0%Z -> now (hw s) < now (hw s')) /\ (flight (pA s) = 0 -> 0 < mu s -> mu s' < mu s) /\
    (k' < N -> same s s') /\ (k' = N -> irqOn s' = false /\ instance s' = false /\ finished s' = true) /\
    (N <= 8 -> whole (pA s) pop -> whole (pA s') pop') /\ (brisk wd -> whole (pA s) pop -> rounds s <= 1 -> whole (pA s') pop' /\ rounds s' <= 1).
  Proof.
    intros I. unfold continueBlockTransfer. cbv zeta.
    destruct (fill_ok 8 s k pop I) as (k1 & pop1 & I1 & K1 & A1 & S1 & P1 & Q1 & V1 & V2). cbv zeta in *.
    set (s1 := fillLoop (lpc wd) skip false 8 s) in *.
    assert (M1 : Z.to_nat (recCount s1) = N - length pop1) by (destruct I1 as (_ & _ & _ & HH & _); lia).
    destruct (drain_ok _ s1 k1 pop1 I1 M1) as (pop2 & I2 & A2 & S2 & R2 & P2 & Q2 & V3 & V4). cbv zeta in *.
    set (s2 := drainLoop _ _ _ _ _) in *.
    destruct (allSent_ok s2 k1 pop2 I2 R2) as (s3 & <- & I3 & A3 & S3 & F3 & V5 & V6).
    exists k1, pop2. split; [exact I3|]. split; [exact K1|]. split; [exact (adv_trans _ _ _ A1 (adv_trans _ _ _ A2 A3))|].
    assert (T23 : now (hw s2) <= now (hw (allSent (lpc wd) skip false s2))) by (destruct A3 as (_ & ? & _); auto).
    assert (T12 : now (hw s1) <= now (hw s2)) by (destruct A2 as (_ & ? & _); auto).
    assert (T01 : now (hw s) <= now (hw s1)) by (destruct A1 as (_ & ? & _); auto).
    split. { intros RC. destruct (Nat.eq_dec (Z.to_nat (recCount s1)) 0) as [Z0|Z0]; [|specialize (Q2 Z0); lia].
      destruct (Nat.lt_ge_cases k N) as [KL|KG]; [specialize (Q1 KL); lia|].
      exfalso. apply RC. assert (HH : s1 = s). { subst s1. rewrite fillLoop_eq. destruct I as (_ & _ & HC & _). rewrite HC. destruct (Z.eqb_spec (Z.of_nat (N - k)) 0); auto; lia. }
      rewrite HH in Z0. destruct I as (_ & _ & _ & HC & _). lia. }
    split. { intros FZ MU. destruct A1 as (B1 & _), A2 as (B2 & _), A3 as (B3 & _).
      destruct (Nat.lt_ge_cases k N) as [KL|KG]; [specialize (P1 FZ KL ltac:(lia)); lia|].
      assert (HH : s1 = s). { subst s1. rewrite fillLoop_eq. destruct I as (_ & _ & HC & _). rewrite HC. destruct (Z.eqb_spec (Z.of_nat (N - k)) 0); auto; lia. }
      assert (RN : rx (pA s1) <> []). { rewrite HH. intros Q. unfold mu in MU. rewrite Q, FZ in MU. destruct I as (_ & _ & HC & _). rewrite HC in MU. simpl in MU. lia. }
      specialize (P2 RN). lia. }
    split; [intros KL; destruct (S3 KL) as [S3' _]; exact (same_trans _ _ _ S1 (same_trans _ _ _ S2 S3'))|]. split; [exact F3|]. split; [auto|].
    intros HB W R. destruct (V2 HB W R) as [W1 R1]. apply V6; auto.
  Qed.
End Block.
