(** Lemmas for C110: bytes, search *)
From Verif Require Export Wire_Proofs OneWire_Proofs Bits.

Section Bytes.
  Context {B : Type} (d : devices B) (wd : world).
  Hypothesis HL : legal wd.
  Hypothesis HQ : quick wd.
  Notation P := (gpio d wd).
  Lemma irq_rest e l : atRest l -> atRest (pinInterrupt P e l) /\ bus (pinInterrupt P e l) = bus l /\ pinIrq (pinInterrupt P e l) = e.
  Proof.
    intros (H1 & H2 & H3). pose proof (lag_pos wd HL (ops l)) as A. cbn [pinInterrupt gpio]. split; [|split; reflexivity]. split; [exact H1|]. unfold tick. cbn [now ready hold ops]. clear - A H2 H3. lia.
  Qed.
  Lemma input_rest l : atRest l -> resistor wd = true -> atRest (pinMode P Input l) /\ bus (pinMode P Input l) = bus l /\ out (pinMode P Input l) = false.
  Proof.
    intros (H1 & H2 & H3) HR. pose proof (lag_pos wd HL (ops l)) as A. cbn [pinMode gpio]. rewrite (drive_same d wd false false (latch l) l H1 HR). split; [|split; reflexivity]. split; [reflexivity|]. cbn [now ready hold]. clear - A H2 H3. lia.
  Qed.
  Lemma release_rest par l : atRest l -> par || resistor wd = true -> pinIrq l = true -> atRest (release P par l) /\ bus (release P par l) = bus l /\ pinIrq (release P par l) = true.
  Proof.
    intros H HR HI. unfold release. destruct par; cbn [negb orb] in *; [auto|]. destruct (irq_rest false l H) as (H1 & E1 & _). destruct (input_rest _ H1 HR) as (H2 & E2 & _). destruct (irq_rest true _ H2) as (H3 & E3 & I3).
    split; [exact H3|]. split; [congruence|exact I3].
  Qed.
  Lemma depower_rest l : atRest l -> resistor wd = true -> atRest (OneWireDePower P l) /\ bus (OneWireDePower P l) = bus l /\ out (OneWireDePower P l) = false.
  Proof.
    intros H HR. unfold OneWireDePower. destruct (irq_rest false l H) as (H1 & E1 & _). destruct (input_rest _ H1 HR) as (H2 & E2 & O2). set (l2 := pinMode P Input _) in *. clearbody l2.
    assert (H3 : atRest (digitalWrite P false l2) /\ bus (digitalWrite P false l2) = bus l2 /\ out (digitalWrite P false l2) = false).
    { cbn [digitalWrite gpio]. destruct H2 as (A1 & A2 & A3). rewrite O2. cbn [orb]. rewrite drive_same; [|rewrite A1; reflexivity|rewrite HR; apply orb_true_r]. split; [|split; reflexivity]. split; [reflexivity|].
      pose proof (lag_pos wd HL (ops l2)) as A. cbn [now ready hold]. clear - A A2 A3. lia. }
    destruct H3 as (H3 & E3 & O3). destruct (irq_rest true _ H3) as (H4 & E4 & _). split; [exact H4|]. split; [congruence|]. cbn [pinInterrupt gpio]. exact O3.
  Qed.

  Lemma mask_bit v j : 0 <= j -> Z.odd (if negb (Z.land (2 ^ j) v =? 0) then 1 else 0) = Z.testbit v j.
  Proof.
    intros Hj. assert (E : Z.land (2 ^ j) v = if Z.testbit v j then 2 ^ j else 0).
    { apply Z.bits_inj'. intros k Hk. rewrite Z.land_spec, Z.pow2_bits_eqb by lia. destruct (Z.eqb_spec j k) as [->|N].
      - cbn [andb]. destruct (Z.testbit v k); [rewrite Z.pow2_bits_true by lia|rewrite Z.testbit_0_l]; reflexivity.
      - cbn [andb]. destruct (Z.testbit v j); [rewrite Z.pow2_bits_false by lia|rewrite Z.testbit_0_l]; reflexivity. }
    rewrite E. destruct (Z.testbit v j); [|reflexivity]. pose proof (Z.pow_pos_nonneg 2 j). rewrite (proj2 (Z.eqb_neq _ _)) by lia. reflexivity.
  Qed.
  Lemma write_bits v js : Forall (fun j => 0 <= j) js -> forall l, atRest l -> pinIrq l = true ->
    let l' := fold_left (fun l j => OneWireWriteBit P (if negb (Z.land (2 ^ j) v =? 0) then 1 else 0) l) js l in
    atRest l' /\ pinIrq l' = true /\ bus l' = fold_left (fun b x => writeSlot d x b) (map (Z.testbit v) js) (bus l).
  Proof.
    induction 1 as [|j js Hj Hf IH]; intros l HR HI; cbn [fold_left map]; [auto|].
    destruct (write_bit_rest d wd HL HQ (if negb (Z.land (2 ^ j) v =? 0) then 1 else 0) l HR) as (H1 & H2 & _ & _ & H3). destruct (IH _ H1 H3) as (G1 & G2 & G3). split; [exact G1|]. split; [exact G2|].
    rewrite G3, H2, mask_bit by exact Hj. reflexivity.
  Qed.
  Lemma writeLoop_fold v l : writeLoop P 9 1 v l = fold_left (fun l j => OneWireWriteBit P (if negb (Z.land (2 ^ j) v =? 0) then 1 else 0) l) [0; 1; 2; 3; 4; 5; 6; 7] l.
  Proof. reflexivity. Qed.
  Lemma fold_irq v js : js <> [] -> Forall (fun j => 0 <= j) js -> forall l, atRest l ->
    let l' := fold_left (fun l j => OneWireWriteBit P (if negb (Z.land (2 ^ j) v =? 0) then 1 else 0) l) js l in
    atRest l' /\ pinIrq l' = true /\ bus l' = fold_left (fun b x => writeSlot d x b) (map (Z.testbit v) js) (bus l).
  Proof.
    intros N HF l HR. destruct HF as [|j js Hj Hf]; [congruence|]. cbn [fold_left map].
    destruct (write_bit_rest d wd HL HQ (if negb (Z.land (2 ^ j) v =? 0) then 1 else 0) l HR) as (H1 & H2 & _ & _ & H3). destruct (write_bits v js Hf _ H1 H3) as (G1 & G2 & G3).
    split; [exact G1|]. split; [exact G2|]. rewrite G3, H2, mask_bit by exact Hj. reflexivity.
  Qed.
  Lemma write_rest par v l : atRest l -> par || resistor wd = true ->
    atRest (OneWireWrite P par v l) /\ bus (OneWireWrite P par v l) = writeByte d v (bus l) /\ pinIrq (OneWireWrite P par v l) = true.
  Proof.
    intros HR HP. unfold OneWireWrite. rewrite writeLoop_fold. destruct (fold_irq v [0; 1; 2; 3; 4; 5; 6; 7] ltac:(discriminate) ltac:(repeat constructor; lia) l HR) as (H1 & H2 & H3).
    cbv zeta in H1, H2, H3. set (l1 := fold_left _ _ l) in *. clearbody l1. destruct (release_rest par l1 H1 HP H2) as (G1 & G2 & G3). split; [exact G1|]. split; [|exact G3]. rewrite G2. exact H3.
  Qed.
  Lemma writes_rest par (vs : list Z) : par || resistor wd = true -> forall l, atRest l ->
    let l' := fold_left (fun s b => OneWireWrite P par b s) vs l in atRest l' /\ bus l' = fold_left (fun b v => writeByte d v b) vs (bus l) /\ (vs <> [] -> pinIrq l' = true) /\ (pinIrq l = true -> pinIrq l' = true).
  Proof.
    intros HP. induction vs as [|v vs IH]; intros l HR; cbn [fold_left]; [split; [exact HR|]; split; [reflexivity|]; split; [congruence|auto]|].
    destruct (write_rest par v l HR HP) as (H1 & H2 & H3). destruct (IH _ H1) as (G1 & G2 & _ & G4). split; [exact G1|]. split; [rewrite G2, H2; reflexivity|]. auto.
  Qed.
  Lemma write_bytes_rest par buf l : atRest l -> par || resistor wd = true ->
    atRest (OneWireWriteBytes P par buf l) /\ bus (OneWireWriteBytes P par buf l) = fold_left (fun b v => writeByte d v b) buf (bus l).
  Proof.
    intros HR HP. unfold OneWireWriteBytes. destruct (writes_rest par buf HP l HR) as (H1 & H2 & _). set (l1 := fold_left _ buf l) in *. clearbody l1. unfold release.
    destruct par; cbn [negb orb] in *; [auto|]. destruct (irq_rest false l1 H1) as (A1 & E1 & _). destruct (input_rest _ A1 HP) as (A2 & E2 & _). destruct (irq_rest true _ A2) as (A3 & E3 & _). split; [exact A3|congruence].
  Qed.

  Hypothesis HS : shorted wd = false.
  Lemma read_step n mask acc l : mask <> 0 -> readLoop P (S n) mask acc l =
    readLoop P n (u8 (Z.shiftl mask 1)) (if snd (OneWireReadBit P l) then Z.lor acc mask else acc) (fst (OneWireReadBit P l)).
  Proof. intros H. cbn [readLoop]. rewrite (proj2 (Z.eqb_neq _ _)) by exact H. destruct (OneWireReadBit P l). reflexivity. Qed.
  Lemma next_mask j : (j < 8)%nat -> u8 (Z.shiftl (2 ^ Z.of_nat j) 1) = if (j =? 7)%nat then 0 else 2 ^ Z.of_nat (S j).
  Proof. intros H. do 8 (destruct j as [|j]; [reflexivity|]). lia. Qed.
  Lemma read_loop n : forall j acc l, (n + j = 8)%nat -> atRest l -> 0 <= acc < 2 ^ Z.of_nat j ->
    let r := readLoop P (S n) (if (n =? 0)%nat then 0 else 2 ^ Z.of_nat j) acc l in
    atRest (fst r) /\ bus (fst r) = fst (readBits d n (bus l)) /\ snd r = acc + 2 ^ Z.of_nat j * value (snd (readBits d n (bus l))).
  Proof.
    induction n as [|n IH]; intros j acc l E HR HA.
    - cbn [Nat.eqb readLoop readBits fst snd value]. cbn. split; [exact HR|]. split; [reflexivity|]. lia.
    - cbn [Nat.eqb]. assert (N : 2 ^ Z.of_nat j <> 0) by (pose proof (Z.pow_pos_nonneg 2 (Z.of_nat j)); lia). cbv zeta. rewrite read_step by exact N.
      destruct (read_bit_rest d wd HL HQ l HS HR) as (H1 & H2 & _). cbn [readBits]. rewrite <- H2. destruct (OneWireReadBit P l) as [l1 x]. cbn [fst snd] in *.
      rewrite next_mask by lia. replace (j =? 7)%nat with (n =? 0)%nat by (destruct (Nat.eqb_spec n 0), (Nat.eqb_spec j 7); lia).
      assert (Ex : (if x then Z.lor acc (2 ^ Z.of_nat j) else acc) = acc + 2 ^ Z.of_nat j * Z.b2z x).
      { destruct x; cbn [Z.b2z]; [|lia]. rewrite Z.lor_comm. pose proof (lor_shiftl_add 1 acc (Z.of_nat j) ltac:(lia) HA) as A. rewrite Z.shiftl_1_l in A. rewrite A. lia. }
      rewrite Ex. assert (P2 : 2 ^ Z.of_nat (S j) = 2 * 2 ^ Z.of_nat j) by (rewrite Nat2Z.inj_succ, Z.pow_succ_r; lia).
      destruct (IH (S j) (acc + 2 ^ Z.of_nat j * Z.b2z x) l1) as (G1 & G2 & G3); [lia|exact H1|destruct x; cbn [Z.b2z]; lia|]. cbv zeta in G1, G2, G3. split; [exact G1|].
      destruct (readBits d n (bus l1)) as [b r]. cbn [fst snd] in *. split; [exact G2|]. rewrite G3. cbn [value]. rewrite P2. ring.
  Qed.
  Lemma read_rest l : atRest l -> atRest (fst (OneWireRead P l)) /\ bus (fst (OneWireRead P l)) = fst (readBits d 8 (bus l)) /\ snd (OneWireRead P l) = value (snd (readBits d 8 (bus l))).
  Proof.
    intros HR. destruct (read_loop 8 0 0 l eq_refl HR ltac:(cbn; lia)) as (H1 & H2 & H3). unfold OneWireRead. cbn [Nat.eqb] in H1, H2, H3. change (2 ^ Z.of_nat 0) with 1 in *.
    split; [exact H1|]. split; [exact H2|]. rewrite H3. lia.
  Qed.
  Lemma read_bytes_rest n : forall l, atRest l -> atRest (fst (OneWireReadBytes P n l)) /\ bus (fst (OneWireReadBytes P n l)) = fst (readByteN d n (bus l)) /\ snd (OneWireReadBytes P n l) = snd (readByteN d n (bus l)).
  Proof.
    induction n as [|n IH]; intros l HR; [cbn; auto|]. cbn [OneWireReadBytes readByteN]. destruct (read_rest l HR) as (H1 & H2 & H3). destruct (OneWireRead P l) as [l1 x]. cbn [fst snd] in *.
    destruct (readBits d 8 (bus l)) as [b y]. cbn [fst snd] in *. subst b x. destruct (IH l1 H1) as (G1 & G2 & G3). destruct (OneWireReadBytes P n l1) as [l2 r]. destruct (readByteN d n (bus l1)) as [b s]. cbn [fst snd] in *. subst. auto.
  Qed.
End Bytes.

(** ** The search *)
Definition walking (n : nat) (l : list slave) : Prop := Forall (fun s => match ph s with SendBit r => length r = n | Silent => True | _ => False end) l.
Definition act (l : list slave) : list device := flat_map (fun s => match ph s with SendBit r => [r] | _ => [] end) l.
Definition codes (l : list slave) : list device := map code l.
(** what a device is, without its phase *)
Definition ident (s : slave) : list bool * list bool * nat := (code s, memory s, started s).
Definition idents (l : list slave) : list (list bool * list bool * nat) := map ident l.
Definition talk (l : list slave) : list bool := flat_map (fun s => match toSend s with Some b => [b] | None => [] end) l.
Lemma sends_talk l : sends search_devices l = match talk l with [] => None | x => Some (forallb (fun b => b) x) end.
Proof.
  induction l as [|s l IH]; [reflexivity|]. cbn [sends search_devices fold_right talk flat_map] in *. rewrite IH. unfold talk. destruct (toSend s) as [b|]; [|reflexivity]. cbn [app].
  destruct (flat_map _ l); cbn [forallb]; [rewrite andb_true_r|]; reflexivity.
Qed.
Lemma idents_map f l : (forall s, ident (f s) = ident s) -> idents (map f l) = idents l.
Proof. intros H. unfold idents. rewrite map_map. apply map_ext. exact H. Qed.
Lemma idents_codes l l' : idents l = idents l' -> codes l = codes l'.
Proof. intros H. unfold idents, codes in *. apply (f_equal (map (fun x => fst (fst x)))) in H. rewrite !map_map in H. exact H. Qed.
Lemma ident_clocked s : ident (clocked s) = ident s. Proof. unfold clocked. destruct (ph s); reflexivity. Qed.

Lemma talk_bit n l : walking (S n) l -> talk l = map (fun r => hd true r) (act l).
Proof.
  induction 1 as [|s l H Hf IH]; [reflexivity|]. cbn [talk act flat_map]. unfold talk, act in IH. rewrite IH, map_app. f_equal. unfold toSend. destruct (ph s) as [| |[|x r]| | | | |]; try contradiction; try discriminate; reflexivity.
Qed.
Lemma talk_complement n l : walking (S n) l -> talk (map clocked l) = map (fun r => negb (hd true r)) (act l).
Proof.
  induction 1 as [|s l H Hf IH]; [reflexivity|]. cbn [map talk act flat_map]. unfold talk, act in IH. rewrite IH, map_app. f_equal. unfold toSend, clocked, go. destruct (ph s) as [| |[|x r]| | | | |] eqn:E; try contradiction; try discriminate; cbn [ph]; rewrite ?E; reflexivity.
Qed.
Lemma talk_direction n l : walking (S n) l -> talk (map clocked (map clocked l)) = [].
Proof.
  induction 1 as [|s l H Hf IH]; [reflexivity|]. cbn [map talk flat_map]. unfold talk in IH. rewrite IH, app_nil_r. unfold toSend, clocked, go. destruct (ph s) as [| |r| | | | |] eqn:E; try contradiction; cbn [ph]; rewrite ?E; cbn [ph]; rewrite ?E; reflexivity.
Qed.
Lemma read_act l : read_bit l = forallb (fun b => b) (map (fun r => hd true r) l).
Proof. unfold read_bit. induction l as [|[|x r] l IH]; cbn; rewrite ?IH; reflexivity. Qed.
Lemma cmp_act n l : Forall (fun r => length r = S n) l -> read_cmp l = forallb (fun b => b) (map (fun r => negb (hd true r)) l).
Proof. unfold read_cmp. induction 1 as [|[|x r] l H Hf IH]; cbn; rewrite ?IH; try discriminate; reflexivity. Qed.
Lemma act_len n l : walking n l -> Forall (fun r => length r = n) (act l).
Proof. induction 1 as [|s l H Hf IH]; [constructor|]. cbn [act flat_map]. destruct (ph s); try exact IH. constructor; auto. Qed.
Lemma quiet_gets v l : Forall (fun s => gets v s = s) l -> map (gets v) l = l.
Proof. induction 1 as [|s l H Hf IH]; cbn [map]; congruence. Qed.
Lemma same_gets n v l : walking n l -> map (gets v) l = l.
Proof. intros H. apply quiet_gets. eapply Forall_impl; [|exact H]. intros [c m k p] Hs. unfold gets, go. cbn [ph code] in *. destruct p; try contradiction; reflexivity. Qed.
Lemma nobody n l : walking n l -> act l = [] -> map clocked l = l.
Proof.
  induction 1 as [|s l H Hf IH]; intros E; [reflexivity|]. cbn [map act flat_map] in *. destruct s as [c mem k p]. cbn [ph] in *.
  destruct p as [|g|r|r|r|r|g|r]; try discriminate E; try contradiction. cbn [app] in E. unfold act in IH. rewrite (IH E). reflexivity.
Qed.
Lemma done_talk l : walking 0 l -> talk l = [].
Proof. induction 1 as [|s l H Hf IH]; [reflexivity|]. cbn [talk flat_map]. unfold talk in IH. rewrite IH, app_nil_r. unfold toSend. destruct (ph s) as [| |[|]| | | | |]; try reflexivity; try contradiction; discriminate. Qed.
Lemma done_act l : walking 0 l -> read_bit (act l) = true /\ read_cmp (act l) = true.
Proof. intros H. apply act_len in H. unfold read_bit, read_cmp. split; induction H as [|[|] a Hx Hf IH]; try reflexivity; try discriminate; cbn [forallb]; exact IH. Qed.

(** what the two read slots of a pass return, and the write slot after them *)
Lemma pass_reads n l : walking n l -> let r1 := readSlot search_devices l in let r2 := readSlot search_devices (fst r1) in
  snd r1 = read_bit (act l) /\ snd r2 = read_cmp (act l) /\
  idents (fst r2) = idents l /\ (forall v, idents (writeSlot search_devices v (fst r2)) = idents l) /\
  (snd r1 && snd r2 = false -> forall v, exists m, walking m (writeSlot search_devices v (fst r2)) /\ act (writeSlot search_devices v (fst r2)) = write_bit v (act l)).
Proof.
  intros H. destruct n as [|n].
  - destruct (done_act l H) as [E1 E2]. rewrite E1, E2. assert (R : readSlot search_devices l = (l, true)).
    { unfold readSlot. rewrite sends_talk, (done_talk l H). cbn [onWrite search_devices]. rewrite (same_gets _ _ _ H). reflexivity. }
    cbv zeta. rewrite R. cbn [fst snd]. rewrite R. cbn [fst snd]. split; [reflexivity|]. split; [reflexivity|]. split; [reflexivity|]. split; [|discriminate].
    intros v. unfold writeSlot. rewrite sends_talk, (done_talk l H). cbn [onWrite search_devices]. rewrite (same_gets _ _ _ H). reflexivity.
  - assert (R1 : readSlot search_devices l = (map clocked l, read_bit (act l))).
    { unfold readSlot. rewrite sends_talk, (talk_bit n l H), read_act. destruct (act l) as [|a r] eqn:Ea.
      - cbn [map forallb]. cbn [onWrite search_devices]. rewrite (same_gets _ _ _ H), (nobody _ _ H Ea). reflexivity.
      - reflexivity. }
    cbv zeta. rewrite R1. cbn [fst snd].
    assert (R2 : readSlot search_devices (map clocked l) = (map clocked (map clocked l), read_cmp (act l))).
    { unfold readSlot. rewrite sends_talk, (talk_complement n l H), (cmp_act n) by (eapply act_len; eauto). destruct (act l) as [|a r] eqn:Ea.
      - cbn [map forallb]. cbn [onWrite search_devices]. rewrite !(nobody _ _ H Ea), (same_gets _ _ _ H). reflexivity.
      - reflexivity. }
    rewrite R2. cbn [fst snd]. split; [reflexivity|]. split; [reflexivity|]. split; [rewrite !idents_map by apply ident_clocked; reflexivity|]. split.
    { intros v. unfold writeSlot. rewrite sends_talk, (talk_direction n l H). cbn [onWrite search_devices]. clear R1 R2. induction H as [|s l H Hf IH]; [reflexivity|]. cbn [map idents]. unfold idents in IH. rewrite IH. f_equal.
      destruct s as [c mem k p]. cbn [ph] in *. destruct p as [|g|r|r|r|r|g|r]; try contradiction; [reflexivity|]. destruct r as [|x r]; [discriminate|]. unfold clocked, gets, go. cbn [ph]. reflexivity. }
    intros _ v. exists n. unfold writeSlot. rewrite sends_talk, (talk_direction n l H). cbn [onWrite search_devices].
    clear R1 R2. induction H as [|s l H Hf IH]; [split; [constructor|reflexivity]|]. destruct IH as [I1 I2]. cbn [map act flat_map]. unfold act in I2. rewrite I2.
    destruct s as [c mem k p]. cbn [ph] in *. destruct p as [|g|r|r|r|r|g|r]; try contradiction.
    + split; [constructor; [cbn; auto|exact I1]|reflexivity].
    + destruct r as [|x r]; [discriminate|]. cbn in H. injection H as H. split.
      * constructor; [|exact I1]. cbn. destruct (Bool.eqb x v); cbn; auto.
      * unfold clocked, gets, go. cbn [ph code write_bit flat_map app]. destruct (Bool.eqb x v); reflexivity.
Qed.

Section Search.
  Context (wd : world).
  Hypothesis HL : legal wd.
  Hypothesis HQ : quick wd.
  Hypothesis HS : shorted wd = false.
  Notation P := (gpio search_devices wd).
  Lemma search_loop fuel : forall ld rom bit mask lz num lfd l n, atRest l -> walking n (bus l) ->
    match OneWire_Model.searchLoop fuel ld rom bit mask lz num lfd (act (bus l)) with
    | None => searchLoop P fuel ld rom bit mask lz num lfd l = None
    | Some r => exists l', searchLoop P fuel ld rom bit mask lz num lfd l = Some (l', r) /\ atRest l' /\ idents (bus l') = idents (bus l)
    end.
  Proof.
    induction fuel as [|fuel IH]; intros ld rom bit mask lz num lfd l n HR HW; [reflexivity|]. cbn [searchLoop OneWire_Model.searchLoop].
    destruct (pass_reads n (bus l) HW) as (E1 & E2 & C2 & C3 & E3). cbv zeta in E1, E2, C2, C3, E3.
    destruct (read_bit_rest search_devices wd HL HQ l HS HR) as (R1 & S1 & _). destruct (OneWireReadBit P l) as [l1 x]. cbn [fst snd] in R1, S1. rewrite <- S1 in E1, E2, C2, C3, E3. cbn [fst snd] in E1, E2, C2, C3, E3.
    destruct (read_bit_rest search_devices wd HL HQ l1 HS R1) as (R2 & S2 & _). destruct (OneWireReadBit P l1) as [l2 y]. cbn [fst snd] in R2, S2. rewrite <- S2 in E2, C2, C3, E3. cbn [fst snd] in E2, C2, C3, E3.
    rewrite <- E1, <- E2. destruct (x && y) eqn:Exy; [exists l2; auto|]. specialize (E3 eq_refl).
    destruct (if negb (Bool.eqb x y) then _ else _) as [[dir lz'] lfd']. destruct (write_bit_rest search_devices wd HL HQ (if dir then 1 else 0) l2 R2) as (R3 & S3 & _).
    replace (Z.odd (if dir then 1 else 0)) with dir in S3 by (destruct dir; reflexivity). destruct (E3 dir) as (m & W & A). rewrite <- S3 in W, A. rewrite <- A.
    specialize (C3 dir). rewrite <- S3 in C3.
    destruct (if u8 (Z.shiftl mask 1) =? 0 then _ else _) as [num' mask']. destruct (num' <? 8)%nat; [|exists (OneWireWriteBit P (if dir then 1 else 0) l2); auto].
    specialize (IH ld (if dir then wr rom num (Z.lor (rd rom num) mask) else wr rom num (Z.land (rd rom num) (u8 (Z.lnot mask)))) (u8 (bit + 1)) mask' lz' num' lfd' _ m R3 W). rewrite C3 in IH. exact IH.
  Qed.

  Lemma command_quiet g L : talk (map (go (Command g)) L) = [].
  Proof. induction L as [|s L IH]; [reflexivity|]. exact IH. Qed.
  Lemma command_bit v g L : (length g < 7)%nat -> writeSlot search_devices v (map (go (Command g)) L) = map (go (Command (g ++ [v]))) L.
  Proof.
    intros H. unfold writeSlot. rewrite sends_talk, command_quiet. cbn [onWrite search_devices]. rewrite map_map. apply map_ext. intros s. unfold gets, go. cbn [ph code]. cbv zeta.
    rewrite (proj2 (Nat.ltb_lt _ _)); [reflexivity|]. rewrite app_length. cbn. lia.
  Qed.
  Lemma command_search L : writeByte search_devices 0xF0 (map (go (Command [])) L) = map (fun s => go (SendBit (code s)) s) L.
  Proof.
    unfold writeByte. change (byte_bits 0xF0) with [false; false; false; false; true; true; true; true]. cbn [fold_left]. rewrite !command_bit by (cbn; lia). cbn [app].
    unfold writeSlot. rewrite sends_talk, command_quiet. cbn [onWrite search_devices]. rewrite map_map. apply map_ext. intros s. reflexivity.
  Qed.
  Lemma command_walking n L : Forall (fun s => length (code s) = n) L -> walking n (map (fun s => go (SendBit (code s)) s) L).
  Proof. induction 1; constructor; auto. Qed.
  Lemma command_act L : act (map (fun s => go (SendBit (code s)) s) L) = codes L.
  Proof. induction L as [|s L IH]; [reflexivity|]. cbn [map act flat_map codes app go ph]. f_equal. exact IH. Qed.

  Lemma search_call_line par q l n : par || resistor wd = true -> atRest l -> Forall (fun s => length (code s) = n) (bus l) ->
    match oneWireSearch (codes (bus l)) q with
    | None => OneWireSearch P par q l = None
    | Some r => exists l', OneWireSearch P par q l = Some (l', r) /\ atRest l' /\ idents (bus l') = idents (bus l)
    end.
  Proof.
    intros HP HR HC. unfold oneWireSearch, OneWireSearch. destruct (bLastDeviceFlag q); [exists l; auto|].
    destruct (reset_any search_devices wd HL HQ l HS) as (b & T & R1 & S1 & _); [apply HR|destruct HR as (_ & _ & A); lia|]. destruct HR as (_ & Hr & _). destruct T as [_ T]. rewrite (T Hr) in S1. clear T b.
    destruct (OneWireReset P l) as [l1 there]. cbn [fst snd] in R1, S1. cbn [onReset search_devices] in S1. injection S1 as S1 S2.
    assert (Et : there = present (codes (bus l))) by (rewrite S2; destruct (bus l); reflexivity). rewrite <- Et. clear S2 Et. assert (C1 : idents (bus l1) = idents (bus l)) by (rewrite S1; apply idents_map; reflexivity).
    destruct there; cbn [negb]; [|exists l1; auto].
    destruct (write_rest search_devices wd HL HQ par 0xF0 l1 R1 HP) as (R2 & S2 & _). rewrite S1, command_search in S2. set (l2 := OneWireWrite P par 0xF0 l1) in *. clearbody l2.
    assert (C2 : idents (bus l2) = idents (bus l)) by (rewrite S2; apply idents_map; reflexivity).
    pose proof (command_walking n (bus l) HC) as W. rewrite <- S2 in W. pose proof (search_loop 65 (LastDiscrepancy q) (ROM_NO q) 1 1 0 0 (LastFamilyDiscrepancy q) l2 n R2 W) as G.
    rewrite S2, command_act in G. rewrite <- S2 in G.
    destruct (OneWire_Model.searchLoop 65 _ _ 1 1 0 0 _ (codes (bus l))) as [[[[rom bit] lz] lfd]|]; [|rewrite G; reflexivity].
    destruct G as (l' & G1 & G2 & G3). rewrite G1. rewrite C2 in G3. destruct (if negb (bit <? 65) then _ else _) as [[ret ld] flag]. destruct (negb ret || (rd rom 0 =? 0)); exists l'; auto.
  Qed.
  Lemma line_searches par n k : par || resistor wd = true -> forall q l, atRest l -> Forall (fun s => length (code s) = n) (bus l) ->
    match searches k (codes (bus l)) q with
    | None => lineSearches wd par k q l = None
    | Some (r, q') => exists l', lineSearches wd par k q l = Some (r, q', l') /\ atRest l' /\ idents (bus l') = idents (bus l)
    end.
  Proof.
    intros HP. induction k as [|k IH]; intros q l HR HC; cbn [searches lineSearches]; [exists l; auto|].
    pose proof (search_call_line par q l n HP HR HC) as G. destruct (oneWireSearch (codes (bus l)) q) as [[[ret addr] q1]|]; [|rewrite G; reflexivity].
    destruct G as (l1 & G1 & G2 & G3). rewrite G1. assert (HC1 : Forall (fun s => length (code s) = n) (bus l1)).
    { apply Forall_map in HC || idtac. rewrite Forall_forall in *. intros s Hs. assert (H : In (code s) (codes (bus l1))) by (apply in_map; exact Hs). rewrite (idents_codes _ _ G3) in H. apply in_map_iff in H. destruct H as (s' & <- & Hs'). auto. }
    specialize (IH q1 l1 G2 HC1). rewrite G3, (idents_codes _ _ G3) in IH. destruct (searches k (codes (bus l)) q1) as [[r q2]|]; [|rewrite IH; reflexivity]. destruct IH as (l' & I1 & I2 & I3). rewrite I1. exists l'. auto.
  Qed.
End Search.
