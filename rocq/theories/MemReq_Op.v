(** Memory requests: whole operations and request telegrams *)
From Verif Require Import Base Bits Telegram_Model Mapper_Model Mapper_Spec Mapper_Proofs MemReq_Model MemReq_Spec MemReq_Proofs.

(** the single byte 0x60 where no memory lies: the status byte *)
Lemma alias_spec L r pos buf d : layout_ok L -> good L d -> no_auto L d -> array L d 0x60 = None -> (r = false -> Forall is_byte buf) -> (pos + 1 <= length buf)%nat ->
  exists buf' d', processApciMemoryOperation L 0x60 pos 1 r buf d = Some (true, buf', d') /\ moved L r (ramStart L + 0x60) 1 pos buf d buf' d'.
Proof.
  intros HL G N E HB Hp. pose proof (l_ee _ HL) as LE. pose proof (l_ram _ HL) as LR.
  unfold processApciMemoryOperation. cbn [Z.eqb]. replace (u32 (0x60 + 1 - 1)) with 0x60 by reflexivity. cbn [Z.ltb Z.compare Pos.compare Pos.compare_cont]. 
  set (fuel := S (Z.to_nat 1)). change (S (S (Z.to_nat 1))) with (S fuel). cbn [opLoop snf sa spos sbuf sdev]. change (negb false && (0x60 <=? 0x60)) with true. cbv iota.
  set (s := mkSt 0x60 pos true buf d).
  assert (NI : ~ inside (eeStart L) (eeSize L) 0x60 /\ ~ inside (ramStart L) (ramSize L) 0x60 /\ mp d 0x60 = None).
  { rewrite array_eq in E by auto. unfold mp. destruct (memMapper d); [destruct (mapper_array m 0x60); [discriminate|]|]; apply local_none in E; tauto. }
  destruct NI as (N1 & N2 & N3). unfold inside in N1, N2.
  assert (M : mapStage L r 0x60 1 s = Go s).
  { unfold mapStage. cbn [s sdev sa]. unfold mp in N3. destruct (memMapper d) as [m|] eqn:Em; auto. destruct (g_map _ _ G m Em) as ((hi & K) & _).
    cbv zeta. rewrite s32_small by lia. rewrite (isMapped_view _ m hi _ K (no_auto_some L d m N Em)), N3. reflexivity. }
  rewrite M. cbn [andThen].
  assert (X : eeStage L r 0x60 s = Go s).
  { unfold eeStage, inRange2, inRange1. cbn [s sa]. replace ((0x60 <=? 0x60) && (eeStart L <=? 0x60) && (0x60 <=? eeStart L + eeSize L - 1)) with false by lia.
    replace ((eeStart L <=? 0x60) && (0x60 <=? eeStart L + eeSize L - 1)) with false by lia. reflexivity. }
  rewrite X. cbn [andThen]. unfold ramStage. cbn [s sa spos sbuf sdev]. unfold isStatusAddress, statusOffset. rewrite !Z.eqb_refl. cbn [andb]. rewrite orb_true_r.
  change (Z.to_nat (0x60 - 0x60 + 1)) with 1%nat. unfold ramMove, cpyFromUserRam, cpyToUserRam, statusOffset. rewrite Z.eqb_refl.
  assert (IR : inside (ramStart L) (ramSize L) (ramStart L + 0x60)) by (unfold inside; lia).
  assert (KN : array L d (ramStart L + 0x60) = Some (status d)).
  { rewrite array_local by auto. rewrite local_ram by auto. now rewrite Z.eqb_refl. }
  destruct r.
  - cbn [andb Nat.eqb]. rewrite bput_ok by (cbn [length]; lia). do 2 eexists. split; [reflexivity|]. constructor; auto.
    + intros i Hi. replace (ramStart L + 0x60 + Z.of_nat i) with (ramStart L + 0x60) by lia. rewrite KN. discriminate.
    + apply wr_range_length.
    + intros j. rewrite rd_wr_range by (cbn [length]; lia). cbn [length andb]. destruct (Nat.leb_spec pos j), (Nat.ltb_spec j (pos + 1)); cbn [andb]; auto.
      replace (j - pos)%nat with O by lia. rewrite Z.add_0_r, KN. reflexivity.
  - rewrite bget_ok by lia. set (bs := firstn 1 _). assert (Lb : length bs = 1%nat) by (apply sub_length; lia). rewrite Lb. cbn [andb Nat.eqb].
    assert (F : Forall is_byte bs) by (apply Forall_sub; auto).
    do 2 eexists. split; [reflexivity|].
    assert (U : ram_upd d (mkDev (memMapper d) (eeData d) (eeModified d) (ramData d) (rd bs 0)) 0x60 bs).
    { constructor; cbn [memMapper eeData ramData status]; auto.
      - intros F1 F2 F3. split; auto. now apply rd_byte.
      - intros j Hj. unfold cell, statusOffset. cbn [status ramData]. rewrite Lb. destruct (Z.eqb_spec j 0x60).
        + replace ((0x60 <=? j) && (j <? 0x60 + Z.of_nat 1)) with true by lia. now replace (Z.to_nat (j - 0x60)) with O by lia.
        + now replace ((0x60 <=? j) && (j <? 0x60 + Z.of_nat 1)) with false by lia. }
    constructor; auto.
    + apply (good_ram _ _ _ _ _ G F U).
    + intros i Hi. replace (ramStart L + 0x60 + Z.of_nat i) with (ramStart L + 0x60) by lia. rewrite KN. discriminate.
    + intros x. cbn [negb andb]. rewrite (array_ram L d _ _ bs x HL G N F U) by lia. rewrite Lb.
      destruct ((ramStart L + 0x60 <=? x) && (x <? ramStart L + 0x60 + Z.of_nat 1)) eqn:T; auto. f_equal. unfold bs. rewrite rd_sub by lia. f_equal.
Qed.
Lemma op_spec L a n pos r buf d : layout_ok L -> good L d -> no_auto L d -> (r = false -> Forall is_byte buf) -> 0 <= a < 65536 -> (0 < n <= 257)%nat -> (pos + n <= length buf)%nat ->
  exists k b buf' d', processApciMemoryOperation L a pos (Z.of_nat n) r buf d = Some (b, buf', d') /\ moved L r (place L a n (array L d)) k pos buf d buf' d' /\
    (k <= n)%nat /\ b = Nat.eqb k n /\ ((k < n)%nat -> array L d (place L a n (array L d) + Z.of_nat k) = None).
Proof.
  intros HL G N HB Ha Hn Hp.
  destruct (Nat.eqb n 1 && (a =? 0x60) && match array L d 0x60 with None => true | _ => false end)%bool eqn:E.
  - assert (n = 1%nat /\ a = 0x60 /\ array L d 0x60 = None) as (-> & -> & E0).
    { destruct (array L d 0x60); [rewrite andb_false_r in E; discriminate|]. split; [lia|]. split; [lia|auto]. }
    destruct (alias_spec L r pos buf d HL G N E0 HB Hp) as (buf' & d' & Q & V). exists 1%nat, true, buf', d'. unfold place. rewrite E0. change (Z.of_nat 1) with 1. cbn [Nat.eqb andb Z.eqb Pos.eqb].
    split; auto. split; auto. split; [lia|]. split; auto. lia.
  - assert (P : place L a n (array L d) = a).
    { unfold place. destruct (Nat.eqb n 1 && (a =? 0x60))%bool eqn:T; auto. destruct (array L d 0x60) eqn:T2; auto. discriminate. }
    rewrite P. unfold processApciMemoryOperation. replace (Z.of_nat n =? 0) with false by lia. cbv zeta. rewrite u32_id by (red; lia).
    replace (a + Z.of_nat n - 1 <? a) with false by lia. rewrite Nat2Z.id.
    destruct (opLoop_spec L r (a + Z.of_nat n - 1) HL (S (S n)) n (mkSt a pos false buf d)) as (k & b & buf' & d' & Q & V & T1 & T2 & T3); cbn [sa spos snf sbuf sdev] in *.
    + constructor; cbn [sa spos snf sbuf sdev]; auto. lia.
    + reflexivity.
    + lia.
    + intros Q1 Q2. assert (n = 1%nat) by lia. subst n a. rewrite Nat.eqb_refl, Z.eqb_refl in E. cbn [andb] in E. destruct (array L d 0x60); [discriminate|discriminate E].
    + exists k, b, buf', d'. auto.
Qed.

(** ** The ideal memory *)
Lemma write_bytes_spec bs : forall a f k, (k <= length bs)%nat -> (forall i, (i < k)%nat -> f (a + Z.of_nat i) <> None) -> ((k < length bs)%nat -> f (a + Z.of_nat k) = None) ->
  fst (write_bytes a bs f) = Nat.eqb k (length bs) /\
  forall x, snd (write_bytes a bs f) x = if (a <=? x) && (x <? a + Z.of_nat k) then Some (rd bs (Z.to_nat (x - a))) else f x.
Proof.
  induction bs as [|b bs IH]; intros a f k Hk H1 H2; cbn [write_bytes length] in *.
  - replace k with O by lia. split; auto. intros x. cbn [snd]. destruct ((a <=? x) && _) eqn:E; auto. lia.
  - destruct k as [|k].
    + specialize (H2 ltac:(lia)). rewrite Z.add_0_r in H2. rewrite H2. split; auto. intros x. cbn [snd]. destruct ((a <=? x) && _) eqn:E; auto. lia.
    + pose proof (H1 O ltac:(lia)) as H3. rewrite Z.add_0_r in H3. destruct (f a); [|contradiction].
      destruct (IH (a + 1) (store f a b) k) as (A & B).
      { lia. }
      { intros i Hi. unfold store. destruct (_ =? a); [discriminate|]. replace (a + 1 + Z.of_nat i) with (a + Z.of_nat (S i)) by lia. apply H1. lia. }
      { intros Q. unfold store. replace (a + 1 + Z.of_nat k =? a) with false by lia. replace (a + 1 + Z.of_nat k) with (a + Z.of_nat (S k)) by lia. apply H2. lia. }
      split; [now rewrite A|]. intros x. rewrite B. unfold store. destruct (Z.eqb_spec x a) as [->|].
      * replace ((a + 1 <=? a) && (a <? a + 1 + Z.of_nat k)) with false by lia. replace ((a <=? a) && (a <? a + Z.of_nat (S k))) with true by lia.
        now replace (Z.to_nat (a - a)) with O by lia.
      * replace ((a <=? x) && (x <? a + Z.of_nat (S k))) with ((a + 1 <=? x) && (x <? a + 1 + Z.of_nat k)) by lia. destruct ((a + 1 <=? x) && _) eqn:T; auto.
        replace (Z.to_nat (x - a)) with (S (Z.to_nat (x - (a + 1)))) by lia. reflexivity.
Qed.
Lemma read_bytes_known n : forall a f, (forall i, (i < n)%nat -> f (a + Z.of_nat i) <> None) -> read_bytes a n f = Some (map (fun i => val (f (a + Z.of_nat i))) (seq 0 n)).
Proof.
  induction n as [|n IH]; intros a f H; cbn [read_bytes]; auto. pose proof (H O ltac:(lia)) as H0. rewrite Z.add_0_r in H0. destruct (f a) eqn:E; [|contradiction].
  rewrite IH. 2:{ intros i Hi. replace (a + 1 + Z.of_nat i) with (a + Z.of_nat (S i)) by lia. apply H. lia. }
  cbn [seq map]. f_equal. f_equal. { now rewrite Z.add_0_r, E. } rewrite <- seq_shift, map_map. apply map_ext. intros i. do 2 f_equal. lia.
Qed.
Lemma read_bytes_unknown n : forall a f k, (k < n)%nat -> f (a + Z.of_nat k) = None -> read_bytes a n f = None.
Proof.
  induction n as [|n IH]; intros a f k Hk H; [lia|]. cbn [read_bytes]. destruct k as [|k]. { rewrite Z.add_0_r in H. now rewrite H. }
  rewrite (IH (a + 1) f k) by (try lia; replace (a + 1 + Z.of_nat k) with (a + Z.of_nat (S k)) by lia; auto). destruct (f a); auto.
Qed.
Lemma place_ext L a n f g : (forall x, f x = g x) -> place L a n f = place L a n g.
Proof. intros H. unfold place. now rewrite H. Qed.
Lemma place_range L a n f : layout_ok L -> 0 <= a < 65536 -> 0 <= place L a n f < 131072.
Proof. intros HL Ha. pose proof (l_ram _ HL). unfold place. destruct (_ && _)%bool; [destruct (f 0x60)|]; lia. Qed.

(** ** The answer *)
Lemma answer_fields sb n a : length sb = 23%nat -> 0 <= n <= 12 -> 0 <= a < 65536 ->
  let sb2 := wr sb 5 (u8 (0x60 + n + 3)) in
  let sb3 := setApciCommand sb2 APCI_MEMORY_RESPONSE_PDU n in
  decode_response (wr (wr sb3 8 (HIGH_BYTE a)) 9 (lowByte a)) = Some (n, a, firstn (Z.to_nat n) (skipn 10 sb)).
Proof.
  intros Hl Hn Ha. cbv zeta. unfold setApciCommand. change (HIGH_BYTE APCI_MEMORY_RESPONSE_PDU) with 2. change (lowByte APCI_MEMORY_RESPONSE_PDU) with 64.
  rewrite rd_wr_same by (rewrite !wr_length; lia).
  assert (E64 : Z.lor 64 n = 64 + n).
  { exact (lor_shiftl_add 4 n 4 ltac:(lia) ltac:(lia)). }
  rewrite E64. rewrite u8_id by (red; lia). set (sb' := wr _ 9 _).
  assert (R : forall j, (j < 23)%nat -> rd sb' j = match j with 5%nat => 0x60 + n + 3 | 6%nat => 2 | 7%nat => 64 + n | 8%nat => HIGH_BYTE a | 9%nat => lowByte a | _ => rd sb j end).
  { intros j Hj. unfold sb'. do 10 (destruct j as [|j]; [repeat (first [rewrite rd_wr_same by (rewrite ?wr_length; lia) | rewrite rd_wr_other by lia]); reflexivity|]).
    repeat rewrite rd_wr_other by lia. reflexivity. }
  unfold decode_response. rewrite !R by lia. cbv zeta. cbv match.
  assert (M16 : (64 + n) mod 16 = n) by (replace (64 + n) with (n + 4 * 16) by lia; rewrite Z.mod_add by lia; apply Z.mod_small; lia).
  assert (D16 : (64 + n) / 16 = 4) by (replace (64 + n) with (n + 4 * 16) by lia; rewrite Z.div_add by lia; rewrite Z.div_small by lia; lia).
  rewrite M16, D16. replace (0x60 + n + 3 =? 0x60 + 3 + n) with true by lia. rewrite !Z.eqb_refl. cbn [andb]. f_equal. f_equal.
  - f_equal. unfold HIGH_BYTE, lowByte. rewrite land_255. rewrite Z.shiftr_div_pow2 by lia. change (2 ^ 8) with 256.
    pose proof (Z.div_mod a 256 ltac:(lia)). assert (0 <= a / 256 < 256) by (split; [apply Z.div_pos; lia|apply Z.div_lt_upper_bound; lia]). rewrite u8_id by (red; lia). lia.
  - apply list_ext with (d := 0). { rewrite !firstn_length, !skipn_length. unfold sb'. rewrite !wr_length. reflexivity. }
    intros i Hi. rewrite firstn_length, skipn_length in Hi. unfold sb' in Hi. rewrite !wr_length in Hi.
    change (rd (firstn (Z.to_nat n) (skipn 10 sb')) i = rd (firstn (Z.to_nat n) (skipn 10 sb)) i). rewrite !rd_sub by lia. rewrite R by lia.
    destruct i as [|i]; reflexivity.
Qed.
Lemma memoryRead_spec L n a sb d f : layout_ok L -> good L d -> no_auto L d -> length sb = 23%nat -> (n <= 12)%nat -> 0 <= a < 65536 -> (forall x, array L d x = f x) ->
  exists sb' d', memoryRead L (Z.of_nat n) a sb d = Some (true, sb', d') /\ good L d' /\ no_auto L d' /\ (forall x, array L d' x = f x) /\
    decode_response sb' = Some (ideal_answer L a n f).
Proof.
  intros HL G N Hl Hn Ha Hf. unfold memoryRead. destruct n as [|n].
  - change (processApciMemoryOperation L a 10 (Z.of_nat 0) true sb d) with (Some (false, sb, d)). do 2 eexists. split; [reflexivity|]. split; auto. split; auto. split; auto.
    pose proof (answer_fields sb 0 a Hl ltac:(lia) Ha) as Q. cbv zeta in Q. cbv zeta. rewrite Q. reflexivity.
  - set (m := S n) in *. destruct (op_spec L a m 10 true sb d HL G N) as (k & b & sb1 & d1 & -> & V & Hk & Hb & Hs); try (unfold m in *; lia); try discriminate.
    rewrite (place_ext L a m _ f Hf) in V, Hs. set (a' := place L a m f) in *.
    assert (L1 : length sb1 = 23%nat) by (rewrite (v_len _ _ _ _ _ _ _ _ _ V); auto).
    do 2 eexists. split; [reflexivity|]. split; [apply V|]. split; [apply V|]. split. { intros x. rewrite (v_arr _ _ _ _ _ _ _ _ _ V). apply Hf. }
    assert (IA : ideal_answer L a m f = match read_bytes a' m f with Some bs => (Z.of_nat m, a, bs) | None => (0, a, []) end) by reflexivity.
    rewrite IA. clear IA. clearbody m.
    destruct (Nat.eqb_spec k m) as [->|Nk].
    + subst b. rewrite read_bytes_known. 2:{ intros i Hi. rewrite <- Hf. now apply (v_known _ _ _ _ _ _ _ _ _ V). }
      pose proof (answer_fields sb1 (Z.of_nat m) a L1 ltac:(lia) Ha) as Q. cbv zeta in Q. cbv zeta. rewrite Q, Nat2Z.id.
      assert (EL : firstn m (skipn 10 sb1) = map (fun i => val (f (a' + Z.of_nat i))) (seq 0 m)); [|now rewrite EL].
      apply list_ext with (d := 0). { rewrite sub_length by lia. now rewrite map_length, seq_length. }
      intros i Hi. rewrite sub_length in Hi by lia. change (rd (firstn m (skipn 10 sb1)) i = nth i (map (fun i => val (f (a' + Z.of_nat i))) (seq 0 m)) 0).
      rewrite rd_sub by auto. rewrite (v_buf _ _ _ _ _ _ _ _ _ V). cbn [andb].
      replace (Nat.leb 10 (10 + i) && Nat.ltb (10 + i) (10 + m))%bool with true by lia. rewrite Hf. 
      rewrite nth_indep with (d' := (fun i => val (f (a' + Z.of_nat i))) O) by (rewrite map_length, seq_length; auto). rewrite map_nth with (f := fun i => val (f (a' + Z.of_nat i))). rewrite seq_nth by auto.
      do 3 f_equal. lia.
    + subst b. rewrite (read_bytes_unknown m a' f k) by (try (rewrite <- Hf; apply Hs); lia).
      pose proof (answer_fields sb1 0 a L1 ltac:(lia) Ha) as Q. cbv zeta in Q. cbv zeta. rewrite Q. reflexivity.
Qed.

(** ** Request telegrams *)
Lemma and_3c0 v : 0 <= v < 1024 -> Z.land v 0x3c0 = 64 * (v / 64).
Proof. intros H. apply Z.eqb_eq. revert v H. apply (range_forall 1024 (fun v => Z.land v 0x3c0 =? 64 * (v / 64))). vm_compute. reflexivity. Qed.
Lemma request_fields t : Forall is_byte t -> Z.land (u16 (Z.lor (Z.shiftl (Z.land (rd t 6) 3) 8) (rd t 7))) 0x3c0 = q_command t /\
  Z.land (rd t 7) 0x0f = Z.of_nat (q_count t) /\ makeWord (rd t 8) (rd t 9) = q_address t /\ (q_count t < 16)%nat /\ 0 <= q_address t < 65536.
Proof.
  intros B. pose proof (rd_byte t 6 B) as B6. pose proof (rd_byte t 7 B) as B7. pose proof (rd_byte t 8 B) as B8. pose proof (rd_byte t 9 B) as B9. unfold is_byte in *.
  split; [|split; [|split; [|split]]].
  - rewrite word_bytes by auto. change 3 with (Z.ones 2) at 1. rewrite Z.land_ones by lia. change (2 ^ 2) with 4. pose proof (Z.mod_pos_bound (rd t 6) 4 ltac:(lia)) as M.
    rewrite u16_id by (red; lia). rewrite and_3c0 by lia. unfold q_command.
    replace (rd t 6 mod 4 * 256 + rd t 7) with (rd t 7 + rd t 6 mod 4 * 4 * 64) by lia. rewrite Z.div_add by lia. lia.
  - rewrite land_15. unfold q_count. pose proof (Z.mod_pos_bound (rd t 7) 16 ltac:(lia)). lia.
  - unfold makeWord, q_address. rewrite word_bytes by auto. rewrite u16_id by (red; lia). lia.
  - unfold q_count. pose proof (Z.mod_pos_bound (rd t 7) 16 ltac:(lia)). lia.
  - unfold q_address. lia.
Qed.
Lemma request_command t : request_ok t -> apciCommand t = q_command t.
Proof.
  intros (L & B & H). destruct (request_fields t B) as (C & _). unfold apciCommand. cbv zeta. unfold APCI_GROUP_MASK. rewrite C. destruct H as [-> | ->]; reflexivity.
Qed.
Lemma device_control L d v : layout_ok L -> good L d -> no_auto L d -> array L d (ramStart L + 0x62) = v -> v = Some (deviceControl d).
Proof.
  intros HL G N <-. pose proof (l_ram _ HL). assert (inside (ramStart L) (ramSize L) (ramStart L + 0x62)) by (unfold inside; lia). rewrite array_local by auto. rewrite local_ram by auto.
  replace (ramStart L + 0x62 =? ramStart L + 0x60) with false by lia. f_equal. unfold deviceControl, deviceControlOffset. f_equal. lia.
Qed.
Lemma bit2 v : negb (Z.land v DEVCTRL_MEM_AUTO_RESPONSE =? 0) = Z.testbit v 2.
Proof.
  unfold DEVCTRL_MEM_AUTO_RESPONSE. change 0x04 with (2 ^ 2). destruct (Z.testbit v 2) eqn:E.
  - apply negb_true_iff. apply Z.eqb_neq. intros Q. assert (Z.testbit (Z.land v (2 ^ 2)) 2 = true) by (rewrite Z.land_spec, E, Z.pow2_bits_true by lia; reflexivity).
    rewrite Q, Z.testbit_0_l in H. discriminate.
  - apply negb_false_iff. apply Z.eqb_eq. apply Z.bits_inj'. intros i Hi. rewrite Z.land_spec, Z.testbit_0_l. destruct (Z.eq_dec i 2) as [->|].
    + now rewrite E.
    + rewrite Z.pow2_bits_false by lia. now rewrite andb_false_r.
Qed.
Lemma request_spec L t sb d f : layout_ok L -> good L d -> no_auto L d -> request_ok t -> (q_count t <= 12)%nat -> length sb = 23%nat -> (forall x, array L d x = f x) ->
  exists ans sb' d', processMemoryApci L t sb d = Some (ans, sb', d') /\ good L d' /\ no_auto L d' /\ (forall x, array L d' x = snd (ideal_request L t f) x) /\
    (if ans : bool then Some (decode_response sb') else None) = option_map Some (fst (ideal_request L t f)).
Proof.
  intros HL G N HT Hn Hl Hf. pose proof (request_command t HT) as HC. destruct HT as (LT & B & H). destruct (request_fields t B) as (_ & F1 & F2 & F3 & F4).
  unfold processMemoryApci. cbv zeta. rewrite HC, F1, F2. unfold ideal_request. cbv zeta. set (n := q_count t) in *. set (a := q_address t) in *.
  destruct H as [H|H]; rewrite H.
  - change (0x200 =? APCI_MEMORY_READ_PDU) with true. change (0x200 =? 0x200) with true. cbv iota.
    destruct (memoryRead_spec L n a sb d f HL G N Hl Hn F4 Hf) as (sb' & d' & -> & G' & N' & A' & D). exists true, sb', d'. cbn [fst snd option_map]. rewrite D. auto.
  - change (0x280 =? APCI_MEMORY_READ_PDU) with false. change (0x280 =? APCI_MEMORY_WRITE_PDU) with true. change (0x280 =? 0x200) with false. cbv iota.
    set (w := match n with O => (false, f) | S _ => write_bytes (place L a n f) (q_data t) f end).
    assert (W : exists ok b' d1, processApciMemoryOperation L a 10 (Z.of_nat n) false t d = Some (ok, b', d1) /\ good L d1 /\ no_auto L d1 /\ ok = fst w /\ forall x, array L d1 x = snd w x).
    { destruct n as [|n'] eqn:En.
      - exists false, t, d. split; [reflexivity|]. auto.
      - rewrite <- En in *. assert (Ew : w = write_bytes (place L a n f) (q_data t) f) by (unfold w; rewrite En; reflexivity). clearbody w. subst w.
        destruct (op_spec L a n 10 false t d HL G N (fun _ => B) F4 ltac:(lia) ltac:(lia)) as (k & b & b' & d1 & E & V & Hk & Hb & Hs).
        rewrite (place_ext L a n _ f Hf) in V, Hs. set (a' := place L a n f) in *.
        assert (LQ : length (q_data t) = n) by (apply sub_length; lia).
        destruct (write_bytes_spec (q_data t) a' f k) as (W1 & W2).
        { lia. } { intros i Hi. rewrite <- Hf. now apply (v_known _ _ _ _ _ _ _ _ _ V). } { intros Q. rewrite <- Hf. apply Hs. lia. }
        exists b, b', d1. split; auto. split; [apply V|]. split; [apply V|]. split. { rewrite W1, LQ. auto. }
        intros x. rewrite W2, (v_arr _ _ _ _ _ _ _ _ _ V). cbn [negb andb]. rewrite Hf. destruct ((a' <=? x) && (x <? a' + Z.of_nat k)) eqn:T; auto.
        f_equal. unfold q_data. fold n. rewrite rd_sub by lia. reflexivity. }
    destruct W as (ok & b' & d1 & -> & G1 & N1 & W1 & W2). destruct w as (ok', g). cbn [fst snd] in W1, W2. subst ok'.
    pose proof (device_control L d1 _ HL G1 N1 (W2 _)) as DC. rewrite DC. rewrite bit2.
    replace (ok && ((0x1F <? maskVersion L) && Z.testbit (deviceControl d1) 2)) with (ok && (0x1F <? maskVersion L) && Z.testbit (deviceControl d1) 2) by (now rewrite andb_assoc).
    destruct (ok && (0x1F <? maskVersion L) && Z.testbit (deviceControl d1) 2).
    + destruct (memoryRead_spec L n a sb d1 g HL G1 N1 Hl Hn F4 W2) as (sb' & d' & -> & G' & N' & A' & D). exists true, sb', d'. cbn [fst snd option_map]. rewrite D. auto.
    + exists false, sb, d1. cbn [fst snd option_map]. auto.
Qed.
Lemma requests_spec L l : layout_ok L -> Forall (fun q => request_ok (fst q) /\ (q_count (fst q) <= 12)%nat /\ length (snd q) = 23%nat) l ->
  forall d f, good L d -> no_auto L d -> (forall x, array L d x = f x) ->
  exists out d', requests L l d = Some (out, d') /\ map (option_map decode_response) out = map (option_map Some) (fst (ideal_requests L (map fst l) f)) /\
    (forall x, array L d' x = snd (ideal_requests L (map fst l) f) x) /\ good L d' /\ no_auto L d'.
Proof.
  intros HL H. induction H as [|(t, sb) l (H1 & H2 & H3) H IH]; intros d f G N Hf; cbn [requests map fst ideal_requests].
  - exists [], d. auto.
  - cbn [fst snd] in H1, H2, H3. destruct (request_spec L t sb d f HL G N H1 H2 H3 Hf) as (ans & sb' & d1 & -> & G1 & N1 & A1 & D1).
    destruct (ideal_request L t f) as (an, g). cbn [fst snd] in A1, D1. destruct (IH d1 g G1 N1 A1) as (out & d2 & -> & O & A2 & G2 & N2).
    destruct (ideal_requests L (map fst l) g) as (outs, h). cbn [fst snd] in O, A2. do 2 eexists. split; [reflexivity|]. cbn [map fst snd]. split; auto. f_equal; auto.
    destruct ans; auto.
Qed.

(** ** A mapper with autoAddPage *)
Lemma readMemPtr_total c n : mcfg_ok c -> forall a m hi, core c m hi -> exists rc bs m', readMemPtr c a n false m = Some (rc, bs, m') /\ core c m' hi /\ (length bs <= n)%nat.
Proof.
  intros Hc. induction n as [|n IH]; intros a m hi K; cbn [readMemPtr].
  - exists MEM_MAPPER_SUCCESS, [], m. auto.
  - destruct (read_spec c m _ hi a false true true Hc (rel_any c m hi K) (track_any c m)) as (m1 & -> & R1 & _). destruct (ideal_read a _) as (rc, v). destruct (rc =? MEM_MAPPER_SUCCESS).
    + destruct (IH (a + 1) m1 hi (r_core _ _ _ _ R1)) as (rc2 & bs & m2 & -> & K2 & Lb). do 3 eexists. split; [reflexivity|]. split; auto. cbn [length]. lia.
    + do 3 eexists. split; [reflexivity|]. split; [apply R1|]. cbn [length]. lia.
Qed.
Lemma writeMemPtr_total c bs : mcfg_ok c -> Forall is_byte bs -> forall a m hi, core c m hi -> exists rc m' hi', writeMemPtr c a bs m = Some (rc, m') /\ core c m' hi'.
Proof.
  intros Hc F. induction F as [|b bs Hb F IH]; intros a m hi K; cbn [writeMemPtr].
  - do 3 eexists. split; [reflexivity|]. eauto.
  - destruct (write_spec c m _ hi a b true true Hc Hb (rel_any c m hi K) (track_any c m)) as (m1 & hi1 & -> & R1 & _). destruct (ideal_write _ _ _ _) as (rc, y). cbn [fst snd] in *.
    destruct (rc =? MEM_MAPPER_SUCCESS).
    + apply (IH (a + 1) m1 hi1). apply R1.
    + do 3 eexists. split; [reflexivity|]. apply R1.
Qed.
Lemma put_inside l pos bs n : (length bs <= n)%nat -> (pos + n <= length l)%nat -> bput l pos bs = Some (wr_range l pos bs).
Proof. intros A B. apply bput_ok. lia. Qed.
Lemma auto_op L a n pos r buf d m : layout_ok L -> memMapper d = Some m -> (exists hi, core (mapCfg L) m hi) -> autoAddPage (mapCfg L) = true -> (r = false -> Forall is_byte buf) ->
  0 <= a < 65536 -> (n <= 257)%nat -> (pos + n <= length buf)%nat ->
  exists b buf' m', processApciMemoryOperation L a pos (Z.of_nat n) r buf d = Some (b, buf', setMapper d m') /\ (exists hi, core (mapCfg L) m' hi) /\ length buf' = length buf /\
    (n <> O -> mapMove L r a n pos buf m d = Some (b, buf', setMapper d m')).
Proof.
  intros HL Em (hi & K) A HB Ha Hn Hp. unfold processApciMemoryOperation. destruct n as [|n].
  { exists false, buf, m. split. { cbn. destruct d. cbn in Em. subst. reflexivity. } split; [now exists hi|]. split; auto. congruence. }
  set (k := S n) in *. replace (Z.of_nat k =? 0) with false by (unfold k; lia). cbv zeta. rewrite u32_id by (red; lia). replace (a + Z.of_nat k - 1 <? a) with false by (unfold k; lia).
  cbn [opLoop snf sa spos sbuf sdev negb andb]. replace (a <=? a + Z.of_nat k - 1) with true by (unfold k; lia).
  unfold mapStage. cbn [snf sa spos sbuf sdev]. rewrite Em. unfold isMapped. rewrite A. cbn [orb andb]. rewrite Nat2Z.id, s32_small by lia.
  assert (X : exists b buf' m', mapMove L r a k pos buf m d = Some (b, buf', setMapper d m') /\ (exists hi, core (mapCfg L) m' hi) /\ length buf' = length buf).
  { unfold mapMove. destruct r.
    - destruct (readMemPtr_total (mapCfg L) k (l_map _ HL) a m hi K) as (rc & bs & m' & -> & K' & Lb). rewrite (put_inside buf pos bs k Lb Hp). do 3 eexists. split; [reflexivity|]. split; [now exists hi|]. apply wr_range_length.
    - rewrite bget_ok by auto. destruct (writeMemPtr_total (mapCfg L) (firstn k (skipn pos buf)) (l_map _ HL) (Forall_sub _ _ _ _ (HB eq_refl)) a m hi K) as (rc & m' & hi' & -> & K').
      do 3 eexists. split; [reflexivity|]. split; [now exists hi'|]. reflexivity. }
  destruct X as (b & buf' & m' & E & K' & Lb). rewrite E. cbn [andThen]. exists b, buf', m'. auto.
Qed.
