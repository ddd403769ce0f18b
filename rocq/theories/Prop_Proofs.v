(** Interface object properties: lemmas *)
From Verif Require Import Base Bits Telegram_Model Mapper_Model Mapper_Spec Mapper_Proofs MemReq_Model MemReq_Spec MemReq_Proofs MemReq_Op Prop_Model Prop_Spec.

(** ** Telegram fields *)
Lemma command_field t : Forall is_byte t -> u16 (Z.lor (Z.shiftl (Z.land (rd t 6) 3) 8) (rd t 7)) = f_command t.
Proof.
  intros F. pose proof (rd_byte t 6 F) as B6. pose proof (rd_byte t 7 F) as B7. unfold f_command. red in B6, B7.
  change 3 with (Z.ones 2). rewrite Z.land_ones by lia. change (2 ^ 2) with 4. pose proof (Z.mod_pos_bound (rd t 6) 4 ltac:(lia)).
  rewrite lor_shiftl_add by lia. rewrite u16_id; [change (2 ^ 8) with 256; lia|]. red. change (2 ^ 8) with 256. lia.
Qed.
Lemma command_is t c : Forall is_byte t -> f_command t = c -> 0x3d0 <= c < 0x3e0 -> apciCommand t = c.
Proof.
  intros F E H. unfold apciCommand. rewrite command_field, E by auto. cbv zeta.
  assert (Z.land c APCI_GROUP_MASK = 0x3c0) as ->.
  { assert (K : forallb (fun k => Z.land (0x3d0 + k) APCI_GROUP_MASK =? 0x3c0) (range_Z 16) = true) by reflexivity.
    pose proof (range_forall 16 _ K (c - 0x3d0) ltac:(lia)) as Q. cbn beta in Q. replace (0x3d0 + (c - 0x3d0)) with c in Q by lia. lia. }
  reflexivity.
Qed.
Lemma start_field t : Forall is_byte t -> rd t 10 mod 16 = 0 -> startIndex t = f_start t.
Proof.
  intros F E. pose proof (rd_byte t 10 F) as B. red in B. unfold startIndex, f_start. rewrite E. rewrite land_15, E. reflexivity.
Qed.
Lemma count_field t : Z.shiftr (rd t 10) 4 = f_count t.
Proof. unfold f_count. rewrite Z.shiftr_div_pow2 by lia. reflexivity. Qed.
(** the header of a response *)
Definition header (t sb : list Z) : list Z :=
  wr (wr (wr (wr (setApciCommand (wr sb 5 0x65) APCI_PROPERTY_VALUE_RESPONSE_PDU 0) 8 (rd t 8)) 9 (rd t 9)) 10 (rd t 10)) 11 (rd t 11).
Lemma header_length t sb : length (header t sb) = length sb.
Proof. unfold header, setApciCommand. cbv zeta. now rewrite ?wr_length. Qed.
Lemma header_rd t sb j : length sb = 23%nat -> rd (header t sb) j =
  match j with 5%nat => 0x65 | 6%nat => 3 | 7%nat => 0xd6 | 8%nat => rd t 8 | 9%nat => rd t 9 | 10%nat => rd t 10 | 11%nat => rd t 11 | _ => rd sb j end.
Proof.
  intros H. unfold header, setApciCommand. cbv zeta.
  assert (S : forall (l : list Z) i x k, length l = 23%nat -> (i < 23)%nat -> rd (wr l i x) k = if Nat.eqb i k then x else rd l k).
  { intros l i x k Hl Hi. destruct (Nat.eqb_spec i k) as [-> |N]; [apply rd_wr_same; lia|now apply rd_wr_other]. }
  repeat (rewrite S by (rewrite ?wr_length; auto; lia)).
  do 12 (destruct j as [|j]; [reflexivity|]). reflexivity.
Qed.

(** ** Properties *)
Lemma find_has id : id <> 0 -> forall pre p post, pid p = id -> Forall (fun q => pid q <> 0 /\ pid q <> id) pre -> findProperty id (pre ++ p :: post) = Some (Some p).
Proof.
  intros N pre. induction pre as [|q pre IH]; intros p post E F; cbn [app findProperty].
  - rewrite (proj2 (Z.eqb_neq _ _)) by lia. rewrite (proj2 (Z.eqb_eq _ _)) by auto. reflexivity.
  - inversion F as [|? ? (A & B) F']; subst. rewrite !(proj2 (Z.eqb_neq _ _)) by auto. apply IH; auto.
Qed.
Lemma def_has tabs o p : has_property tabs o p -> propertyDef tabs o (pid p) = Some (Some p).
Proof.
  intros (Ho & _ & _ & N & pre & post & E & F). unfold propertyDef, NUM_PROP_OBJECTS. rewrite (proj2 (Z.leb_gt _ _)) by lia.
  erewrite nth_error_nth by eauto. now apply find_has.
Qed.
Lemma type_field p : ptype p = type_of p.
Proof. unfold ptype, type_of, PC_TYPE_MASK. change 0x1f with (Z.ones 5). rewrite Z.land_ones by lia. reflexivity. Qed.
Lemma type_range p : 0 <= type_of p < 32.
Proof. apply Z.mod_pos_bound. lia. Qed.
Lemma size_field p : psize p = size_of p.
Proof.
  unfold psize, size_of. change (Z.land (control p) PC_TYPE_MASK) with (ptype p). rewrite type_field.
  assert (K : forallb (fun k => rd propertySizes (Z.to_nat k) =? type_size k) (range_Z 32) = true) by reflexivity.
  apply Z.eqb_eq. exact (range_forall 32 _ K (type_of p) (type_range p)).
Qed.
Lemma size_range p : 0 <= size_of p <= 15.
Proof.
  assert (K : forallb (fun k => (0 <=? type_size k) && (type_size k <=? 15)) (range_Z 32) = true) by reflexivity.
  pose proof (range_forall 32 _ K (type_of p) (type_range p)) as H. cbn beta in H. unfold size_of. lia.
Qed.
Lemma land_bit z k : 0 <= k -> (Z.land z (2 ^ k) =? 0) = negb (Z.testbit z k).
Proof.
  intros Hk. destruct (Z.testbit z k) eqn:E; cbn [negb].
  - apply Z.eqb_neq. intros C. assert (B : Z.testbit (Z.land z (2 ^ k)) k = true) by (rewrite Z.land_spec, E, Z.pow2_bits_true by lia; reflexivity).
    rewrite C, Z.testbit_0_l in B. discriminate.
  - apply Z.eqb_eq. apply Z.bits_inj'. intros j Hj. rewrite Z.land_spec, Z.testbit_0_l. destruct (Z.eq_dec j k) as [-> |N]; [now rewrite E|].
    rewrite Z.pow2_bits_false by lia. now rewrite andb_false_r.
Qed.
Lemma writable_field p : (Z.land (control p) PC_WRITABLE =? 0) = negb (writable p).
Proof. unfold PC_WRITABLE, writable. exact (land_bit (control p) 7 ltac:(lia)). Qed.
Lemma pointer_field p : (Z.land (control p) PC_POINTER =? 0) = negb (Z.testbit (control p) 5).
Proof. exact (land_bit (control p) 5 ltac:(lia)). Qed.
Lemma mask_field z : Z.land z PPT_MASK = 4096 * ((z / 4096) mod 8).
Proof.
  unfold PPT_MASK. change 0x7000 with (Z.shiftl (Z.ones 3) 12). apply Z.bits_inj'. intros j Hj.
  rewrite Z.land_spec. replace (4096 * ((z / 4096) mod 8)) with (Z.shiftl ((z / 4096) mod 8) 12) by (rewrite Z.shiftl_mul_pow2 by lia; change (2 ^ 12) with 4096; lia).
  rewrite !Z.shiftl_spec by lia. replace ((z / 4096) mod 8) with (Z.land (Z.shiftr z 12) (Z.ones 3)) by (rewrite Z.land_ones, Z.shiftr_div_pow2 by lia; reflexivity).
  rewrite Z.land_spec. destruct (Z.ltb_spec j 12).
  - rewrite !(Z.testbit_neg_r _ (j - 12)) by lia. now rewrite andb_false_r.
  - rewrite Z.shiftr_spec by lia. now replace (j - 12 + 12) with j by lia.
Qed.
Lemma offset_field z : Z.land z PPT_OFFSET_MASK = z mod 4096.
Proof. unfold PPT_OFFSET_MASK. change 0x0fff with (Z.ones 12). now rewrite Z.land_ones by lia. Qed.
Lemma word_fields v : is_u16 v -> [lowByte v; HIGH_BYTE v] = [v mod 256; v / 256].
Proof.
  intros H. red in H. unfold lowByte, HIGH_BYTE. rewrite land_255. rewrite Z.shiftr_div_pow2 by lia. change (2 ^ 8) with 256.
  rewrite u8_id; auto. red. pose proof (Z.div_mod v 256 ltac:(lia)). pose proof (Z.mod_pos_bound v 256 ltac:(lia)). lia.
Qed.
Lemma skipn_add (l : list Z) a b : skipn a (skipn b l) = skipn (b + a) l.
Proof. revert l. induction b as [|b IH]; intros [|x l]; cbn [skipn Nat.add]; auto. now rewrite skipn_nil. Qed.
Lemma zget_ok l i n : 0 <= i -> (Z.to_nat i + n <= length l)%nat -> zget l i n = Some (firstn n (skipn (Z.to_nat i) l)).
Proof.
  intros H1 H2. unfold zget. destruct n as [|n]; [reflexivity|]. cbn [Nat.eqb]. rewrite (proj2 (Z.ltb_ge _ _)) by lia. now apply bget_ok.
Qed.
(** where a property is, and what is read there *)
Lemma pointer_has p d l : is_byte (control p) -> is_u16 (valAddr p) -> storage p d = Some l ->
  exists v, valuePointer p = Some v /\ (forall k n, 0 <= k -> (0 < n)%nat -> (Z.to_nat k + n <= length l)%nat -> vget v k n d = Some (firstn n (skipn (Z.to_nat k) l))) /\
    (forall k, vget v k 0 d = Some []).
Proof.
  intros Hc Hv S. unfold valuePointer. rewrite pointer_field, negb_involutive. unfold storage in S. destruct (Z.testbit (control p) 5).
  - cbv zeta in *. rewrite mask_field, offset_field. unfold PPT_USER_RAM, PPT_USER_EEPROM. pose proof (Z.mod_pos_bound (valAddr p) 4096 ltac:(lia)) as O.
    destruct (Z.eqb_spec ((valAddr p / 4096) mod 8) 0) as [E|E]; [|destruct (Z.eqb_spec ((valAddr p / 4096) mod 8) 4) as [E4|E4]; [|discriminate]].
    all: injection S as <-; first [rewrite E; cbn [Z.mul Z.eqb]|rewrite E4; cbn [Z.mul Z.eqb Pos.mul Pos.eqb]].
    all: eexists; split; [reflexivity|]; split; [|reflexivity].
    all: intros k n Hk Hn HL; cbn [vget]; rewrite skipn_length in HL.
    all: rewrite zget_ok by lia; rewrite skipn_add; repeat f_equal; lia.
  - injection S as <-. exists (VDef (valAddr p)). split; [reflexivity|]. split; [|reflexivity]. intros k n Hk Hn HL. cbn [vget]. rewrite word_fields by auto. apply zget_ok; auto.
Qed.

(** ** Reading *)
Lemma firstn_split (l : list Z) : forall a b, firstn (a + b) l = firstn a l ++ firstn b (skipn a l).
Proof. induction l as [|x l IH]; intros [|a] b; cbn [firstn skipn app Nat.add]; auto. now rewrite firstn_nil. now rewrite IH. Qed.
Lemma slices (l : list Z) s : forall n a, concat (map (fun k => firstn s (skipn (a + k * s) l)) (seq 0 n)) = firstn (n * s) (skipn a l).
Proof.
  induction n as [|n IH]; intros a; [reflexivity|]. cbn [seq map concat Nat.mul]. rewrite Nat.add_0_r, firstn_split. f_equal.
  rewrite <- seq_shift, map_map. rewrite skipn_add. rewrite <- IH. f_equal. apply map_ext. intros k. do 2 f_equal. cbn [Nat.mul]. lia.
Qed.
(** the bytes of [count] elements, all turned round at once for numbers *)
Definition shown (p : pdef) (l : list Z) (start count : Z) : list Z :=
  let bs := firstn (Z.to_nat (count * size_of p)) (skipn (Z.to_nat ((start - 1) * size_of p)) l) in if numeric p then rev bs else bs.
Lemma shown_elements p l start count : 1 <= start -> 0 <= count -> (count <= 1 \/ numeric p = false) -> shown p l start count = elements p l start count.
Proof.
  intros Hs Hc H. unfold shown, elements. pose proof (size_range p) as SR.
  destruct (Z.eq_dec count 0) as [-> |N0]. { cbn [Z.mul Z.to_nat firstn rev seq map concat]. now destruct (numeric p). }
  destruct (Z.eq_dec count 1) as [-> |N1].
  { change (Z.to_nat 1) with 1%nat. cbn [seq map concat]. rewrite app_nil_r. unfold element. cbv zeta.
    replace (1 * size_of p) with (size_of p) by lia. now replace (start + Z.of_nat 0 - 1) with (start - 1) by lia. }
  destruct H as [H|H]; [lia|]. cbv zeta. rewrite H. rewrite Z2Nat.inj_mul by lia. rewrite <- slices. f_equal. apply map_ext. intros k. unfold element. cbv zeta. rewrite H.
  do 2 f_equal. rewrite <- (Nat2Z.id (_ + _)). f_equal. rewrite Nat2Z.inj_add, Nat2Z.inj_mul, !Z2Nat.id by nia. nia.
Qed.
Lemma shown_length p l start count : 0 <= count -> (Z.to_nat ((start - 1) * size_of p) + Z.to_nat (count * size_of p) <= length l)%nat ->
  length (shown p l start count) = Z.to_nat (count * size_of p).
Proof.
  intros Hc H. unfold shown. cbv zeta. destruct (numeric p); rewrite ?rev_length; now apply sub_length.
Qed.
Lemma fits_nat p l start count : fits p l start count -> (Z.to_nat ((start - 1) * size_of p) + Z.to_nat (count * size_of p) <= length l)%nat.
Proof. intros (H1 & H2 & H3). pose proof (size_range p). nia. Qed.
Lemma read_def tabs o id p d l count start sb : propertyDef tabs o id = Some (Some p) -> is_byte (control p) -> is_u16 (valAddr p) -> storage p d = Some l -> fits p l start count -> count * size_of p <= 10 -> length sb = 23%nat ->
  propertyValueRead tabs o id count start sb d =
    Some (true, let sb1 := wr_range sb 12 (shown p l start count) in wr sb1 5 (u8 (rd sb1 5 + count * size_of p))).
Proof.
  intros HP Hc Hv S F L10 Lb. unfold propertyValueRead. rewrite HP. pose proof (size_range p) as SR.
  destruct (pointer_has p d l Hc Hv S) as (v & -> & V & V0). cbv zeta. rewrite size_field. rewrite (proj2 (Z.ltb_ge _ _)) by lia.
  pose proof (fits_nat p l start count F) as FN. pose proof (shown_length p l start count (proj1 (proj2 F)) FN) as SL. destruct F as (F1 & F2 & F3).
  assert (E : vget v ((start - 1) * size_of p) (Z.to_nat (count * size_of p)) d = Some (firstn (Z.to_nat (count * size_of p)) (skipn (Z.to_nat ((start - 1) * size_of p)) l))).
  { destruct (Z.to_nat (count * size_of p)) eqn:Z0; [apply V0|]. apply V; try lia. nia. }
  rewrite E. rewrite type_field. unfold PDT_CHAR_BLOCK. change (type_of p <? 0x0c) with (numeric p).
  unfold shown in *. cbv zeta in *. rewrite bput_ok; [reflexivity|]. rewrite SL. lia.
Qed.
Lemma read_value tabs o p d l count start sb : has_property tabs o p -> storage p d = Some l -> fits p l start count -> count * size_of p <= 10 -> length sb = 23%nat ->
  propertyValueRead tabs o (pid p) count start sb d =
    Some (true, let sb1 := wr_range sb 12 (shown p l start count) in wr sb1 5 (u8 (rd sb1 5 + count * size_of p))).
Proof. intros HP. pose proof (def_has _ _ _ HP) as E. destruct HP as (_ & Hc & Hv & _). now apply read_def. Qed.
(** a response with [data] *)
Lemma answer_with t sb data : length sb = 23%nat -> Forall is_byte t -> (length data <= 10)%nat ->
  let sb1 := wr_range (header t sb) 12 data in let sb2 := wr sb1 5 (u8 (rd sb1 5 + Z.of_nat (length data))) in
  value_answer sb2 = Some (f_object t, f_id t, f_count t, f_start t, data) /\ length sb2 = 23%nat /\ telegram_bytes sb2 <= 23 /\
  (forall j, (j < 5 \/ 12 + length data <= j)%nat -> rd sb2 j = rd sb j).
Proof.
  intros Lb Ft Ld sb1 sb2.
  assert (L1 : length sb1 = 23%nat) by (unfold sb1; now rewrite wr_range_length, header_length).
  assert (R1 : forall j, rd sb1 j = if (Nat.leb 12 j && Nat.ltb j (12 + length data))%bool then rd data (j - 12) else rd (header t sb) j).
  { intros j. unfold sb1. apply rd_wr_range. rewrite header_length. lia. }
  assert (E5 : u8 (rd sb1 5 + Z.of_nat (length data)) = 0x65 + Z.of_nat (length data)).
  { rewrite R1. cbn [Nat.leb andb]. rewrite header_rd by auto. apply u8_id. red. lia. }
  assert (R2 : forall j, rd sb2 j = if Nat.eqb j 5 then 0x65 + Z.of_nat (length data) else rd sb1 j).
  { intros j. unfold sb2. rewrite E5. destruct (Nat.eqb_spec j 5) as [-> |N]; [apply rd_wr_same; lia|apply rd_wr_other; lia]. }
  assert (M5 : (0x65 + Z.of_nat (length data)) mod 16 = 5 + Z.of_nat (length data)).
  { replace (0x65 + Z.of_nat (length data)) with (5 + Z.of_nat (length data) + 6 * 16) by lia. rewrite Z.mod_add by lia. apply Z.mod_small. lia. }
  assert (D5 : (0x65 + Z.of_nat (length data)) / 16 = 6).
  { replace (0x65 + Z.of_nat (length data)) with (5 + Z.of_nat (length data) + 6 * 16) by lia. rewrite Z.div_add by lia. rewrite Z.div_small; lia. }
  split; [|split; [unfold sb2; now rewrite wr_length|split]].
  - unfold value_answer. rewrite (R2 5%nat). cbn [Nat.eqb]. rewrite M5, D5. unfold f_command, f_object, f_id, f_count, f_start.
    rewrite !R2. cbn [Nat.eqb]. rewrite !R1. cbn [Nat.leb andb]. rewrite !header_rd by auto. change (6 =? 6) with true. cbn [andb].
    rewrite (proj2 (Z.leb_le _ _)) by lia. change (256 * (3 mod 4) + 0xd6 =? 0x3d6) with true. cbn [andb]. repeat f_equal.
    replace (Z.to_nat (5 + Z.of_nat (length data) - 5)) with (length data) by lia.
    apply list_ext with (d := 0). { apply sub_length. unfold sb2. rewrite wr_length. lia. }
    intros i Hi. rewrite sub_length in Hi by (unfold sb2; rewrite wr_length; lia). change (rd (firstn (length data) (skipn 12 sb2)) i = rd data i).
    rewrite rd_sub, R2 by auto. rewrite (proj2 (Nat.eqb_neq _ _)) by lia. rewrite R1. rewrite (proj2 (Nat.leb_le _ _)), (proj2 (Nat.ltb_lt _ _)) by lia. cbn [andb]. f_equal. lia.
  - unfold telegram_bytes. rewrite R2. cbn [Nat.eqb]. rewrite M5. lia.
  - intros j Hj. rewrite R2. rewrite (proj2 (Nat.eqb_neq _ _)) by lia. rewrite R1.
    assert ((Nat.leb 12 j && Nat.ltb j (12 + length data))%bool = false) as -> by lia.
    rewrite header_rd by auto. do 5 (destruct j as [|j]; [reflexivity|]). destruct Hj as [Hj|Hj]; [lia|]. do 7 (destruct j as [|j]; [lia|]). reflexivity.
Qed.
(** a response without data: the count is cleared *)
Lemma answer_refused t sb : length sb = 23%nat -> Forall is_byte t ->
  let sb2 := wr (header t sb) 10 0 in
  value_answer sb2 = Some (f_object t, f_id t, 0, rd t 11, []) /\ length sb2 = 23%nat /\ telegram_bytes sb2 <= 23 /\ (forall j, (j < 5 \/ 12 <= j)%nat -> rd sb2 j = rd sb j).
Proof.
  intros Lb Ft sb2. assert (R : forall j, rd sb2 j = if Nat.eqb j 10 then 0 else rd (header t sb) j).
  { intros j. unfold sb2. destruct (Nat.eqb_spec j 10) as [-> |N]; [apply rd_wr_same; rewrite header_length; lia|apply rd_wr_other; lia]. }
  split; [|split; [unfold sb2; now rewrite wr_length, header_length|split]].
  - unfold value_answer, f_command, f_object, f_id, f_count, f_start. rewrite !R. cbn [Nat.eqb]. rewrite !header_rd by auto. reflexivity.
  - unfold telegram_bytes. rewrite R. cbn [Nat.eqb]. rewrite header_rd by auto. vm_compute. discriminate.
  - intros j Hj. rewrite R. rewrite (proj2 (Nat.eqb_neq _ _)) by lia. rewrite header_rd by auto.
    do 5 (destruct j as [|j]; [reflexivity|]). destruct Hj as [Hj|Hj]; [lia|]. do 7 (destruct j as [|j]; [lia|]). reflexivity.
Qed.
Lemma process_read L static tabs t n sb d : telegram t -> is_read t ->
  processPropertyApci L static tabs t n sb d =
    match propertyValueRead tabs (f_object t) (f_id t) (f_count t) (startIndex t) (header t sb) d with
    | None => None | Some (found, sb1) => Some (if found then sb1 else wr sb1 10 0, d) end.
Proof.
  intros (Lt & Ft) C. unfold processPropertyApci. rewrite (command_is t 0x3d5 Ft C) by lia. cbv zeta. change (0x3d5 =? APCI_PROPERTY_VALUE_READ_PDU) with true. cbn [orb].
  rewrite count_field. fold (header t sb). unfold f_object, f_id. destruct (propertyValueRead _ _ _ _ _ _ _) as [(f & s)|]; reflexivity.
Qed.
Lemma process_write L static tabs t n sb d : telegram t -> is_write t ->
  processPropertyApci L static tabs t n sb d =
    match propertyValueWrite L static tabs t n (f_object t) (f_id t) (f_count t) (startIndex t) (header t sb) d with
    | None => None | Some (found, sb1, d1) => Some (if found then sb1 else wr sb1 10 0, d1) end.
Proof.
  intros (Lt & Ft) C. unfold processPropertyApci. rewrite (command_is t 0x3d7 Ft C) by lia. cbv zeta.
  change (0x3d7 =? APCI_PROPERTY_VALUE_READ_PDU) with false. change (0x3d7 =? APCI_PROPERTY_VALUE_WRITE_PDU) with true. cbn [orb].
  rewrite count_field. fold (header t sb). unfold f_object, f_id. reflexivity.
Qed.
