From Verif Require Import Base Bits ComObj_Model ComObj_Spec.

(** ** Pointers and cells *)
Definition ptr_at (c : cfg) (p : ptr) (a n : Z) : Prop :=
  (fst p = true /\ snd p = Z.to_nat (a - eepStart c) /\ eepStart c <= a /\ a + n <= eepStart c + eepSize c) \/
  (fst p = false /\ snd p = Z.to_nat (a - ramStart c) /\ ramStart c <= a /\ a + n <= ramStart c + ramSize c).

Lemma userMemoryPtr_at c a n : cfg_ok c -> in_area c a n -> 1 <= n -> exists p, userMemoryPtr c a = Some p /\ ptr_at c p a n.
Proof.
  intros [R E D _ _ _] [H|H] Hn; unfold userMemoryPtr.
  - replace ((eepStart c <=? a) && (a <=? eepStart c + eepSize c - 1)) with true by lia.
    eexists; split; [reflexivity|]. left. simpl. lia.
  - replace ((eepStart c <=? a) && (a <=? eepStart c + eepSize c - 1)) with false by lia.
    replace ((ramStart c <=? a) && (a <=? ramStart c + ramSize c - 1)) with true by lia.
    eexists; split; [reflexivity|]. right. simpl. lia.
Qed.

Lemma getp_at c m p a n i : cfg_ok c -> ptr_at c p a n -> Z.of_nat i < n -> getp m p i = cell c m (a + Z.of_nat i).
Proof.
  intros [R E D _ _ _] H Hi. unfold getp, cell, in_eep, in_ram, ptr_at in *. destruct p as [e o]; simpl in *.
  destruct H as [(-> & -> & H1 & H2)|(-> & -> & H1 & H2)].
  - replace ((eepStart c <=? a + Z.of_nat i) && (a + Z.of_nat i <? eepStart c + eepSize c)) with true by lia. f_equal. lia.
  - replace ((eepStart c <=? a + Z.of_nat i) && (a + Z.of_nat i <? eepStart c + eepSize c)) with false by lia.
    replace ((ramStart c <=? a + Z.of_nat i) && (a + Z.of_nat i <? ramStart c + ramSize c)) with true by lia. f_equal. lia.
Qed.

Lemma putp_at c m p a n i v b : cfg_ok c -> mem_ok c m -> ptr_at c p a n -> Z.of_nat i < n ->
  cell c (putp m p i v) b = if b =? a + Z.of_nat i then v else cell c m b.
Proof.
  intros [R E D _ _ _] [L1 L2 _ _] H Hi. unfold putp, cell, ptr_at in *. destruct p as [e o]; simpl in *.
  assert (W : forall l j k, rd (wr l j v) k = if (Nat.eqb j k && Nat.ltb j (length l))%bool then v else rd l k)
    by (intros; unfold rd; apply nth_wr).
  destruct H as [(-> & -> & H1 & H2)|(-> & -> & H1 & H2)]; simpl; unfold in_eep, in_ram.
  - destruct ((eepStart c <=? b) && (b <? eepStart c + eepSize c)) eqn:Q.
    + rewrite W, L2. destruct (b =? a + Z.of_nat i) eqn:B;
      destruct (Nat.eqb (Z.to_nat (a - eepStart c) + i) (Z.to_nat (b - eepStart c)) && Nat.ltb (Z.to_nat (a - eepStart c) + i) (Z.to_nat (eepSize c)))%bool eqn:X; try reflexivity; lia.
    + replace (b =? a + Z.of_nat i) with false by lia. reflexivity.
  - destruct ((eepStart c <=? b) && (b <? eepStart c + eepSize c)) eqn:Q.
    + replace (b =? a + Z.of_nat i) with false by lia. reflexivity.
    + destruct ((ramStart c <=? b) && (b <? ramStart c + ramSize c)) eqn:Q2.
      * rewrite W, L1. destruct (b =? a + Z.of_nat i) eqn:B;
        destruct (Nat.eqb (Z.to_nat (a - ramStart c) + i) (Z.to_nat (b - ramStart c)) && Nat.ltb (Z.to_nat (a - ramStart c) + i) (Z.to_nat (ramSize c)))%bool eqn:X; try reflexivity; lia.
      * replace (b =? a + Z.of_nat i) with false by lia. reflexivity.
Qed.

Lemma putp_ok c m p i v : mem_ok c m -> is_byte v -> mem_ok c (putp m p i v).
Proof.
  intros [L1 L2 B1 B2] Hv. unfold putp. destruct (fst p); constructor; simpl; rewrite ?wr_length; auto; apply Forall_wr; auto.
Qed.
Lemma cell_byte c m a : mem_ok c m -> is_byte (cell c m a).
Proof.
  intros [_ _ B1 B2]. unfold cell. destruct (in_eep c a); [apply rd_byte; auto|]. destruct (in_ram c a); [apply rd_byte; auto|].
  unfold is_byte; lia.
Qed.

Lemma putBytes_at c p a n bs : cfg_ok c -> ptr_at c p a n -> forall m i b, mem_ok c m -> Forall is_byte bs -> Z.of_nat (i + length bs) <= n ->
  cell c (putBytes m p i bs) b =
  if (a + Z.of_nat i <=? b) && (b <? a + Z.of_nat i + Z.of_nat (length bs)) then nth (Z.to_nat (b - a - Z.of_nat i)) bs 0 else cell c m b.
Proof.
  intros Hc Hp. induction bs as [|x r IH]; intros m i b Hm Hb Hn; simpl putBytes.
  - simpl length. replace ((a + Z.of_nat i <=? b) && (b <? a + Z.of_nat i + Z.of_nat 0)) with false by lia. reflexivity.
  - inversion Hb; subst. simpl length in *. rewrite IH; auto; [|apply putp_ok; auto|lia].
    rewrite (putp_at c m p a n i x b Hc Hm Hp) by lia.
    destruct ((a + Z.of_nat (S i) <=? b) && (b <? a + Z.of_nat (S i) + Z.of_nat (length r))) eqn:Q.
    + replace ((a + Z.of_nat i <=? b) && (b <? a + Z.of_nat i + Z.of_nat (S (length r)))) with true by lia.
      replace (Z.to_nat (b - a - Z.of_nat i)) with (S (Z.to_nat (b - a - Z.of_nat (S i)))) by lia. reflexivity.
    + destruct (b =? a + Z.of_nat i) eqn:B.
      * replace ((a + Z.of_nat i <=? b) && (b <? a + Z.of_nat i + Z.of_nat (S (length r)))) with true by lia.
        replace (Z.to_nat (b - a - Z.of_nat i)) with O by lia. reflexivity.
      * replace ((a + Z.of_nat i <=? b) && (b <? a + Z.of_nat i + Z.of_nat (S (length r)))) with false by lia. reflexivity.
Qed.
Lemma putBytes_ok c p bs : forall m i, mem_ok c m -> Forall is_byte bs -> mem_ok c (putBytes m p i bs).
Proof. induction bs; intros m i Hm Hb; simpl; auto. inversion Hb; subst. apply IHbs; auto. apply putp_ok; auto. Qed.

(** ** Model functions in terms of the layout *)
Lemma makeWord_word h l : is_byte h -> is_byte l -> makeWord h l = word16 h l.
Proof.
  unfold makeWord, word16. intros Hh Hl. rewrite word_bytes by auto. apply u16_id. unfold is_u16, is_byte in *. lia.
Qed.
Lemma com_byte c i : cfg_ok c -> is_byte (rd (comTab c) i). Proof. intros H. apply rd_byte, (ok_com c H). Qed.
Lemma objConfig_conf c o : objConfig c o = obj_conf c o.
Proof. unfold objConfig, obj_conf, obj_entry, cfgOffset. destruct (isBCU2 c); reflexivity. Qed.
Lemma objType_typ c o : objType c o = obj_typ c o.
Proof. unfold objType, obj_typ, obj_entry, cfgOffset. destruct (isBCU2 c); reflexivity. Qed.
Lemma typ_byte c o : cfg_ok c -> is_byte (obj_typ c o). Proof. intros H. apply com_byte; auto. Qed.
Lemma conf_byte c o : cfg_ok c -> is_byte (obj_conf c o). Proof. intros H. apply com_byte; auto. Qed.

Lemma sizeOfType_size t : 0 <= t <= 15 -> sizeOfType t = Z.of_nat (type_size t).
Proof.
  intros H. assert (F : forallb (fun t => sizeOfType t =? Z.of_nat (type_size t)) (range_Z 16) = true) by (vm_compute; reflexivity).
  apply Z.eqb_eq. apply (range_forall 16 _ F t). change (Z.of_nat 16) with 16. clear F; lia.
Qed.
Lemma type_size_pos t : 0 <= t <= 15 -> (1 <= type_size t <= 14)%nat.
Proof.
  intros H. assert (F : forallb (fun t => Nat.leb 1 (type_size t) && Nat.leb (type_size t) 14) (range_Z 16) = true) by (vm_compute; reflexivity).
  assert (X := range_forall 16 _ F t ltac:(change (Z.of_nat 16) with 16; lia)). cbv beta in X. apply andb_true_iff in X. destruct X as [X1 X2]. apply Nat.leb_le in X1, X2. lia.
Qed.
Lemma objectSize_size c o : cfg_ok c -> obj_ok c o -> objectSize c o = Z.of_nat (obj_size c o).
Proof.
  intros Hc (_ & Ht & _). unfold objectSize, obj_size. rewrite objType_typ. apply sizeOfType_size. pose proof (typ_byte c o Hc). unfold is_byte in *. lia.
Qed.
Lemma obj_size_pos c o : cfg_ok c -> obj_ok c o -> (1 <= obj_size c o <= 14)%nat.
Proof. intros Hc (_ & Ht & _). apply type_size_pos. pose proof (typ_byte c o Hc). unfold is_byte in *. lia. Qed.

Lemma land_bit_zero b k : 0 <= k -> (Z.land b (2 ^ k) =? 0) = negb (Z.testbit b k).
Proof.
  intros Hk. destruct (Z.testbit b k) eqn:T; simpl.
  - apply Z.eqb_neq. intros H. assert (Z.testbit (Z.land b (2 ^ k)) k = true) by (rewrite Z.land_spec, T, Z.pow2_bits_true; auto).
    rewrite H, Z.bits_0 in H0. discriminate.
  - apply Z.eqb_eq. apply Z.bits_inj'. intros n Hn. rewrite Z.land_spec, Z.bits_0. destruct (Z.eq_dec n k) as [->|N].
    + rewrite T; reflexivity.
    + rewrite Z.pow2_bits_false by auto. apply andb_false_r.
Qed.

Lemma valueAddr_addr c o : cfg_ok c -> in_area c (obj_addr c o) (Z.of_nat (obj_size c o)) -> (1 <= obj_size c o)%nat -> valueAddr c o = obj_addr c o.
Proof.
  intros Hc Ha Hs. unfold valueAddr, obj_addr in *. fold (obj_entry c o 0) in *.
  assert (B : forall k, is_byte (obj_entry c o k)) by (intros; apply com_byte; auto).
  unfold cfgOffset. destruct (isBCU2 c) eqn:E2.
  - assert (X0 : rd (comTab c) (3 + 4 * o) = obj_entry c o 0) by (unfold obj_entry; rewrite E2, Nat.add_0_r; reflexivity).
    assert (X1 : rd (comTab c) (3 + 4 * o + 1) = obj_entry c o 1) by (unfold obj_entry; rewrite E2; reflexivity).
    rewrite X0, X1. destruct (le_ptr c); apply makeWord_word; auto.
  - assert (X0 : rd (comTab c) (2 + 3 * o) = obj_entry c o 0) by (unfold obj_entry; rewrite E2, Nat.add_0_r; reflexivity).
    rewrite X0, objConfig_conf. unfold COMCONF_VALUE_TYPE. change 32 with (2 ^ 5). rewrite land_bit_zero by lia.
    destruct (Z.testbit (obj_conf c o) 5); simpl; [|lia].
    apply u16_id. destruct Hc as [R E D _ _ _]. unfold in_area, is_u16 in *. specialize (B O). unfold is_byte in B. lia.
Qed.
Lemma objectValuePtr_at c o : cfg_ok c -> obj_ok c o ->
  exists p, objectValuePtr c o = Some p /\ ptr_at c p (obj_addr c o) (Z.of_nat (obj_size c o)).
Proof.
  intros Hc Ho. pose proof (obj_size_pos c o Hc Ho). destruct Ho as (_ & _ & Ha). unfold objectValuePtr.
  rewrite valueAddr_addr by (auto; lia). apply userMemoryPtr_at; auto; lia.
Qed.
Lemma objectFlagsTable_at c : cfg_ok c -> flags_ok c -> (0 < num_objs c)%nat ->
  exists p, objectFlagsTable c = Some p /\ ptr_at c p (flags_base c) ((Z.of_nat (num_objs c) + 1) / 2).
Proof.
  intros Hc Hf Hn. unfold objectFlagsTable.
  assert (X : (if isBCU2 c then if le_ptr c then makeWord (rd (comTab c) 2) (rd (comTab c) 1) else makeWord (rd (comTab c) 1) (rd (comTab c) 2) else rd (comTab c) 1) = flags_base c).
  { unfold flags_base. destruct (isBCU2 c), (le_ptr c); auto; apply makeWord_word; apply com_byte; auto. }
  rewrite X. apply userMemoryPtr_at; auto. apply Z.div_le_lower_bound; lia.
Qed.
Lemma objectCount_num c : objectCount c = num_objs c. Proof. reflexivity. Qed.

Lemma half_lt c o : (o < num_objs c)%nat -> Z.of_nat (o / 2) < (Z.of_nat (num_objs c) + 1) / 2.
Proof.
  intros H. rewrite Nat2Z.inj_div. change (Z.of_nat 2) with 2.
  assert (Z.of_nat o / 2 + 1 <= (Z.of_nat (num_objs c) + 1) / 2); [|lia].
  replace (Z.of_nat o / 2 + 1) with ((Z.of_nat o + 2) / 2) by (rewrite <- (Z.div_add (Z.of_nat o) 1 2) by lia; reflexivity).
  apply Z.div_le_mono; lia.
Qed.
Lemma half_eq o1 o2 : (o1 / 2 = o2 / 2)%nat -> Nat.odd o1 = Nat.odd o2 -> o1 = o2.
Proof.
  intros H1 H2. pose proof (Nat.div2_odd o1). pose proof (Nat.div2_odd o2). rewrite Nat.div2_div in *. rewrite H1, H2 in *. lia.
Qed.

(** ** Flags *)
Definition nib (b : Z) (odd : bool) : Z := (b / (if odd then 16 else 1)) mod 16.
Definition bools := [true; false].
Lemma bools_forall (f : bool -> bool) : forallb f bools = true -> forall b, f b = true.
Proof. intros H b. rewrite forallb_forall in H. apply H. destruct b; simpl; auto. Qed.
Lemma nib_table (g : Z -> Z -> bool -> Z) (r : Z -> Z -> Z) :
  forallb (fun b => forallb (fun f => forallb (fun o => forallb (fun q =>
    (nib (g b f o) q =? (if Bool.eqb q o then r (nib b q) f else nib b q)) && (0 <=? g b f o) && (g b f o <? 256)) bools) bools) (range_Z 16)) bytes256 = true ->
  forall b f o q, is_byte b -> 0 <= f < 16 ->
    nib (g b f o) q = (if Bool.eqb q o then r (nib b q) f else nib b q) /\ is_byte (g b f o).
Proof.
  intros H b f o q Hb Hf. assert (X := byte_forall _ H b Hb). cbv beta in X.
  assert (Y := range_forall 16 _ X f ltac:(change (Z.of_nat 16) with 16; lia)). cbv beta in Y.
  assert (U := bools_forall _ Y o). cbv beta in U. assert (V := bools_forall _ U q). cbv beta in V.
  apply andb_true_iff in V. destruct V as [V V3]. apply andb_true_iff in V. destruct V as [V1 V2].
  apply Z.eqb_eq in V1. apply Z.leb_le in V2. apply Z.ltb_lt in V3. unfold is_byte. auto.
Qed.
Lemma nib_add b f o q : is_byte b -> 0 <= f < 16 ->
  nib (u8 (Z.lor b (if o : bool then Z.shiftl f 4 else f))) q = (if Bool.eqb q o then Z.lor (nib b q) f else nib b q) /\ is_byte (u8 (Z.lor b (if o then Z.shiftl f 4 else f))).
Proof. apply (nib_table (fun b f o => u8 (Z.lor b (if o : bool then Z.shiftl f 4 else f))) Z.lor). vm_compute. reflexivity. Qed.
Lemma nib_set b f o q : is_byte b -> 0 <= f < 16 ->
  nib (u8 (if o : bool then Z.lor (Z.land b 15) (Z.shiftl f 4) else Z.lor (Z.land b 240) f)) q = (if Bool.eqb q o then f else nib b q) /\
  is_byte (u8 (if o then Z.lor (Z.land b 15) (Z.shiftl f 4) else Z.lor (Z.land b 240) f)).
Proof. apply (nib_table (fun b f o => u8 (if o : bool then Z.lor (Z.land b 15) (Z.shiftl f 4) else Z.lor (Z.land b 240) f)) (fun _ f => f)). vm_compute. reflexivity. Qed.
Lemma flags_nib c m o : flags c m o = nib (cell c m (flags_base c + Z.of_nat (o / 2))) (Nat.odd o).
Proof. unfold flags, nib. rewrite Nat2Z.inj_div. reflexivity. Qed.

(** effect of replacing the flags byte of object [o] *)
Lemma flags_put c m p o (v : Z) : cfg_ok c -> mem_ok c m -> (o < num_objs c)%nat ->
  ptr_at c p (flags_base c) ((Z.of_nat (num_objs c) + 1) / 2) -> is_byte v ->
  let m' := putp m p (o / 2) v in
  mem_ok c m' /\ (forall a, a <> flags_base c + Z.of_nat (o / 2) -> cell c m' a = cell c m a) /\
  (forall q, flags c m' q = if Nat.eqb (q / 2) (o / 2) then nib v (Nat.odd q) else flags c m q).
Proof.
  intros Hc Hm Ho Hp Hv m'. split; [apply putp_ok; auto|]. pose proof (half_lt c o Ho) as Hh.
  assert (P : forall a, cell c m' a = if a =? flags_base c + Z.of_nat (o / 2) then v else cell c m a)
    by (intros a; apply (putp_at c m p _ _ _ _ _ Hc Hm Hp Hh)).
  split.
  - intros a Ha. rewrite P. apply Z.eqb_neq in Ha. rewrite Ha. reflexivity.
  - intros q. rewrite !flags_nib, P. destruct (Nat.eqb (q / 2) (o / 2)) eqn:E.
    + apply Nat.eqb_eq in E. rewrite E, Z.eqb_refl. reflexivity.
    + apply Nat.eqb_neq in E. replace (flags_base c + Z.of_nat (q / 2) =? flags_base c + Z.of_nat (o / 2)) with false; auto.
      symmetry. apply Z.eqb_neq. lia.
Qed.

Lemma half_same (q o : nat) : (if Nat.eqb (q / 2) (o / 2) then Bool.eqb (Nat.odd q) (Nat.odd o) else false) = Nat.eqb q o.
Proof.
  destruct (Nat.eqb q o) eqn:E.
  - apply Nat.eqb_eq in E. subst. rewrite Nat.eqb_refl. apply Bool.eqb_reflx.
  - destruct (Nat.eqb (q / 2) (o / 2)) eqn:H; auto. apply Nat.eqb_eq in H. apply Nat.eqb_neq in E.
    destruct (Bool.eqb (Nat.odd q) (Nat.odd o)) eqn:O; auto. apply Bool.eqb_prop in O. destruct E. apply half_eq; auto.
Qed.

(** combined effect: [r] maps the old nibble of object [o] to the new one *)
Definition flag_step (c : cfg) (o : nat) (r : Z -> Z) (m m' : mem) : Prop :=
  mem_ok c m' /\ (forall a, ~ in_flags c a -> cell c m' a = cell c m a) /\
  (forall q, flags c m' q = if Nat.eqb q o then r (flags c m q) else flags c m q).
Lemma in_flags_half c o : (o < num_objs c)%nat -> in_flags c (flags_base c + Z.of_nat (o / 2)).
Proof. intros H. pose proof (half_lt c o H). unfold in_flags. lia. Qed.

Lemma flag_step_byte c m p o v r : cfg_ok c -> mem_ok c m -> (o < num_objs c)%nat ->
  ptr_at c p (flags_base c) ((Z.of_nat (num_objs c) + 1) / 2) -> is_byte v ->
  (forall q, nib v q = if Bool.eqb q (Nat.odd o) then r (nib (getp m p (o / 2)) q) else nib (getp m p (o / 2)) q) ->
  flag_step c o r m (putp m p (o / 2) v).
Proof.
  intros Hc Hm Ho Hp Hv Hn. pose proof (half_lt c o Ho) as Hh. destruct (flags_put c m p o v Hc Hm Ho Hp Hv) as (A & B & C).
  split; [exact A|]. split.
  - intros a Ha. apply B. intros ->. apply Ha, in_flags_half, Ho.
  - intros q. rewrite C. rewrite <- (half_same q o). destruct (Nat.eqb (q / 2) (o / 2)) eqn:E; auto.
    rewrite Hn. apply Nat.eqb_eq in E. rewrite flags_nib, E, (getp_at c m p _ _ _ Hc Hp Hh). reflexivity.
Qed.

Lemma addObjectFlags_step c m o f : cfg_ok c -> mem_ok c m -> flags_ok c -> (o < num_objs c)%nat -> 0 <= f < 16 ->
  flag_step c o (fun x => Z.lor x f) m (addObjectFlags c o f m).
Proof.
  intros Hc Hm Hf Ho Hr. destruct (objectFlagsTable_at c Hc Hf ltac:(lia)) as (p & E & Hp). unfold addObjectFlags. rewrite E.
  assert (Hb : is_byte (getp m p (o / 2))) by (rewrite (getp_at c m p _ _ _ Hc Hp (half_lt c o Ho)); apply cell_byte; auto).
  apply flag_step_byte; auto.
  - apply (nib_add _ f (Nat.odd o) true Hb Hr).
  - intros q. apply (nib_add _ f (Nat.odd o) q Hb Hr).
Qed.
Lemma setObjectFlags_step c m o f : cfg_ok c -> mem_ok c m -> flags_ok c -> (o < num_objs c)%nat -> 0 <= f < 16 ->
  flag_step c o (fun _ => f) m (setObjectFlags c o f m).
Proof.
  intros Hc Hm Hf Ho Hr. destruct (objectFlagsTable_at c Hc Hf ltac:(lia)) as (p & E & Hp). unfold setObjectFlags. rewrite E.
  assert (Hb : is_byte (getp m p (o / 2))) by (rewrite (getp_at c m p _ _ _ Hc Hp (half_lt c o Ho)); apply cell_byte; auto).
  cbv zeta. apply (flag_step_byte c m p o _ (fun _ => f)); auto.
  - apply (nib_set _ f (Nat.odd o) true Hb Hr).
  - intros q. apply (nib_set _ f (Nat.odd o) q Hb Hr).
Qed.

(** ** nextUpdatedObject *)
Lemma nib_upd b o : is_byte b ->
  (Z.land b (if o : bool then Z.shiftl COMFLAG_UPDATE 4 else COMFLAG_UPDATE) =? 0) = negb (Z.testbit (nib b o) 3) /\
  (forall q, nib (Z.land b (u8 (Z.lnot (Z.land b (if o : bool then Z.shiftl COMFLAG_UPDATE 4 else COMFLAG_UPDATE))))) q = if Bool.eqb q o then Z.land (nib b q) 7 else nib b q) /\
  is_byte (Z.land b (u8 (Z.lnot (Z.land b (if o : bool then Z.shiftl COMFLAG_UPDATE 4 else COMFLAG_UPDATE))))).
Proof.
  intros Hb.
  assert (F : forallb (fun b => forallb (fun o : bool =>
    Bool.eqb (Z.land b (if o then Z.shiftl COMFLAG_UPDATE 4 else COMFLAG_UPDATE) =? 0) (negb (Z.testbit (nib b o) 3)) &&
    forallb (fun q => nib (Z.land b (u8 (Z.lnot (Z.land b (if o then Z.shiftl COMFLAG_UPDATE 4 else COMFLAG_UPDATE))))) q =? (if Bool.eqb q o then Z.land (nib b q) 7 else nib b q)) bools) bools) bytes256 = true)
    by (vm_compute; reflexivity).
  assert (X := byte_forall _ F b Hb). cbv beta in X. assert (Y := bools_forall _ X o). cbv beta in Y.
  apply andb_true_iff in Y. destruct Y as [Y1 Y2]. apply Bool.eqb_prop in Y1.
  split; [exact Y1|]. split; [|apply land_byte_l; auto]. intros q. assert (Z := bools_forall _ Y2 q). cbv beta in Z. apply Z.eqb_eq in Z. exact Z.
Qed.

Lemma updLoop_spec c p m : cfg_ok c -> mem_ok c m -> ptr_at c p (flags_base c) ((Z.of_nat (num_objs c) + 1) / 2) ->
  forall n o, (o + n = num_objs c)%nat ->
  (exists q, (o <= q < num_objs c)%nat /\ updated c m q /\ (forall j, (o <= j < q)%nat -> ~ updated c m j) /\
     fst (updLoop p n o m) = Z.of_nat q /\ flag_step c q (fun x => Z.land x 7) m (snd (updLoop p n o m))) \/
  ((forall j, (o <= j < num_objs c)%nat -> ~ updated c m j) /\ updLoop p n o m = (-1, m)).
Proof.
  intros Hc Hm Hp. induction n; intros o Ho.
  - right. split; [intros; lia|]. reflexivity.
  - cbn [updLoop]. cbv zeta. assert (Hl : (o < num_objs c)%nat) by lia.
    assert (G : getp m p (o / 2) = cell c m (flags_base c + Z.of_nat (o / 2))) by (apply (getp_at c m p _ _ _ Hc Hp (half_lt c o Hl))).
    assert (Hb : is_byte (getp m p (o / 2))) by (rewrite G; apply cell_byte; auto).
    destruct (nib_upd (getp m p (o / 2)) (Nat.odd o) Hb) as (N1 & N2 & N3). rewrite N1.
    assert (U : Z.testbit (nib (getp m p (o / 2)) (Nat.odd o)) 3 = Z.testbit (flags c m o) 3) by (rewrite flags_nib, G; reflexivity).
    rewrite U. destruct (Z.testbit (flags c m o) 3) eqn:T; simpl negb; cbv iota.
    + left. exists o. split; [lia|]. split; [exact T|]. split; [intros; lia|]. split; [reflexivity|]. simpl snd.
      apply flag_step_byte; auto.
    + destruct (IHn (S o) ltac:(lia)) as [(q & A & B & C & D & E)|(A & B)].
      * left. exists q. split; [lia|]. split; [auto|]. split; auto.
        intros j Hj. destruct (Nat.eq_dec j o) as [->|]; [unfold updated; rewrite T; discriminate|]. apply C; lia.
      * right. split; auto. intros j Hj. destruct (Nat.eq_dec j o) as [->|]; [unfold updated; rewrite T; discriminate|]. apply A; lia.
Qed.
