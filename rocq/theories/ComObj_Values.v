From Verif Require Import Base Bits ComObj_Model ComObj_Spec ComObj_Proofs.

(** ** Draining the updated objects *)
Lemma nextUpdated_spec c m : cfg_ok c -> mem_ok c m -> flags_ok c -> (0 < num_objs c)%nat ->
  (exists q, (q < num_objs c)%nat /\ updated c m q /\ (forall j, (j < q)%nat -> ~ updated c m j) /\
     fst (nextUpdatedObject c m) = Z.of_nat q /\ flag_step c q (fun x => Z.land x 7) m (snd (nextUpdatedObject c m))) \/
  ((forall j, (j < num_objs c)%nat -> ~ updated c m j) /\ nextUpdatedObject c m = (-1, m)).
Proof.
  intros Hc Hm Hf Hn. destruct (objectFlagsTable_at c Hc Hf Hn) as (p & E & Hp). unfold nextUpdatedObject. rewrite E. change (objectCount c) with (num_objs c).
  destruct (updLoop_spec c p m Hc Hm Hp (num_objs c) 0 eq_refl) as [(q & A & B & C & D)|(A & B)].
  - left. exists q. split; [lia|]. split; auto. split; auto. intros j Hj. apply C; lia.
  - right. split; auto. intros j Hj. apply A; lia.
Qed.

Definition updatedb (c : cfg) (m : mem) (o : nat) : bool := Z.testbit (flags c m o) 3.
Lemma filter_none A (f : A -> bool) l : (forall x, In x l -> f x = false) -> filter f l = [].
Proof. induction l; intros H; simpl; auto. rewrite H by (left; auto). apply IHl. intros; apply H; right; auto. Qed.
Lemma filter_same A (f g : A -> bool) l : (forall x, In x l -> f x = g x) -> filter f l = filter g l.
Proof. induction l; intros H; simpl; auto. rewrite H by (left; auto). rewrite IHl; auto. intros; apply H; right; auto. Qed.
Lemma upd_list_step c m m' q : (q < num_objs c)%nat -> updatedb c m q = true -> (forall j, (j < q)%nat -> updatedb c m j = false) ->
  (forall j, updatedb c m' j = if Nat.eqb j q then false else updatedb c m j) ->
  filter (updatedb c m) (seq 0 (num_objs c)) = q :: filter (updatedb c m') (seq 0 (num_objs c)).
Proof.
  intros Hq H1 H2 H3. replace (num_objs c) with (q + S (num_objs c - q - 1))%nat by lia. rewrite seq_app, !filter_app. simpl seq. cbn [filter].
  rewrite H1, (H3 q), Nat.eqb_refl.
  rewrite (filter_none _ (updatedb c m) (seq 0 q)) by (intros x Hx; apply in_seq in Hx; apply H2; lia).
  rewrite (filter_none _ (updatedb c m') (seq 0 q)) by (intros x Hx; apply in_seq in Hx; rewrite H3; destruct (Nat.eqb x q); auto; apply H2; lia).
  simpl. f_equal. apply filter_same. intros x Hx. apply in_seq in Hx. rewrite H3. replace (Nat.eqb x q) with false; auto. symmetry. apply Nat.eqb_neq. lia.
Qed.
Fixpoint ask (c : cfg) (k : nat) (m : mem) : list Z * mem :=
  match k with O => ([], m) | S j => let (o, m1) := nextUpdatedObject c m in let (l, m2) := ask c j m1 in (o :: l, m2) end.
Lemma land7_bit3 x : Z.testbit (Z.land x 7) 3 = false.
Proof. rewrite Z.land_spec. replace (Z.testbit 7 3) with false by reflexivity. apply andb_false_r. Qed.
Lemma ask_all c : cfg_ok c -> flags_ok c -> (0 < num_objs c)%nat -> forall l m extra, mem_ok c m -> filter (updatedb c m) (seq 0 (num_objs c)) = l ->
  exists m', ask c (length l + extra) m = (map Z.of_nat l ++ repeat (-1) extra, m') /\ mem_ok c m' /\
    (forall a, ~ in_flags c a -> cell c m' a = cell c m a) /\
    (forall o, (o < num_objs c)%nat -> flags c m' o = Z.land (flags c m o) 7).
Proof.
  intros Hc Hf Hn. induction l as [|q r IH]; intros m extra Hm Hl.
  - assert (N : forall j, (j < num_objs c)%nat -> updatedb c m j = false).
    { intros j Hj. destruct (updatedb c m j) eqn:E; auto. assert (In j []) by (rewrite <- Hl; apply filter_In; split; auto; apply in_seq; lia). destruct H. }
    assert (X : nextUpdatedObject c m = (-1, m)).
    { destruct (nextUpdated_spec c m Hc Hm Hf Hn) as [(q & A & B & _)|(_ & B)]; auto.
      unfold updated in B. unfold updatedb in N. rewrite N in B by auto. discriminate. }
    exists m. simpl length. split.
    + simpl. clear -X. induction extra; simpl; auto. rewrite X, IHextra. reflexivity.
    + split; auto. split; auto. intros o Ho. specialize (N o Ho). unfold updatedb in N.
      assert (R : 0 <= flags c m o < 16) by (unfold flags; apply Z.mod_pos_bound; lia).
      symmetry. change 7 with (Z.ones 3). rewrite Z.land_ones by lia. apply Z.mod_small. split; [lia|].
      apply lt_pow2_bits; [lia..|]. intros k Hk. destruct (Z.eq_dec k 3) as [->|]; auto. apply (bits_above_lt _ 4); lia.
  - destruct (nextUpdated_spec c m Hc Hm Hf Hn) as [(p & A & B & C & D & E)|(A & _)].
    + destruct E as (E1 & E2 & E3). set (m1 := snd (nextUpdatedObject c m)) in *.
      assert (S1 : filter (updatedb c m) (seq 0 (num_objs c)) = p :: filter (updatedb c m1) (seq 0 (num_objs c))).
      { apply upd_list_step; auto.
        - intros j Hj. destruct (updatedb c m j) eqn:T; auto. destruct (C j Hj). exact T.
        - intros j. unfold updatedb. rewrite E3. destruct (Nat.eqb j p) eqn:Q; auto. apply land7_bit3. }
      rewrite Hl in S1. injection S1 as -> S1. destruct (IH m1 extra E1 (eq_sym S1)) as (m' & X & Y & Z & W).
      exists m'. split.
      * change (length (p :: r) + extra)%nat with (S (length r + extra)). cbn [ask]. destruct (nextUpdatedObject c m) as [o' m1'] eqn:Q. simpl in D, m1. subst o' m1. rewrite X. reflexivity.
      * split; auto. split.
        -- intros a Ha. rewrite Z, E2; auto.
        -- intros o Ho. rewrite W, E3 by auto. destruct (Nat.eqb o p); auto. rewrite <- Z.land_assoc. reflexivity.
    + exfalso. assert (In q (filter (updatedb c m) (seq 0 (num_objs c)))) by (rewrite Hl; left; auto).
      apply filter_In in H. destruct H as [H1 H2]. apply in_seq in H1. apply (A q); [lia|exact H2].
Qed.

(** ** Values as numbers *)
Lemma le_num_app l b : le_num (l ++ [b]) = le_num l + 256 ^ Z.of_nat (length l) * b.
Proof.
  induction l; simpl app; simpl le_num; [simpl; lia|]. rewrite IHl. simpl length. rewrite Nat2Z.inj_succ, Z.pow_succ_r by lia. ring.
Qed.
Lemma le_num_bound l : Forall is_byte l -> 0 <= le_num l < 256 ^ Z.of_nat (length l).
Proof.
  induction 1; simpl le_num; simpl length; [simpl; lia|]. rewrite Nat2Z.inj_succ, Z.pow_succ_r by lia. unfold is_byte in H. lia.
Qed.
Lemma read_step acc b : 0 <= acc -> is_byte b -> Z.lor (u32 (Z.shiftl acc 8)) b = (acc * 256 + b) mod 2 ^ 32.
Proof.
  intros Ha Hb.
  assert (X : u32 (Z.shiftl acc 8) = Z.shiftl (acc mod 2 ^ 24) 8).
  { unfold u32. rewrite !Z.shiftl_mul_pow2 by lia. change 4294967296 with (2 ^ 24 * 2 ^ 8). apply Zmult_mod_distr_r. }
  rewrite X, word_bytes by auto.
  unfold is_byte in Hb. pose proof (Z.div_mod acc (2 ^ 24) ltac:(lia)). pose proof (Z.mod_pos_bound acc (2 ^ 24) ltac:(lia)).
  apply (Z.mod_unique_pos _ _ (acc / 2 ^ 24)); lia.
Qed.
Lemma readLoop_num c m p a n : cfg_ok c -> mem_ok c m -> ptr_at c p a n -> forall k acc, Z.of_nat k <= n -> 0 <= acc < 2 ^ 32 ->
  readLoop m p k acc = (acc * 256 ^ Z.of_nat k + le_num (map (fun i => cell c m (a + Z.of_nat i)) (seq 0 k))) mod 2 ^ 32.
Proof.
  intros Hc Hm Hp. induction k; intros acc Hk Ha.
  - simpl. rewrite Z.mul_1_r, Z.add_0_r. symmetry. apply Z.mod_small; auto.
  - cbn [readLoop]. rewrite (getp_at c m p a n k Hc Hp) by lia. pose proof (cell_byte c m (a + Z.of_nat k) Hm) as Hb.
    rewrite read_step by (auto; lia). rewrite IHk by (try lia; apply Z.mod_pos_bound; lia).
    rewrite seq_S, map_app. simpl map. rewrite le_num_app, map_length, seq_length, Nat2Z.inj_succ, Z.pow_succ_r by lia.
    rewrite <- Z.add_mod_idemp_l by lia. rewrite Z.mul_mod_idemp_l by lia. rewrite Z.add_mod_idemp_l by lia. f_equal. ring.
Qed.
Lemma objectRead_num c m o : cfg_ok c -> mem_ok c m -> obj_ok c o -> objectRead c o m = le_num (value c m o) mod 2 ^ 32.
Proof.
  intros Hc Hm Ho. destruct (objectValuePtr_at c o Hc Ho) as (p & E & Hp). pose proof (obj_size_pos c o Hc Ho) as Hs.
  unfold objectRead. rewrite E, objectSize_size, Nat2Z.id by auto. unfold value. destruct (obj_size c o) as [|k]; [lia|].
  rewrite (readLoop_num c m p (obj_addr c o) (Z.of_nat (S k)) Hc Hm Hp) by (try lia; rewrite (getp_at c m p _ _ k Hc Hp) by lia; pose proof (cell_byte c m (obj_addr c o + Z.of_nat k) Hm); unfold is_byte in *; lia).
  rewrite (getp_at c m p _ _ k Hc Hp) by lia. rewrite seq_S, map_app. simpl map. rewrite le_num_app, map_length, seq_length. f_equal. ring.
Qed.
Lemma writeBytes_length n v : length (writeBytes n v) = n.
Proof. revert v; induction n; simpl; auto. Qed.
Lemma writeBytes_byte n v : Forall is_byte (writeBytes n v).
Proof. revert v; induction n; simpl; auto. intros. constructor; [apply u8_byte|auto]. Qed.
Lemma writeBytes_num n : forall v, le_num (writeBytes n v) = v mod 256 ^ Z.of_nat n.
Proof.
  induction n; intros v; cbn [writeBytes le_num]; [rewrite Z.mod_1_r; reflexivity|].
  rewrite IHn, Nat2Z.inj_succ, Z.pow_succ_r by lia. rewrite Z.shiftr_div_pow2 by lia. change (2 ^ 8) with 256.
  assert (0 < 256 ^ Z.of_nat n) by (apply Z.pow_pos_nonneg; lia). rewrite Z.rem_mul_r by lia. unfold u8. reflexivity.
Qed.

(** ** Storing an object's value *)
Lemma value_put c m p o bs : cfg_ok c -> mem_ok c m -> obj_ok c o -> ptr_at c p (obj_addr c o) (Z.of_nat (obj_size c o)) ->
  Forall is_byte bs -> length bs = obj_size c o ->
  mem_ok c (putBytes m p 0 bs) /\ value c (putBytes m p 0 bs) o = bs /\ (forall a, ~ in_obj c o a -> cell c (putBytes m p 0 bs) a = cell c m a).
Proof.
  intros Hc Hm Ho Hp Hb Hl. split; [apply putBytes_ok; auto|].
  assert (P : forall a, cell c (putBytes m p 0 bs) a = if (obj_addr c o <=? a) && (a <? obj_addr c o + Z.of_nat (obj_size c o)) then nth (Z.to_nat (a - obj_addr c o)) bs 0 else cell c m a).
  { intros a. rewrite (putBytes_at c p _ _ bs Hc Hp m 0 a Hm Hb) by (simpl; lia). rewrite Hl, Z.add_0_r, Z.sub_0_r. reflexivity. }
  split.
  - apply (list_ext _ _ _ 0); unfold value; rewrite map_length, seq_length; auto.
    intros i Hi. rewrite (nth_indep _ 0 (cell c (putBytes m p 0 bs) (obj_addr c o + Z.of_nat 0))) by (rewrite map_length, seq_length; auto).
    rewrite (map_nth (fun i => cell c (putBytes m p 0 bs) (obj_addr c o + Z.of_nat i))), seq_nth, P by auto. simpl.
    replace ((obj_addr c o <=? obj_addr c o + Z.of_nat i) && (obj_addr c o + Z.of_nat i <? obj_addr c o + Z.of_nat (obj_size c o))) with true by lia.
    f_equal. lia.
  - intros a Ha. rewrite P. unfold in_obj in Ha.
    replace ((obj_addr c o <=? a) && (a <? obj_addr c o + Z.of_nat (obj_size c o))) with false by lia. reflexivity.
Qed.
Lemma value_same c m m' o : (forall a, in_obj c o a -> cell c m' a = cell c m a) -> value c m' o = value c m o.
Proof. intros H. unfold value. apply map_ext_in. intros i Hi. apply in_seq in Hi. apply H. unfold in_obj. lia. Qed.
Lemma flags_same c m m' o : (o < num_objs c)%nat -> (forall a, in_flags c a -> cell c m' a = cell c m a) -> flags c m' o = flags c m o.
Proof. intros Ho H. rewrite !flags_nib, H; auto. apply in_flags_half; auto. Qed.
Definition apart (c : cfg) (o : nat) : Prop := forall a, in_obj c o a -> ~ in_flags c a.

Lemma objectWrite_effect c m o v f : cfg_ok c -> mem_ok c m -> flags_ok c -> obj_ok c o -> apart c o -> 0 <= f < 16 ->
  let m' := objectWrite_ c o v f m in
  mem_ok c m' /\ value c m' o = writeBytes (obj_size c o) v /\
  (forall a, ~ in_obj c o a -> ~ in_flags c a -> cell c m' a = cell c m a) /\
  (forall q, (q < num_objs c)%nat -> flags c m' q = if Nat.eqb q o then f else flags c m q).
Proof.
  intros Hc Hm Hf Ho Hap Hr m'. destruct (objectValuePtr_at c o Hc Ho) as (p & E & Hp).
  assert (M : m' = setObjectFlags c o f (putBytes m p 0 (writeBytes (obj_size c o) v))).
  { unfold m', objectWrite_. rewrite E, objectSize_size, Nat2Z.id by auto. replace (Z.of_nat (obj_size c o) =? -1) with false by lia. reflexivity. }
  destruct (value_put c m p o (writeBytes (obj_size c o) v) Hc Hm Ho Hp (writeBytes_byte _ _) (writeBytes_length _ _)) as (A1 & A2 & A3).
  set (m1 := putBytes m p 0 (writeBytes (obj_size c o) v)) in *.
  destruct (setObjectFlags_step c m1 o f Hc A1 Hf (proj1 Ho) Hr) as (B1 & B2 & B3). rewrite <- M in *.
  split; auto. split; [|split].
  - rewrite <- A2. apply value_same. intros a Ha. apply B2. apply Hap; auto.
  - intros a H1 H2. rewrite B2, A3; auto.
  - intros q Hq. rewrite B3. destruct (Nat.eqb q o); auto. apply flags_same; auto. intros a Ha. apply A3. intros H. apply (Hap a); auto.
Qed.

(** ** Group value writes *)
Lemma payload_length t tel : 0 <= t <= 15 -> length (payload t tel) = type_size t.
Proof.
  intros H. unfold payload. destruct (t <? 6) eqn:E; [|rewrite map_length, seq_length; reflexivity].
  assert (T : t = 0 \/ t = 1 \/ t = 2 \/ t = 3 \/ t = 4 \/ t = 5) by lia. destruct T as [->|[->|[->|[->|[->| ->]]]]]; reflexivity.
Qed.
Lemma payload_byte t tel : Forall is_byte tel -> Forall is_byte (payload t tel).
Proof.
  intros H. unfold payload. destruct (t <? 6).
  - constructor; auto. unfold is_byte. pose proof (Z.mod_pos_bound (rd tel 7) 64). lia.
  - apply Forall_forall. intros x Hx. apply in_map_iff in Hx. destruct Hx as (i & <- & _). apply rd_byte; auto.
Qed.
Lemma rev_map_seq (f : nat -> Z) n : rev (map f (seq 0 n)) = map (fun i => f (n - 1 - i)%nat) (seq 0 n).
Proof.
  apply (list_ext _ _ _ 0); rewrite ?rev_length, ?map_length, ?seq_length; auto. intros i Hi.
  rewrite rev_nth by (rewrite map_length, seq_length; auto). rewrite map_length, seq_length.
  rewrite (nth_indep _ 0 (f 0%nat)) by (rewrite map_length, seq_length; lia). rewrite map_nth, seq_nth by lia.
  rewrite (nth_indep _ 0 ((fun i => f (n - 1 - i)%nat) 0%nat)) by (rewrite map_length, seq_length; lia).
  rewrite (map_nth (fun i => f (n - 1 - i)%nat)), seq_nth by lia. f_equal. lia.
Qed.
Lemma mod64 v : Z.land v 63 = v mod 64. Proof. change 63 with (Z.ones 6). rewrite Z.land_ones by lia. reflexivity. Qed.
Lemma telSize_zero t : 0 <= t <= 15 -> telSizeOfType t = if t <? 6 then 0 else Z.of_nat (type_size t).
Proof. intros H. unfold telSizeOfType. destruct (t <? 6); auto. apply sizeOfType_size; auto. Qed.

Definition put_payload (c : cfg) (o : nat) (tel : list Z) (m : mem) (p : ptr) : mem := putBytes m p 0 (payload (obj_typ c o) tel).
Lemma groupWrite_payload c o tel m : cfg_ok c -> obj_ok c o ->
  exists p, ptr_at c p (obj_addr c o) (Z.of_nat (obj_size c o)) /\
    processGroupWriteTelegram c o tel m = addObjectFlags c o 8 (putBytes m p 0 (payload (obj_typ c o) tel)).
Proof.
  intros Hc Ho. destruct (objectValuePtr_at c o Hc Ho) as (p & E & Hp). exists p. split; auto. pose proof (typ_byte c o Hc) as Ht.
  assert (R : 0 <= obj_typ c o <= 15) by (destruct Ho as (_ & H & _); unfold is_byte in Ht; lia).
  unfold processGroupWriteTelegram. rewrite E. cbv zeta. unfold telegramObjectSize. rewrite objType_typ, telSize_zero by auto.
  unfold payload. destruct (obj_typ c o <? 6) eqn:T.
  - change (0 <? 0) with false. cbv iota. rewrite mod64. reflexivity.
  - pose proof (type_size_pos _ R). replace (0 <? Z.of_nat (type_size (obj_typ c o))) with true by lia. cbv iota.
    rewrite Nat2Z.id, rev_map_seq. reflexivity.
Qed.

(** the objects satisfying [P] took the telegram's value *)
Definition wrote (c : cfg) (tel : list Z) (P : nat -> bool) (m m' : mem) : Prop :=
  mem_ok c m' /\
  (forall o, (o < num_objs c)%nat -> P o = true -> value c m' o = payload (obj_typ c o) tel /\ flags c m' o = Z.lor (flags c m o) 8) /\
  (forall o, (o < num_objs c)%nat -> P o = false -> value c m' o = value c m o /\ flags c m' o = flags c m o) /\
  (forall a, ~ in_flags c a -> (forall o, (o < num_objs c)%nat -> P o = true -> ~ in_obj c o a) -> cell c m' a = cell c m a).

Lemma wrote_none c tel m : mem_ok c m -> wrote c tel (fun _ => false) m m.
Proof. intros H. split; auto. split; [intros; discriminate|]. split; auto. Qed.
Lemma wrote_ext c tel P Q m m' : (forall o, P o = Q o) -> wrote c tel P m m' -> wrote c tel Q m m'.
Proof.
  intros E (A & B & C & D). split; auto. split; [|split].
  - intros o Ho Hq. apply B; auto. rewrite E; auto.
  - intros o Ho Hq. apply C; auto. rewrite E; auto.
  - intros a H1 H2. apply D; auto. intros o Ho HP. apply H2; auto. rewrite <- E; auto.
Qed.
Lemma wrote_trans c tel P Q m1 m2 m3 : wrote c tel P m1 m2 -> wrote c tel Q m2 m3 -> wrote c tel (fun o => P o || Q o) m1 m3.
Proof.
  intros (A1 & B1 & C1 & D1) (A2 & B2 & C2 & D2). split; auto. split; [|split].
  - intros o Ho H. destruct (Q o) eqn:EQ.
    + destruct (B2 o Ho EQ) as [X Y]. split; auto. rewrite Y. destruct (P o) eqn:EP.
      * rewrite (proj2 (B1 o Ho EP)), <- Z.lor_assoc. reflexivity.
      * rewrite (proj2 (C1 o Ho EP)). reflexivity.
    + rewrite orb_false_r in H. destruct (C2 o Ho EQ) as [-> ->]. apply B1; auto.
  - intros o Ho H. apply orb_false_elim in H. destruct H as [HP HQ]. destruct (C2 o Ho HQ) as [-> ->]. apply C1; auto.
  - intros a H1 H2. rewrite D2, D1; auto; intros o Ho H; apply H2; auto; rewrite H; auto using orb_true_r.
Qed.
Lemma wrote_one c tel m o : cfg_ok c -> layout_ok c -> mem_ok c m -> (o < num_objs c)%nat -> Forall is_byte tel ->
  wrote c tel (Nat.eqb o) m (processGroupWriteTelegram c o tel m).
Proof.
  intros Hc (Hf & Hok & Hd1 & Hd2) Hm Ho Ht. specialize (Hok o Ho) as Hoo. destruct (groupWrite_payload c o tel m Hc Hoo) as (p & Hp & E). rewrite E.
  assert (R : 0 <= obj_typ c o <= 15) by (destruct Hoo as (_ & H & _); pose proof (typ_byte c o Hc); unfold is_byte in *; lia).
  destruct (value_put c m p o (payload (obj_typ c o) tel) Hc Hm Hoo Hp (payload_byte _ _ Ht) (payload_length _ _ R)) as (A1 & A2 & A3).
  set (m1 := putBytes m p 0 (payload (obj_typ c o) tel)) in *.
  destruct (addObjectFlags_step c m1 o 8 Hc A1 Hf Ho ltac:(lia)) as (B1 & B2 & B3). set (m' := addObjectFlags c o 8 m1) in *.
  assert (F : forall q, (q < num_objs c)%nat -> flags c m1 q = flags c m q).
  { intros q Hq. apply flags_same; auto. intros a Ha. apply A3. intros H. apply (Hd1 o a); auto. }
  split; auto. split; [|split].
  - intros q Hq Hqo. apply Nat.eqb_eq in Hqo. subst q. split.
    + rewrite <- A2. apply value_same. intros a Ha. apply B2, (Hd1 o); auto.
    + rewrite B3, Nat.eqb_refl, F; auto.
  - intros q Hq Hqo. apply Nat.eqb_neq in Hqo. split.
    + transitivity (value c m1 q); apply value_same; intros a Ha; [apply B2, (Hd1 q); auto|apply A3; intros H; apply Hqo, (Hd2 o q a); auto].
    + rewrite B3. replace (Nat.eqb q o) with false by (symmetry; apply Nat.eqb_neq; auto). auto.
  - intros a H1 H2. rewrite B2, A3; auto. apply H2; auto. apply Nat.eqb_refl.
Qed.

Lemma write_comm_bits b : (Z.land b COMCONF_WRITE_COMM =? COMCONF_WRITE_COMM) = Z.testbit b 2 && Z.testbit b 4.
Proof.
  unfold COMCONF_WRITE_COMM. destruct (Z.testbit b 2 && Z.testbit b 4) eqn:E.
  - apply andb_true_iff in E. destruct E as [E1 E2]. apply Z.eqb_eq. apply Z.bits_inj'. intros n Hn. rewrite Z.land_spec.
    destruct (Z.eq_dec n 2) as [->|]; [rewrite E1; reflexivity|]. destruct (Z.eq_dec n 4) as [->|]; [rewrite E2; reflexivity|].
    replace (Z.testbit 20 n) with false; [apply andb_false_r|]. symmetry.
    destruct (Z.leb_spec 5 n); [apply (bits_above_lt 20 5); lia|]. assert (n = 0 \/ n = 1 \/ n = 3) as [->|[->| ->]] by lia; reflexivity.
  - apply Z.eqb_neq. intros H. apply andb_false_iff in E. destruct E as [E|E].
    + assert (X : Z.testbit (Z.land b 20) 2 = true) by (rewrite H; reflexivity). rewrite Z.land_spec, E in X. discriminate.
    + assert (X : Z.testbit (Z.land b 20) 4 = true) by (rewrite H; reflexivity). rewrite Z.land_spec, E in X. discriminate.
Qed.
Definition hit (c : cfg) (gapos trg : Z) (l : list (Z * Z)) (o : nat) : bool :=
  existsb (fun e => (gapos =? fst e) && negb (snd e =? trg) && (snd e =? Z.of_nat o)) l && (Z.testbit (obj_conf c o) 2 && Z.testbit (obj_conf c o) 4).
Lemma writeLoop_wrote c gapos tel trg : cfg_ok c -> layout_ok c -> Forall is_byte tel -> forall l m, mem_ok c m ->
  (forall g o, In (g, o) l -> 0 <= o < Z.of_nat (num_objs c)) -> wrote c tel (hit c gapos trg l) m (writeLoop c gapos tel trg l m).
Proof.
  intros Hc Hl Ht. induction l as [|[g o] r IH]; intros m Hm Hr; cbn [writeLoop].
  - apply (wrote_ext c tel (fun _ => false)); [intros; reflexivity|]. apply wrote_none; auto.
  - assert (Hr' : forall g o, In (g, o) r -> 0 <= o < Z.of_nat (num_objs c)) by (intros; apply (Hr g0); right; auto).
    assert (Ho : 0 <= o < Z.of_nat (num_objs c)) by (apply (Hr g); left; auto).
    destruct (gapos =? g) eqn:G; simpl negb; cbv iota; [destruct (o =? trg) eqn:T|].
    + apply (wrote_ext c tel (hit c gapos trg r)); [|apply IH; auto]. intros q. unfold hit. simpl existsb. rewrite G, T. reflexivity.
    + rewrite objConfig_conf, write_comm_bits. cbv zeta.
      destruct (Z.testbit (obj_conf c (Z.to_nat o)) 2 && Z.testbit (obj_conf c (Z.to_nat o)) 4) eqn:W.
      * apply (wrote_ext c tel (fun q => Nat.eqb (Z.to_nat o) q || hit c gapos trg r q)).
        -- intros q. unfold hit. simpl existsb. rewrite G, T. simpl. destruct (Nat.eqb (Z.to_nat o) q) eqn:Q.
           ++ apply Nat.eqb_eq in Q. subst q. rewrite W. replace (o =? Z.of_nat (Z.to_nat o)) with true by lia. reflexivity.
           ++ apply Nat.eqb_neq in Q. replace (o =? Z.of_nat q) with false by lia. reflexivity.
        -- pose proof (wrote_one c tel m (Z.to_nat o) Hc Hl Hm ltac:(lia) Ht) as O. apply (wrote_trans _ _ _ _ _ _ _ O). apply IH; auto. apply O.
      * apply (wrote_ext c tel (hit c gapos trg r)); [|apply IH; auto]. intros q. unfold hit. simpl existsb. rewrite G, T. simpl.
        destruct (o =? Z.of_nat q) eqn:Q; auto. replace q with (Z.to_nat o) by lia. rewrite W, !andb_false_r. reflexivity.
    + apply (wrote_ext c tel (hit c gapos trg r)); [|apply IH; auto]. intros q. unfold hit. simpl existsb. rewrite G. reflexivity.
Qed.

(** ** Address lookup *)
Lemma indexLoop_spec tab addr : Forall is_byte tab -> is_u16 addr -> forall n o i,
  (exists k, (k < n)%nat /\ indexLoop tab o n i addr = i + Z.of_nat k /\ word16 (rd tab (o + 2 * k)) (rd tab (o + 2 * k + 1)) = addr /\
     (forall j, (j < k)%nat -> word16 (rd tab (o + 2 * j)) (rd tab (o + 2 * j + 1)) <> addr)) \/
  (indexLoop tab o n i addr = -1 /\ (forall j, (j < n)%nat -> word16 (rd tab (o + 2 * j)) (rd tab (o + 2 * j + 1)) <> addr)).
Proof.
  intros Hb Ha. induction n; intros o i; cbn [indexLoop].
  - right. split; auto. intros; lia.
  - assert (Q : ((rd tab o =? Z.shiftr addr 8) && (rd tab (o + 1) =? Z.land addr 255)) = (word16 (rd tab o) (rd tab (o + 1)) =? addr)).
    { pose proof (rd_byte tab o Hb). pose proof (rd_byte tab (o + 1) Hb). rewrite land_255, Z.shiftr_div_pow2 by lia. change (2 ^ 8) with 256.
      unfold word16, is_byte, is_u16 in *. pose proof (Z.div_mod addr 256 ltac:(lia)). pose proof (Z.mod_pos_bound addr 256 ltac:(lia)). lia. }
    rewrite Q. destruct (word16 (rd tab o) (rd tab (o + 1)) =? addr) eqn:E.
    + left. exists O. split; [lia|]. split; [lia|]. split; [|intros; lia]. simpl. rewrite Nat.add_0_r. lia.
    + destruct (IHn (o + 2)%nat (i + 1)) as [(k & A & B & C & D)|(A & B)].
      * left. exists (S k). split; [lia|]. split; [lia|]. split.
        -- rewrite <- C. f_equal; f_equal; lia.
        -- intros j Hj. destruct j; [simpl; rewrite Nat.add_0_r; lia|]. intros H. apply (D j); [lia|]. rewrite <- H. f_equal; f_equal; lia.
      * right. split; auto. intros j Hj. destruct j; [simpl; rewrite Nat.add_0_r; lia|]. intros H. apply (B j); [lia|]. rewrite <- H. f_equal; f_equal; lia.
Qed.
Lemma indexOfAddr_spec c addr : cfg_ok c -> is_u16 addr ->
  (exists k, (1 <= k <= num_addrs c)%nat /\ indexOfAddr c addr = Z.of_nat k /\ entry c k = addr /\ (forall j, (1 <= j < k)%nat -> entry c j <> addr)) \/
  (indexOfAddr c addr = -1 /\ (forall j, (1 <= j <= num_addrs c)%nat -> entry c j <> addr)).
Proof.
  intros Hc Ha. unfold indexOfAddr. change (Z.to_nat (rd (addrTab c) 0)) with (num_addrs c).
  assert (X : forall j, word16 (rd (addrTab c) (3 + 2 * j)) (rd (addrTab c) (3 + 2 * j + 1)) = entry c (S j)) by (intros; unfold entry; f_equal; f_equal; lia).
  destruct (indexLoop_spec (addrTab c) addr (ok_addr c Hc) Ha (num_addrs c) 3 1) as [(k & A & B & C & D)|(A & B)].
  - left. exists (S k). split; [lia|]. split; [lia|]. split; [rewrite <- X; exact C|]. intros j Hj. destruct j; [lia|]. rewrite <- X. apply D; lia.
  - right. split; auto. intros j Hj. destruct j; [lia|]. rewrite <- X. apply B; lia.
Qed.
(** with no stray match behind the table the lookup is exactly [first_entry] *)
Lemma indexOfAddr_first c addr : cfg_ok c -> is_u16 addr -> no_stray c addr ->
  (exists k, first_entry c addr k /\ indexOfAddr c addr = Z.of_nat k) \/ (~ knows c addr /\ indexOfAddr c addr = -1).
Proof.
  intros Hc Ha Hs. destruct (indexOfAddr_spec c addr Hc Ha) as [(k & A & B & C & D)|(A & B)].
  - left. exists k. split; auto. split; auto. destruct (Nat.eq_dec k (num_addrs c)) as [->|]; [|lia].
    destruct (Hs ltac:(lia) C) as (j & J1 & J2). destruct (D j); auto; lia.
  - right. split; auto. intros (k & K1 & K2). apply (B k); auto; lia.
Qed.
Lemma first_entry_unique c addr k j : first_entry c addr k -> first_entry c addr j -> k = j.
Proof.
  intros (A1 & A2 & A3) (B1 & B2 & B3). destruct (Nat.lt_trichotomy k j) as [H|[H|H]]; auto.
  - destruct (B3 k); auto; lia.
  - destruct (A3 j); auto; lia.
Qed.
Lemma assocs_in c k o : In (k, o) (assocs c) <-> exists i, (i < Z.to_nat (rd (assocTab c) 0))%nat /\ rd (assocTab c) (1 + 2 * i) = k /\ rd (assocTab c) (2 + 2 * i) = o.
Proof.
  unfold assocs. rewrite in_map_iff. split.
  - intros (i & E & H). apply in_seq in H. injection E as E1 E2. exists i. split; [lia|]. split; auto.
  - intros (i & H & E1 & E2). exists i. split; [rewrite E1, E2; reflexivity|]. apply in_seq; lia.
Qed.
Lemma assocs_range c : cfg_ok c -> assoc_ok c -> forall g o, In (g, o) (assocs c) -> 0 <= o < Z.of_nat (num_objs c).
Proof.
  intros Hc Ha g o H. apply assocs_in in H. destruct H as (i & H1 & H2 & H3).
  pose proof (rd_byte (assocTab c) (1 + 2 * i) (ok_assoc c Hc)) as B1. pose proof (rd_byte (assocTab c) (2 + 2 * i) (ok_assoc c Hc)) as B2. unfold is_byte in *.
  assert (P : paired c (Z.to_nat g) (Z.to_nat o)) by (exists i; split; auto; split; lia). apply Ha in P. lia.
Qed.

(** the objects a group telegram on [addr] reaches *)
Lemma processGroupWrite_wrote c addr tel trg m : cfg_ok c -> layout_ok c -> assoc_ok c -> mem_ok c m -> Forall is_byte tel -> is_u16 addr -> no_stray c addr ->
  exists P, wrote c tel P m (processGroupWrite c addr tel trg m) /\
    (forall o, P o = true <-> associated c addr o /\ write_enabled c o /\ Z.of_nat o <> trg).
Proof.
  intros Hc Hl Ha Hm Ht Hu Hs. unfold processGroupWrite. destruct (indexOfAddr_first c addr Hc Hu Hs) as [(k & K & E)|(K & E)]; rewrite E.
  - replace (Z.of_nat k <? 0) with false by lia. exists (hit c (Z.of_nat k) trg (assocs c)). split.
    + apply writeLoop_wrote; auto. apply assocs_range; auto.
    + intros o. unfold hit. rewrite andb_true_iff, existsb_exists, andb_true_iff. unfold write_enabled, comm_enabled. split.
      * intros (((g & q) & I & J) & W). simpl in J. apply andb_true_iff in J. destruct J as [J J3]. apply andb_true_iff in J. destruct J as [J1 J2].
        apply assocs_in in I. destruct I as (i & I1 & I2 & I3). split; [|split; auto; lia]. exists k. split; auto. exists i. split; auto. split; lia.
      * intros ((k' & K' & (i & I1 & I2 & I3)) & W & N). assert (k' = k) by (eapply first_entry_unique; eauto). subst k'. split; auto.
        exists (Z.of_nat k, Z.of_nat o). split; [apply assocs_in; exists i; auto|]. simpl. lia.
  - change (-1 <? 0) with true. exists (fun _ => false). split; [apply wrote_none; auto|].
    intros o. split; [discriminate|]. intros ((k & (K1 & K2 & _) & _) & _). destruct K. exists k; auto.
Qed.
