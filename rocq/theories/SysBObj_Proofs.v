From Verif Require Import Base Bits ComObj_Model ComObj_Spec ComObj_Proofs ComObj_Values ComObj_Send ComObj_Next SysBObj_Model SysBObj_Spec.

(** ** Sizes and places *)
Lemma sizeB_size t : is_byte t -> sizeOfTypeSYSTEMB t = Z.of_nat (size_of t).
Proof.
  intros H. assert (F : forallb (fun t => sizeOfTypeSYSTEMB t =? Z.of_nat (size_of t)) (range_Z 256) = true) by (vm_compute; reflexivity).
  apply Z.eqb_eq. apply (byte_forall _ F t H).
Qed.
Lemma size_of_pos t : is_byte t -> (1 <= size_of t)%nat.
Proof.
  intros H. assert (F : forallb (fun t => Nat.leb 1 (size_of t)) (range_Z 256) = true) by (vm_compute; reflexivity).
  apply Nat.leb_le. apply (byte_forall _ F t H).
Qed.
Lemma typ_b_byte c o : cfg_ok c -> is_byte (typ_b c o). Proof. intros H. apply com_byte; auto. Qed.
Lemma size_b_pos c o : cfg_ok c -> (1 <= size_b c o)%nat.
Proof. intros H. apply size_of_pos, typ_b_byte; auto. Qed.
Lemma objectSizeB_size c o : cfg_ok c -> objectSizeB c o = Z.of_nat (size_b c o).
Proof. intros H. apply sizeB_size, typ_b_byte; auto. Qed.
Lemma telSizeB c o : cfg_ok c -> telegramObjectSizeB c o = if typ_b c o <? 6 then 0 else Z.of_nat (size_b c o).
Proof. intros H. unfold telegramObjectSizeB. rewrite objectSizeB_size by auto. reflexivity. Qed.
Lemma short_one c o : (typ_b c o <? 6) = true -> cfg_ok c -> size_b c o = 1%nat.
Proof.
  intros H Hc. unfold size_b. pose proof (typ_b_byte c o Hc) as B. unfold is_byte in B. set (t := typ_b c o) in *. clearbody t.
  assert (T : t = 0 \/ t = 1 \/ t = 2 \/ t = 3 \/ t = 4 \/ t = 5) by lia. destruct T as [->|[->|[->|[->|[->| ->]]]]]; reflexivity.
Qed.

Lemma fold_sizes c n : cfg_ok c -> forall a, fold_left (fun a i => a + objectSizeB c i) (seq 1 n) a = a + Z.of_nat (upto c (S n)).
Proof.
  intros Hc. induction n; intros a.
  - simpl. lia.
  - rewrite seq_S, fold_left_app, IHn. cbn [fold_left]. rewrite objectSizeB_size by auto. replace (1 + n)%nat with (S n) by lia.
    change (upto c (S (S n))) with (upto c (S n) + size_b c (S n))%nat. lia.
Qed.
Lemma valueAddrB_addr c o : cfg_ok c -> (1 <= o)%nat -> valueAddrB c o = addr_b c o.
Proof. intros Hc Ho. unfold valueAddrB, addr_b. rewrite fold_sizes by auto. replace (S (o - 1)) with o by lia. reflexivity. Qed.
Lemma upto_S c o : (1 <= o)%nat -> upto c (S o) = (upto c o + size_b c o)%nat.
Proof. intros H. destruct o; [lia|]. reflexivity. Qed.
Lemma addr_b_S c o : (1 <= o)%nat -> addr_b c (S o) = addr_b c o + Z.of_nat (size_b c o).
Proof. intros H. unfold addr_b. rewrite upto_S by auto. lia. Qed.
Lemma addr_b_mono c o q : (1 <= o <= q)%nat -> addr_b c o <= addr_b c q.
Proof. intros [H1 H2]. induction H2; [lia|]. rewrite addr_b_S by lia. lia. Qed.
Lemma addr_b_first c : addr_b c 1 = ramStart c + 2. Proof. unfold addr_b. simpl. lia. Qed.
Lemma in_b_range c o a : object_b c o -> in_b c o a -> addr_b c 1 <= a < addr_b c (S (num_b c)).
Proof.
  intros [H1 H2] [A B]. pose proof (addr_b_mono c 1 o ltac:(lia)). pose proof (addr_b_mono c (S o) (S (num_b c)) ltac:(lia)). rewrite (addr_b_S c o) in * by lia. lia.
Qed.
Lemma in_b_unique c o q a : (1 <= o)%nat -> (1 <= q)%nat -> in_b c o a -> in_b c q a -> o = q.
Proof.
  intros Ho Hq [A B] [C D]. destruct (Nat.lt_trichotomy o q) as [H|[H|H]]; auto.
  - pose proof (addr_b_mono c (S o) q ltac:(lia)). rewrite (addr_b_S c o) in * by lia. lia.
  - pose proof (addr_b_mono c (S q) o ltac:(lia)). rewrite (addr_b_S c q) in * by lia. lia.
Qed.

Lemma value_ptr c o : device_b c -> object_b c o -> exists p, objectValuePtrB c o = Some p /\ ptr_at c p (addr_b c o) (Z.of_nat (size_b c o)).
Proof.
  intros (_ & Hc & Hf & _) Ho. unfold objectValuePtrB. rewrite valueAddrB_addr by (auto; apply Ho). apply userMemoryPtr_at; auto.
  - right. pose proof (addr_b_mono c 1 o ltac:(destruct Ho; lia)). pose proof (addr_b_mono c (S o) (S (num_b c)) ltac:(destruct Ho; lia)). rewrite addr_b_first in *.
    rewrite (addr_b_S c o) in * by (destruct Ho; lia). lia.
  - pose proof (size_b_pos c o Hc). lia.
Qed.

(** ** Flags *)
Lemma flagsTable_b c : isBCU2 c = true -> cfg_ok c -> objectFlagsTable c = userMemoryPtr c (flags_at c).
Proof.
  intros H Hc. unfold objectFlagsTable, flags_at, flags_base. rewrite H. destruct (le_ptr c); rewrite makeWord_word by (apply com_byte; auto); reflexivity.
Qed.
Lemma no_table c : cfg_ok c -> ~ in_area c (flags_at c) 1 -> userMemoryPtr c (flags_at c) = None.
Proof.
  intros Hc H. unfold userMemoryPtr, in_area in *.
  destruct ((eepStart c <=? flags_at c) && (flags_at c <=? eepStart c + eepSize c - 1)) eqn:E1; [exfalso; lia|].
  destruct ((ramStart c <=? flags_at c) && (flags_at c <=? ramStart c + ramSize c - 1)) eqn:E2; [exfalso; lia|]. reflexivity.
Qed.
Lemma flags_len_pos c o : (o <= num_b c)%nat -> Z.of_nat (o / 2) < flags_len c.
Proof. intros H. unfold flags_len. rewrite Nat2Z.inj_div. assert (Z.of_nat o / Z.of_nat 2 <= Z.of_nat (num_b c) / 2) by (apply Z.div_le_mono; lia). lia. Qed.
(** setting flags changes no value *)
Definition outside (c : cfg) (m m' : mem) : Prop := mem_ok c m' /\ forall a, ~ in_flags_b c a -> cell c m' a = cell c m a.
Lemma put_outside c m p o v : cfg_ok c -> mem_ok c m -> (o <= num_b c)%nat -> in_area c (flags_at c) (flags_len c) -> userMemoryPtr c (flags_at c) = Some p -> is_byte v ->
  outside c m (putp m p (o / 2) v).
Proof.
  intros Hc Hm Ho Ha E Hv. pose proof (flags_len_pos c o Ho) as L. destruct (userMemoryPtr_at c _ _ Hc Ha ltac:(lia)) as (p' & E' & Hp). rewrite E in E'. injection E' as <-.
  split; [apply putp_ok; auto|]. intros a N. rewrite (putp_at c m p _ _ _ _ _ Hc Hm Hp L). destruct (a =? flags_at c + Z.of_nat (o / 2)) eqn:Q; auto.
  destruct N. unfold in_flags_b. split; [unfold in_area in *; lia|lia].
Qed.
Lemma addFlags_outside c m o f : device_b c -> flags_clear c -> mem_ok c m -> (o <= num_b c)%nat -> outside c m (addObjectFlags c o f m).
Proof.
  intros (H2 & Hc & _) Hf Hm Ho. unfold addObjectFlags. rewrite flagsTable_b by auto. destruct Hf as [Hf|[Hf _]].
  - rewrite no_table by auto. split; auto.
  - destruct (userMemoryPtr c (flags_at c)) eqn:E; [|split; auto]. apply put_outside; auto. apply u8_byte.
Qed.
Lemma setFlags_outside c m o f : device_b c -> flags_clear c -> mem_ok c m -> (o <= num_b c)%nat -> outside c m (setObjectFlags c o f m).
Proof.
  intros (H2 & Hc & _) Hf Hm Ho. unfold setObjectFlags. rewrite flagsTable_b by auto. destruct Hf as [Hf|[Hf _]].
  - rewrite no_table by auto. split; auto.
  - destruct (userMemoryPtr c (flags_at c)) eqn:E; [|split; auto]. cbv zeta. apply put_outside; auto. apply u8_byte.
Qed.
Lemma value_no_flag c o a : flags_clear c -> object_b c o -> in_b c o a -> ~ in_flags_b c a.
Proof. intros Hf Ho Ha [F1 F2]. pose proof (in_b_range c o a Ho Ha). destruct Hf as [Hf|[_ Hf]]; [auto|lia]. Qed.

(** ** Values *)
Lemma value_b_same c m m' o : (forall a, in_b c o a -> cell c m' a = cell c m a) -> value_b c m' o = value_b c m o.
Proof. intros H. unfold value_b. apply map_ext_in. intros i Hi. apply in_seq in Hi. apply H. unfold in_b. lia. Qed.
Lemma value_b_put c m p o bs : cfg_ok c -> mem_ok c m -> ptr_at c p (addr_b c o) (Z.of_nat (size_b c o)) ->
  Forall is_byte bs -> length bs = size_b c o ->
  mem_ok c (putBytes m p 0 bs) /\ value_b c (putBytes m p 0 bs) o = bs /\ (forall a, ~ in_b c o a -> cell c (putBytes m p 0 bs) a = cell c m a).
Proof.
  intros Hc Hm Hp Hb Hl. split; [apply putBytes_ok; auto|].
  assert (P : forall a, cell c (putBytes m p 0 bs) a = if (addr_b c o <=? a) && (a <? addr_b c o + Z.of_nat (size_b c o)) then nth (Z.to_nat (a - addr_b c o)) bs 0 else cell c m a).
  { intros a. rewrite (putBytes_at c p _ _ bs Hc Hp m 0 a Hm Hb) by (simpl; lia). rewrite Hl, Z.add_0_r, Z.sub_0_r. reflexivity. }
  split.
  - apply (list_ext _ _ _ 0); unfold value_b; rewrite map_length, seq_length; auto.
    intros i Hi. rewrite (nth_indep _ 0 (cell c (putBytes m p 0 bs) (addr_b c o + Z.of_nat 0))) by (rewrite map_length, seq_length; auto).
    rewrite (map_nth (fun i => cell c (putBytes m p 0 bs) (addr_b c o + Z.of_nat i))), seq_nth, P by auto. simpl.
    replace ((addr_b c o <=? addr_b c o + Z.of_nat i) && (addr_b c o + Z.of_nat i <? addr_b c o + Z.of_nat (size_b c o))) with true by lia.
    f_equal. lia.
  - intros a Ha. rewrite P. unfold in_b in Ha.
    replace ((addr_b c o <=? a) && (a <? addr_b c o + Z.of_nat (size_b c o))) with false by lia. reflexivity.
Qed.
Lemma objectReadB_num c m o : device_b c -> mem_ok c m -> object_b c o -> objectReadB c o m = le_num (value_b c m o) mod 2 ^ 32.
Proof.
  intros Hd Hm Ho. destruct (value_ptr c o Hd Ho) as (p & E & Hp). destruct Hd as (_ & Hc & _). pose proof (size_b_pos c o Hc) as Hs.
  unfold objectReadB. rewrite E, objectSizeB_size, Nat2Z.id by auto. unfold value_b. destruct (size_b c o) as [|k]; [lia|].
  rewrite (readLoop_num c m p (addr_b c o) (Z.of_nat (S k)) Hc Hm Hp) by (try lia; rewrite (getp_at c m p _ _ k Hc Hp) by lia; pose proof (cell_byte c m (addr_b c o + Z.of_nat k) Hm); unfold is_byte in *; lia).
  rewrite (getp_at c m p _ _ k Hc Hp) by lia. rewrite seq_S, map_app. simpl map. rewrite le_num_app, map_length, seq_length. f_equal. ring.
Qed.
Lemma objectWriteB_effect c m o v f : device_b c -> flags_clear c -> mem_ok c m -> object_b c o ->
  let m' := objectWriteB_ c o v f m in
  mem_ok c m' /\ value_b c m' o = writeBytes (size_b c o) v /\
  (forall a, ~ in_b c o a -> ~ in_flags_b c a -> cell c m' a = cell c m a).
Proof.
  intros Hd Hf Hm Ho m'. destruct (value_ptr c o Hd Ho) as (p & E & Hp). pose proof Hd as (_ & Hc & _).
  assert (M : m' = setObjectFlags c o f (putBytes m p 0 (writeBytes (size_b c o) v))).
  { unfold m', objectWriteB_. rewrite E, objectSizeB_size, Nat2Z.id by auto. replace (Z.of_nat (size_b c o) =? -1) with false by lia. reflexivity. }
  destruct (value_b_put c m p o (writeBytes (size_b c o) v) Hc Hm Hp (writeBytes_byte _ _) (writeBytes_length _ _)) as (A1 & A2 & A3).
  set (m1 := putBytes m p 0 (writeBytes (size_b c o) v)) in *.
  destruct (setFlags_outside c m1 o f Hd Hf A1 (proj2 Ho)) as (B1 & B2). rewrite <- M in *.
  split; auto. split.
  - rewrite <- A2. apply value_b_same. intros a Ha. apply B2. eapply value_no_flag; eauto.
  - intros a H1 H2. rewrite B2, A3; auto.
Qed.

(** ** Group writes *)
Lemma payload_b_length c o tel : cfg_ok c -> length (payload_b (typ_b c o) tel) = size_b c o.
Proof.
  intros H. unfold payload_b. destruct (typ_b c o <? 6) eqn:E; [rewrite short_one by auto; reflexivity|rewrite map_length, seq_length; reflexivity].
Qed.
Lemma payload_b_byte t tel : Forall is_byte tel -> Forall is_byte (payload_b t tel).
Proof.
  intros H. unfold payload_b. destruct (t <? 6).
  - constructor; auto. unfold is_byte. pose proof (Z.mod_pos_bound (rd tel 7) 64). lia.
  - apply Forall_forall. intros x Hx. apply in_map_iff in Hx. destruct Hx as (i & <- & _). apply rd_byte; auto.
Qed.
Lemma writeB_payload c o tel m : device_b c -> object_b c o ->
  exists p, ptr_at c p (addr_b c o) (Z.of_nat (size_b c o)) /\
    processGroupWriteTelegramB c o tel m = addObjectFlags c o 8 (putBytes m p 0 (payload_b (typ_b c o) tel)).
Proof.
  intros Hd Ho. destruct (value_ptr c o Hd Ho) as (p & E & Hp). exists p. split; auto. destruct Hd as (_ & Hc & _).
  unfold processGroupWriteTelegramB. rewrite E. cbv zeta. rewrite telSizeB by auto. unfold payload_b. destruct (typ_b c o <? 6) eqn:T.
  - change (0 <? 0) with false. cbv iota. rewrite mod64. reflexivity.
  - pose proof (size_b_pos c o Hc). replace (0 <? Z.of_nat (size_b c o)) with true by lia. cbv iota. rewrite Nat2Z.id, rev_map_seq. reflexivity.
Qed.

Definition wroteB (c : cfg) (tel : list Z) (P : nat -> bool) (m m' : mem) : Prop :=
  mem_ok c m' /\
  (forall o, object_b c o -> P o = true -> value_b c m' o = payload_b (typ_b c o) tel) /\
  (forall o, object_b c o -> P o = false -> value_b c m' o = value_b c m o) /\
  (forall a, ~ in_flags_b c a -> (forall o, object_b c o -> P o = true -> ~ in_b c o a) -> cell c m' a = cell c m a).
Lemma wroteB_none c tel m : mem_ok c m -> wroteB c tel (fun _ => false) m m.
Proof. intros H. split; auto. split; [intros; discriminate|]. split; auto. Qed.
Lemma wroteB_ext c tel P Q m m' : (forall o, object_b c o -> P o = Q o) -> wroteB c tel P m m' -> wroteB c tel Q m m'.
Proof.
  intros E (A & B & C & D). split; auto. split; [|split].
  - intros o Ho Hq. apply B; auto. rewrite E; auto.
  - intros o Ho Hq. apply C; auto. rewrite E; auto.
  - intros a H1 H2. apply D; auto. intros o Ho HP. apply H2; auto. rewrite <- E; auto.
Qed.
Lemma wroteB_trans c tel P Q m1 m2 m3 : wroteB c tel P m1 m2 -> wroteB c tel Q m2 m3 -> wroteB c tel (fun o => P o || Q o) m1 m3.
Proof.
  intros (A1 & B1 & C1 & D1) (A2 & B2 & C2 & D2). split; auto. split; [|split].
  - intros o Ho H. destruct (Q o) eqn:EQ; [auto|]. rewrite orb_false_r in H. rewrite C2 by auto. apply B1; auto.
  - intros o Ho H. apply orb_false_elim in H. destruct H as [HP HQ]. rewrite C2 by auto. apply C1; auto.
  - intros a H1 H2. rewrite D2, D1; auto; intros o Ho H; apply H2; auto; rewrite H; auto using orb_true_r.
Qed.
Lemma wroteB_one c tel m o : device_b c -> flags_clear c -> mem_ok c m -> object_b c o -> Forall is_byte tel ->
  wroteB c tel (Nat.eqb o) m (processGroupWriteTelegramB c o tel m).
Proof.
  intros Hd Hf Hm Ho Ht. destruct (writeB_payload c o tel m Hd Ho) as (p & Hp & E). rewrite E. pose proof Hd as (_ & Hc & _).
  destruct (value_b_put c m p o (payload_b (typ_b c o) tel) Hc Hm Hp (payload_b_byte _ _ Ht) (payload_b_length _ _ _ Hc)) as (A1 & A2 & A3).
  set (m1 := putBytes m p 0 (payload_b (typ_b c o) tel)) in *.
  destruct (addFlags_outside c m1 o 8 Hd Hf A1 (proj2 Ho)) as (B1 & B2). set (m' := addObjectFlags c o 8 m1) in *.
  split; auto. split; [|split].
  - intros q Hq Hqo. apply Nat.eqb_eq in Hqo. subst q. rewrite <- A2. apply value_b_same. intros a Ha. apply B2. eapply value_no_flag; eauto.
  - intros q Hq Hqo. apply Nat.eqb_neq in Hqo.
    transitivity (value_b c m1 q); apply value_b_same; intros a Ha; [apply B2; eapply value_no_flag; eauto|apply A3; intros H; apply Hqo, (in_b_unique c o q a); auto; [apply Ho|apply Hq]].
  - intros a H1 H2. rewrite B2, A3; auto. apply H2; auto. apply Nat.eqb_refl.
Qed.

Definition hitB (c : cfg) (gapos trg : Z) (l : list (Z * Z)) (o : nat) : bool :=
  existsb (fun e => (gapos =? fst e) && negb (snd e =? trg) && (snd e =? Z.of_nat o)) l && (Z.testbit (conf_b c o) 2 && Z.testbit (conf_b c o) 4).
Lemma writeLoopB_wrote c gapos tel trg : device_b c -> flags_clear c -> Forall is_byte tel -> forall l m, mem_ok c m ->
  (forall g o, In (g, o) l -> 1 <= o <= Z.of_nat (num_b c)) -> wroteB c tel (hitB c gapos trg l) m (writeLoopB c gapos tel trg l m).
Proof.
  intros Hd Hf Ht. induction l as [|[g o] r IH]; intros m Hm Hr; cbn [writeLoopB].
  - apply (wroteB_ext c tel (fun _ => false)); [intros; reflexivity|]. apply wroteB_none; auto.
  - assert (Hr' : forall g o, In (g, o) r -> 1 <= o <= Z.of_nat (num_b c)) by (intros; apply (Hr g0); right; auto).
    assert (Ho : 1 <= o <= Z.of_nat (num_b c)) by (apply (Hr g); left; auto).
    destruct (gapos =? g) eqn:G; simpl negb; cbv iota; [destruct (o =? trg) eqn:T|].
    + apply (wroteB_ext c tel (hitB c gapos trg r)); [|apply IH; auto]. intros q _. unfold hitB. simpl existsb. rewrite G, T. reflexivity.
    + rewrite write_comm_bits. change (objConfigB c (Z.to_nat o)) with (conf_b c (Z.to_nat o)). cbv zeta.
      destruct (Z.testbit (conf_b c (Z.to_nat o)) 2 && Z.testbit (conf_b c (Z.to_nat o)) 4) eqn:W.
      * apply (wroteB_ext c tel (fun q => Nat.eqb (Z.to_nat o) q || hitB c gapos trg r q)).
        -- intros q _. unfold hitB. simpl existsb. rewrite G, T. simpl. destruct (Nat.eqb (Z.to_nat o) q) eqn:Q.
           ++ apply Nat.eqb_eq in Q. subst q. rewrite W. replace (o =? Z.of_nat (Z.to_nat o)) with true by lia. reflexivity.
           ++ apply Nat.eqb_neq in Q. replace (o =? Z.of_nat q) with false by lia. reflexivity.
        -- assert (OB : object_b c (Z.to_nat o)) by (unfold object_b; lia).
           pose proof (wroteB_one c tel m (Z.to_nat o) Hd Hf Hm OB Ht) as O. apply (wroteB_trans _ _ _ _ _ _ _ O). apply IH; auto. apply O.
      * apply (wroteB_ext c tel (hitB c gapos trg r)); [|apply IH; auto]. intros q _. unfold hitB. simpl existsb. rewrite G, T. simpl.
        destruct (o =? Z.of_nat q) eqn:Q; auto. replace q with (Z.to_nat o) by lia. rewrite W, !andb_false_r. reflexivity.
    + apply (wroteB_ext c tel (hitB c gapos trg r)); [|apply IH; auto]. intros q _. unfold hitB. simpl existsb. rewrite G. reflexivity.
Qed.

(** ** Tables *)
Lemma assocsB_pairs c : cfg_ok c -> assocsB c = map (fun i => (pair_addr c i, pair_obj c i)) (seq 0 (pairs_b c)).
Proof.
  intros Hc. unfold assocsB, pairs_b. rewrite makeWord_word by (apply rd_byte, (ok_assoc c Hc)). apply map_ext. intros i.
  rewrite !makeWord_word by (apply rd_byte, (ok_assoc c Hc)). reflexivity.
Qed.
Lemma pair_obj_range c i : cfg_ok c -> 0 <= pair_obj c i.
Proof. intros Hc. unfold pair_obj, word16. pose proof (rd_byte (assocTab c) (4 + 4 * i) (ok_assoc c Hc)). pose proof (rd_byte (assocTab c) (5 + 4 * i) (ok_assoc c Hc)). unfold is_byte in *. lia. Qed.
Lemma pair_addr_range c i : cfg_ok c -> 0 <= pair_addr c i.
Proof. intros Hc. unfold pair_addr, word16. pose proof (rd_byte (assocTab c) (2 + 4 * i) (ok_assoc c Hc)). pose proof (rd_byte (assocTab c) (3 + 4 * i) (ok_assoc c Hc)). unfold is_byte in *. lia. Qed.
Lemma assocsB_in c g o : cfg_ok c -> In (g, o) (assocsB c) <-> exists i, (i < pairs_b c)%nat /\ pair_addr c i = g /\ pair_obj c i = o.
Proof.
  intros Hc. rewrite assocsB_pairs by auto. rewrite in_map_iff. split.
  - intros (i & E & H). apply in_seq in H. injection E as E1 E2. exists i. split; [lia|]. auto.
  - intros (i & H & E1 & E2). exists i. split; [rewrite E1, E2; reflexivity|]. apply in_seq; lia.
Qed.
Lemma assocsB_range c : cfg_ok c -> pairs_ok c -> forall g o, In (g, o) (assocsB c) -> 1 <= o <= Z.of_nat (num_b c).
Proof.
  intros Hc Hp g o H. apply assocsB_in in H; auto. destruct H as (i & H1 & H2 & H3). pose proof (pair_obj_range c i Hc). pose proof (pair_addr_range c i Hc).
  assert (P : paired_b c (Z.to_nat g) (Z.to_nat o)) by (exists i; split; [auto|split; lia]). apply Hp in P. unfold object_b in P. lia.
Qed.
Lemma indexB_first c addr : cfg_ok c -> is_u16 addr ->
  (exists k, first_b c addr k /\ indexOfAddrSYSTEMB (addrTab c) addr = Z.of_nat k) \/
  (indexOfAddrSYSTEMB (addrTab c) addr = -1 /\ forall k, ~ first_b c addr k).
Proof.
  intros Hc Hu. unfold indexOfAddrSYSTEMB. rewrite Z.shiftl_mul_pow2 by lia. change (2 ^ 8) with 256. fold (word16 (rd (addrTab c) 0) (rd (addrTab c) 1)). fold (addrs_b c).
  destruct (indexLoop_spec (addrTab c) addr (ok_addr c Hc) Hu (addrs_b c) 2 1) as [(k & A & B & C & D)|(A & B)].
  - left. exists (S k). split; [|lia]. split; [lia|]. unfold entry_b. split.
    + replace (2 * S k)%nat with (2 + 2 * k)%nat by lia. exact C.
    + intros j Hj. replace (2 * j)%nat with (2 + 2 * (j - 1))%nat by lia. apply D. lia.
  - right. split; auto. intros k (K1 & K2 & _). apply (B (k - 1)%nat ltac:(lia)). rewrite <- K2. unfold entry_b. f_equal; f_equal; lia.
Qed.
Lemma first_b_unique c addr k j : first_b c addr k -> first_b c addr j -> k = j.
Proof.
  intros (A1 & A2 & A3) (B1 & B2 & B3). destruct (Nat.lt_trichotomy k j) as [H|[H|H]]; auto.
  - destruct (B3 k); auto; lia.
  - destruct (A3 j); auto; lia.
Qed.
Lemma processB_wrote c addr tel trg m : device_b c -> flags_clear c -> pairs_ok c -> mem_ok c m -> Forall is_byte tel -> is_u16 addr ->
  exists P, wroteB c tel P m (processGroupWriteB c addr tel trg m) /\
    (forall o, P o = true <-> assoc_b c addr o /\ write_b c o /\ Z.of_nat o <> trg).
Proof.
  intros Hd Hf Ha Hm Ht Hu. pose proof Hd as (_ & Hc & _). unfold processGroupWriteB. cbv zeta. destruct (indexB_first c addr Hc Hu) as [(k & K & E)|(E & K)]; rewrite E.
  - replace (Z.of_nat k <? 0) with false by lia. exists (hitB c (Z.of_nat k) trg (assocsB c)). split.
    + apply writeLoopB_wrote; auto. apply assocsB_range; auto.
    + intros o. unfold hitB. rewrite andb_true_iff, existsb_exists, andb_true_iff. unfold write_b. split.
      * intros (((g & q) & I & J) & W). simpl in J. apply andb_true_iff in J. destruct J as [J J3]. apply andb_true_iff in J. destruct J as [J1 J2].
        apply assocsB_in in I; auto. destruct I as (i & I1 & I2 & I3). split; [|split; auto; lia]. exists k. split; auto. exists i. split; auto. split; lia.
      * intros ((k' & K' & (i & I1 & I2 & I3)) & W & N). assert (k' = k) by (eapply first_b_unique; eauto). subst k'. split; auto.
        exists (Z.of_nat k, Z.of_nat o). split; [apply assocsB_in; auto; exists i; auto|]. simpl. lia.
  - change (-1 <? 0) with true. exists (fun _ => false). split; [apply wroteB_none; auto|].
    intros o. split; [discriminate|]. intros ((k & K1 & _) & _). destruct (K k); auto.
Qed.
