(** C16-C22 and C66: group communication objects of BCU1 and BCU2 devices *)
From Verif Require Import Base Bits Telegram_Model ComObj_Model ComObj_Spec ComObj_Proofs ComObj_Values ComObj_Send ComObj_Next.

(** ** Examples: a BCU1 device with three objects and a BCU2 device with two *)
(** objects: 0 a switch (transmit, read, write), 1 a 2-byte value (transmit, write), 2 a switch (read, write) *)
Definition ex1 : cfg := mkCfg false false [4; 0x11; 0x07; 0x09; 0x01; 0x09; 0x02; 0x0A; 0x03; 0; 0] [5; 1; 0; 2; 1; 1; 2; 3; 0; 2; 2]
  [3; 0x60; 0x70; 0x5F; 0; 0x71; 0x57; 8; 0x73; 0x1F; 0] 0 256 256 256.
Definition ex1_mem : mem := mkMem (wr (wr (wr (wr (repeat 0 256) 0x60 0x83) 0x61 0x08) 0x70 1) 0x71 0x34) (repeat 0 256).
(** objects: 0 a 4-byte value, 1 a 6-bit value *)
Definition ex2 : cfg := mkCfg true true [3; 0x11; 0x08; 0x09; 0x01; 0x09; 0x02; 0; 0] [2; 1; 1; 2; 0]
  [2; 0x10; 0x09; 0x20; 0x09; 0x5F; 10; 0x24; 0x09; 0x5F; 5] 0x900 256 0x3300 256.
Definition ex2_mem : mem := mkMem (repeat 0 256) (repeat 0 256).
Lemma ex1_cfg : cfg_ok ex1. Proof. split; try (vm_compute; intuition discriminate); unfold ex1; cbn [addrTab assocTab comTab]; repeat (apply Forall_cons; [unfold is_byte; lia|]); apply Forall_nil. Qed.
Lemma ex2_cfg : cfg_ok ex2. Proof. split; try (vm_compute; intuition discriminate); unfold ex2; cbn [addrTab assocTab comTab]; repeat (apply Forall_cons; [unfold is_byte; lia|]); apply Forall_nil. Qed.
Lemma ex1_n : num_objs ex1 = 3%nat. Proof. reflexivity. Qed.
Lemma ex2_n : num_objs ex2 = 2%nat. Proof. reflexivity. Qed.
Lemma repeat_bytes n : Forall is_byte (repeat 0 n).
Proof. apply Forall_forall. intros x H. apply repeat_spec in H. subst. unfold is_byte. lia. Qed.
Lemma ex1_mem_ok : mem_ok ex1 ex1_mem.
Proof.
  split; [reflexivity|reflexivity| |apply repeat_bytes]. unfold ex1_mem. cbn [ram].
  apply Forall_wr; [apply Forall_wr; [apply Forall_wr; [apply Forall_wr; [apply repeat_bytes|]|]|]|]; unfold is_byte; lia.
Qed.
Lemma ex2_mem_ok : mem_ok ex2 ex2_mem. Proof. split; try reflexivity; apply repeat_bytes. Qed.
Lemma ex1_objs : forall o, (o < 3)%nat -> (obj_typ ex1 o <= 15) /\ obj_addr ex1 o = nth o [0x70; 0x71; 0x73] 0 /\ obj_size ex1 o = nth o [1; 2; 1]%nat 0%nat.
Proof. intros o H. destruct o as [|[|[|o]]]; [..|exfalso; lia]; vm_compute; intuition discriminate. Qed.
Lemma ex1_layout : layout_ok ex1.
Proof.
  assert (F : flags_base ex1 = 0x60) by reflexivity.
  unfold layout_ok, flags_ok, obj_ok, in_obj, in_flags, in_area. rewrite ex1_n, F. change (ramStart ex1) with 0. change (ramSize ex1) with 256. change (eepStart ex1) with 256. change (eepSize ex1) with 256.
  change ((Z.of_nat 3 + 1) / 2) with 2. repeat apply conj.
  - lia.
  - intros o H. destruct (ex1_objs o H) as (A & B & C). rewrite B, C. split; auto. split; auto. destruct o as [|[|[|o]]]; cbn [nth]; lia.
  - intros o a H. destruct (ex1_objs o H) as (A & B & C). rewrite B, C. destruct o as [|[|[|o]]]; cbn [nth]; lia.
  - intros o1 o2 a H1 H2. destruct (ex1_objs o1 H1) as (A & B & C). destruct (ex1_objs o2 H2) as (A2 & B2 & C2). rewrite B, C, B2, C2.
    destruct o1 as [|[|[|o1]]]; destruct o2 as [|[|[|o2]]]; cbn [nth]; lia.
Qed.
Lemma ex2_objs : forall o, (o < 2)%nat -> (obj_typ ex2 o <= 15) /\ obj_addr ex2 o = nth o [0x920; 0x924] 0 /\ obj_size ex2 o = nth o [4; 1]%nat 0%nat.
Proof. intros o H. destruct o as [|[|o]]; [..|exfalso; lia]; vm_compute; intuition discriminate. Qed.
Lemma ex2_layout : layout_ok ex2.
Proof.
  assert (F : flags_base ex2 = 0x910) by reflexivity.
  unfold layout_ok, flags_ok, obj_ok, in_obj, in_flags, in_area. rewrite ex2_n, F. change (ramStart ex2) with 0x900. change (ramSize ex2) with 256. change (eepStart ex2) with 0x3300. change (eepSize ex2) with 256.
  change ((Z.of_nat 2 + 1) / 2) with 1. repeat apply conj.
  - lia.
  - intros o H. destruct (ex2_objs o H) as (A & B & C). rewrite B, C. split; auto. split; auto. destruct o as [|[|o]]; cbn [nth]; lia.
  - intros o a H. destruct (ex2_objs o H) as (A & B & C). rewrite B, C. destruct o as [|[|o]]; cbn [nth]; lia.
  - intros o1 o2 a H1 H2. destruct (ex2_objs o1 H1) as (A & B & C). destruct (ex2_objs o2 H2) as (A2 & B2 & C2). rewrite B, C, B2, C2.
    destruct o1 as [|[|o1]]; destruct o2 as [|[|o2]]; cbn [nth]; lia.
Qed.
Lemma ex1_pairs : forall k o, paired ex1 k o -> (o < 3)%nat /\ (1 <= k < 4)%nat.
Proof.
  intros k o (i & H & A & B). change (Z.to_nat (rd (assocTab ex1) 0)) with 5%nat in H. destruct i as [|[|[|[|[|i]]]]]; [..|exfalso; lia];
  match type of A with ?x = _ => let y := eval vm_compute in x in change x with y in A end;
  match type of B with ?x = _ => let y := eval vm_compute in x in change x with y in B end; lia.
Qed.
Lemma ex1_assoc : assoc_ok ex1. Proof. intros k o H. apply (proj1 (ex1_pairs k o H)). Qed.
Lemma ex1_idx : assoc_idx_ok ex1. Proof. intros k o H. apply (proj2 (ex1_pairs k o H)). Qed.
Lemma ex2_pairs : forall k o, paired ex2 k o -> (o < 2)%nat /\ (1 <= k < 3)%nat.
Proof.
  intros k o (i & H & A & B). change (Z.to_nat (rd (assocTab ex2) 0)) with 2%nat in H. destruct i as [|[|i]]; [..|exfalso; lia];
  match type of A with ?x = _ => let y := eval vm_compute in x in change x with y in A end;
  match type of B with ?x = _ => let y := eval vm_compute in x in change x with y in B end; lia.
Qed.

(** ** C16 *)
Theorem C16_add_flags : forall c m o f, cfg_ok c -> mem_ok c m -> flags_ok c -> (o < num_objs c)%nat -> 0 <= f < 16 ->
  let m' := addObjectFlags c o f m in
  flags c m' o = Z.lor (flags c m o) f /\ (forall q, q <> o -> flags c m' q = flags c m q) /\ (forall a, ~ in_flags c a -> cell c m' a = cell c m a).
Proof.
  intros c m o f Hc Hm Hf Ho Hr m'. destruct (addObjectFlags_step c m o f Hc Hm Hf Ho Hr) as (A & B & C). fold m' in A, B, C.
  split; [rewrite C, Nat.eqb_refl; reflexivity|]. split; auto. intros q Hq. rewrite C. apply Nat.eqb_neq in Hq. rewrite Hq. reflexivity.
Qed.
Print Assumptions C16_add_flags.
Theorem C16_set_flags : forall c m o f, cfg_ok c -> mem_ok c m -> flags_ok c -> (o < num_objs c)%nat -> 0 <= f < 16 ->
  let m' := setObjectFlags c o f m in
  flags c m' o = f /\ (forall q, q <> o -> flags c m' q = flags c m q) /\ (forall a, ~ in_flags c a -> cell c m' a = cell c m a).
Proof.
  intros c m o f Hc Hm Hf Ho Hr m'. destruct (setObjectFlags_step c m o f Hc Hm Hf Ho Hr) as (A & B & C). fold m' in A, B, C.
  split; [rewrite C, Nat.eqb_refl; reflexivity|]. split; auto. intros q Hq. rewrite C. apply Nat.eqb_neq in Hq. rewrite Hq. reflexivity.
Qed.
Print Assumptions C16_set_flags.
Example C16_example : cfg_ok ex1 /\ mem_ok ex1 ex1_mem /\ flags_ok ex1 /\ map (flags ex1 ex1_mem) [0; 1; 2]%nat = [3; 8; 8] /\
  map (flags ex1 (addObjectFlags ex1 1 4 ex1_mem)) [0; 1; 2]%nat = [3; 12; 8] /\ map (flags ex1 (setObjectFlags ex1 1 7 ex1_mem)) [0; 1; 2]%nat = [3; 7; 8].
Proof. split; [exact ex1_cfg|]. split; [exact ex1_mem_ok|]. split; [apply ex1_layout|]. vm_compute. auto. Qed.

(** ** C17 *)
Fixpoint increasing (l : list nat) : Prop := match l with [] => True | x :: r => (forall y, In y r -> (x < y)%nat) /\ increasing r end.
Lemma filter_seq_increasing f n : forall s, increasing (filter f (seq s n)).
Proof.
  induction n; intros s; cbn [seq filter]; [exact I|]. destruct (f s); auto. split; auto. intros y Hy. apply filter_In in Hy. destruct Hy as [Hy _]. apply in_seq in Hy. lia.
Qed.
(** [k] calls of nextUpdatedObject: first the updated objects, each once and in increasing order, then -1; the update flags are cleared, nothing else changes *)
Theorem C17_each_update_reported_once : forall c m, cfg_ok c -> mem_ok c m -> flags_ok c -> (0 < num_objs c)%nat ->
  exists l, increasing l /\ (forall o, In o l <-> (o < num_objs c)%nat /\ updated c m o) /\
    forall extra, exists m', ask c (length l + extra) m = (map Z.of_nat l ++ repeat (-1) extra, m') /\
      (forall o, (o < num_objs c)%nat -> flags c m' o = flags c m o mod 8) /\ (forall a, ~ in_flags c a -> cell c m' a = cell c m a).
Proof.
  intros c m Hc Hm Hf Hn. exists (filter (updatedb c m) (seq 0 (num_objs c))). split; [apply filter_seq_increasing|]. split.
  - intros o. rewrite filter_In, in_seq. unfold updated, updatedb. intuition lia.
  - intros extra. destruct (ask_all c Hc Hf Hn _ m extra Hm eq_refl) as (m' & A & B & C & D). exists m'. split; auto. split; auto.
    intros o Ho. rewrite D by auto. change 7 with (Z.ones 3). rewrite Z.land_ones by lia. reflexivity.
Qed.
Print Assumptions C17_each_update_reported_once.
Example C17_example : cfg_ok ex1 /\ mem_ok ex1 ex1_mem /\ flags_ok ex1 /\ (0 < num_objs ex1)%nat /\ fst (ask ex1 4 ex1_mem) = [1; 2; -1; -1].
Proof. split; [exact ex1_cfg|]. split; [exact ex1_mem_ok|]. split; [apply ex1_layout|]. vm_compute. auto. Qed.

(** ** C18 *)
Theorem C18_group_write : forall c s tel addr apci, cfg_ok c -> layout_ok c -> assoc_ok c -> mem_ok c (smem s) -> Forall is_byte tel -> is_u16 addr -> no_stray c addr ->
  Z.land apci 0x3c0 = 0x80 \/ Z.land apci 0x3c0 = 0x40 ->
  let s' := processGroupAddressTelegram c apci addr tel s in
  (forall o, associated c addr o -> write_enabled c o -> value c (smem s') o = payload (obj_typ c o) tel /\ flags c (smem s') o = Z.lor (flags c (smem s) o) 8 /\ updated c (smem s') o) /\
  (forall o, (o < num_objs c)%nat -> ~ (associated c addr o /\ write_enabled c o) -> value c (smem s') o = value c (smem s) o /\ flags c (smem s') o = flags c (smem s) o) /\
  (forall a, ~ in_flags c a -> (forall o, (o < num_objs c)%nat -> ~ in_obj c o a) -> cell c (smem s') a = cell c (smem s) a) /\ sent s' = sent s.
Proof.
  intros c s tel addr apci Hc Hl Ha Hm Ht Hu Hs Hap s'.
  assert (E : s' = mkSt (processGroupWrite c addr tel INVALID_OBJECT_NUMBER (smem s)) (sendBuf s) (sent s) (sendNext s) (transmitting s)).
  { unfold s', processGroupAddressTelegram, processGroupTelegram, APCI_GROUP_MASK. destruct Hap as [-> | ->]; reflexivity. }
  rewrite E. cbn [smem sent]. destruct (processGroupWrite_wrote c addr tel INVALID_OBJECT_NUMBER (smem s) Hc Hl Ha Hm Ht Hu Hs) as (P & (W1 & W2 & W3 & W4) & I).
  split; [|split; [|split; [|reflexivity]]].
  - intros o A W. assert (Ho : (o < num_objs c)%nat) by (destruct A as (k & _ & A); apply (Ha k); auto).
    assert (PO : P o = true) by (apply I; unfold INVALID_OBJECT_NUMBER; split; auto; split; auto; lia). destruct (W2 o Ho PO) as [X Y]. split; auto. split; auto.
    unfold updated. rewrite Y, Z.lor_spec. change (Z.testbit 8 3) with true. apply orb_true_r.
  - intros o Ho N. apply W3; auto. destruct (P o) eqn:PO; auto. apply I in PO. destruct N. tauto.
  - intros a NF NO. apply W4; auto.
Qed.
Print Assumptions C18_group_write.
Example C18_example : cfg_ok ex1 /\ layout_ok ex1 /\ assoc_ok ex1 /\ no_stray ex1 0x0901 /\
  let s := mkSt ex1_mem (repeat 0 23) [] 0 0 in
  let s' := processGroupAddressTelegram ex1 0x80 0x0901 [0xBC; 0x11; 1; 9; 1; 0xE1; 0; 0x80; 0] s in
  map (value ex1 (smem s)) [0; 1; 2]%nat = [[1]; [0x34; 0]; [0]] /\ map (value ex1 (smem s')) [0; 1; 2]%nat = [[0]; [0x34; 0]; [0]] /\
  map (flags ex1 (smem s')) [0; 1; 2]%nat = [11; 8; 8] /\
  value ex1 (smem (processGroupAddressTelegram ex1 0x80 0x0902 [0xBC; 0x11; 1; 9; 2; 0xE3; 0; 0x80; 0x0C; 0x33; 0] s)) 1 = [0x33; 0x0C].
Proof.
  split; [exact ex1_cfg|]. split; [exact ex1_layout|]. split; [exact ex1_assoc|]. split; [intros _ H; vm_compute in H; discriminate|]. vm_compute. auto.
Qed.

(** ** C19 *)
(** [f]: the flags objectWrite (3), objectSetValue (0) and objectUpdate (8) give the object *)
Theorem C19_store_and_read : forall c m o v f, cfg_ok c -> mem_ok c m -> layout_ok c -> (o < num_objs c)%nat -> (obj_size c o <= 4)%nat -> 0 <= f < 16 ->
  let m' := objectWrite_ c o v f m in
  objectRead c o m' = v mod 256 ^ Z.of_nat (obj_size c o) /\ flags c m' o = f /\
  (forall q, (q < num_objs c)%nat -> q <> o -> flags c m' q = flags c m q /\ value c m' q = value c m q) /\
  (forall a, ~ in_obj c o a -> ~ in_flags c a -> cell c m' a = cell c m a).
Proof.
  intros c m o v f Hc Hm (Hf & Hok & D1 & D2) Ho Hs Hr m'.
  destruct (objectWrite_effect c m o v f Hc Hm Hf (Hok o Ho) (fun a => D1 o a Ho) Hr) as (A & B & C & D). fold m' in A, B, C, D.
  split; [|split; [rewrite D, Nat.eqb_refl by auto; reflexivity|split; [|exact C]]].
  - rewrite objectRead_num by auto. rewrite B, writeBytes_num. apply Z.mod_small.
    assert (P : 256 ^ Z.of_nat (obj_size c o) <= 256 ^ 4) by (apply Z.pow_le_mono_r; lia). change (256 ^ 4) with (2 ^ 32) in P.
    pose proof (Z.mod_pos_bound v (256 ^ Z.of_nat (obj_size c o)) ltac:(apply Z.pow_pos_nonneg; lia)). lia.
  - intros q Hq Hn. split; [rewrite D by auto; apply Nat.eqb_neq in Hn; rewrite Hn; reflexivity|].
    apply value_same. intros a Ha. apply C; [|apply (D1 q); auto]. intros X. apply Hn. apply (D2 q o a); auto.
Qed.
Print Assumptions C19_store_and_read.
(** objects of any size written as bytes *)
Theorem C19_store_bytes : forall c m o bs f, cfg_ok c -> mem_ok c m -> layout_ok c -> (o < num_objs c)%nat -> Forall is_byte bs -> (obj_size c o <= length bs)%nat -> 0 <= f < 16 ->
  let m' := objectWriteBytes_ c o bs f m in
  value c m' o = firstn (obj_size c o) bs /\ flags c m' o = Z.lor (flags c m o) f /\
  (forall q, (q < num_objs c)%nat -> q <> o -> flags c m' q = flags c m q /\ value c m' q = value c m q) /\
  (forall a, ~ in_obj c o a -> ~ in_flags c a -> cell c m' a = cell c m a).
Proof.
  intros c m o bs f Hc Hm (Hf & Hok & D1 & D2) Ho Hb Hs Hr m'. destruct (objectValuePtr_at c o Hc (Hok o Ho)) as (p & E & Hp).
  assert (M : m' = addObjectFlags c o f (putBytes m p 0 (firstn (obj_size c o) bs))) by (unfold m', objectWriteBytes_; rewrite E, objectSize_size, Nat2Z.id by auto; reflexivity).
  destruct (value_put c m p o (firstn (obj_size c o) bs) Hc Hm (Hok o Ho) Hp) as (A1 & A2 & A3); [|rewrite firstn_length; lia|].
  { apply Forall_forall. intros x Hx. rewrite Forall_forall in Hb. apply Hb. rewrite <- (firstn_skipn (obj_size c o) bs). apply in_or_app. auto. }
  destruct (addObjectFlags_step c _ o f Hc A1 Hf Ho Hr) as (B1 & B2 & B3). rewrite <- M in B1, B2, B3.
  assert (FS : forall q, (q < num_objs c)%nat -> flags c (putBytes m p 0 (firstn (obj_size c o) bs)) q = flags c m q)
    by (intros q Hq; apply flags_same; auto; intros a Ha; apply A3; intros X; apply (D1 o a); auto).
  split; [transitivity (value c (putBytes m p 0 (firstn (obj_size c o) bs)) o); [|exact A2]; apply value_same; intros a Ha; apply B2; apply (D1 o); auto|].
  split; [rewrite B3, Nat.eqb_refl, FS by auto; reflexivity|]. split.
  - intros q Hq Hn. split; [rewrite B3, FS by auto; apply Nat.eqb_neq in Hn; rewrite Hn; reflexivity|].
    apply value_same. intros a Ha. rewrite B2 by (apply (D1 q); auto). apply A3. intros X. apply Hn. apply (D2 q o a); auto.
  - intros a H1 H2. rewrite B2 by auto. auto.
Qed.
Print Assumptions C19_store_bytes.
Example C19_example : cfg_ok ex2 /\ mem_ok ex2 ex2_mem /\ layout_ok ex2 /\ objectRead ex2 0 (objectWrite ex2 0 0xDEADBEEF ex2_mem) = 0xDEADBEEF /\
  value ex2 (objectWrite ex2 0 0xDEADBEEF ex2_mem) 0 = [0xEF; 0xBE; 0xAD; 0xDE] /\ objectRead ex2 1 (objectWrite ex2 1 0x1234 ex2_mem) = 0x34.
Proof. split; [exact ex2_cfg|]. split; [exact ex2_mem_ok|]. split; [exact ex2_layout|]. vm_compute. auto. Qed.

(** ** C20 *)
(** One opportunity: it serves the first sendable pending object from the rotating position on (one telegram, that request cleared), or,
    if there is none up to the end, it sends nothing and changes no memory. *)
Theorem C20_one_opportunity : forall c s, cfg_ok c -> layout_ok c -> assoc_ok c -> assoc_idx_ok c -> mem_ok c (smem s) -> buf_ok (sendBuf s) -> (0 < num_objs c)%nat -> 0 <= sendNext s ->
  let idx := Z.to_nat (sendNext s mod Z.of_nat (num_objs c)) in
  let s' := snd (sendNextGroupTelegram c s) in
  (exists o t, (idx <= o < num_objs c)%nat /\ sendable c o /\ pending c (smem s) o /\ (forall j, (idx <= j < o)%nat -> ~ (sendable c j /\ pending c (smem s) j)) /\
      fst (sendNextGroupTelegram c s) = true /\ sent s' = sent s ++ [t] /\ serves c o (smem s) (smem s') t) \/
  ((forall j, (idx <= j < num_objs c)%nat -> ~ (sendable c j /\ pending c (smem s) j)) /\
      fst (sendNextGroupTelegram c s) = false /\ sent s' = sent s /\ smem s' = smem s).
Proof.
  intros c s Hc Hl Ha Hi Hm Hb Hn Hs idx s'. destruct (sendNext_step c s Hc Hl Ha Hi Hm Hb Hn Hs) as (M' & B' & [(o & t & R)|R]); fold idx in R; fold s' in R.
  - left. exists o, t. tauto.
  - right. tauto.
Qed.
Print Assumptions C20_one_opportunity.
(** Fairness: before each opportunity the memory is replaced by an arbitrary one (the next of [ms]) in which object [p]'s request is pending;
    within as many opportunities as there are objects one of them serves [p]. *)
Theorem C20_no_starvation : forall c p ms s, cfg_ok c -> layout_ok c -> assoc_ok c -> assoc_idx_ok c -> (p < num_objs c)%nat -> sendable c p ->
  buf_ok (sendBuf s) -> 0 <= sendNext s -> Forall (fun m => mem_ok c m /\ pending c m p) ms -> (num_objs c <= length ms)%nat ->
  exists k m s1 t before, (k < num_objs c)%nat /\ nth_error (opportunities c ms s) k = Some (m, true, s1) /\ sent s1 = before ++ [t] /\ serves c p m (smem s1) t.
Proof.
  intros c p ms s Hc Hl Ha Hi Hp Hsd Hb Hs Hall Hlen.
  assert (D := delay_le (num_objs c) (Z.to_nat (sendNext s mod Z.of_nat (num_objs c))) p Hp ltac:(pose proof (Z.mod_pos_bound (sendNext s) (Z.of_nat (num_objs c)) ltac:(lia)); lia)).
  destruct (fair c p Hc Hl Ha Hi Hp Hsd ms s Hb Hs Hall ltac:(lia)) as (k & m & b & s1 & t & before & K1 & K2 & K3 & K4 & K5). subst b.
  exists k, m, s1, t, before. split; [lia|]. auto.
Qed.
Print Assumptions C20_no_starvation.
Lemma buf0_ok : buf_ok (repeat 0 23). Proof. split; [reflexivity|apply repeat_bytes]. Qed.
Example C20_example : cfg_ok ex1 /\ layout_ok ex1 /\ assoc_ok ex1 /\ assoc_idx_ok ex1 /\ mem_ok ex1 ex1_mem /\ buf_ok (repeat 0 23) /\ sendable ex1 0 /\ pending ex1 ex1_mem 0 /\
  let s := mkSt ex1_mem (repeat 0 23) [] 1 0 in
  map (fun x => (snd (fst x), sent (snd x))) (opportunities ex1 [ex1_mem; ex1_mem; ex1_mem] s) = [(false, []); (false, []); (true, [[0xBC; 0; 0; 9; 1; 0xE1; 0; 0x81]])] /\
  map (fun x => (map (flags ex1 (smem (snd x))) [0; 1; 2]%nat, map (value ex1 (smem (snd x))) [0; 1; 2]%nat)) (opportunities ex1 [ex1_mem; ex1_mem; ex1_mem] s) =
    [([3; 8; 8], [[1]; [0x34; 0]; [0]]); ([3; 8; 8], [[1]; [0x34; 0]; [0]]); ([1; 8; 8], [[1]; [0x34; 0]; [1]])].
Proof.
  split; [exact ex1_cfg|]. split; [exact ex1_layout|]. split; [exact ex1_assoc|]. split; [exact ex1_idx|]. split; [exact ex1_mem_ok|]. split; [exact buf0_ok|]. split.
  - split; [split; reflexivity|]. exists 0x0901. split; [|discriminate]. exists 0%nat. split; [vm_compute; lia|]. split; [reflexivity|]. split; [intros; lia|reflexivity].
  - split; [reflexivity|]. vm_compute. auto.
Qed.

(** ** C21 *)
Lemma sending_u16 c o a : cfg_ok c -> sending_addr c o a -> is_u16 a.
Proof. intros Hc (i & _ & _ & _ & ->). apply entry_u16; auto. Qed.
(** The telegram with which device 1 serves object [o1], with sender address and checksum filled in, gives an associated object of the same type of device 2 the same value. *)
Theorem C21_value_received : forall c1 m m' o1 t a t' c2 s2 o2,
  cfg_ok c1 -> layout_ok c1 -> mem_ok c1 m -> (o1 < num_objs c1)%nat -> short_ok c1 m o1 -> wants_read c1 m o1 = false -> sending_addr c1 o1 a -> serves c1 o1 m m' t -> on_the_bus t t' ->
  cfg_ok c2 -> layout_ok c2 -> assoc_ok c2 -> mem_ok c2 (smem s2) -> associated c2 a o2 -> write_enabled c2 o2 -> obj_typ c2 o2 = obj_typ c1 o1 ->
  let s2' := processGroupAddressTelegram c2 (apciCommand t') (destinationAddress t') t' s2 in
  value c2 (smem s2') o2 = value c1 m o1 /\ updated c2 (smem s2') o2.
Proof.
  intros c1 m m' o1 t a t' c2 s2 o2 Hc1 Hl1 Hm1 Ho1 Hso Hwr Hsa (b & Sb & Hcar & _) Hbus Hc2 Hl2 Ha2 Hm2 Has Hwe Hty s2'.
  rewrite (sending_addr_unique c1 o1 b a Sb Hsa) in *. rewrite Hwr in Hcar. specialize (Hcar Hso).
  pose proof (sending_u16 c1 o1 a Hc1 Hsa) as Hu.
  destruct (carried_decode c1 m o1 a 128 t t' Hc1 Hm1 (proj1 (proj2 Hl1) o1 Ho1) Hso Hu (or_introl eq_refl) Hcar Hbus) as (D1 & D2 & D3).
  assert (NS : no_stray c2 a) by (apply knows_no_stray; destruct Has as (k & (K1 & K2 & _) & _); exists k; auto).
  destruct (C18_group_write c2 s2 t' a (apciCommand t') Hc2 Hl2 Ha2 Hm2 (proj1 Hbus) Hu NS (or_introl D1)) as (X & _).
  unfold s2'. rewrite D2. destruct (X o2 Has Hwe) as (X1 & _ & X3). rewrite X1, Hty. split; auto.
Qed.
Print Assumptions C21_value_received.
(** Without the bound on short values the telegram is not even a write: a switch object holding 0x40 is sent with a reserved command. *)
Theorem C21_unbounded_short_values_refuted : exists c m o t s, cfg_ok c /\ layout_ok c /\ mem_ok c m /\ obj_typ c o = 0 /\ value c m o = [0x40] /\
  sent (snd (sendNextGroupTelegram c s)) = [t] /\ smem s = m /\ Z.land (apciCommand t) 0x3c0 = 0xc0.
Proof.
  exists ex1, (mkMem (wr (ram ex1_mem) 0x70 0x40) (eep ex1_mem)), 0%nat, [0xBC; 0; 0; 9; 1; 0xE1; 0; 0xC0], (mkSt (mkMem (wr (ram ex1_mem) 0x70 0x40) (eep ex1_mem)) (repeat 0 23) [] 0 0).
  split; [exact ex1_cfg|]. split; [exact ex1_layout|]. split.
  - split; [reflexivity|reflexivity|apply Forall_wr; [apply ex1_mem_ok|unfold is_byte; lia]|apply ex1_mem_ok].
  - split; [reflexivity|]. split; [vm_compute; reflexivity|]. split; [vm_compute; reflexivity|]. split; [reflexivity|]. vm_compute. reflexivity.
Qed.
Print Assumptions C21_unbounded_short_values_refuted.
Example C21_example : let t := [0xBC; 0; 0; 9; 2; 0xE3; 0; 0x80; 0x0C; 0x33] in let t' := [0xBC; 0x11; 7; 9; 2; 0xE3; 0; 0x80; 0x0C; 0x33; 0x5A] in
  let m := objectWrite ex1 1 0x0C33 ex1_mem in let s := mkSt m (repeat 0 23) [] 1 0 in
  sent (snd (sendNextGroupTelegram ex1 s)) = [t] /\ on_the_bus t t' /\ wants_read ex1 m 1 = false /\ associated ex1 0x0902 1 /\ write_enabled ex1 1 /\
  value ex1 (smem (processGroupAddressTelegram ex1 (apciCommand t') (destinationAddress t') t' (mkSt ex1_mem (repeat 0 23) [] 0 0))) 1 = [0x33; 0x0C].
Proof.
  cbv zeta. split; [vm_compute; reflexivity|]. split.
  { split; [repeat (apply Forall_cons; [unfold is_byte; lia|]); apply Forall_nil|]. split; [vm_compute; lia|]. intros i Hi H1 H2. cbn [length] in Hi.
    destruct i as [|[|[|[|[|[|[|[|[|[|i]]]]]]]]]]; try reflexivity; try lia. }
  split; [vm_compute; reflexivity|]. split.
  { exists 2%nat. split; [split; [vm_compute; lia|]; split; [reflexivity|]; intros j Hj; assert (j = 1%nat) by lia; subst j; vm_compute; discriminate|].
    exists 1%nat. split; [vm_compute; lia|]. split; reflexivity. }
  split; [split; reflexivity|]. vm_compute. reflexivity.
Qed.

(** ** C22 *)
(** The result is the first entry with that address, or -1 if there is none, provided the two bytes behind the table do not happen to be the address. *)
Theorem C22_lookup_partial : forall c addr, cfg_ok c -> is_u16 addr -> no_stray c addr ->
  (exists k, first_entry c addr k /\ indexOfAddr c addr = Z.of_nat k) \/ (~ knows c addr /\ indexOfAddr c addr = -1).
Proof. exact indexOfAddr_first. Qed.
Print Assumptions C22_lookup_partial.
(** In general the lookup also examines the two bytes behind the table. *)
Theorem C22_lookup_one_past : forall c addr, cfg_ok c -> is_u16 addr ->
  (exists k, (1 <= k <= num_addrs c)%nat /\ indexOfAddr c addr = Z.of_nat k /\ entry c k = addr /\ (forall j, (1 <= j < k)%nat -> entry c j <> addr)) \/
  (indexOfAddr c addr = -1 /\ (forall j, (1 <= j <= num_addrs c)%nat -> entry c j <> addr)).
Proof. exact indexOfAddr_spec. Qed.
Print Assumptions C22_lookup_one_past.
(** So an address that the table does not contain can be found. *)
Theorem C22_lookup_refuted : exists c addr, cfg_ok c /\ is_u16 addr /\ ~ knows c addr /\ indexOfAddr c addr = 4.
Proof.
  exists ex1, 0. split; [exact ex1_cfg|]. split; [unfold is_u16; lia|]. split; [|vm_compute; reflexivity].
  intros (k & H & E). change (num_addrs ex1) with 4%nat in H. assert (K : k = 1%nat \/ k = 2%nat \/ k = 3%nat) by lia. destruct K as [->|[->| ->]]; vm_compute in E; discriminate.
Qed.
Print Assumptions C22_lookup_refuted.
(** SystemB: the count is 16 bits wide, there is no own address in the table, the lookup is exact. *)
Definition entryB (tab : list Z) (k : nat) : Z := word16 (rd tab (2 * k)) (rd tab (2 * k + 1)).
Theorem C22_lookup_systemb : forall tab addr, Forall is_byte tab -> is_u16 addr -> let n := Z.to_nat (word16 (rd tab 0) (rd tab 1)) in
  (exists k, (1 <= k <= n)%nat /\ indexOfAddrSYSTEMB tab addr = Z.of_nat k /\ entryB tab k = addr /\ (forall j, (1 <= j < k)%nat -> entryB tab j <> addr)) \/
  (indexOfAddrSYSTEMB tab addr = -1 /\ (forall j, (1 <= j <= n)%nat -> entryB tab j <> addr)).
Proof.
  intros tab addr Ht Hu n. unfold indexOfAddrSYSTEMB. rewrite Z.shiftl_mul_pow2 by lia. change (2 ^ 8) with 256. fold (word16 (rd tab 0) (rd tab 1)). fold n.
  destruct (indexLoop_spec tab addr Ht Hu n 2 1) as [(k & A & B & C & D)|(A & B)].
  - left. exists (S k). split; [lia|]. split; [lia|]. unfold entryB. split.
    + replace (2 * S k)%nat with (2 + 2 * k)%nat by lia. exact C.
    + intros j Hj. replace (2 * j)%nat with (2 + 2 * (j - 1))%nat by lia. apply D. lia.
  - right. split; auto. intros j Hj. unfold entryB. replace (2 * j)%nat with (2 + 2 * (j - 1))%nat by lia. apply B. lia.
Qed.
Print Assumptions C22_lookup_systemb.
Example C22_example : cfg_ok ex1 /\ no_stray ex1 0x0A03 /\ indexOfAddr ex1 0x0A03 = 3 /\ no_stray ex1 0x0A04 /\ indexOfAddr ex1 0x0A04 = -1 /\
  indexOfAddrSYSTEMB [0; 2; 9; 1; 9; 2] 0x0902 = 2 /\ indexOfAddrSYSTEMB [0; 2; 9; 1; 9; 2] 0x0903 = -1.
Proof. split; [exact ex1_cfg|]. split; [intros _ H; vm_compute in H; discriminate|]. split; [vm_compute; reflexivity|]. split; [intros _ H; vm_compute in H; discriminate|]. vm_compute. auto. Qed.

(** ** C66 *)
(** A read request for an address of the table: one response per association with a read-enabled object, in table order.  The first one carries
    the object's value, and so does every response of an object that is not write-enabled (a write-enabled object may have taken the value of an earlier response).
    No request is lost and only write-enabled objects change. *)
Theorem C66_read_answered : forall c s tel addr apci k, cfg_ok c -> layout_ok c -> assoc_ok c -> mem_ok c (smem s) -> buf_ok (sendBuf s) -> first_entry c addr k -> Z.land apci 0x3c0 = 0 ->
  let s' := processGroupAddressTelegram c apci addr tel s in
  exists ts, sent s' = sent s ++ ts /\ length ts = length (responders c k) /\
    (forall i o t, nth_error (responders c k) i = Some o -> nth_error ts i = Some t -> i = 0%nat \/ ~ write_enabled c o -> short_ok c (smem s) o -> carries c (smem s) o addr 0x40 t) /\
    (forall q, (q < num_objs c)%nat -> request c (smem s') q = request c (smem s) q) /\
    (forall q, (q < num_objs c)%nat -> ~ write_enabled c q -> value c (smem s') q = value c (smem s) q /\ flags c (smem s') q = flags c (smem s) q).
Proof.
  intros c s tel addr apci k Hc Hl Ha Hm Hb Hk Hap s'.
  assert (Hkn : knows c addr) by (destruct Hk as (K1 & K2 & _); exists k; auto). assert (Hu : is_u16 addr) by (destruct Hk as (_ & <- & _); apply entry_u16; auto).
  assert (E : s' = readReqLoop c addr (Z.of_nat k) INVALID_OBJECT_NUMBER (assocs c) s).
  { unfold s', processGroupAddressTelegram, processGroupTelegram, APCI_GROUP_MASK. rewrite Hap. cbv zeta.
    destruct (indexOfAddr_first c addr Hc Hu (knows_no_stray c addr Hkn)) as [(k' & K & E)|(K & _)]; [|destruct (K Hkn)].
    rewrite (first_entry_unique c addr k k' Hk K), E. change (if (0 =? APCI_GROUP_VALUE_WRITE_PDU) || (0 =? APCI_GROUP_VALUE_RESPONSE_PDU) then _ else ?x) with x.
    change (0 =? APCI_GROUP_VALUE_READ_PDU) with true. cbv iota. replace (Z.of_nat k' <? 0) with false by lia. reflexivity. }
  destruct (readReqLoop_spec c addr k Hc Hl Ha Hu (knows_no_stray c addr Hkn) (Z.to_nat (rd (assocTab c) 0)) 0 s eq_refl Hm Hb) as (ts & S1 & (A1 & A2) & (K1 & K2) & _).
  unfold assocs in E. rewrite <- E in S1, K1, K2. exists ts. split; auto.
Qed.
Print Assumptions C66_read_answered.
Theorem C66_unknown_address_ignored : forall c s tel addr apci, cfg_ok c -> is_u16 addr -> no_stray c addr -> ~ knows c addr -> Z.land apci 0x3c0 = 0 ->
  processGroupAddressTelegram c apci addr tel s = s.
Proof.
  intros c s tel addr apci Hc Hu Hs Hk Hap. unfold processGroupAddressTelegram, processGroupTelegram, APCI_GROUP_MASK. rewrite Hap. cbv zeta.
  destruct (indexOfAddr_first c addr Hc Hu Hs) as [(k & (K1 & K2 & _) & _)|(_ & E)]; [destruct Hk; exists k; auto|]. rewrite E. reflexivity.
Qed.
Print Assumptions C66_unknown_address_ignored.
(** The second answer can differ from the value the object had when the request arrived. *)
Theorem C66_every_response_has_own_value_refuted : exists c s o t, cfg_ok c /\ layout_ok c /\ first_entry c 0x0901 1 /\ responders c 1 = [0; o]%nat /\
  nth_error (sent (processGroupAddressTelegram c 0 0x0901 [] s)) 1 = Some t /\ value c (smem s) o = [0] /\ rd t 7 = 0x41.
Proof.
  exists ex1, (mkSt ex1_mem (repeat 0 23) [] 0 0), 2%nat, [0xBC; 0; 0; 9; 1; 0xE1; 0; 0x41]. split; [exact ex1_cfg|]. split; [exact ex1_layout|]. split.
  - split; [vm_compute; lia|]. split; [reflexivity|]. intros j Hj. lia.
  - vm_compute. auto.
Qed.
Print Assumptions C66_every_response_has_own_value_refuted.
Example C66_example : first_entry ex1 0x0A03 3 /\ responders ex1 3 = [0]%nat /\
  sent (processGroupAddressTelegram ex1 0 0x0A03 [] (mkSt ex1_mem (repeat 0 23) [] 0 0)) = [[0xBC; 0; 0; 0x0A; 3; 0xE1; 0; 0x41]].
Proof.
  split; [split; [vm_compute; lia|]; split; [reflexivity|]; intros j Hj; assert (J : j = 1%nat \/ j = 2%nat) by lia; destruct J as [->| ->]; vm_compute; discriminate|].
  vm_compute. auto.
Qed.
