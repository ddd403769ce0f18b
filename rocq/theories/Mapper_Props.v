(** C29-C31, C67, C68: the memory mapper *)
From Verif Require Import Base Bits Mapper_Model Mapper_Spec Mapper_Proofs.

(** the idealised array a mapper starts with on flash content [f] *)
Definition start (c : mcfg) (f : Z -> list Z) (hi : Z) : ideal := mkIdeal (stored_array c f) (flashBasePage c + flashSizePages c - 1 - hi).
Lemma start_rel c f hi junk : mcfg_ok c -> boots c f hi -> page_ok junk -> rel c (newMapper c f junk) (start c f hi) hi /\ track c false false (newMapper c f junk).
Proof. intros Hc B J. destruct (new_spec c f junk hi Hc B J) as (K & V & T). split; auto. constructor; auto. intros a. now rewrite V. Qed.

(** C29: all calls in all orderly histories answer like the idealised array: what is read is what was written last, or what the flash held, or 0 in a new page.
    Missing: addRange or a restart while a write is pending, and a restart after an addRange that ran out of memory; see the refutations *)
Theorem C29_like_an_array_partial c f hi junk l :
  mcfg_ok c -> boots c f hi -> page_ok junk -> Forall event_ok l -> orderly (autoAddPage c) false false l (start c f hi) ->
  exists m, mruns c l (newMapper c f junk) = Some (fst (ideal_run (autoAddPage c) l (start c f hi)), m).
Proof.
  intros Hc B J Hl O. destruct (start_rel c f hi junk Hc B J) as (R & T). destruct (run_rel c l Hc Hl _ _ _ _ _ R T O) as (m & hi' & E & _). now exists m.
Qed.
Print Assumptions C29_like_an_array_partial.

(** C29, second half: in every history, orderly or not, no call fails fatally, and distinct virtual pages have distinct flash pages, all behind the table and inside the area *)
Theorem C29_pages_never_shared c f hi junk l :
  mcfg_ok c -> boots c f hi -> page_ok junk -> Forall event_ok l ->
  exists out m, mruns c l (newMapper c f junk) = Some (out, m) /\
    (forall v, (v < FLASH_PAGE_SIZE)%nat -> rd (allocTable m) v = 255 \/ flashBasePage c < 255 - rd (allocTable m) v <= flashBasePage c + flashSizePages c - 1) /\
    (forall v w, (v < FLASH_PAGE_SIZE)%nat -> (w < FLASH_PAGE_SIZE)%nat -> v <> w -> rd (allocTable m) v <> 255 -> rd (allocTable m) v <> rd (allocTable m) w).
Proof.
  intros Hc B J Hl. destruct (start_rel c f hi junk Hc B J) as (R & T). destruct (run_core c l Hc Hl _ _ (r_core _ _ _ _ R)) as (out & m & hi' & E & K).
  exists out, m. split; auto. pose proof (k_table _ _ _ K) as Tb. pose proof (t_area _ _ _ Tb). split.
  - intros v Hv. destruct (t_range _ _ _ Tb v Hv); [auto|right; lia].
  - intros v w Hv Hw N N255 E'. apply N. now apply (t_distinct _ _ _ Tb).
Qed.
Print Assumptions C29_pages_never_shared.

(** C30: after doFlash a mapper started anew answers every read like the old one *)
Theorem C30_restart_reads_the_same c f hi junk l junk' :
  mcfg_ok c -> boots c f hi -> page_ok junk -> Forall event_ok (l ++ [Flash; Restart junk']) ->
  orderly (autoAddPage c) false false (l ++ [Flash; Restart junk']) (start c f hi) ->
  exists out m m1, mruns c l (newMapper c f junk) = Some (out, m) /\ doFlash c m = Some m1 /\
    forall a force force', option_map fst (readMem c a force m) = option_map fst (readMem c a force' (newMapper c (flash m1) junk')) /\ readMem c a force m <> None.
Proof.
  intros Hc B J Hl O. destruct (start_rel c f hi junk Hc B J) as (R & T).
  apply Forall_app in Hl. destruct Hl as (Hl & Hl2). assert (J' : page_ok junk') by (inversion Hl2 as [|? ? _ X]; inversion X; auto).
  (* the order up to the flush *)
  assert (O1 : forall l p q x, orderly (autoAddPage c) p q (l ++ [Flash; Restart junk']) x -> orderly (autoAddPage c) p q l x).
  { clear. induction l as [|ev l IH]; intros p q x; [intros; exact I|]. cbn [app orderly]. destruct (ideal_step (autoAddPage c) ev x) as ((rc & d) & y).
    destruct ev; intros H; try (apply IH; exact H).
    - destruct H as (H1 & H2). split; auto.
    - destruct H as (H1 & H2 & H3). auto. }
  destruct (run_rel c l Hc Hl _ _ _ _ _ R T (O1 _ _ _ _ O)) as (m & hi' & E & R' & _).
  (* and what it says about the end *)
  assert (X : forall l, Forall event_ok l -> forall m0 x p q m hi0, rel c m0 x hi0 -> track c p q m0 -> orderly (autoAddPage c) p q (l ++ [Flash; Restart junk']) x ->
     mruns c l m0 = Some (fst (ideal_run (autoAddPage c) l x), m) -> exists p', track c p' false m).
  { clear -Hc. intros l Hl. induction Hl as [|ev l Hev Hl IH]; intros m0 x p q m hi0 R T O E.
    - cbn [mruns] in E. assert (m0 = m) by congruence. subst. cbn [app orderly ideal_step] in O. destruct O as (_ & -> & _). now exists p.
    - cbn [app] in O. destruct (step_rel c ev m0 x hi0 p q _ Hc Hev R T O) as (m1 & hi1 & p1 & q1 & S1 & R1 & T1 & O2).
      cbn [mruns ideal_run] in E. rewrite S1 in E. destruct (ideal_step (autoAddPage c) ev x) as ((rc & d) & y). cbn [fst snd] in *.
      destruct (mruns c l m1) as [(out & m2)|] eqn:E2; [|discriminate].
      destruct (ideal_run (autoAddPage c) l y) as (out', z) eqn:E3. cbn [fst] in E.
      apply (IH m1 y p1 q1 m hi1 R1 T1 O2). rewrite E2. rewrite E3. cbn [fst]. congruence. }
  destruct (X l Hl _ _ _ _ m _ R T O E) as (p' & T').
  destruct (doFlash_spec c m hi' Hc (r_core _ _ _ _ R')) as (m1 & D & K1 & D1 & D2 & D3 & D4 & D5 & D6 & D7 & D8 & D9).
  exists (fst (ideal_run (autoAddPage c) l (start c f hi))), m, m1. split; auto. split; auto.
  set (x := snd (ideal_run (autoAddPage c) l (start c f hi))) in *.
  assert (R1 : rel c m1 x hi') by (destruct R'; constructor; auto; intros b; rewrite D9; auto).
  assert (T1 : track c false false m1) by (apply (track_doFlash c m m1 hi' p' false); auto; apply (r_core _ _ _ _ R')).
  destruct (restart_spec c m1 x hi' junk' Hc R1 T1 J') as (R2 & T2). intros a force force'.
  destruct (read_spec c m x hi' a force p' false Hc R' T') as (m2 & -> & _). destruct (read_spec c _ x hi' a force' false false Hc R2 T2) as (m3 & -> & _).
  split; [reflexivity|discriminate].
Qed.
Print Assumptions C30_restart_reads_the_same.

(** C31, the part that holds: a write outside the address space or without a page left is reported and changes nothing that can be read; an unmapped one without
    autoAddPage changes nothing that can be read either. Missing: the latter is reported as success, see the refutation *)
Theorem C31_unmapped_write_partial c f hi junk l a v :
  mcfg_ok c -> boots c f hi -> page_ok junk -> Forall event_ok l -> is_byte v ->
  exists out m, mruns c l (newMapper c f junk) = Some (out, m) /\
    exists rc m', writeMem c a v m = Some (rc, m') /\
      (in_space a = false -> rc = MEM_MAPPER_INVALID_ADDRESS /\ m' = m) /\
      (in_space a = true -> option_map fst (readMem c a false m) = Some (MEM_MAPPER_NOT_MAPPED, 0) ->
         (autoAddPage c = false \/ rc <> MEM_MAPPER_SUCCESS) ->
         (forall b force, option_map fst (readMem c b force m') = option_map fst (readMem c b force m)) /\ (autoAddPage c = true -> rc = MEM_MAPPER_OUT_OF_MEMORY)).
Proof.
  intros Hc B J Hl Hv. destruct (start_rel c f hi junk Hc B J) as (R0 & T0). destruct (run_core c l Hc Hl _ _ (r_core _ _ _ _ R0)) as (out & m & hi' & E & K).
  exists out, m. split; auto. pose proof (rel_any c m hi' K) as R. set (x := mkIdeal (view m) _) in *.
  destruct (write_spec c m x hi' a v true true Hc Hv R (track_any c m)) as (m' & hi2 & W & R' & _). exists (fst (ideal_write (autoAddPage c) a v x)), m'. split; auto. split.
  - intros S. assert (rc : fst (ideal_write (autoAddPage c) a v x) = -1) by (unfold ideal_write; rewrite S; reflexivity). split; auto.
    revert W. unfold writeMem. cbv zeta. rewrite (getPage c m hi' a K), S. cbn [Z.ltb]. rewrite rc. change (-1 <? 0) with true. intros W. congruence.
  - intros S Rd Au. destruct (read_spec c m x hi' a false true true Hc R (track_any c m)) as (m1 & E1 & _). rewrite E1 in Rd. cbn [option_map fst] in Rd.
    assert (N : mem x a = None). { unfold ideal_read in Rd. rewrite S in Rd. cbn [negb] in Rd. destruct (mem x a); auto. discriminate. }
    assert (Q : snd (ideal_write (autoAddPage c) a v x) = x /\ (autoAddPage c = true -> fst (ideal_write (autoAddPage c) a v x) = -4)).
    { unfold ideal_write, mapped in *. rewrite S, N in *. cbn [negb] in *. destruct (autoAddPage c); cbn [negb] in *; [|split; [reflexivity|discriminate]].
      destruct (free x =? 0); [split; reflexivity|]. cbn [fst] in Au. destruct Au as [|Au]; [discriminate|]. now destruct Au. }
    destruct Q as (Q1 & Q2). rewrite Q1 in R'. split; auto. intros b force.
    destruct (read_spec c m x hi' b force true true Hc R (track_any c m)) as (m2 & -> & _).
    destruct (read_spec c m' x hi2 b force true true Hc R' (track_any c m')) as (m3 & -> & _). reflexivity.
Qed.
Print Assumptions C31_unmapped_write_partial.

(** C31 is false without autoAddPage: every write to an unmapped address of the address space is reported as success, and the next doFlash erases flash page 0
    (the interrupt vectors) and writes the byte there *)
Theorem C31_unmapped_write_refuted c f hi junk l a v :
  mcfg_ok c -> boots c f hi -> page_ok junk -> Forall event_ok l -> is_byte v -> autoAddPage c = false -> in_space a = true ->
  exists out m, mruns c l (newMapper c f junk) = Some (out, m) /\
    (option_map fst (readMem c a false m) = Some (MEM_MAPPER_NOT_MAPPED, 0) ->
     exists m1 m2, writeMem c a v m = Some (MEM_MAPPER_SUCCESS, m1) /\ doFlash c m1 = Some m2 /\ rd (flash m2 0) (Z.to_nat (a mod 256)) = v).
Proof.
  intros Hc B J Hl Hv Au S. destruct (start_rel c f hi junk Hc B J) as (R0 & T0). destruct (run_core c l Hc Hl _ _ (r_core _ _ _ _ R0)) as (out & m & hi' & E & K).
  exists out, m. split; auto. intros Rd. pose proof (rel_any c m hi' K) as R. set (x := mkIdeal (view m) _) in *.
  destruct (read_spec c m x hi' a false true true Hc R (track_any c m)) as (m0 & E1 & _). rewrite E1 in Rd. cbn [option_map fst] in Rd.
  assert (N : view m a = None). { unfold ideal_read in Rd. rewrite S in Rd. cbn [negb] in Rd. cbn [x mem] in Rd. destruct (view m a); auto. discriminate. }
  apply (view_mapped c m hi' a K S) in N. unfold writeMem. cbv zeta. rewrite (getPage c m hi' a K), S, N. rewrite Z.sub_diag. cbn [Z.ltb Z.eqb Z.compare].
  destruct (swapIn_spec c m x hi' 0 true true Hc R (track_any c m) (or_introl eq_refl)) as (m1 & -> & R1 & _ & W1 & A1). rewrite Au. cbn [andb].
  pose proof (putByte_core c m1 hi' a v Hv (core_setModified c m1 hi' (r_core _ _ _ _ R1))) as K2.
  pose proof (r_core _ _ _ _ R1) as K1. destruct Hc as (H1 & H2 & H3).
  exists (putByte a v m1). unfold doFlash. cbn [putByte allocTableModified flashMemModified flash allocTable writeBuf writePage lastAllocated].
  rewrite W1.
  assert (X : exists f1, (if allocTableModified m1 then programPage (erasePage (flash m1) (flashBasePage c)) (flashBasePage c) (allocTable m1) else Some (flash m1)) = Some f1).
  { destruct (allocTableModified m1); [|eexists; reflexivity]. destruct (programPage_erased (flash m1) (flashBasePage c) (allocTable m1)) as (f1 & -> & _); [apply K1|]. eexists; reflexivity. }
  destruct X as (f1 & ->). destruct (programPage_erased f1 0 (wr (writeBuf m1) (offset a) v)) as (f2 & -> & F2). { apply page_wr; auto. apply K1. }
  eexists. split; [reflexivity|]. split; [reflexivity|]. cbn [flash]. rewrite F2. cbn [Z.eqb]. rewrite offset_mod. apply rd_wr_same.
  destruct (k_buf _ _ _ K1) as (-> & _). apply mod_256_lt.
Qed.
Print Assumptions C31_unmapped_write_refuted.

(** C67: without autoAddPage, isMapped tells exactly the addresses that can be read *)
Theorem C67_isMapped_partial c f hi junk l a force :
  mcfg_ok c -> boots c f hi -> page_ok junk -> Forall event_ok l -> autoAddPage c = false ->
  exists out m, mruns c l (newMapper c f junk) = Some (out, m) /\
    exists rc d m', readMem c a force m = Some (rc, d, m') /\ (isMapped c a m = true <-> rc = MEM_MAPPER_SUCCESS).
Proof.
  intros Hc B J Hl Au. destruct (start_rel c f hi junk Hc B J) as (R0 & T0). destruct (run_core c l Hc Hl _ _ (r_core _ _ _ _ R0)) as (out & m & hi' & E & K).
  exists out, m. split; auto. pose proof (rel_any c m hi' K) as R. set (x := mkIdeal (view m) _) in *.
  destruct (read_spec c m x hi' a force true true Hc R (track_any c m)) as (m0 & E1 & _). unfold ideal_read in E1.
  unfold isMapped. rewrite Au, (getPage c m hi' a K). cbn [orb]. pose proof (entry_byte c m hi' (Z.to_nat (a / 256)) K) as EB. red in EB.
  destruct (in_space a) eqn:S; cbn [negb] in E1.
  - pose proof (view_mapped c m hi' a K S) as V. cbn [x mem] in E1. destruct (view m a) as [d|].
    + do 3 eexists. split; [exact E1|]. split; auto. intros _. assert (rd (allocTable m) (Z.to_nat (a / 256)) <> 255) by (intros Q; apply V in Q; discriminate). unfold MEM_MAPPER_INVALID_ADDRESS. lia.
    + do 3 eexists. split; [exact E1|]. assert (rd (allocTable m) (Z.to_nat (a / 256)) = 255) as -> by now apply V. split; intros; discriminate.
  - do 3 eexists. split; [exact E1|]. split; intros; discriminate.
Qed.
Print Assumptions C67_isMapped_partial.
(** a range of at most 257 addresses: isMappedRange tells exactly whether all of them can be read; longer ranges: see [C67_isMappedRange_refuted] *)
Theorem C67_isMappedRange_partial c f hi junk l a b force :
  mcfg_ok c -> boots c f hi -> page_ok junk -> Forall event_ok l -> autoAddPage c = false -> a <= b <= a + 256 ->
  exists out m, mruns c l (newMapper c f junk) = Some (out, m) /\
    (isMappedRange c a b m = true <-> (forall x, a <= x <= b -> exists d m', readMem c x force m = Some (MEM_MAPPER_SUCCESS, d, m'))).
Proof.
  intros Hc B J Hl Au Hab. destruct (C67_isMapped_partial c f hi junk l a force Hc B J Hl Au) as (out & m & E & _). exists out, m. split; [exact E|].
  assert (Q : forall x, isMapped c x m = true <-> exists d m', readMem c x force m = Some (MEM_MAPPER_SUCCESS, d, m')).
  { intros x. destruct (C67_isMapped_partial c f hi junk l x force Hc B J Hl Au) as (out2 & m2 & E2 & rc & d & m' & R & I). rewrite E in E2. injection E2 as <- <-. rewrite I. split; [intros ->; eauto|].
    intros (d2 & m2 & R2). rewrite R in R2. now injection R2. }
  unfold isMappedRange. rewrite andb_true_iff, !Q. split; [|intros H; split; apply H; lia]. intros (HA & HB) x Hx. rewrite <- Q in HA, HB |- *.
  clear - HA HB Hx Hab Au. unfold isMapped in *. rewrite Au in *. cbn [orb] in *.
  assert (P : Z.shiftr x 8 = Z.shiftr a 8 \/ Z.shiftr x 8 = Z.shiftr b 8) by
    (rewrite !Z.shiftr_div_pow2 by lia; change (2 ^ 8) with 256; clear - Hx Hab; Z.div_mod_to_equations; lia).
  assert (G : getFlashPageNum m x = getFlashPageNum m a \/ getFlashPageNum m x = getFlashPageNum m b) by (unfold getFlashPageNum; destruct P as [-> | ->]; auto).
  destruct G as [-> | ->]; assumption.
Qed.
Print Assumptions C67_isMappedRange_partial.

(** C68: a 16- or 32-bit value written to mapped addresses is read back unchanged, in either byte order, whatever happened before *)
Definition mapped_range (c : mcfg) (m : mapper) (a : Z) (n : Z) : Prop :=
  forall b, a <= b < a + n -> exists d m', readMem c b false m = Some (0, d, m').
Lemma byte_of v k : 0 <= k <= 24 -> Z.land (Z.shiftr (s32 v) k) 255 = (v / 2 ^ k) mod 256.
Proof.
  intros Hk. rewrite and_255, Z.shiftr_div_pow2 by lia. unfold s32.
  assert (E : exists q, (if u32 v <? 2147483648 then u32 v else u32 v - 4294967296) = v + q * 4294967296).
  { unfold u32. pose proof (Z.div_mod v 4294967296 ltac:(lia)). destruct (v mod 4294967296 <? 2147483648); [exists (- (v / 4294967296))|exists (- (v / 4294967296) - 1)]; lia. }
  destruct E as (q & ->). replace (v + q * 4294967296) with (v + (q * 2 ^ (32 - k)) * 2 ^ k).
  - rewrite Z.div_add by (apply Z.pow_nonzero; lia). replace (q * 2 ^ (32 - k)) with ((q * 2 ^ (24 - k)) * 256).
    + apply Z.mod_add. lia.
    + rewrite <- Z.mul_assoc. change 256 with (2 ^ 8). rewrite <- Z.pow_add_r by lia. do 2 f_equal. lia.
  - rewrite <- Z.mul_assoc, <- Z.pow_add_r by lia. replace (32 - k + k) with 32 by lia. reflexivity.
Qed.
Definition addr (big : bool) (a len j : Z) : Z := if big then a + len - j - 1 else a + j.
Lemma setLoop_spec c big a len n : mcfg_ok c -> forall i v ret m x hi, rel c m x hi ->
  (forall j, i <= j < i + Z.of_nat n -> mem x (addr big a len j) <> None) ->
  exists m' x' hi', setLoop c big a len n i v ret m = Some (ret, m') /\ rel c m' x' hi' /\
    (forall j, i <= j < i + Z.of_nat n -> mem x' (addr big a len j) = Some (Z.land (Z.shiftr v (8 * (j - i))) 255)) /\
    (forall b, (forall j, i <= j < i + Z.of_nat n -> b <> addr big a len j) -> mem x' b = mem x b).
Proof.
  intros Hc. induction n; intros i v ret m x hi R Mp.
  - exists m, x, hi. cbn [setLoop]. split; auto. split; auto. split; auto. intros; lia.
  - cbn [setLoop]. change (if big then a + len - i - 1 else a + i) with (addr big a len i).
    destruct (mem x (addr big a len i)) as [d|] eqn:E; [|exfalso; apply (Mp i); auto; lia].
    assert (Hv : is_byte (Z.land v 255)) by (rewrite and_255; red; apply Z.mod_pos_bound; lia).
    destruct (write_mapped c m x hi _ _ d Hc Hv R E) as (m1 & hi1 & -> & R1). rewrite Z.lor_0_r.
    assert (Inj : forall j, i < j -> addr big a len j <> addr big a len i) by (intros j Hj; unfold addr; destruct big; lia).
    destruct (IHn (i + 1) (Z.shiftr v 8) ret m1 _ hi1 R1) as (m2 & x2 & hi2 & -> & R2 & A & B).
    { intros j Hj. cbn [mem]. unfold put. destruct (Z.eqb_spec (addr big a len j) (addr big a len i)); [discriminate|]. apply Mp. lia. }
    exists m2, x2, hi2. split; auto. split; auto. split.
    + intros j Hj. destruct (Z.eq_dec j i) as [->|Nj].
      * rewrite B by (intros j Hj2; apply not_eq_sym, Inj; lia). cbn [mem]. unfold put. rewrite Z.eqb_refl, Z.sub_diag, Z.mul_0_r, Z.shiftr_0_r. reflexivity.
      * rewrite A by lia. rewrite Z.shiftr_shiftr by lia. do 3 f_equal. lia.
    + intros b Hb. rewrite B by (intros j Hj; apply Hb; lia). cbn [mem]. unfold put. destruct (Z.eqb_spec b (addr big a len i)); auto. exfalso. apply (Hb i); auto. lia.
Qed.
Lemma getLoop_spec c big a len n : mcfg_ok c -> forall i ret m x hi f, rel c m x hi ->
  (forall j, i <= j < i + Z.of_nat n -> mem x (addr big a len (len - 1 - j)) = Some (f j) /\ is_byte (f j)) -> 0 <= ret -> i = len - Z.of_nat n -> ret < 256 ^ i -> 0 <= i -> len <= 4 ->
  exists m', getLoop c big a len n i ret m = Some (fold_left (fun r j => r * 256 + f j) (map (fun k => i + Z.of_nat k) (seq 0 n)) ret, m').
Proof.
  intros Hc. induction n; intros i ret m x hi f R Mp Hr Hi Hb Hi0 Hl.
  - exists m. reflexivity.
  - cbn [getLoop]. replace (if big then a + i else a + len - i - 1) with (addr big a len (len - 1 - i)) by (unfold addr; destruct big; lia).
    destruct (Mp i ltac:(lia)) as (E & B). destruct (read_mapped c m x hi _ false _ Hc R E) as (m1 & -> & R1).
    assert (P3 : 256 ^ i <= 256 ^ 3) by (apply Z.pow_le_mono_r; lia). change (256 ^ 3) with 16777216 in P3.
    assert (V : Z.lor (u32 (Z.shiftl ret 8)) (f i) = ret * 256 + f i).
    { unfold u32. rewrite Z.mod_small; [now apply word_bytes|]. rewrite Z.shiftl_mul_pow2 by lia. change (2 ^ 8) with 256. lia. }
    rewrite V. red in B. destruct (IHn (i + 1) (ret * 256 + f i) m1 x hi f R1) as (m2 & ->); try lia.
    + intros j Hj. apply Mp. lia.
    + rewrite Z.pow_add_r by lia. change (256 ^ 1) with 256. lia.
    + exists m2. cbn [seq map fold_left]. rewrite Z.add_0_r. do 2 f_equal. rewrite <- seq_shift, map_map. f_equal. apply map_ext. intros k. lia.
Qed.
Theorem C68_round_trip c f hi junk l big a v :
  mcfg_ok c -> boots c f hi -> page_ok junk -> Forall event_ok l ->
  exists out m, mruns c l (newMapper c f junk) = Some (out, m) /\
    (mapped_range c m a 2 -> 0 <= v < 65536 ->
       exists m1 m2, setUInt16 c big a v m = Some (0, m1) /\ getUInt16 c big a m1 = Some (v, m2)) /\
    (mapped_range c m a 4 -> 0 <= v < 4294967296 ->
       exists m1 m2, setUInt32 c big a v m = Some (0, m1) /\ getUInt32 c big a m1 = Some (v, m2)).
Proof.
  intros Hc B J Hl. destruct (start_rel c f hi junk Hc B J) as (R0 & T0). destruct (run_core c l Hc Hl _ _ (r_core _ _ _ _ R0)) as (out & m & hi' & E & K).
  exists out, m. split; auto. pose proof (rel_any c m hi' K) as R. set (x := mkIdeal (view m) _) in *.
  assert (MR : forall n, mapped_range c m a n -> forall j, 0 <= j < n -> mem x (addr big a n j) <> None).
  { intros n M j Hj N. assert (Hb : a <= addr big a n j < a + n) by (unfold addr; destruct big; lia). destruct (M _ Hb) as (d & m' & Q).
    destruct (read_spec c m x hi' (addr big a n j) false true true Hc R (track_any c m)) as (m0 & E1 & _). unfold ideal_read in E1. rewrite N in E1.
    destruct (in_space _); cbn [negb] in E1; congruence. }
  split; intros M Hv.
  - unfold setUInt16, setUIntX. destruct (setLoop_spec c big a (Z.of_nat 2) 2 Hc 0 (s32 v) 0 m x hi' R (MR 2 M)) as (m1 & x1 & hi1 & -> & R1 & A & _).
    exists m1. unfold getUInt16, getUIntX.
    destruct (getLoop_spec c big a (Z.of_nat 2) 2 Hc 0 0 m1 x1 hi1 (fun j => (v / 2 ^ (8 * (1 - j))) mod 256) R1) as (m2 & ->); try (cbn; lia).
    { intros j Hj. split; [|red; apply Z.mod_pos_bound; lia]. rewrite A by lia. rewrite byte_of by lia. do 4 f_equal. lia. }
    exists m2. split; auto. cbn [option_map fst snd seq map fold_left Z.of_nat]. do 2 f_equal.
    change (2 ^ (8 * (1 - (0 + 0)))) with 256. change (2 ^ (8 * (1 - (0 + Z.of_nat 1)))) with 1. rewrite Z.div_1_r. rewrite Z.mod_small with (a := v / 256) by (split; [apply Z.div_pos; lia|apply Z.div_lt_upper_bound; lia]).
    rewrite Z.mul_0_l, Z.add_0_l. pose proof (Z.div_mod v 256 ltac:(lia)). unfold u16. rewrite Z.mod_small; lia.
  - unfold setUInt32, setUIntX. destruct (setLoop_spec c big a (Z.of_nat 4) 4 Hc 0 (s32 v) 0 m x hi' R (MR 4 M)) as (m1 & x1 & hi1 & -> & R1 & A & _).
    exists m1. unfold getUInt32, getUIntX.
    destruct (getLoop_spec c big a (Z.of_nat 4) 4 Hc 0 0 m1 x1 hi1 (fun j => (v / 2 ^ (8 * (3 - j))) mod 256) R1) as (m2 & ->); try (cbn; lia).
    { intros j Hj. split; [|red; apply Z.mod_pos_bound; lia]. rewrite A by lia. rewrite byte_of by lia. do 4 f_equal. lia. }
    exists m2. split; auto. cbn [option_map fst snd seq map fold_left]. do 2 f_equal.
    change (2 ^ (8 * (3 - (0 + Z.of_nat 0)))) with (256 * 65536). change (2 ^ (8 * (3 - (0 + Z.of_nat 1)))) with (256 * 256). change (2 ^ (8 * (3 - (0 + Z.of_nat 2)))) with 256. change (2 ^ (8 * (3 - (0 + Z.of_nat 3)))) with 1.
    change 65536 with (256 * 256). rewrite <- !Z.div_div by lia. rewrite Z.div_1_r.
    set (v1 := v / 256). set (v2 := v1 / 256). set (v3 := v2 / 256).
    assert (0 <= v1 < 16777216) by (unfold v1; split; [apply Z.div_pos; lia|apply Z.div_lt_upper_bound; lia]).
    assert (0 <= v2 < 65536) by (unfold v2; split; [apply Z.div_pos; lia|apply Z.div_lt_upper_bound; lia]).
    assert (0 <= v3 < 256) by (unfold v3; split; [apply Z.div_pos; lia|apply Z.div_lt_upper_bound; lia]).
    pose proof (Z.div_mod v 256 ltac:(lia)). pose proof (Z.div_mod v1 256 ltac:(lia)). pose proof (Z.div_mod v2 256 ltac:(lia)). fold v1 in H2. fold v2 in H3. fold v3 in H4.
    rewrite (Z.mod_small v3) by lia. unfold u32. rewrite Z.mod_small; lia.
Qed.
Print Assumptions C68_round_trip.

(** ** Refutations and examples *)
Definition c0 : mcfg := mkM 0xE9 5 false.
Definition c1 : mcfg := mkM 0xE9 5 true.
Definition fresh : Z -> list Z := fun _ => repeat 255 FLASH_PAGE_SIZE.
Definition junk0 : list Z := repeat 170 FLASH_PAGE_SIZE.
Example fresh_boots : boots c0 fresh 0xE9 /\ boots c1 fresh 0xE9 /\ mcfg_ok c0 /\ mcfg_ok c1 /\ page_ok junk0.
Proof.
  assert (M0 : mcfg_ok c0) by (unfold mcfg_ok; cbn; lia). assert (M1 : mcfg_ok c1) by (unfold mcfg_ok; cbn; lia).
  assert (T : taken_over (repeat 255 FLASH_PAGE_SIZE) = repeat 255 FLASH_PAGE_SIZE) by (vm_compute; reflexivity).
  unfold boots, fresh. rewrite T. split. { split; [intros; apply page_blank|apply (table_blank c0 M0)]. } split. { split; [intros; apply page_blank|apply (table_blank c1 M1)]. }
  split; auto. split; auto. split. { apply repeat_length. } apply Forall_forall. intros x I. apply repeat_spec in I. subst. red; lia.
Qed.
(** a range is added, bytes in two pages are written and read, and found again after a restart *)
Definition ex_l : list mevent := [AddRange 0x4B00 0x300; Write 0x4B10 17; Write 0x4C10 34; Read 0x4B10 false; Read 0x4C10 true; Flash; Restart junk0; Read 0x4B10 false; Read 0x4D00 false; Read 0x4E00 false; Write 70000 1].
Example C29_example : Forall event_ok ex_l /\ orderly false false false ex_l (start c0 fresh 0xE9) /\
  option_map fst (mruns c0 ex_l (newMapper c0 fresh junk0)) = Some [(0, 0); (0, 0); (0, 0); (0, 17); (0, 34); (0, 0); (0, 0); (0, 17); (0, 0); (-2, 0); (-1, 0)].
Proof.
  split; [|split; [|vm_compute; reflexivity]].
  - unfold ex_l. repeat (apply Forall_cons; [first [exact I|unfold event_ok, is_byte; lia|intros _; vm_compute; discriminate|apply fresh_boots]|]). apply Forall_nil.
  - vm_compute. repeat (split; try reflexivity; try exact I).
Qed.
(** with autoAddPage pages are added by writing, until they are used up *)
Example C31_example : option_map fst (mruns c1 [Write 0 1; Write 0x100 2; Write 0x200 3; Write 0x300 4; Write 0x400 5; Read 0x200 false] (newMapper c1 fresh junk0)) =
  Some [(0, 0); (0, 0); (0, 0); (0, 0); (-4, 0); (0, 3)].
Proof. vm_compute. reflexivity. Qed.
Example C31_unmapped_example : option_map fst (readMem c0 0x4B10 false (newMapper c0 fresh junk0)) = Some (MEM_MAPPER_NOT_MAPPED, 0).
Proof. vm_compute. reflexivity. Qed.
(** C29 is false if addRange is called while a write is pending: the written byte is gone *)
Theorem C29_pending_write_refuted :
  exists l, Forall event_ok l /\ option_map fst (mruns c0 l (newMapper c0 fresh junk0)) <> Some (fst (ideal_run (autoAddPage c0) l (start c0 fresh 0xE9))) /\
    l = [AddRange 0x4B00 0x100; Write 0x4B10 17; AddRange 0x5000 0x100; Read 0x4B10 false].
Proof.
  eexists. split; [|split; [|reflexivity]].
  - repeat (apply Forall_cons; [first [exact I|unfold event_ok, is_byte; lia|intros _; vm_compute; discriminate]|]). apply Forall_nil.
  - intros H. assert (X : match mruns c0 [AddRange 0x4B00 0x100; Write 0x4B10 17; AddRange 0x5000 0x100; Read 0x4B10 false] (newMapper c0 fresh junk0) with Some (o, _) => nth 3 o (9, 9) | None => (8, 8) end = (0, 0)) by (vm_compute; reflexivity).
    destruct (mruns c0 _ (newMapper c0 fresh junk0)) as [(o, m)|]; [|discriminate]. cbn [option_map fst] in H.
    assert (o = fst (ideal_run (autoAddPage c0) [AddRange 0x4B00 0x100; Write 0x4B10 17; AddRange 0x5000 0x100; Read 0x4B10 false] (start c0 fresh 0xE9))) as -> by congruence.
    revert X. vm_compute. discriminate.
Qed.
Print Assumptions C29_pending_write_refuted.
(** C30 is false after an addRange that ran out of memory: the pages it did add answer, but are unmapped after doFlash and a restart *)
Theorem C30_failed_addRange_refuted :
  exists l, Forall event_ok l /\ option_map fst (mruns c0 (l ++ [Read 0x4D00 false; Flash; Restart junk0; Read 0x4D00 false]) (newMapper c0 fresh junk0)) =
    Some [(0, 0); (-4, 0); (0, 0); (0, 0); (0, 0); (-2, 0)].
Proof.
  exists [AddRange 0x4B00 0x200; AddRange 0x4D00 0x400]. split; [|vm_compute; reflexivity].
  repeat (apply Forall_cons; [first [exact I|unfold event_ok, is_byte; lia|intros _; vm_compute; discriminate]|]). apply Forall_nil.
Qed.
Print Assumptions C30_failed_addRange_refuted.
(** C67 for ranges is false: only the ends are looked at; and with autoAddPage isMapped always says yes *)
Theorem C67_isMappedRange_refuted :
  (exists l out m, mruns c0 l (newMapper c0 fresh junk0) = Some (out, m) /\ isMappedRange c0 0x4BFF 0x4D00 m = true /\ option_map fst (readMem c0 0x4C00 false m) = Some (MEM_MAPPER_NOT_MAPPED, 0)) /\
  (forall a m, isMapped c1 a m = true).
Proof.
  split; [|reflexivity]. exists [AddRange 0x4B00 0x100; AddRange 0x4D00 0x100].
  assert (X : option_map (fun x => (isMappedRange c0 0x4BFF 0x4D00 (snd x), option_map fst (readMem c0 0x4C00 false (snd x)))) (mruns c0 [AddRange 0x4B00 0x100; AddRange 0x4D00 0x100] (newMapper c0 fresh junk0)) = Some (true, Some (MEM_MAPPER_NOT_MAPPED, 0))) by (vm_compute; reflexivity).
  destruct (mruns c0 _ _) as [(out, m)|]; [|discriminate]. exists out, m. split; auto. cbn [option_map snd] in X. split; congruence.
Qed.
Print Assumptions C67_isMappedRange_refuted.
Example C67_example : option_map (fun x => (isMapped c0 0x4BFF (snd x), isMapped c0 0x4C00 (snd x))) (mruns c0 [AddRange 0x4B00 0x100] (newMapper c0 fresh junk0)) = Some (true, false).
Proof. vm_compute. reflexivity. Qed.
Example C67_range_example : mcfg_ok c0 /\ autoAddPage c0 = false /\
  option_map (fun x => (isMappedRange c0 0x4BF0 0x4C05 (snd x), isMappedRange c0 0x4C00 0x4D00 (snd x), isMappedRange c0 0x4AFF 0x4B00 (snd x))) (mruns c0 [AddRange 0x4B00 0x200] (newMapper c0 fresh junk0)) = Some (true, false, false).
Proof. split; [apply fresh_boots|]. split; [reflexivity|]. vm_compute. reflexivity. Qed.
(** a 32-bit value across a page boundary *)
Example C68_example :
  option_map (fun x => match setUInt32 c0 true 0x4BFE 0x89ABCDEF (snd x) with Some (rc, m1) => (rc, option_map fst (getUInt32 c0 true 0x4BFE m1), option_map fst (getUInt32 c0 false 0x4BFE m1)) | None => (9, None, None) end)
    (mruns c0 [AddRange 0x4B00 0x200] (newMapper c0 fresh junk0)) = Some (0, Some 0x89ABCDEF, Some 0xEFCDAB89).
Proof. vm_compute. reflexivity. Qed.
