(** C129: pointers into the memory of the mapper *)
From Verif Require Import Base Mapper_Model Mapper_Spec Mapper_Proofs Mapper_Props Ptr_Model.
Open Scope Z_scope.

(** a mapper in use *)
Definition used (c : mcfg) (m : mapper) : Prop :=
  mcfg_ok c /\ exists f hi junk l out, boots c f hi /\ page_ok junk /\ Forall event_ok l /\ mruns c l (newMapper c f junk) = Some (out, m).
Lemma used_core c m : used c m -> mcfg_ok c /\ exists hi, core c m hi.
Proof.
  intros (Hc & f & hi & junk & l & out & B & J & Hl & E). split; auto. destruct (start_rel c f hi junk Hc B J) as (R & T).
  destruct (run_core c l Hc Hl _ _ (r_core _ _ _ _ R)) as (out' & m' & hi' & E' & K). rewrite E in E'. injection E' as <- <-. eauto.
Qed.
(** what a call of readMem tells about an address *)
Definition tells (c : mcfg) (a : Z) (m : mapper) (rc d : Z) : Prop := forall force, exists m', readMem c a force m = Some (rc, d, m').
Lemma tells_core c a m hi : mcfg_ok c -> core c m hi -> exists rc d, tells c a m rc d /\ (rc, d) = ideal_read a (mkIdeal (view m) (flashBasePage c + flashSizePages c - 1 - hi)).
Proof.
  intros Hc K. pose proof (rel_any c m hi K) as R. destruct (ideal_read a (mkIdeal (view m) (flashBasePage c + flashSizePages c - 1 - hi))) as (rc, d) eqn:E. exists rc, d. split; [|reflexivity].
  intros force. destruct (read_spec c m _ hi a force true true Hc R (track_any c m)) as (m' & X & _). rewrite E in X. eauto.
Qed.
Lemma tells_fun c a m rc d rc' d' : tells c a m rc d -> tells c a m rc' d' -> rc = rc' /\ d = d'.
Proof. intros A B. destruct (A false) as (x & E). destruct (B false) as (y & F). rewrite E in F. injection F as <- <- _. auto. Qed.
Lemma ptr_read c a force m rc d m' : readMem c a force m = Some (rc, d, m') -> exists p, memoryPtr c a force m = Some (p, m') /\ (rc = 0 -> deref m' p = Some d /\ p <> Null) /\ (rc <> 0 -> p = Null).
Proof.
  unfold readMem, memoryPtr. cbv zeta. destruct (getFlashPageNum m a <? 0) eqn:N.
  - intros [= <- <- <-]. exists Null. split; [reflexivity|]. split; [intros E; apply Z.ltb_lt in N; lia|reflexivity].
  - destruct (if force then doFlash c m else Some m) as [m1|]; [|discriminate]. destruct (getFlashPageNum m a =? 0).
    + intros [= <- <- <-]. exists Null. split; [reflexivity|]. split; [discriminate|reflexivity].
    + destruct ((getFlashPageNum m a =? writePage m1) && negb force); intros [= <- <- <-]; eexists; (split; [reflexivity|]); (split; [intros _; split; [reflexivity|discriminate]|intros E; contradiction E; reflexivity]).
Qed.

(** A pointer is NULL exactly for addresses which are not mapped, else it shows the byte readMem reads; asking for it changes no byte. *)
Theorem C129_pointer c m a force : used c m -> exists p m' rc d, memoryPtr c a force m = Some (p, m') /\ tells c a m rc d /\ (p = Null <-> rc <> 0) /\ (rc = 0 -> deref m' p = Some d) /\
  forall b rc d, tells c b m rc d -> tells c b m' rc d.
Proof.
  intros U. destruct (used_core c m U) as (Hc & hi & K). destruct (tells_core c a m hi Hc K) as (rc & d & T & _). destruct (T force) as (m' & E). destruct (ptr_read c a force m rc d m' E) as (p & P & P0 & P1). exists p, m', rc, d. split; [exact P|]. split; [exact T|].
  split. { split; [intros -> E0; destruct (P0 E0) as (_ & X); now apply X|exact P1]. } split; [intros E0; apply (P0 E0)|].
  intros b rb db Tb. pose proof (rel_any c m hi K) as R. destruct (read_spec c m _ hi a force true true Hc R (track_any c m)) as (m2 & E2 & R2 & _). rewrite E in E2. injection E2 as _ <-.
  destruct (Tb false) as (m3 & E3). destruct (read_spec c m _ hi b false true true Hc R (track_any c m)) as (m4 & E4 & _). rewrite E3 in E4. injection E4 as E4 _.
  intros f. destruct (read_spec c m' _ hi b f true true Hc R2 (track_any c m')) as (m5 & E5 & _). rewrite E5, <- E4. eauto.
Qed.
Print Assumptions C129_pointer.
(** [mapper[a]] reads the byte at [a] if it is mapped; else NULL is dereferenced. *)
Theorem C129_index c m a : used c m -> exists p m' rc d, index c a m = Some (p, m') /\ tells c a m rc d /\ deref m' p = if rc =? 0 then Some d else None.
Proof.
  intros U. destruct (C129_pointer c m a true U) as (p & m' & rc & d & P & T & N & D & _). exists p, m', rc, d. split; [exact P|]. split; [exact T|]. destruct (Z.eqb_spec rc 0) as [E|E]; [exact (D E)|]. rewrite (proj2 N E). reflexivity.
Qed.
Print Assumptions C129_index.
(** getUInt8 gives the byte last written there, 0 where nothing is mapped. *)
Theorem C129_getUInt8 c m a : used c m -> exists m' rc d, getUInt8 c a m = Some (d, m') /\ tells c a m rc d /\ (rc <> 0 -> d = 0) /\
  forall v m1, is_byte v -> rc = 0 -> writeMem c a v m = Some (0, m1) -> exists m2, getUInt8 c a m1 = Some (v, m2).
Proof.
  intros U. destruct (used_core c m U) as (Hc & hi & K). destruct (tells_core c a m hi Hc K) as (rc & d & T & E). destruct (T false) as (m' & R). exists m', rc, d. unfold getUInt8 at 1. rewrite R. split; [reflexivity|]. split; [exact T|].
  pose proof (rel_any c m hi K) as Q. set (x := mkIdeal _ _) in *. unfold ideal_read in E. split.
  - destruct (in_space a); cbn [negb] in E; [destruct (mem x a)|]; injection E as -> ->; auto. intros X. now contradiction X.
  - intros v m1 Hv E0 W. destruct (write_spec c m x hi a v true true Hc Hv Q (track_any c m)) as (m2 & hi2 & W2 & Q2 & _). rewrite W in W2. injection W2 as _ <-.
    destruct (read_spec c m1 _ hi2 a false true true Hc Q2 (track_any c m1)) as (m3 & R3 & _). unfold getUInt8. rewrite R3. subst rc. unfold ideal_read, ideal_write, mapped in *. destruct (in_space a); cbn [negb] in *; [|discriminate]. destruct (mem x a); [|discriminate]. cbn [snd mem]. unfold put. rewrite Z.eqb_refl. eauto.
Qed.
Print Assumptions C129_getUInt8.

(** ** how long a pointer holds *)
Definition no_restart (ev : mevent) : Prop := match ev with Restart _ => False | _ => True end.
Lemma doFlash_table c m m' : doFlash c m = Some m' -> allocTable m' = allocTable m /\ flashMemModified m' = false.
Proof. unfold doFlash. destruct (if allocTableModified m then _ else _) as [f1|]; [|discriminate]. destruct (if flashMemModified m then _ else _) as [f2|]; [|discriminate]. intros [= <-]. auto. Qed.
Definition keeps (m m' : mapper) : Prop := length (allocTable m') = length (allocTable m) /\ forall v, rd (allocTable m) v <> 255 -> rd (allocTable m') v = rd (allocTable m) v.
Lemma keeps_refl m m' : allocTable m' = allocTable m -> keeps m m'.
Proof. intros E. split; rewrite E; auto. Qed.
Lemma keeps_trans m1 m2 m3 : keeps m1 m2 -> keeps m2 m3 -> keeps m1 m3.
Proof. intros (L & A) (L2 & B). split; [congruence|]. intros v N. rewrite B; rewrite A; auto. Qed.
Lemma xor0 e : Z.lxor e 255 = 0 -> e = 255.
Proof. apply Z.lxor_eq. Qed.
Lemma allocatePage_keeps c v m r m' : rd (allocTable m) v = 255 -> allocatePage c v m = (r, m') -> keeps m m'.
Proof.
  intros V. unfold allocatePage. cbv zeta. match goal with |- context [if ?b then _ else _] => idtac end. destruct ((if lastAllocated m =? 0 then highest (allocTable m) else lastAllocated m) =? flashBasePage c + flashSizePages c - 1); intros [= <- <-].
  - apply keeps_refl. reflexivity.
  - split; cbn [allocTable]; [apply wr_length|]. intros w N. apply rd_wr_other. intros E. subst w. contradiction.
Qed.
Lemma addLoop_keeps c : forall n page tm m r tm' m', addLoop c n page tm m = Some (r, tm', m') -> keeps m m'.
Proof.
  induction n as [|n IH]; intros page tm m r tm' m'; cbn [addLoop]. { intros [= <- <- <-]. now apply keeps_refl. }
  destruct (FLASH_PAGE_SIZE <=? page)%nat; [discriminate|]. destruct (Z.eqb_spec (Z.lxor (rd (allocTable m) page) 255) 0) as [E|E]; [|apply IH].
  destruct (allocatePage c page m) as [r1 m1] eqn:A. pose proof (allocatePage_keeps c page m r1 m1 (xor0 _ E) A) as K1. destruct (r1 =? MEM_MAPPER_SUCCESS); [|intros [= <- <- <-]; exact K1].
  destruct (doFlash c (setModified m1)) as [m2|] eqn:D; [|discriminate]. intros H. apply (keeps_trans _ _ _ K1). apply doFlash_table in D. eapply keeps_trans; [apply keeps_refl; apply D|]. exact (IH _ _ _ _ _ _ H).
Qed.
Lemma mstep_keeps c ev m rc d m' : no_restart ev -> mstep c ev m = Some (rc, d, m') -> keeps m m'.
Proof.
  destruct ev as [a v|a force|a len| |junk]; cbn [mstep no_restart]; try contradiction; intros _.
  - unfold writeMem. cbv zeta. destruct (getFlashPageNum m a <? 0) eqn:N; [intros [= <- <- <-]; now apply keeps_refl|].
    destruct (swapIn c (getFlashPageNum m a) m) as [m1|] eqn:S; [|discriminate].
    assert (K1 : allocTable m1 = allocTable m) by (revert S; unfold swapIn; destruct (writePage m =? getFlashPageNum m a); [intros [= <-]; reflexivity|]; destruct (doFlash c m) as [m0|] eqn:D; [|discriminate]; intros [= <-]; cbn [allocTable]; apply (doFlash_table c _ _ D)).
    destruct (getFlashPageNum m a =? 0) eqn:Z0; cbn [andb].
    + destruct (autoAddPage c); [|intros [= <- <- <-]; apply keeps_refl; exact K1]. destruct (allocatePage c (Z.to_nat (Z.shiftr a 8)) m1) as [r m2] eqn:A.
      assert (V : rd (allocTable m1) (Z.to_nat (Z.shiftr a 8)) = 255). { rewrite K1. apply Z.eqb_eq in Z0. revert Z0 N. unfold getFlashPageNum. cbv zeta. destruct ((Z.shiftr a 8 <? 0) || (Z.of_nat FLASH_PAGE_SIZE <=? Z.shiftr a 8)); [discriminate|]. intros Z0 _. apply xor0. exact Z0. }
      pose proof (allocatePage_keeps c _ m1 r m2 V A) as K2. pose proof (keeps_trans _ _ _ (keeps_refl m m1 K1) K2) as K3. destruct (r =? MEM_MAPPER_SUCCESS); intros [= <- <- <-]; exact K3.
    + intros [= <- <- <-]. apply keeps_refl. exact K1.
  - unfold readMem. cbv zeta. destruct (getFlashPageNum m a <? 0); [intros [= <- <- <-]; now apply keeps_refl|]. destruct (if force then doFlash c m else Some m) as [m1|] eqn:D; [|discriminate].
    assert (K : keeps m m1) by (destruct force; [apply keeps_refl, (doFlash_table c _ _ D)|injection D as <-; now apply keeps_refl]).
    destruct (getFlashPageNum m a =? 0); [intros [= <- <- <-]; exact K|]. destruct ((getFlashPageNum m a =? writePage m1) && negb force); intros [= <- <- <-]; exact K.
  - unfold addRange. cbv zeta. destruct (negb (Z.land a 255 =? 0) || (Z.shiftr a 8 <? 0) || (Z.of_nat FLASH_PAGE_SIZE <=? Z.shiftr a 8)); [intros [= <- <- <-]; now apply keeps_refl|].
    destruct (negb (Z.land len 255 =? 0)); [intros [= <- <- <-]; now apply keeps_refl|]. destruct (addLoop c _ _ false m) as [[[r tm] m1]|] eqn:A; [|discriminate]. pose proof (addLoop_keeps _ _ _ _ _ _ _ _ A) as K.
    destruct (r =? MEM_MAPPER_SUCCESS); [|intros [= <- <- <-]; exact K]. destruct (doFlash c (if tm then setTableModified m1 else m1)) as [m2|] eqn:D; [|discriminate]. intros [= <- <- <-]. apply doFlash_table in D. eapply keeps_trans; [exact K|]. apply keeps_refl. destruct tm; apply D.
  - destruct (doFlash c m) as [m1|] eqn:D; [|discriminate]. intros [= <- <- <-]. apply keeps_refl, (doFlash_table c _ _ D).
Qed.
Lemma mruns_keeps c : forall l m out m', Forall no_restart l -> mruns c l m = Some (out, m') -> keeps m m'.
Proof.
  induction l as [|ev l IH]; intros m out m' F; cbn [mruns]. { intros [= <- <-]. now apply keeps_refl. }
  inversion F as [|? ? F1 F2]; subst. destruct (mstep c ev m) as [[[rc d] m1]|] eqn:E; [|discriminate]. destruct (mruns c l m1) as [[o m2]|] eqn:R; [|discriminate]. intros [= <- <-]. eapply keeps_trans; [exact (mstep_keeps c ev m rc d m1 F1 E)|exact (IH _ _ _ F2 R)].
Qed.
(** A pointer into the flash keeps its place whatever is written, read and added afterwards: after the next doFlash it shows the byte at its address again. *)
Theorem C129_lasting_partial c m a p m1 l : used c m -> memoryPtr c a true m = Some (p, m1) -> p <> Null -> Forall event_ok l -> Forall no_restart l ->
  exists out m2 m3 d, mruns c l m1 = Some (out, m2) /\ doFlash c m2 = Some m3 /\ tells c a m2 0 d /\ deref m3 p = Some d.
Proof.
  intros U P N Hl Nr. destruct (used_core c m U) as (Hc & hi & K). unfold memoryPtr in P. cbv zeta in P. pose proof (getPage c m hi a K) as G. pose proof (entry_byte c m hi (Z.to_nat (a / 256)) K) as EB. red in EB.
  destruct (doFlash_spec c m hi Hc K) as (m1' & D1 & K1 & _ & _ & T1 & _). rewrite D1 in P. cbn [negb] in P. rewrite andb_false_r in P.
  destruct (Z.ltb_spec (getFlashPageNum m a) 0) as [L|L]; [injection P as <- _; now contradiction N|]. destruct (Z.eqb_spec (getFlashPageNum m a) 0) as [Z0|Z0]; [injection P as <- _; now contradiction N|]. injection P as <- ->.
  destruct (in_space a) eqn:S; [|lia]. destruct (run_core c l Hc Hl m1 hi K1) as (out & m2 & hi2 & R2 & K2). destruct (doFlash_spec c m2 hi2 Hc K2) as (m3 & D3 & K3 & F3 & _ & T3 & B3 & W3 & _). exists out, m2, m3.
  destruct (mruns_keeps c l m1 out m2 Nr R2) as (_ & KE). assert (V : rd (allocTable m2) (Z.to_nat (a / 256)) = rd (allocTable m) (Z.to_nat (a / 256))) by (rewrite KE; rewrite T1; [reflexivity|lia]).
  destruct (tells_core c a m2 hi2 Hc K2) as (rc & d & T & E). unfold ideal_read, view, decode in E. cbn [mem] in E. rewrite S in E. cbn [negb] in E. cbv zeta in E. rewrite V in E. destruct (Z.eqb_spec (rd (allocTable m) (Z.to_nat (a / 256))) 255) as [X|X]; [lia|]. injection E as -> ->.
  eexists. split; [exact R2|]. split; [exact D3|]. split; [exact T|]. cbn [deref]. f_equal. rewrite G, offset_mod. f_equal. destruct (doFlash_spec c m2 hi2 Hc K2) as (m4 & D4 & _ & _ & _ & _ & _ & _ & _ & Q & _). rewrite D3 in D4. injection D4 as <-. apply Q.
  destruct (t_range _ _ _ (k_table _ _ _ K2) (Z.to_nat (a / 256))) as [Y|Y]; [apply in_space_page; exact S|lia|lia].
Qed.
Print Assumptions C129_lasting_partial.
(** Not between: (1) a pointer from operator[] shows the old byte after a write until the next doFlash; (2) a pointer got without forceFlash shows a byte of another page once another page is written. *)
Theorem C129_stale_refuted :
  (exists m m1 m2 p, used c0 m /\ index c0 0x4B10 m = Some (p, m1) /\ writeMem c0 0x4B10 17 m1 = Some (0, m2) /\ tells c0 0x4B10 m2 0 17 /\ deref m2 p = Some 0) /\
  (exists m m1 m2 p, used c0 m /\ memoryPtr c0 0x4B10 false m = Some (p, m1) /\ deref m1 p = Some 17 /\ writeMem c0 0x4C10 34 m1 = Some (0, m2) /\ tells c0 0x4B10 m2 0 17 /\ deref m2 p = Some 34).
Proof.
  destruct fresh_boots as (B0 & _ & M0 & _ & J0).
  assert (U : forall l, Forall event_ok l -> forall m out, mruns c0 l (newMapper c0 fresh junk0) = Some (out, m) -> used c0 m).
  { intros l F m out E. split; [exact M0|]. exists fresh, 0xE9, junk0, l, out. auto. }
  set (l1 := [AddRange 0x4B00 0x200; Flash]). set (l2 := [AddRange 0x4B00 0x200; Write 0x4B10 17]).
  assert (F1 : Forall event_ok l1) by (unfold l1; repeat (apply Forall_cons; [first [exact I|unfold event_ok, is_byte; lia|intros _; vm_compute; discriminate]|]); apply Forall_nil).
  assert (F2 : Forall event_ok l2) by (unfold l2; repeat (apply Forall_cons; [first [exact I|unfold event_ok, is_byte; lia|intros _; vm_compute; discriminate]|]); apply Forall_nil).
  split.
  - assert (X : match mruns c0 l1 (newMapper c0 fresh junk0) with
                | Some (out, m) => match index c0 0x4B10 m with
                    | Some (p, m1) => match writeMem c0 0x4B10 17 m1 with
                        | Some (r, m2) => (r, deref m2 p, option_map fst (readMem c0 0x4B10 false m2), option_map fst (readMem c0 0x4B10 true m2))
                        | None => (9, None, None, None) end
                    | None => (9, None, None, None) end
                | None => (9, None, None, None) end = (0, Some 0, Some (0, 17), Some (0, 17))) by (vm_compute; reflexivity).
    destruct (mruns c0 l1 (newMapper c0 fresh junk0)) as [[out m]|] eqn:E; [|discriminate X]. pose proof (U l1 F1 m out E) as Um. clear E.
    destruct (index c0 0x4B10 m) as [[p m1]|] eqn:P; [|discriminate X]. destruct (writeMem c0 0x4B10 17 m1) as [[r m2]|] eqn:W; [|discriminate X]. injection X as -> D R0 R1.
    exists m, m1, m2, p. split; [exact Um|]. split; [exact P|]. split; [exact W|]. split; [|exact D].
    intros []; [destruct (readMem c0 0x4B10 true m2) as [[[? ?] ?]|]; [|discriminate R1]; injection R1 as -> ->|destruct (readMem c0 0x4B10 false m2) as [[[? ?] ?]|]; [|discriminate R0]; injection R0 as -> ->]; eexists; reflexivity.
  - assert (X : match mruns c0 l2 (newMapper c0 fresh junk0) with
                | Some (out, m) => match memoryPtr c0 0x4B10 false m with
                    | Some (p, m1) => match writeMem c0 0x4C10 34 m1 with
                        | Some (r, m2) => (r, deref m1 p, deref m2 p, option_map fst (readMem c0 0x4B10 false m2), option_map fst (readMem c0 0x4B10 true m2))
                        | None => (9, None, None, None, None) end
                    | None => (9, None, None, None, None) end
                | None => (9, None, None, None, None) end = (0, Some 17, Some 34, Some (0, 17), Some (0, 17))) by (vm_compute; reflexivity).
    destruct (mruns c0 l2 (newMapper c0 fresh junk0)) as [[out m]|] eqn:E; [|discriminate X]. pose proof (U l2 F2 m out E) as Um. clear E.
    destruct (memoryPtr c0 0x4B10 false m) as [[p m1]|] eqn:P; [|discriminate X]. destruct (writeMem c0 0x4C10 34 m1) as [[r m2]|] eqn:W; [|discriminate X]. injection X as -> D1 D R0 R1.
    exists m, m1, m2, p. split; [exact Um|]. split; [exact P|]. split; [exact D1|]. split; [exact W|]. split; [|exact D].
    intros []; [destruct (readMem c0 0x4B10 true m2) as [[[? ?] ?]|]; [|discriminate R1]; injection R1 as -> ->|destruct (readMem c0 0x4B10 false m2) as [[[? ?] ?]|]; [|discriminate R0]; injection R0 as -> ->]; eexists; reflexivity.
Qed.
Print Assumptions C129_stale_refuted.
(** operator[] returns a reference, but nothing can be stored through it: it is NULL or in the flash. *)
Theorem C129_store_refuted c m a p m' v : index c a m = Some (p, m') -> store m' p v = None.
Proof.
  unfold index, memoryPtr. cbv zeta. destruct (getFlashPageNum m a <? 0); [intros [= <- <-]; reflexivity|]. destruct (doFlash c m) as [m1|]; [|discriminate]. destruct (getFlashPageNum m a =? 0); [intros [= <- <-]; reflexivity|]. cbn [negb]. rewrite andb_false_r. intros [= <- <-]. reflexivity.
Qed.
Print Assumptions C129_store_refuted.
(** What is stored through a pointer into the buffer is read back, but doFlash does not write it if nothing else was written to the page. *)
Theorem C129_buffer_refuted c m a o m1 m2 v : used c m -> flashMemModified m = false -> memoryPtr c a false m = Some (InBuf o, m1) -> store m1 (InBuf o) v = Some m2 ->
  readMem c a false m2 = Some (0, v, m2) /\ exists m3 m4, doFlash c m = Some m3 /\ doFlash c m2 = Some m4 /\ flash m4 = flash m3.
Proof.
  intros U F P S. destruct (used_core c m U) as (Hc & hi & K). unfold memoryPtr in P. cbv zeta in P. destruct (getFlashPageNum m a <? 0) eqn:L; [discriminate|]. destruct (getFlashPageNum m a =? 0) eqn:Z0; [discriminate|]. destruct ((getFlashPageNum m a =? writePage m) && negb false) eqn:W; [|discriminate]. injection P as <- <-. injection S as <-. split.
  - unfold readMem. cbv zeta. match goal with |- context [getFlashPageNum ?x a] => change (getFlashPageNum x a) with (getFlashPageNum m a) end. rewrite L, Z0. cbn [writePage writeBuf]. rewrite W. rewrite rd_wr_same; [reflexivity|]. destruct (k_buf _ _ _ K) as (BL & _). rewrite BL, offset_mod. apply mod_256_lt.
  - destruct (doFlash_spec c m hi Hc K) as (m3 & D & _). exists m3. revert D. unfold doFlash. cbn [flash allocTable writeBuf writePage lastAllocated flashMemModified allocTableModified]. rewrite F. destruct (if allocTableModified m then _ else _) as [f1|]; [|discriminate]. intros [= <-]. eexists. split; [reflexivity|]. split; [reflexivity|]. reflexivity.
Qed.
Print Assumptions C129_buffer_refuted.
(** a mapper with a byte read through a pointer after further writes and a flash; a pointer into the buffer with nothing modified *)
Example C129_example :
  match mruns c0 [AddRange 0x4B00 0x200; Write 0x4B10 17] (newMapper c0 fresh junk0) with
  | Some (_, m) => match index c0 0x4B10 m with
                   | Some (p, m1) => (deref m1 p, match mruns c0 [Write 0x4B10 18; Write 0x4C10 3; AddRange 0x5000 0x100; Flash] m1 with Some (_, m2) => deref m2 p | None => None end,
                                      match memoryPtr c0 0x4B11 false m1 with Some (InBuf o, m1) => (flashMemModified m1, o) | _ => (true, O) end, option_map fst (index c0 0x6000 m))
                   | None => (None, None, (true, O), None) end
  | None => (None, None, (true, O), None) end = (Some 17, Some 18, (false, 17%nat), Some Null).
Proof. vm_compute. reflexivity. Qed.
