(** Lemmas about the memory mapper *)
From Verif Require Import Base Bits Mapper_Model Mapper_Spec.

Lemma fps_Z : Z.of_nat FLASH_PAGE_SIZE = 256.
Proof. reflexivity. Qed.
Global Opaque FLASH_PAGE_SIZE.
Ltac ps := pose proof fps_Z as FPS.

(** ** Small facts *)
Lemma xor_255 e : is_byte e -> Z.lxor e 255 = 255 - e.
Proof. intros H. apply Z.eqb_eq. revert e H. apply (byte_forall (fun e => Z.lxor e 255 =? 255 - e)). vm_compute. reflexivity. Qed.
Lemma u8_xor p : is_byte p -> u8 (Z.lxor p 255) = 255 - p.
Proof. intros H. rewrite xor_255 by auto. unfold u8, is_byte in *. apply Z.mod_small. lia. Qed.
Lemma shr8 a : Z.shiftr a 8 = a / 256.
Proof. now rewrite Z.shiftr_div_pow2 by lia. Qed.
Lemma and_255 a : Z.land a 255 = a mod 256.
Proof. change 255 with (Z.ones 8). now rewrite Z.land_ones by lia. Qed.
Lemma offset_mod a : offset a = Z.to_nat (a mod 256).
Proof. unfold offset. now rewrite and_255. Qed.
Lemma in_space_page a : in_space a = true -> 0 <= a / 256 < 256 /\ (Z.to_nat (a / 256) < FLASH_PAGE_SIZE)%nat.
Proof. ps. unfold in_space. intros H. assert (0 <= a < 65536) by lia. assert (0 <= a / 256) by (apply Z.div_pos; lia). assert (a / 256 < 256) by (apply Z.div_lt_upper_bound; lia). lia. Qed.
Lemma mod_256_lt a : (Z.to_nat (a mod 256) < FLASH_PAGE_SIZE)%nat.
Proof. ps. pose proof (Z.mod_pos_bound a 256). lia. Qed.
Lemma in_space_shift a : ((Z.shiftr a 8 <? 0) || (Z.of_nat FLASH_PAGE_SIZE <=? Z.shiftr a 8)) = negb (in_space a).
Proof.
  ps. rewrite shr8. unfold in_space. pose proof (Z.div_mod a 256 ltac:(lia)). pose proof (Z.mod_pos_bound a 256 ltac:(lia)).
  apply eq_true_iff_eq. rewrite orb_true_iff, negb_true_iff, andb_false_iff, Z.ltb_lt, !Z.leb_le, Z.leb_gt, Z.ltb_ge. lia.
Qed.
Lemma corrupted_count t : corrupted t = (2 <=? count_occ Z.eq_dec t 0%Z)%nat.
Proof.
  unfold corrupted. assert (E : length (filter (fun e => e =? 0) t) = count_occ Z.eq_dec t 0).
  { induction t as [|x t IH]; auto. cbn [filter count_occ]. destruct (Z.eqb_spec x 0), (Z.eq_dec x 0); try contradiction; simpl; auto. }
  rewrite E. destruct (count_occ Z.eq_dec t 0%Z) as [|[|n]]; reflexivity.
Qed.
Lemma page_blank : page_ok (repeat 255 FLASH_PAGE_SIZE).
Proof. split. { apply repeat_length. } apply Forall_forall. intros x I. apply repeat_spec in I. subst. red; lia. Qed.
Lemma page_zero : page_ok (repeat 0 FLASH_PAGE_SIZE).
Proof. split. { apply repeat_length. } apply Forall_forall. intros x I. apply repeat_spec in I. subst. red; lia. Qed.
Lemma page_wr l i v : page_ok l -> is_byte v -> page_ok (wr l i v).
Proof. intros (L & B) H. split. { now rewrite wr_length. } now apply Forall_wr. Qed.
Lemma rd_repeat (x : Z) n i : (i < n)%nat -> rd (repeat x n) i = x.
Proof. intros H. unfold rd. rewrite nth_indep with (d' := x) by (rewrite repeat_length; lia). apply nth_repeat. Qed.

(** erasing and programming a page stores it *)
Lemma programPage_erased f p l : page_ok l -> exists f', programPage (erasePage f p) p l = Some f' /\ forall q, f' q = if q =? p then l else f q.
Proof.
  intros (L & B). unfold programPage, erasePage, upd. rewrite Z.eqb_refl.
  assert (E : map (fun i => Z.land (rd (repeat 255 FLASH_PAGE_SIZE) i) (rd l i)) (seq 0 FLASH_PAGE_SIZE) = l).
  { apply list_ext with (d := 0). { now rewrite map_length, seq_length. } intros i Hi. rewrite map_length, seq_length in Hi.
    set (g := fun i => Z.land (rd (repeat 255 FLASH_PAGE_SIZE) i) (rd l i)).
    rewrite nth_indep with (d' := g 0%nat) by (rewrite map_length, seq_length; auto). rewrite map_nth, seq_nth by auto. unfold g.
    rewrite rd_repeat by auto. rewrite Z.land_comm. change 255 with (Z.ones 8). rewrite Z.land_ones by lia.
    pose proof (rd_byte l (0 + i) B) as Y. unfold is_byte in Y. rewrite Z.mod_small by lia. reflexivity. }
  rewrite E. destruct (list_eq_dec Z.eq_dec l l) as [_|N]; [|congruence].
  eexists. split; [reflexivity|]. intros q. cbv beta. destruct (q =? p); reflexivity.
Qed.

(** ** The highest page in use *)
Lemma fold_max_spec t : forall h, h <= fold_left (fun h e => Z.max h (Z.lxor e 255)) t h /\
  (forall e, In e t -> Z.lxor e 255 <= fold_left (fun h e => Z.max h (Z.lxor e 255)) t h) /\
  (fold_left (fun h e => Z.max h (Z.lxor e 255)) t h = h \/ exists e, In e t /\ fold_left (fun h e => Z.max h (Z.lxor e 255)) t h = Z.lxor e 255).
Proof.
  induction t as [|x t IH]; intros h; cbn [fold_left].
  - split; [lia|]. split; [intros e []|]. auto.
  - destruct (IH (Z.max h (Z.lxor x 255))) as (A & B & C). split; [lia|]. split.
    + intros e [->|I]; [lia|]. now apply B.
    + destruct C as [C|(e & I & C)].
      * destruct (Z.max_spec h (Z.lxor x 255)) as [(D & E)|(D & E)]; rewrite E in C |- *; [right; exists x; split; [now left|auto]|left; auto].
      * right. exists e. split; [now right|auto].
Qed.
Lemma highest_spec c t hi : mcfg_ok c -> table_ok c t hi -> highest t = if hi =? flashBasePage c then 0 else hi.
Proof.
  intros (H1 & H2 & H3) T. destruct (t_page _ _ _ T) as (L & B). unfold highest. destruct (fold_max_spec t 0) as (P & Q & R).
  set (h := fold_left _ t 0) in *.
  assert (X : forall e, In e t -> Z.lxor e 255 = 0 \/ flashBasePage c < Z.lxor e 255 <= hi).
  { intros e I. destruct (In_nth _ _ 0 I) as (v & Hv & E). change (rd t v = e) in E. rewrite L in Hv.
    assert (is_byte e) by (rewrite Forall_forall in B; auto). rewrite xor_255 by auto. destruct (t_range _ _ _ T v Hv) as [D|D]; rewrite E in D; lia. }
  destruct (Z.eqb_spec hi (flashBasePage c)) as [E|E].
  - destruct R as [R|(e & I & R)]; auto. destruct (X e I); lia.
  - destruct (t_high _ _ _ T) as [D|(v & Hv & D)]; [lia|].
    assert (I : In (rd t v) t) by (apply nth_In; lia). assert (is_byte (rd t v)) by now apply rd_byte.
    pose proof (Q _ I) as Q1. rewrite xor_255 in Q1 by auto. pose proof (t_area _ _ _ T).
    destruct R as [R|(e & I' & R)]; [lia|]. destruct (X e I'); lia.
Qed.
Lemma zeros_unique t : (2 <= count_occ Z.eq_dec t 0%Z)%nat -> exists v w, (v < w < length t)%nat /\ rd t v = 0 /\ rd t w = 0.
Proof.
  induction t as [|x t IH]; cbn [count_occ]; intros H; [lia|].
  destruct (Z.eq_dec x 0) as [->|N].
  - assert (I : In 0 t) by (apply (count_occ_In Z.eq_dec); lia). destruct (In_nth _ _ 0 I) as (w & Hw & E).
    exists 0%nat, (S w). cbn [length]. split; [lia|]. split; auto.
  - destruct (IH H) as (v & w & A & B & D). exists (S v), (S w). cbn [length]. split; [lia|]. auto.
Qed.
Lemma table_kept c t hi : table_ok c t hi -> taken_over t = t.
Proof.
  intros T. unfold taken_over. destruct (Nat.leb_spec 2 (count_occ Z.eq_dec t 0%Z)) as [Hc|]; auto.
  destruct (zeros_unique t Hc) as (v & w & A & B & D). destruct (t_page _ _ _ T) as (L & _). rewrite L in A.
  assert (v = w); [|lia]. apply (t_distinct _ _ _ T); try lia.
Qed.
Lemma table_blank c : mcfg_ok c -> table_ok c (repeat 255 FLASH_PAGE_SIZE) (flashBasePage c).
Proof.
  intros (H1 & H2 & H3). constructor.
  - apply page_blank.
  - intros v Hv. left. now apply rd_repeat.
  - intros v w Hv Hw _ N. rewrite rd_repeat in N by auto. contradiction.
  - now left.
  - lia.
Qed.
(** allocating the next flash page *)
Lemma table_alloc c t hi v : mcfg_ok c -> table_ok c t hi -> (v < FLASH_PAGE_SIZE)%nat -> rd t v = 255 -> hi < flashBasePage c + flashSizePages c - 1 ->
  table_ok c (wr t v (255 - (hi + 1))) (hi + 1).
Proof.
  intros (H1 & H2 & H3) T Hv E Hh. destruct (t_page _ _ _ T) as (L & B). pose proof (t_area _ _ _ T) as A.
  assert (R : forall w, rd (wr t v (255 - (hi + 1))) w = if Nat.eqb v w then 255 - (hi + 1) else rd t w).
  { intros w. destruct (Nat.eqb_spec v w) as [<-|N]; [apply rd_wr_same; lia|now apply rd_wr_other]. }
  constructor.
  - apply page_wr. { split; auto. } red. lia.
  - intros w Hw. rewrite R. destruct (Nat.eqb v w); [right; lia|]. destruct (t_range _ _ _ T w Hw); [now left|right; lia].
  - intros w1 w2 Hw1 Hw2. rewrite !R. destruct (Nat.eqb_spec v w1) as [<-|N1], (Nat.eqb_spec v w2) as [<-|N2]; auto.
    + intros D _. destruct (t_range _ _ _ T w2 Hw2); lia.
    + intros D _. destruct (t_range _ _ _ T w1 Hw1); lia.
    + intros D N. apply (t_distinct _ _ _ T); auto.
  - right. exists v. split; auto. rewrite R, Nat.eqb_refl. lia.
  - lia.
Qed.

(** ** The invariant *)
Record core (c : mcfg) (m : mapper) (hi : Z) : Prop := {
  k_table : table_ok c (allocTable m) hi;
  k_last : lastAllocated m = 0 \/ (lastAllocated m = hi /\ flashBasePage c < hi);
  k_flash : forall p, page_ok (flash m p);
  k_buf : page_ok (writeBuf m);
  k_page : writePage m = 0 \/ flashBasePage c < writePage m <= hi;
  k_sync : flashMemModified m = false -> writePage m <> 0 -> flash m (writePage m) = writeBuf m;
  k_stored : exists hi', table_ok c (taken_over (flash m (flashBasePage c))) hi' }.
(** the pages as the mapper sees them *)
Definition pages (m : mapper) (p : Z) : list Z := if p =? writePage m then writeBuf m else flash m p.
Definition view (m : mapper) : Z -> option Z := decode (allocTable m) (pages m).

Lemma decode_ext c t hi pg pg' a : table_ok c t hi -> (forall p, flashBasePage c < p <= hi -> pg p = pg' p) -> decode t pg a = decode t pg' a.
Proof.
  intros T H. unfold decode. destruct (in_space a) eqn:E; auto. destruct (in_space_page a E) as (_ & P). cbv zeta.
  destruct (Z.eqb_spec (rd t (Z.to_nat (a / 256))) 255) as [|N]; auto. destruct (t_range _ _ _ T _ P) as [D|D]; [contradiction|]. now rewrite H.
Qed.
Lemma doFlash_spec c m hi : mcfg_ok c -> core c m hi ->
  exists m', doFlash c m = Some m' /\ core c m' hi /\ flashMemModified m' = false /\ allocTableModified m' = false /\
    allocTable m' = allocTable m /\ writeBuf m' = writeBuf m /\ writePage m' = writePage m /\ lastAllocated m' = lastAllocated m /\
    (forall p, flashBasePage c < p <= hi -> flash m' p = pages m p) /\
    flash m' (flashBasePage c) = (if allocTableModified m then allocTable m else flash m (flashBasePage c)) /\
    (forall a, view m' a = view m a).
Proof.
  intros Hc K. pose proof Hc as (H1 & H2 & H3). destruct K as [K1 K2 K3 K4 K5 K6 K7].
  assert (F1 : exists f1, (if allocTableModified m then programPage (erasePage (flash m) (flashBasePage c)) (flashBasePage c) (allocTable m) else Some (flash m)) = Some f1 /\
     forall q, f1 q = if q =? flashBasePage c then (if allocTableModified m then allocTable m else flash m q) else flash m q).
  { destruct (allocTableModified m).
    - apply programPage_erased. apply K1.
    - exists (flash m). split; auto. intros q. destruct (q =? flashBasePage c); auto. }
  destruct F1 as (f1 & E1 & R1).
  assert (F2 : exists f2, (if flashMemModified m then programPage (erasePage f1 (writePage m)) (writePage m) (writeBuf m) else Some f1) = Some f2 /\
     forall q, f2 q = if q =? writePage m then (if flashMemModified m then writeBuf m else f1 q) else f1 q).
  { destruct (flashMemModified m).
    - now apply programPage_erased.
    - exists f1. split; auto. intros q. destruct (q =? writePage m); auto. }
  destruct F2 as (f2 & E2 & R2).
  unfold doFlash. rewrite E1, E2. eexists. split; [reflexivity|]. cbn [flash allocTable writeBuf writePage lastAllocated flashMemModified allocTableModified].
  assert (B : f2 (flashBasePage c) = if allocTableModified m then allocTable m else flash m (flashBasePage c)).
  { rewrite R2. destruct (Z.eqb_spec (flashBasePage c) (writePage m)); [lia|]. now rewrite R1, Z.eqb_refl. }
  assert (P : forall p, flashBasePage c < p <= hi -> f2 p = pages m p).
  { intros p Hp. rewrite R2. unfold pages. destruct (Z.eqb_spec p (writePage m)) as [->|N].
    - destruct (flashMemModified m) eqn:M; auto. rewrite R1. destruct (Z.eqb_spec (writePage m) (flashBasePage c)); [lia|]. apply K6; auto. lia.
    - rewrite R1. destruct (Z.eqb_spec p (flashBasePage c)); [lia|]. auto. }
  split.
  { constructor; cbn [flash allocTable writeBuf writePage lastAllocated flashMemModified allocTableModified]; auto.
    - intros p. rewrite R2. destruct (p =? writePage m); [destruct (flashMemModified m); auto|]; rewrite R1; (destruct (p =? flashBasePage c); [destruct (allocTableModified m)|]); auto; apply K1.
    - intros _ N. rewrite P by lia. unfold pages. now rewrite Z.eqb_refl.
    - rewrite B. destruct (allocTableModified m); auto. rewrite (table_kept c _ hi) by auto. now exists hi. }
  repeat (split; [auto; fail|]). 
  intros a. unfold view. cbn [allocTable]. apply (decode_ext c _ hi); auto. intros p Hp. unfold pages at 1. cbn [writePage writeBuf flash].
  destruct (Z.eqb_spec p (writePage m)) as [E|N]; [unfold pages; destruct (Z.eqb_spec p (writePage m)); [auto|contradiction]|]. now apply P.
Qed.
Lemma allocatePage_full c m hi v : mcfg_ok c -> core c m hi -> hi = flashBasePage c + flashSizePages c - 1 ->
  exists m', allocatePage c v m = (MEM_MAPPER_OUT_OF_MEMORY, m') /\ core c m' hi /\ flash m' = flash m /\ allocTable m' = allocTable m /\ writeBuf m' = writeBuf m /\
    writePage m' = writePage m /\ flashMemModified m' = flashMemModified m /\ allocTableModified m' = allocTableModified m.
Proof.
  intros Hc K E. pose proof Hc as (H1 & H2 & H3). pose proof (highest_spec c _ hi Hc (k_table _ _ _ K)) as Hh.
  destruct (Z.eqb_spec hi (flashBasePage c)); [lia|].
  unfold allocatePage. assert (L : (if lastAllocated m =? 0 then highest (allocTable m) else lastAllocated m) = hi).
  { destruct (Z.eqb_spec (lastAllocated m) 0); auto. destruct (k_last _ _ _ K) as [|(D & _)]; [contradiction|auto]. }
  rewrite L. cbv zeta. destruct (Z.eqb_spec hi (flashBasePage c + flashSizePages c - 1)); [|contradiction].
  eexists. split; [reflexivity|]. cbn [flash allocTable writeBuf writePage lastAllocated flashMemModified allocTableModified]. split; auto 10.
  destruct K. constructor; cbn [flash allocTable writeBuf writePage lastAllocated flashMemModified allocTableModified]; auto. right. split; auto. lia.
Qed.
Lemma allocatePage_ok c m hi v : mcfg_ok c -> core c m hi -> (v < FLASH_PAGE_SIZE)%nat -> rd (allocTable m) v = 255 -> hi < flashBasePage c + flashSizePages c - 1 ->
  exists m', allocatePage c v m = (MEM_MAPPER_SUCCESS, m') /\ core c (setModified m') (hi + 1) /\ flash m' = flash m /\ allocTable m' = wr (allocTable m) v (255 - (hi + 1)) /\
    writeBuf m' = repeat 0 FLASH_PAGE_SIZE /\ writePage m' = hi + 1 /\ flashMemModified m' = flashMemModified m /\ allocTableModified m' = allocTableModified m.
Proof.
  intros Hc K Hv E0 Hlt. pose proof Hc as (H1 & H2 & H3). pose proof (highest_spec c _ hi Hc (k_table _ _ _ K)) as Hh. pose proof (t_area _ _ _ (k_table _ _ _ K)) as A.
  unfold allocatePage. set (la := if lastAllocated m =? 0 then highest (allocTable m) else lastAllocated m).
  assert (L : (la = hi /\ flashBasePage c < hi) \/ (la = 0 /\ hi = flashBasePage c)).
  { unfold la. destruct (Z.eqb_spec (lastAllocated m) 0).
    - rewrite Hh. destruct (Z.eqb_spec hi (flashBasePage c)); [right|left]; lia.
    - destruct (k_last _ _ _ K); [contradiction|left; auto]. }
  cbv zeta. destruct (Z.eqb_spec la (flashBasePage c + flashSizePages c - 1)); [lia|].
  assert (W : (if la =? 0 then flashBasePage c + 1 else la + 1) = hi + 1) by (destruct (Z.eqb_spec la 0); lia).
  rewrite W. rewrite u8_xor by (red; lia). eexists. split; [reflexivity|].
  cbn [flash allocTable writeBuf writePage lastAllocated flashMemModified allocTableModified]. split; auto 10.
  destruct K. constructor; cbn [setModified flash allocTable writeBuf writePage lastAllocated flashMemModified allocTableModified]; auto.
  - now apply table_alloc.
  - destruct (Z.eqb_spec la 0); [left; auto|right; lia].
  - apply page_zero.
  - right; lia.
  - discriminate.
Qed.

(** ** Operations against the idealised array *)
Lemma getPage c m hi a : core c m hi -> getFlashPageNum m a = if in_space a then 255 - rd (allocTable m) (Z.to_nat (a / 256)) else -1.
Proof.
  intros K. unfold getFlashPageNum. cbv zeta. rewrite in_space_shift, shr8. destruct (in_space a) eqn:E; cbn [negb]; [|reflexivity].
  apply xor_255. apply rd_byte. apply (t_page _ _ _ (k_table _ _ _ K)).
Qed.
Lemma entry_byte c m hi v : core c m hi -> is_byte (rd (allocTable m) v).
Proof. intros K. apply rd_byte. apply (t_page _ _ _ (k_table _ _ _ K)). Qed.
Record rel (c : mcfg) (m : mapper) (x : ideal) (hi : Z) : Prop := {
  r_core : core c m hi;
  r_free : free x = flashBasePage c + flashSizePages c - 1 - hi;
  r_mem : forall a, mem x a = view m a }.
(** what is known about the flash: [pending], a write may be in the buffer only; [lost], the table in RAM may be ahead of the one in flash *)
Definition track (c : mcfg) (pending lost : bool) (m : mapper) : Prop :=
  (pending = false -> flashMemModified m = false) /\
  (lost = false -> (pending = true /\ allocTableModified m = true) \/ taken_over (flash m (flashBasePage c)) = allocTable m).
Lemma track_pending c p l m : track c p l m -> track c true l m.
Proof. intros (A & B). split; [discriminate|]. intros E. destruct (B E) as [(_ & D)|D]; auto. Qed.
Lemma track_doFlash c m m' hi p l : table_ok c (allocTable m) hi -> track c p l m ->
  flashMemModified m' = false -> allocTable m' = allocTable m -> flash m' (flashBasePage c) = (if allocTableModified m then allocTable m else flash m (flashBasePage c)) ->
  track c false l m'.
Proof.
  intros T (A & B) E1 E2 E3. split; auto. intros El. right. rewrite E2, E3. destruct (allocTableModified m) eqn:M.
  - apply (table_kept c _ hi T).
  - destruct (B El) as [(_ & D)|D]; [discriminate|auto].
Qed.
Lemma view_mapped c m hi a : core c m hi -> in_space a = true -> (view m a = None <-> rd (allocTable m) (Z.to_nat (a / 256)) = 255).
Proof.
  intros K E. unfold view, decode. rewrite E. cbv zeta. destruct (Z.eqb_spec (rd (allocTable m) (Z.to_nat (a / 256))) 255); split; intros; try discriminate; try contradiction; auto.
Qed.

Lemma read_spec c m x hi a force p l : mcfg_ok c -> rel c m x hi -> track c p l m ->
  exists m', readMem c a force m = Some (ideal_read a x, m') /\ rel c m' x hi /\ track c p l m'.
Proof.
  intros Hc [K F M] T. unfold readMem, ideal_read. cbv zeta. rewrite (getPage c m hi a K).
  destruct (in_space a) eqn:E; cbn [negb].
  2:{ exists m. split; [reflexivity|]. split; auto. constructor; auto. }
  pose proof (entry_byte c m hi (Z.to_nat (a / 256)) K) as EB. red in EB.
  destruct (in_space_page a E) as (_ & P). set (e := rd (allocTable m) (Z.to_nat (a / 256))) in *.
  destruct (Z.ltb_spec (255 - e) 0); [lia|].
  assert (S : exists m1, (if force then doFlash c m else Some m) = Some m1 /\ rel c m1 x hi /\ track c p l m1 /\ allocTable m1 = allocTable m /\
    writePage m1 = writePage m /\ writeBuf m1 = writeBuf m /\ (force = true -> forall q, flashBasePage c < q <= hi -> flash m1 q = pages m q) /\ (force = false -> m1 = m)).
  { destruct force.
    - destruct (doFlash_spec c m hi Hc K) as (m1 & D & K1 & D1 & D2 & D3 & D4 & D5 & D6 & D7 & D8 & D9).
      exists m1. split; auto. split. { constructor; auto. intros b. rewrite D9. apply M. } split.
      + pose proof (track_doFlash c m m1 hi p l (k_table _ _ _ K) T D1 D3 D8) as T1. destruct p; auto. apply (track_pending c false). auto.
      + repeat (split; [auto; fail|]). discriminate.
    - exists m. split; auto. split. { constructor; auto. } repeat (split; [auto; fail|]). split; [discriminate|auto]. }
  destruct S as (m1 & -> & R1 & T1 & A1 & W1 & B1 & FF & NF).
  pose proof (M a) as Ma. unfold view, decode in Ma. rewrite E in Ma. cbv zeta in Ma. fold e in Ma.
  destruct (Z.eqb_spec e 255) as [E255|N255].
  - replace (255 - e =? 0) with true by lia. rewrite Ma. exists m1. split; [reflexivity|]. auto.
  - replace (255 - e =? 0) with false by lia. rewrite Ma. rewrite W1, B1, !offset_mod.
    destruct (t_range _ _ _ (k_table _ _ _ K) _ P) as [D|D]; fold e in D; [contradiction|].
    destruct force.
    + rewrite andb_false_r. exists m1. rewrite FF by auto. auto.
    + rewrite andb_true_r. assert (m1 = m) by auto. subst m1. exists m. unfold pages. destruct (255 - e =? writePage m); auto.
Qed.

Lemma swapIn_spec c m x hi q p l : mcfg_ok c -> rel c m x hi -> track c p l m -> (q = 0 \/ flashBasePage c < q <= hi) ->
  exists m1, swapIn c q m = Some m1 /\ rel c m1 x hi /\ track c p l m1 /\ writePage m1 = q /\ allocTable m1 = allocTable m.
Proof.
  intros Hc [K F M] T Hq. unfold swapIn. destruct (Z.eqb_spec (writePage m) q) as [E|N].
  - exists m. split; auto. split; auto. constructor; auto.
  - destruct (doFlash_spec c m hi Hc K) as (m1 & -> & K1 & D1 & D2 & D3 & D4 & D5 & D6 & D7 & D8 & D9).
    eexists. split; [reflexivity|]. cbn [writePage allocTable]. split; [|split; [|auto]].
    + constructor; auto.
      * destruct K1. constructor; cbn [flash allocTable writeBuf writePage lastAllocated flashMemModified allocTableModified]; auto.
        { destruct (q =? 0); auto. }
        { intros _ Nq. destruct (Z.eqb_spec q 0); [contradiction|auto]. }
      * intros b. rewrite M, <- D9. unfold view. cbn [allocTable]. apply (decode_ext c _ hi). { apply K1. } intros r Hr.
        unfold pages. cbn [writePage writeBuf flash]. destruct (Z.eqb_spec r q) as [->|Nr].
        { destruct Hc as (? & _). destruct (Z.eqb_spec q 0); [lia|]. rewrite D5. destruct (Z.eqb_spec q (writePage m)) as [->|]; auto. now destruct N. }
        { rewrite D5, D4. destruct (Z.eqb_spec r (writePage m)) as [->|]; auto. rewrite D7 by auto. unfold pages. now rewrite Z.eqb_refl. }
    + pose proof (track_doFlash c m m1 hi p l (k_table _ _ _ K) T D1 D3 D8) as T1.
      assert (track c false l (mkMap (flash m1) (allocTable m1) (if q =? 0 then writeBuf m1 else flash m1 q) q (lastAllocated m1) (flashMemModified m1) (allocTableModified m1))) as T2 by exact T1.
      destruct p; auto. apply (track_pending c false). auto.
Qed.
Lemma putByte_core c m hi a v : is_byte v -> core c (setModified m) hi -> core c (putByte a v m) hi.
Proof.
  intros Hv K. destruct K as [K1 K2 K3 K4 K5 K6 K7].
  constructor; cbn [putByte setModified flash allocTable writeBuf writePage lastAllocated flashMemModified allocTableModified] in *; auto.
  - now apply page_wr.
  - discriminate.
Qed.
Lemma core_setModified c m hi : core c m hi -> core c (setModified m) hi.
Proof. intros K. destruct K. constructor; cbn [setModified flash allocTable writeBuf writePage lastAllocated flashMemModified allocTableModified]; auto. discriminate. Qed.
Lemma rd_wr_case (l : list Z) i j v : (i < length l)%nat -> rd (wr l i v) j = if Nat.eqb i j then v else rd l j.
Proof. intros H. destruct (Nat.eqb_spec i j) as [<-|N]; [now apply rd_wr_same|now apply rd_wr_other]. Qed.
(** writing a byte into the page in the buffer *)
Lemma view_putByte c m hi a v b : core c (setModified m) hi -> in_space a = true -> rd (allocTable m) (Z.to_nat (a / 256)) <> 255 ->
  writePage m = 255 - rd (allocTable m) (Z.to_nat (a / 256)) -> view (putByte a v m) b = put (view m) a v b.
Proof.
  intros K E N W. destruct K as [K1 _ _ K4 _ _ _]. cbn [setModified allocTable writeBuf] in K1, K4. destruct (in_space_page a E) as (PR & P). unfold put, view, decode. cbn [putByte allocTable].
  destruct (Z.eqb_spec b a) as [->|Nb].
  - rewrite E. cbv zeta. destruct (Z.eqb_spec (rd (allocTable m) (Z.to_nat (a / 256))) 255); [contradiction|]. f_equal.
    unfold pages. cbn [putByte writePage writeBuf]. rewrite W, Z.eqb_refl. rewrite offset_mod. apply rd_wr_same. destruct K4 as (-> & _). apply mod_256_lt.
  - destruct (in_space b) eqn:Eb; auto. destruct (in_space_page b Eb) as (PRb & Pb). cbv zeta.
    destruct (Z.eqb_spec (rd (allocTable m) (Z.to_nat (b / 256))) 255) as [|Nb255]; auto. f_equal. unfold pages. cbn [putByte writePage writeBuf flash].
    destruct (Z.eqb_spec (255 - rd (allocTable m) (Z.to_nat (b / 256))) (writePage m)) as [Ew|]; auto.
    rewrite offset_mod, rd_wr_case by (destruct K4 as (-> & _); apply mod_256_lt).
    destruct (Nat.eqb_spec (Z.to_nat (a mod 256)) (Z.to_nat (b mod 256))) as [Em|]; auto. exfalso. apply Nb.
    assert (Z.to_nat (b / 256) = Z.to_nat (a / 256)) as Q. { apply (t_distinct _ _ _ K1); auto. lia. }
    pose proof (Z.mod_pos_bound a 256 ltac:(lia)). pose proof (Z.mod_pos_bound b 256 ltac:(lia)).
    rewrite (Z.div_mod a 256), (Z.div_mod b 256) by lia. lia.
Qed.
Lemma same_page_space b p : b / 256 = p -> 0 <= p < 256 -> in_space b = true.
Proof. intros <- H. unfold in_space. pose proof (Z.div_mod b 256 ltac:(lia)). pose proof (Z.mod_pos_bound b 256 ltac:(lia)). lia. Qed.
(** a freshly allocated page reads as zeros; nothing else changes, provided no written page was waiting in the buffer *)
Lemma view_alloc c m m' hi p b : core c m hi -> 0 <= p < 256 -> rd (allocTable m) (Z.to_nat p) = 255 -> (forall q, flashBasePage c < q <= hi -> pages m q = flash m q) ->
  flash m' = flash m -> allocTable m' = wr (allocTable m) (Z.to_nat p) (255 - (hi + 1)) -> writeBuf m' = repeat 0 FLASH_PAGE_SIZE -> writePage m' = hi + 1 -> 
  flashBasePage c <= hi < 255 -> 1 <= flashBasePage c -> view m' b = if b / 256 =? p then Some 0 else view m b.
Proof.
  intros K Hp E255 S E1 E2 E3 E4 Hh Hb. ps. destruct (t_page _ _ _ (k_table _ _ _ K)) as (L & B).
  unfold view, decode. rewrite E2. destruct (in_space b) eqn:E.
  2:{ destruct (Z.eqb_spec (b / 256) p) as [Q|]; auto. rewrite (same_page_space b p Q Hp) in E. discriminate. }
  destruct (in_space_page b E) as (PR & P). cbv zeta. rewrite rd_wr_case by (rewrite L; lia).
  destruct (Z.eqb_spec (b / 256) p) as [Q|NQ].
  - rewrite <- Q, Nat.eqb_refl. destruct (Z.eqb_spec (255 - (hi + 1)) 255); [lia|]. f_equal. unfold pages. rewrite E4, E3.
    destruct (Z.eqb_spec (255 - (255 - (hi + 1))) (hi + 1)); [|lia]. apply rd_repeat. apply mod_256_lt.
  - destruct (Nat.eqb_spec (Z.to_nat p) (Z.to_nat (b / 256))); [lia|].
    destruct (Z.eqb_spec (rd (allocTable m) (Z.to_nat (b / 256))) 255) as [|N]; auto. f_equal.
    destruct (t_range _ _ _ (k_table _ _ _ K) _ P) as [|D]; [contradiction|]. rewrite S by auto. unfold pages. rewrite E4, E1.
    destruct (Z.eqb_spec (255 - rd (allocTable m) (Z.to_nat (b / 256))) (hi + 1)); [lia|auto].
Qed.

Lemma write_spec c m x hi a v p l : mcfg_ok c -> is_byte v -> rel c m x hi -> track c p l m ->
  exists m' hi', writeMem c a v m = Some (fst (ideal_write (autoAddPage c) a v x), m') /\ rel c m' (snd (ideal_write (autoAddPage c) a v x)) hi' /\ track c true l m'.
Proof.
  intros Hc Hv R T. pose proof Hc as (H1 & H2 & H3). pose proof (r_core _ _ _ _ R) as K. unfold writeMem, ideal_write. cbv zeta. rewrite (getPage c m hi a K).
  destruct (in_space a) eqn:E; cbn [negb].
  2:{ exists m, hi. split; [reflexivity|]. split; auto. apply (track_pending c p). auto. }
  pose proof (entry_byte c m hi (Z.to_nat (a / 256)) K) as EB. red in EB.
  destruct (in_space_page a E) as (PR & P). set (e := rd (allocTable m) (Z.to_nat (a / 256))) in *.
  destruct (Z.ltb_spec (255 - e) 0); [lia|].
  assert (Q : 255 - e = 0 \/ flashBasePage c < 255 - e <= hi) by (destruct (t_range _ _ _ (k_table _ _ _ K) _ P) as [D|D]; fold e in D; lia).
  destruct (swapIn_spec c m x hi (255 - e) p l Hc R T Q) as (m1 & -> & R1 & T1 & W1 & A1).
  pose proof (r_core _ _ _ _ R1) as K1. pose proof (t_area _ _ _ (k_table _ _ _ K1)) as TA.
  assert (Mp : mapped x a = negb (e =? 255)).
  { unfold mapped. rewrite (r_mem _ _ _ _ R). unfold view, decode. rewrite E. cbv zeta. fold e. destruct (e =? 255); reflexivity. }
  rewrite Mp. destruct (Z.eqb_spec e 255) as [E255|N255]; cbn [negb].
  - replace (255 - e =? 0) with true by lia. destruct (autoAddPage c) eqn:Au; cbn [andb negb].
    + rewrite (r_free _ _ _ _ R). rewrite shr8. destruct (Z.eqb_spec (flashBasePage c + flashSizePages c - 1 - hi) 0) as [Full|Room].
      * destruct (allocatePage_full c m1 hi (Z.to_nat (a / 256)) Hc K1 ltac:(lia)) as (m2 & -> & K2 & F2 & A2 & B2 & W2 & M2 & TM2).
        exists m2, hi. split; [reflexivity|]. cbn [snd]. split.
        { constructor; auto. { apply (r_free _ _ _ _ R). } intros b. rewrite (r_mem _ _ _ _ R1). unfold view, pages. now rewrite A2, W2, B2, F2. }
        apply (track_pending c p). destruct T1 as (X & Y). split; [now rewrite M2|]. now rewrite TM2, A2, F2.
      * assert (Ea : rd (allocTable m1) (Z.to_nat (a / 256)) = 255) by (rewrite A1; auto).
        destruct (allocatePage_ok c m1 hi (Z.to_nat (a / 256)) Hc K1 P Ea ltac:(lia)) as (m2 & -> & K2 & F2 & A2 & B2 & W2 & M2 & TM2).
        exists (putByte a v (setTableModified m2)), (hi + 1). split; [reflexivity|]. cbn [snd].
        assert (K3 : core c (setModified (setTableModified m2)) (hi + 1)) by (destruct K2; constructor; auto).
        split.
        { constructor.
          - now apply putByte_core.
          - cbn [free map_page]. rewrite (r_free _ _ _ _ R). lia.
          - intros b. cbn [mem]. destruct (t_page _ _ _ (k_table _ _ _ K1)) as (L1 & _).
            assert (Ee : rd (allocTable (setTableModified m2)) (Z.to_nat (a / 256)) = 255 - (hi + 1)).
            { cbn [setTableModified allocTable]. rewrite A2. apply rd_wr_same. lia. }
            rewrite (view_putByte c _ (hi + 1)); auto.
            + unfold put. destruct (b =? a); auto. change (view (setTableModified m2) b) with (view m2 b). cbn [map_page mem].
              rewrite (view_alloc c m1 m2 hi (a / 256) b K1); auto; [|intros q Hq; unfold pages; rewrite W1; destruct (Z.eqb_spec q (255 - e)); [lia|auto] |lia].
              destruct (b / 256 =? a / 256); auto. rewrite (r_mem _ _ _ _ R1). reflexivity.
            + lia.
            + rewrite Ee. cbn [setTableModified writePage]. lia. }
        split; [discriminate|]. intros _. left. auto.
    + exists (putByte a v m1), hi. split; [reflexivity|]. cbn [snd]. split.
      * constructor; [apply putByte_core; auto; apply core_setModified; auto|apply (r_free _ _ _ _ R)|].
        intros b. rewrite (r_mem _ _ _ _ R1). unfold view. cbn [putByte allocTable]. apply (decode_ext c _ hi). { apply K1. }
        intros q Hq. unfold pages. cbn [putByte writePage writeBuf flash]. destruct (Z.eqb_spec q (writePage m1)); [lia|auto].
      * split; [discriminate|]. intros El. destruct (proj2 T1 El) as [(_ & D)|D]; [left|right]; auto.
  - replace (255 - e =? 0) with false by lia. cbn [andb]. exists (putByte a v m1), hi. split; [reflexivity|]. cbn [snd].
    split.
    + constructor; [apply putByte_core; auto; apply core_setModified; auto|apply (r_free _ _ _ _ R)|].
      intros b. cbn [mem]. rewrite (view_putByte c m1 hi); auto.
      * unfold put. destruct (b =? a); auto. apply (r_mem _ _ _ _ R1).
      * now apply core_setModified.
      * rewrite A1. auto.
      * rewrite A1. auto.
    + split; [discriminate|]. intros El. destruct (proj2 T1 El) as [(_ & D)|D]; [left|right]; auto.
Qed.

Lemma page_start p : (256 * p) / 256 = p.
Proof. rewrite Z.mul_comm. now apply Z.div_mul. Qed.
Lemma addLoop_spec c n : mcfg_ok c -> forall page tm m hi, core c m hi -> (page + n <= FLASH_PAGE_SIZE)%nat ->
  exists rc tm' m' hi', addLoop c n page tm m = Some (rc, tm', m') /\ core c m' hi' /\ (rc = 0 \/ rc = -4) /\
    (tm' = false -> tm = false) /\ (rc = 0 -> tm' = false -> m' = m) /\
    (flashMemModified m = false -> flashMemModified m' = false /\ forall x, rel c m x hi ->
       rc = fst (ideal_pages n (Z.of_nat page) x) /\ rel c m' (snd (ideal_pages n (Z.of_nat page) x)) hi').
Proof.
  intros Hc. pose proof Hc as (H1 & H2 & H3). ps. induction n; intros page tm m hi K Hp.
  { exists 0, tm, m, hi. cbn [addLoop ideal_pages fst snd]. split; [reflexivity|]. split; auto. split; auto. }
  cbn [addLoop]. destruct (Nat.leb_spec FLASH_PAGE_SIZE page); [lia|].
  pose proof (entry_byte c m hi page K) as EB. rewrite xor_255 by auto. red in EB.
  assert (SP : in_space (256 * Z.of_nat page) = true) by (unfold in_space; lia).
  assert (Mp : forall x, rel c m x hi -> mapped x (256 * Z.of_nat page) = negb (rd (allocTable m) page =? 255)).
  { intros x R. unfold mapped. rewrite (r_mem _ _ _ _ R). unfold view, decode. rewrite SP, page_start, Nat2Z.id. cbv zeta. destruct (rd (allocTable m) page =? 255); reflexivity. }
  destruct (Z.eqb_spec (rd (allocTable m) page) 255) as [E255|N255].
  - replace (255 - rd (allocTable m) page =? 0) with true by lia. pose proof (t_area _ _ _ (k_table _ _ _ K)) as TA.
    destruct (Z.eq_dec hi (flashBasePage c + flashSizePages c - 1)) as [Full|Room].
    + destruct (allocatePage_full c m hi page Hc K Full) as (m2 & -> & K2 & F2 & A2 & B2 & W2 & M2 & TM2). cbn [Z.eqb].
      exists (-4), tm, m2, hi. split; [reflexivity|]. split; auto. split; auto. split; auto. split; [lia|]. intros Fm. split; [now rewrite M2|]. intros x R.
      cbn [ideal_pages]. rewrite (Mp x R). cbn [negb]. rewrite (r_free _ _ _ _ R). destruct (Z.eqb_spec (flashBasePage c + flashSizePages c - 1 - hi) 0); [|lia].
      cbn [fst snd]. split; auto. constructor; auto. { apply (r_free _ _ _ _ R). } intros b. rewrite (r_mem _ _ _ _ R). unfold view, pages. now rewrite A2, W2, B2, F2.
    + destruct (allocatePage_ok c m hi page Hc K ltac:(lia) E255 ltac:(lia)) as (m2 & -> & K2 & F2 & A2 & B2 & W2 & M2 & TM2). cbn [Z.eqb].
      change (MEM_MAPPER_SUCCESS =? MEM_MAPPER_SUCCESS) with true.
      destruct (doFlash_spec c (setModified m2) (hi + 1) Hc K2) as (m3 & -> & K3 & D1 & D2 & D3 & D4 & D5 & D6 & D7 & D8 & D9).
      destruct (IHn (S page) true m3 (hi + 1) K3 ltac:(lia)) as (rc & tm' & m' & hi' & -> & K4 & Rc & Tm & Q & V).
      exists rc, tm', m', hi'. split; [reflexivity|]. split; auto. split; auto. split. { intros X. specialize (Tm X). discriminate. }
      split. { intros _ X. specialize (Tm X). discriminate. }
      intros Fm. destruct (V D1) as (V1 & V2). split; auto. intros x R.
      cbn [ideal_pages]. rewrite (Mp x R). cbn [negb]. rewrite (r_free _ _ _ _ R). destruct (Z.eqb_spec (flashBasePage c + flashSizePages c - 1 - hi) 0) as [Fu|_]; [exfalso; clear - Fu Room; lia|].
      replace (Z.of_nat page + 1) with (Z.of_nat (S page)) by (clear; lia). apply V2. constructor; auto.
      * cbn [map_page free]. rewrite (r_free _ _ _ _ R). clear; lia.
      * intros b. rewrite D9. change (view (setModified m2) b) with (view m2 b). cbn [map_page mem].
        rewrite (view_alloc c m m2 hi (Z.of_nat page) b K); auto; rewrite ?Nat2Z.id; auto; try (clear - TA Room H1 H2 H3 FPS Hp; lia).
        -- rewrite (r_mem _ _ _ _ R). reflexivity.
        -- intros q Hq. unfold pages. destruct (Z.eqb_spec q (writePage m)) as [->|]; auto. symmetry. apply (k_sync _ _ _ K); auto. clear - Hq H1; lia.
  - replace (255 - rd (allocTable m) page =? 0) with false by lia.
    destruct (IHn (S page) tm m hi K ltac:(lia)) as (rc & tm' & m' & hi' & -> & K4 & Rc & Tm & Q & V).
    exists rc, tm', m', hi'. split; [reflexivity|]. split; auto. split; auto. split; auto. split; auto.
    intros Fm. destruct (V Fm) as (V1 & V2). split; auto. intros x R. cbn [ideal_pages]. rewrite (Mp x R). cbn [negb].
    replace (Z.of_nat page + 1) with (Z.of_nat (S page)) by lia. auto.
Qed.
Lemma u8_mod z : u8 z = z mod 256.
Proof. reflexivity. Qed.
Lemma addRange_spec c a len m hi : mcfg_ok c -> core c m hi -> (in_space a = true -> a / 256 + (len / 256) mod 256 <= 256) ->
  exists rc m' hi', addRange c a len m = Some (rc, m') /\ core c m' hi' /\
    (flashMemModified m = false -> flashMemModified m' = false /\ forall x, rel c m x hi ->
       rc = fst (ideal_range a len x) /\ rel c m' (snd (ideal_range a len x)) hi') /\
    (forall l, track c false l m -> track c false (l || (rc =? -4)) m').
Proof.
  intros Hc K Hr. ps. unfold addRange, ideal_range. cbv zeta. rewrite and_255.
  assert (C : (negb (a mod 256 =? 0) || (Z.shiftr a 8 <? 0) || (Z.of_nat FLASH_PAGE_SIZE <=? Z.shiftr a 8)) = (negb (in_space a) || negb (a mod 256 =? 0))).
  { rewrite <- orb_assoc, in_space_shift. apply orb_comm. }
  rewrite C. destruct (in_space a) eqn:E; cbn [negb orb].
  2:{ exists (-1), m, hi. split; [reflexivity|]. split; auto. cbn [fst snd]. split; auto. intros l T. now rewrite orb_false_r. }
  destruct (a mod 256 =? 0); cbn [negb].
  2:{ exists (-1), m, hi. split; [reflexivity|]. split; auto. cbn [fst snd]. split; auto. intros l T. now rewrite orb_false_r. }
  rewrite and_255. destruct (len mod 256 =? 0); cbn [negb].
  2:{ exists (-8), m, hi. split; [reflexivity|]. split; auto. cbn [fst snd]. split; auto. intros l T. now rewrite orb_false_r. }
  rewrite !shr8, u8_mod. specialize (Hr eq_refl). destruct (in_space_page a E) as (PR & P). pose proof (Z.mod_pos_bound (len / 256) 256 ltac:(lia)).
  destruct (addLoop_spec c (Z.to_nat ((len / 256) mod 256)) Hc (Z.to_nat (a / 256)) false m hi K ltac:(lia)) as (rc & tm' & m' & hi' & -> & K4 & Rc & Tm & Q & V).
  rewrite Z2Nat.id in V by lia.
  destruct (Z.eqb_spec rc MEM_MAPPER_SUCCESS) as [->|Nrc].
  - assert (K5 : core c (if tm' then setTableModified m' else m') hi') by (destruct tm'; auto; destruct K4; constructor; auto).
    destruct (doFlash_spec c _ hi' Hc K5) as (m3 & -> & K3 & D1 & D2 & D3 & D4 & D5 & D6 & D7 & D8 & D9).
    exists 0, m3, hi'. split; [reflexivity|]. split; auto. split.
    + intros Fm. split; auto. intros x R. destruct (proj2 (V Fm) x R) as (V1 & V2). split; auto. constructor; auto.
      { apply (r_free _ _ _ _ V2). } intros b. rewrite (r_mem _ _ _ _ V2), D9. destruct tm'; reflexivity.
    + intros l T. rewrite orb_false_r. split; auto. intros El. right. rewrite D3, D8. destruct tm'.
      * cbn [setTableModified allocTableModified allocTable]. apply (table_kept c _ hi'). apply K4.
      * rewrite (Q eq_refl eq_refl). destruct (allocTableModified m); [apply (table_kept c _ hi); apply K|]. destruct (proj2 T El) as [(D & _)|D]; [discriminate|auto].
  - exists rc, m', hi'. split; [reflexivity|]. split; auto. split.
    + intros Fm. destruct (V Fm). auto.
    + intros l T. assert (rc = -4) by (destruct Rc; [contradiction|auto]). subst rc. rewrite orb_true_r. split; [|discriminate]. intros _. apply V. apply T; auto.
Qed.
Lemma new_spec c f junk hi : mcfg_ok c -> boots c f hi -> page_ok junk ->
  core c (newMapper c f junk) hi /\ (forall a, view (newMapper c f junk) a = stored_array c f a) /\ track c false false (newMapper c f junk).
Proof.
  intros (H1 & H2 & H3) (P & T) J. unfold newMapper. cbv zeta. rewrite corrupted_count.
  assert (A : forall b, taken_over (f (flashBasePage c)) = (if b : bool then repeat 255 FLASH_PAGE_SIZE else f (flashBasePage c)) ->
     let m := if b then mkMap f (repeat 255 FLASH_PAGE_SIZE) junk 0 0 false true else mkMap f (f (flashBasePage c)) junk 0 0 false false in
     core c m hi /\ (forall a, view m a = stored_array c f a) /\ track c false false m).
  { intros b E m. assert (X : flash m = f /\ allocTable m = taken_over (f (flashBasePage c)) /\ writeBuf m = junk /\ writePage m = 0 /\ lastAllocated m = 0 /\ flashMemModified m = false).
    { unfold m. rewrite E. destruct b; cbn; auto 10. }
    destruct X as (X1 & X2 & X3 & X4 & X5 & X6). split; [|split].
    - constructor; rewrite ?X1, ?X2, ?X3, ?X4, ?X5, ?X6; auto; try congruence. now exists hi.
    - intros a. unfold view, stored_array. rewrite X2. apply (decode_ext c _ hi _ _ a T). intros p Hp. unfold pages. rewrite X4, X1. destruct (Z.eqb_spec p 0); [lia|auto].
    - split; auto. intros _. right. now rewrite X1, X2. }
  apply (A (2 <=? count_occ Z.eq_dec (f (flashBasePage c)) 0%Z)%nat). unfold taken_over. reflexivity.
Qed.
(** what the flash holds once everything is written *)
Lemma flushed_array c m hi : mcfg_ok c -> core c m hi -> track c false false m -> forall a, stored_array c (flash m) a = view m a.
Proof.
  intros (H1 & _) K (T1 & T2) a. destruct (T2 eq_refl) as [(D & _)|D]; [discriminate|]. unfold stored_array, view. rewrite D.
  apply (decode_ext c _ hi). { apply K. } intros p Hp. unfold pages. destruct (Z.eqb_spec p (writePage m)) as [->|]; auto. apply (k_sync _ _ _ K); auto. lia.
Qed.
Lemma table_hi_unique c t hi hi' : mcfg_ok c -> table_ok c t hi -> table_ok c t hi' -> hi = hi'.
Proof.
  intros Hc T T'. pose proof Hc as (H1 & H2 & H3). pose proof (highest_spec c t hi Hc T) as A. pose proof (highest_spec c t hi' Hc T') as B.
  pose proof (t_area _ _ _ T). pose proof (t_area _ _ _ T'). destruct (Z.eqb_spec hi (flashBasePage c)), (Z.eqb_spec hi' (flashBasePage c)); lia.
Qed.
Lemma restart_spec c m x hi junk : mcfg_ok c -> rel c m x hi -> track c false false m -> page_ok junk ->
  rel c (newMapper c (flash m) junk) x hi /\ track c false false (newMapper c (flash m) junk).
Proof.
  intros Hc [K F M] T J. destruct T as (T1 & T2). destruct (T2 eq_refl) as [(D & _)|D]; [discriminate|].
  assert (B : boots c (flash m) hi) by (split; [apply K|rewrite D; apply K]).
  destruct (new_spec c (flash m) junk hi Hc B J) as (A1 & A2 & A3). split; auto. constructor; auto. intros a. rewrite A2, M. symmetry. apply (flushed_array c m hi Hc K). split; auto.
Qed.

(** ** Histories *)
Lemma step_rel c ev m x hi p l r : mcfg_ok c -> event_ok ev -> rel c m x hi -> track c p l m -> orderly (autoAddPage c) p l (ev :: r) x ->
  exists m' hi' p' l', mstep c ev m = Some (fst (ideal_step (autoAddPage c) ev x), m') /\ rel c m' (snd (ideal_step (autoAddPage c) ev x)) hi' /\
    track c p' l' m' /\ orderly (autoAddPage c) p' l' r (snd (ideal_step (autoAddPage c) ev x)).
Proof.
  intros Hc Hev R T O. cbn [orderly] in O. destruct ev as [a v|a force|a len| |junk]; cbn [ideal_step mstep] in *.
  - destruct (write_spec c m x hi a v p l Hc Hev R T) as (m' & hi' & -> & R' & T'). destruct (ideal_write (autoAddPage c) a v x) as (rc, y). cbn [option_map fst snd] in *.
    exists m', hi', true, l. auto.
  - destruct (read_spec c m x hi a force p l Hc R T) as (m' & -> & R' & T'). destruct (ideal_read a x) as (rc, d). cbn [fst snd] in *. exists m', hi, p, l. auto.
  - destruct (addRange_spec c a len m hi Hc (r_core _ _ _ _ R) Hev) as (rc & m' & hi' & -> & K' & V & T').
    destruct (ideal_range a len x) as (rc', y) eqn:E. cbn [option_map fst snd] in *. destruct O as (-> & O). destruct (V (proj1 T eq_refl)) as (V1 & V2).
    specialize (V2 x R). rewrite E in V2. cbn [fst snd] in V2. destruct V2 as (-> & R'). exists m', hi', false, (l || (rc' =? -4)). auto.
  - destruct (doFlash_spec c m hi Hc (r_core _ _ _ _ R)) as (m3 & -> & K3 & D1 & D2 & D3 & D4 & D5 & D6 & D7 & D8 & D9). cbn [option_map fst snd].
    exists m3, hi, false, l. split; auto. split. { destruct R. constructor; auto. intros b. rewrite D9. auto. }
    split; auto. apply (track_doFlash c m m3 hi p l); auto. apply (r_core _ _ _ _ R).
  - destruct O as (-> & -> & O). destruct (restart_spec c m x hi junk Hc R T Hev) as (R' & T'). exists (newMapper c (flash m) junk), hi, false, false. cbn [fst snd]. auto.
Qed.
Lemma run_rel c l : mcfg_ok c -> Forall event_ok l -> forall m x hi p q, rel c m x hi -> track c p q m -> orderly (autoAddPage c) p q l x ->
  exists m' hi', mruns c l m = Some (fst (ideal_run (autoAddPage c) l x), m') /\ rel c m' (snd (ideal_run (autoAddPage c) l x)) hi' /\
    exists p' q', track c p' q' m'.
Proof.
  intros Hc Hl. induction Hl as [|ev l Hev Hl IH]; intros m x hi p q R T O.
  - exists m, hi. split; auto. split; auto. now exists p, q.
  - destruct (step_rel c ev m x hi p q l Hc Hev R T O) as (m1 & hi1 & p1 & q1 & S1 & R1 & T1 & O1).
    cbn [mruns ideal_run]. rewrite S1. destruct (ideal_step (autoAddPage c) ev x) as ((rc, d), y). cbn [fst snd] in *.
    destruct (IH m1 y hi1 p1 q1 R1 T1 O1) as (m2 & hi2 & -> & R2 & X). destruct (ideal_run (autoAddPage c) l y) as (out, z). cbn [fst snd] in *. exists m2, hi2. auto.
Qed.
(** without any order the table still is in order *)
Lemma track_any c m : track c true true m.
Proof. split; discriminate. Qed.
Lemma rel_any c m hi : core c m hi -> rel c m (mkIdeal (view m) (flashBasePage c + flashSizePages c - 1 - hi)) hi.
Proof. intros K. constructor; auto. Qed.
Lemma step_core c ev m hi : mcfg_ok c -> event_ok ev -> core c m hi -> exists rc d m' hi', mstep c ev m = Some (rc, d, m') /\ core c m' hi'.
Proof.
  intros Hc Hev K. pose proof (rel_any c m hi K) as R. pose proof (track_any c m) as T. destruct ev as [a v|a force|a len| |junk]; cbn [mstep].
  - destruct (write_spec c m _ hi a v true true Hc Hev R T) as (m' & hi' & -> & R' & _). cbn [option_map]. do 4 eexists. split; [reflexivity|]. apply (r_core _ _ _ _ R').
  - destruct (read_spec c m _ hi a force true true Hc R T) as (m' & -> & R' & _). destruct (ideal_read _ _) as (rc, d). do 4 eexists. split; [reflexivity|]. apply (r_core _ _ _ _ R').
  - destruct (addRange_spec c a len m hi Hc K Hev) as (rc & m' & hi' & -> & K' & _). cbn [option_map]. do 4 eexists. split; [reflexivity|]. exact K'.
  - destruct (doFlash_spec c m hi Hc K) as (m3 & -> & K3 & _). cbn [option_map]. do 4 eexists. split; [reflexivity|]. exact K3.
  - destruct (k_stored _ _ _ K) as (hi' & T'). assert (B : boots c (flash m) hi') by (split; [apply K|auto]).
    do 4 eexists. split; [reflexivity|]. apply (new_spec c (flash m) junk hi' Hc B Hev).
Qed.
Lemma run_core c l : mcfg_ok c -> Forall event_ok l -> forall m hi, core c m hi -> exists out m' hi', mruns c l m = Some (out, m') /\ core c m' hi'.
Proof.
  intros Hc Hl. induction Hl as [|ev l Hev Hl IH]; intros m hi K. { exists [], m, hi. auto. }
  destruct (step_core c ev m hi Hc Hev K) as (rc & d & m1 & hi1 & E & K1). cbn [mruns]. rewrite E.
  destruct (IH m1 hi1 K1) as (out & m2 & hi2 & -> & K2). do 3 eexists. split; [reflexivity|]. exact K2.
Qed.

(** ** Mapped addresses *)
Lemma some_in_space c m x hi a d : rel c m x hi -> mem x a = Some d -> in_space a = true.
Proof. intros R E. rewrite (r_mem _ _ _ _ R) in E. unfold view, decode in E. destruct (in_space a); auto. discriminate. Qed.
Lemma write_mapped c m x hi a v d : mcfg_ok c -> is_byte v -> rel c m x hi -> mem x a = Some d ->
  exists m' hi', writeMem c a v m = Some (0, m') /\ rel c m' (mkIdeal (put (mem x) a v) (free x)) hi'.
Proof.
  intros Hc Hv R E. destruct (write_spec c m x hi a v true true Hc Hv R (track_any c m)) as (m' & hi' & W & R' & _).
  unfold ideal_write, mapped in *. rewrite (some_in_space c m x hi a d R E), E in *. cbn [negb fst snd] in *. exists m', hi'. auto.
Qed.
Lemma read_mapped c m x hi a force d : mcfg_ok c -> rel c m x hi -> mem x a = Some d -> exists m', readMem c a force m = Some (0, d, m') /\ rel c m' x hi.
Proof.
  intros Hc R E. destruct (read_spec c m x hi a force true true Hc R (track_any c m)) as (m' & W & R' & _).
  unfold ideal_read in W. rewrite (some_in_space c m x hi a d R E), E in W. exists m'. auto.
Qed.
