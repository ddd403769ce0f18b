(** Lemmas about the user EEPROM *)
From Verif Require Import Base Bits Eeprom_Model Eeprom_Spec.

Lemma sector_Z : Z.of_nat FLASH_SECTOR_SIZE = 4096.
Proof. reflexivity. Qed.
Lemma chunk_Z : Z.of_nat CHUNK = 1024.
Proof. reflexivity. Qed.
Global Opaque FLASH_SECTOR_SIZE CHUNK.
Ltac sz := pose proof sector_Z; pose proof chunk_Z.

Lemma rd_map_seq f n i : (i < n)%nat -> rd (map f (seq 0 n)) i = f i.
Proof.
  intros H. unfold rd. rewrite nth_indep with (d' := f 0%nat) by (rewrite map_length, seq_length; lia).
  rewrite map_nth. now rewrite seq_nth.
Qed.
Lemma rd_skipn (l : list Z) a i : rd (skipn a l) i = rd l (a + i).
Proof. unfold rd. revert l; induction a; destruct l; simpl; auto. destruct i; auto. Qed.
Lemma rd_firstn (l : list Z) n i : (i < n)%nat -> rd (firstn n l) i = rd l i.
Proof. unfold rd. revert l i; induction n; destruct l; simpl; intros; auto; try lia. destruct i; auto. apply IHn; lia. Qed.
Lemma firstn_skipn_map (l : list Z) a n : (a + n <= length l)%nat -> firstn n (skipn a l) = map (fun i => rd l (a + i)) (seq 0 n).
Proof.
  intros H. apply list_ext with (d := 0).
  - rewrite firstn_length, skipn_length, map_length, seq_length; lia.
  - intros i Hi. rewrite firstn_length, skipn_length in Hi.
    change (rd (firstn n (skipn a l)) i = rd (map (fun i => rd l (a + i)) (seq 0 n)) i).
    rewrite rd_map_seq, rd_firstn, rd_skipn by lia. reflexivity.
Qed.

Lemma program_length s a bs : length (program s a bs) = length s.
Proof. apply wr_range_length. Qed.
Lemma rd_program s a bs i : (a + length bs <= length s)%nat ->
  rd (program s a bs) i = if (Nat.leb a i && Nat.ltb i (a + length bs))%bool then Z.land (rd s i) (rd bs (i - a)) else rd s i.
Proof.
  intros H. unfold program. set (f := fun i => Z.land (rd s (a + i)) (rd bs i)).
  pose proof (map_length f (seq 0 (length bs))) as L. rewrite seq_length in L.
  unfold rd at 1. rewrite nth_wr_range by (rewrite L; lia). rewrite L.
  destruct (Nat.leb a i && Nat.ltb i (a + length bs))%bool eqn:E; auto.
  change (rd (map f (seq 0 (length bs))) (i - a) = Z.land (rd s i) (rd bs (i - a))).
  rewrite rd_map_seq by lia. unfold f. do 2 f_equal. lia.
Qed.
Lemma land_ff_l b : is_byte b -> Z.land 255 b = b.
Proof. intros H. rewrite Z.land_comm. change 255 with (Z.ones 8). rewrite Z.land_ones by lia. unfold is_byte in H. apply Z.mod_small. lia. Qed.

(** ** Programming a page *)
(** the first [n] bytes of [d] have been programmed at [base] *)
Definition filled (s : list Z) (base : nat) (d : list Z) (n : nat) (s' : list Z) : Prop :=
  length s' = length s /\ forall i, rd s' i = if (Nat.leb base i && Nat.ltb i (base + n))%bool then rd d (i - base) else rd s i.

Lemma page_fits c p : ecfg_ok c -> (p < numEepromPages c)%nat -> (p * fsize c + fsize c <= FLASH_SECTOR_SIZE)%nat.
Proof.
  unfold numEepromPages. intros ((H1 & H2) & H3 & _) Hp.
  pose proof (Nat.mul_div_le FLASH_SECTOR_SIZE (fsize c) ltac:(lia)). nia.
Qed.
Lemma chunk_count c : ecfg_ok c -> (CHUNK * (0 + (esize c + CHUNK - 1) / CHUNK - 1) < esize c /\ esize c <= CHUNK * (0 + (esize c + CHUNK - 1) / CHUNK))%nat.
Proof.
  intros ((H1 & H2) & _). sz.
  pose proof (Nat.div_mod (esize c + CHUNK - 1) CHUNK ltac:(lia)). pose proof (Nat.mod_upper_bound (esize c + CHUNK - 1) CHUNK ltac:(lia)).
  set (q := ((esize c + CHUNK - 1) / CHUNK)%nat) in *. destruct q; nia.
Qed.
Section Page.
Variables (c : ecfg) (s d : list Z) (p : nat).
Hypothesis Hc : ecfg_ok c.
Hypothesis Hs : length s = FLASH_SECTOR_SIZE.
Hypothesis Hd : length d = esize c.
Hypothesis Hdb : Forall is_byte d.
Hypothesis Hp : (p < numEepromPages c)%nat.
Hypothesis Hb : blank c s p.

Lemma page_end : (p * fsize c + fsize c <= FLASH_SECTOR_SIZE)%nat.
Proof. now apply page_fits. Qed.
Definition piece (k : nat) : list Z := firstn CHUNK (skipn (CHUNK * k) d).
Lemma piece_length k : length (piece k) = Nat.min CHUNK (esize c - CHUNK * k).
Proof. unfold piece. now rewrite firstn_length, skipn_length, Hd. Qed.
Lemma filled_0 : filled s (p * fsize c) d 0 s.
Proof. split; auto. intros i. destruct (_ && _)%bool eqn:E; auto. lia. Qed.
Lemma filled_more k j s1 : filled s (p * fsize c) d (CHUNK * k) s1 -> (CHUNK * k <= esize c)%nat ->
  filled s (p * fsize c) d (CHUNK * k + Nat.min j (length (piece k))) (program s1 (p * fsize c + CHUNK * k) (firstn j (piece k))).
Proof.
  intros (L & R) Hk. pose proof page_end as E. pose proof (piece_length k) as PL. destruct Hc as ((H1 & H2) & _).
  assert (FL : length (firstn j (piece k)) = Nat.min j (length (piece k))) by apply firstn_length.
  split. { now rewrite program_length. }
  intros i. rewrite rd_program by (rewrite L, Hs, FL; lia). rewrite FL, (R i).
  set (B := (p * fsize c)%nat) in *. set (K := (CHUNK * k)%nat) in *.
  destruct (Nat.leb (B + K) i && Nat.ltb i (B + K + Nat.min j (length (piece k))))%bool eqn:E1.
  - replace (Nat.leb B i && Nat.ltb i (B + K))%bool with false by lia.
    replace (Nat.leb B i && Nat.ltb i (B + (K + Nat.min j (length (piece k)))))%bool with true by lia.
    rewrite rd_firstn by lia. unfold piece. rewrite rd_firstn by lia. rewrite rd_skipn. fold K.
    replace (K + (i - (B + K)))%nat with (i - B)%nat by lia.
    replace (rd s i) with 255. { apply land_ff_l. now apply rd_byte. }
    symmetry. replace i with (B + (i - B))%nat by lia. apply Hb. lia.
  - destruct (Nat.leb B i && Nat.ltb i (B + K))%bool eqn:E2.
    + now replace (Nat.leb B i && Nat.ltb i (B + (K + Nat.min j (length (piece k)))))%bool with true by lia.
    + now replace (Nat.leb B i && Nat.ltb i (B + (K + Nat.min j (length (piece k)))))%bool with false by lia.
Qed.
Lemma piece_allowed k : (CHUNK * k < esize c)%nat -> progAllowed (p * fsize c + CHUNK * k) (piece k) = true.
Proof.
  intros Hk. pose proof page_end as E. pose proof (piece_length k) as PL. destruct Hc as ((H1 & H2) & H3 & H4 & H5). sz.
  unfold progAllowed. repeat rewrite andb_true_iff. repeat apply conj.
  - apply Z.eqb_eq. rewrite Nat2Z.inj_add, !Nat2Z.inj_mul.
    replace (Z.of_nat CHUNK * Z.of_nat k) with ((4 * Z.of_nat k) * 256) by lia.
    rewrite Z.mod_add by lia. rewrite Z.mul_mod, H4, Z.mul_0_r by lia. reflexivity.
  - cbn [existsb]. assert (Z.of_nat (length (piece k)) = 256 \/ Z.of_nat (length (piece k)) = 512 \/ Z.of_nat (length (piece k)) = 1024) as D.
    { rewrite PL. assert (Z.of_nat (CHUNK * k) = 1024 * Z.of_nat k) as CK by lia.
      assert (Z.of_nat (esize c) - 1024 * Z.of_nat k >= 1024 \/ Z.of_nat (esize c) - 1024 * Z.of_nat k < 1024) as [|] by lia; [right; right; lia|].
      assert (Z.of_nat (esize c) mod 1024 = Z.of_nat (esize c) - 1024 * Z.of_nat k) as M
        by (symmetry; apply Z.mod_unique with (q := Z.of_nat k); lia). lia. }
    lia.
  - apply Nat.leb_le. lia.
Qed.
Lemma doOp_piece k s1 : filled s (p * fsize c) d (CHUNK * k) s1 -> (CHUNK * k < esize c)%nat ->
  exists s2, doOp (Prog (p * fsize c + CHUNK * k) (piece k)) s1 = Some s2 /\ filled s (p * fsize c) d (CHUNK * k + length (piece k)) s2.
Proof.
  intros F Hk. pose proof page_end as E. pose proof (piece_length k) as PL. destruct Hc as ((H1 & H2) & _).
  pose proof (filled_more k (length (piece k)) s1 F ltac:(lia)) as F2. rewrite firstn_all, Nat.min_id in F2.
  unfold doOp. rewrite piece_allowed by auto. cbv zeta.
  exists (program s1 (p * fsize c + CHUNK * k) (piece k)). split; auto.
  destruct (list_eq_dec _ _ _) as [|N]; auto. destruct N.
  destruct F as (L1 & R1). destruct F2 as (L & R).
  rewrite firstn_skipn_map by (rewrite L, Hs; lia). apply list_ext with (d := 0). { now rewrite map_length, seq_length. }
  intros i Hi. rewrite map_length, seq_length in Hi.
  change (rd (map (fun i0 => rd (program s1 (p * fsize c + CHUNK * k) (piece k)) (p * fsize c + CHUNK * k + i0)) (seq 0 (length (piece k)))) i = rd (piece k) i).
  rewrite rd_map_seq by auto. rewrite R.
  destruct (_ && _)%bool eqn:E1; [|lia]. unfold piece. rewrite rd_firstn, rd_skipn by lia. f_equal. lia.
Qed.
Definition ops (k m : nat) : list fop := map (fun k => Prog (p * fsize c + CHUNK * k) (piece k)) (seq k m).
Lemma doOps_pieces m : forall k s1, filled s (p * fsize c) d (Nat.min (CHUNK * k) (esize c)) s1 -> (CHUNK * (k + m - 1) < esize c)%nat ->
  exists s2, doOps (ops k m) s1 = Some s2 /\ filled s (p * fsize c) d (Nat.min (CHUNK * (k + m)) (esize c)) s2.
Proof.
  induction m; intros k s1 F Hk. { exists s1. rewrite Nat.add_0_r. split; auto. }
  cbn [ops seq map doOps]. assert (CHUNK * k < esize c)%nat as K1 by nia.
  rewrite Nat.min_l in F by lia. destruct (doOp_piece k s1 F K1) as (s2 & -> & F2).
  destruct (IHm (S k) s2) as (s3 & O & F3).
  - rewrite piece_length in F2. replace (Nat.min (CHUNK * S k) (esize c)) with (CHUNK * k + Nat.min CHUNK (esize c - CHUNK * k))%nat by lia. auto.
  - replace (S k + m - 1)%nat with (k + S m - 1)%nat by lia. auto.
  - exists s3. split. { exact O. } replace (k + S m)%nat with (S k + m)%nat by lia. auto.
Qed.
Lemma lost_pieces m : forall k s1 s2, filled s (p * fsize c) d (Nat.min (CHUNK * k) (esize c)) s1 -> (CHUNK * (k + m - 1) < esize c)%nat ->
  power_lost (ops k m) s1 s2 -> exists n, (n <= esize c)%nat /\ filled s (p * fsize c) d n s2.
Proof.
  induction m; intros k s1 s2 F Hk P.
  { inversion P; subst. exists (Nat.min (CHUNK * k) (esize c)). split; auto. lia. }
  cbn [ops seq map] in P. assert (CHUNK * k < esize c)%nat as K1 by nia. rewrite Nat.min_l in F by lia.
  inversion P as [? ? Q1 Q2| |? ? ? ? j Q1 Q2|? ? ? s3 ? D P' Q1 Q2]; subst.
  - exists (CHUNK * k)%nat. split; auto. lia.
  - exists (CHUNK * k + Nat.min j (length (piece k)))%nat. split. { rewrite piece_length. lia. } apply filled_more; auto. lia.
  - destruct (doOp_piece k s1 F K1) as (s4 & D' & F2). assert (s4 = s3) by congruence. subst s4.
    apply (IHm (S k) s3 s2); auto.
    + rewrite piece_length in F2. replace (Nat.min (CHUNK * S k) (esize c)) with (CHUNK * k + Nat.min CHUNK (esize c - CHUNK * k))%nat by lia. auto.
    + replace (S k + m - 1)%nat with (k + S m - 1)%nat by lia. auto.
Qed.
Lemma erased_pieces m : forall k s1, filled s (p * fsize c) d (Nat.min (CHUNK * k) (esize c)) s1 -> (CHUNK * (k + m - 1) < esize c)%nat ->
  programs_erased (ops k m) s1.
Proof.
  induction m; intros k s1 F Hk. { exact I. }
  cbn [ops seq map programs_erased]. assert (CHUNK * k < esize c)%nat as K1 by nia.
  rewrite Nat.min_l in F by lia. split.
  - intros i Hi. rewrite piece_length in Hi. destruct F as (L & R). rewrite R.
    destruct (Nat.leb (p * fsize c) i && Nat.ltb i (p * fsize c + CHUNK * k))%bool eqn:E; [lia|].
    replace i with (p * fsize c + (i - p * fsize c))%nat by lia. apply Hb. lia.
  - intros s3 D. destruct (doOp_piece k s1 F K1) as (s2 & D2 & F2). assert (s2 = s3) by congruence. subst s3.
    apply IHm.
    + rewrite piece_length in F2. replace (Nat.min (CHUNK * S k) (esize c)) with (CHUNK * k + Nat.min CHUNK (esize c - CHUNK * k))%nat by lia. auto.
    + replace (S k + m - 1)%nat with (k + S m - 1)%nat by lia. auto.
Qed.
Lemma ops_count : (CHUNK * (0 + (esize c + CHUNK - 1) / CHUNK - 1) < esize c /\ esize c <= CHUNK * (0 + (esize c + CHUNK - 1) / CHUNK))%nat.
Proof. now apply chunk_count. Qed.
Lemma progOps_done : exists s2, doOps (progOps c p d) s = Some s2 /\ filled s (p * fsize c) d (esize c) s2.
Proof.
  destruct ops_count as (C1 & C2).
  destruct (doOps_pieces ((esize c + CHUNK - 1) / CHUNK) 0 s) as (s2 & O & F); auto.
  - rewrite Nat.mul_0_r, Nat.min_0_l. apply filled_0.
  - exists s2. split. { exact O. } rewrite Nat.min_r in F by lia. auto.
Qed.
Lemma progOps_lost s2 : power_lost (progOps c p d) s s2 -> exists n, (n <= esize c)%nat /\ filled s (p * fsize c) d n s2.
Proof.
  intros P. destruct ops_count as (C1 & C2). apply (lost_pieces ((esize c + CHUNK - 1) / CHUNK) 0 s s2); auto.
  rewrite Nat.mul_0_r, Nat.min_0_l. apply filled_0.
Qed.
Lemma progOps_erased : programs_erased (progOps c p d) s.
Proof.
  destruct ops_count as (C1 & C2). apply (erased_pieces ((esize c + CHUNK - 1) / CHUNK) 0 s); auto.
  rewrite Nat.mul_0_r, Nat.min_0_l. apply filled_0.
Qed.
End Page.

(** ** The page in use *)
Lemma findPage_some c s n p : findPage c s n = Some p ->
  (p < n)%nat /\ rd s (p * fsize c + (esize c - 1)) <> 255 /\ forall q, (p < q < n)%nat -> rd s (q * fsize c + (esize c - 1)) = 255.
Proof.
  induction n; cbn [findPage]; intros H; [discriminate|].
  destruct (rd s (n * fsize c + (esize c - 1)) =? 255) eqn:E.
  - destruct (IHn H) as (A & B & D). split; [lia|]. split; auto. intros q Hq.
    assert (q = n \/ (q < n)%nat) as [->|] by lia; [lia|]. apply D; lia.
  - assert (p = n) by congruence. subst. split; [lia|]. split; [lia|]. intros; lia.
Qed.
Lemma findPage_none c s n : findPage c s n = None -> forall q, (q < n)%nat -> rd s (q * fsize c + (esize c - 1)) = 255.
Proof.
  induction n; cbn [findPage]; intros H q Hq; [lia|].
  destruct (rd s (n * fsize c + (esize c - 1)) =? 255) eqn:E; [|discriminate].
  assert (q = n \/ (q < n)%nat) as [->|] by lia; [lia|]. auto.
Qed.
Lemma findPage_eq c s p n : (p < n)%nat -> rd s (p * fsize c + (esize c - 1)) <> 255 ->
  (forall q, (p < q < n)%nat -> rd s (q * fsize c + (esize c - 1)) = 255) -> findPage c s n = Some p.
Proof.
  induction n; intros H M A; [lia|]. cbn [findPage].
  destruct (rd s (n * fsize c + (esize c - 1)) =? 255) eqn:E.
  - apply IHn; auto. { assert (p = n \/ (p < n)%nat) as [->|] by lia; [lia|auto]. } intros; apply A; lia.
  - assert (p = n \/ (p < n)%nat) as [->|] by lia; auto. assert (rd s (n * fsize c + (esize c - 1)) = 255) by (apply A; lia). lia.
Qed.
Lemma findPage_eq_none c s n : (forall q, (q < n)%nat -> rd s (q * fsize c + (esize c - 1)) = 255) -> findPage c s n = None.
Proof. induction n; intros A; auto. cbn [findPage]. rewrite A by lia. apply IHn. intros; apply A; lia. Qed.
Lemma found_blank c s p q : sector_ok c s -> findValidPage c s = Some p -> (p < q < numEepromPages c)%nat -> blank c s q.
Proof.
  intros (_ & _ & H) F Hq. destruct (findPage_some _ _ _ _ F) as (A & B & D).
  destruct (H p q) as [|(r & R & U & M)]; auto. { split; auto. }
  rewrite D in M by lia. contradiction.
Qed.

(** ** Saving *)
Lemma filled_bytes s b d n s' : Forall is_byte s -> Forall is_byte d -> filled s b d n s' -> Forall is_byte s'.
Proof.
  intros Hs Hd (L & R). apply Forall_forall. intros x I. destruct (In_nth _ _ 0 I) as (i & Hi & E).
  change (rd s' i = x) in E. rewrite R in E. subst x. destruct (_ && _)%bool; now apply rd_byte.
Qed.
Lemma rd_ff n i : (i < n)%nat -> rd (repeat 255 n) i = 255.
Proof. intros H. unfold rd. rewrite nth_indep with (d' := 255) by (rewrite repeat_length; lia). apply nth_repeat. Qed.
Lemma pages_apart c p q i : ecfg_ok c -> p <> q -> (i < fsize c)%nat -> (Nat.leb (p * fsize c) (q * fsize c + i) && Nat.ltb (q * fsize c + i) (p * fsize c + fsize c))%bool = false.
Proof. intros ((H1 & H2) & _) N I. assert (p < q \/ q < p)%nat as [|] by lia; nia. Qed.
Lemma page_in c q i : ecfg_ok c -> (q < numEepromPages c)%nat -> (i < esize c)%nat -> (q * fsize c + i < FLASH_SECTOR_SIZE)%nat.
Proof. intros Hc Hq Hi. pose proof (page_fits c q Hc Hq). destruct Hc as ((? & ?) & _). lia. Qed.
Lemma filled_other c s p d n s' q i : ecfg_ok c -> filled s (p * fsize c) d n s' -> (n <= esize c)%nat -> p <> q -> (i < esize c)%nat ->
  rd s' (q * fsize c + i) = rd s (q * fsize c + i).
Proof.
  intros Hc (L & R) Hn N Hi. rewrite R. pose proof (pages_apart c p q i Hc N) as P. destruct Hc as ((? & ?) & _). specialize (P ltac:(lia)).
  destruct (Nat.leb (p * fsize c) (q * fsize c + i) && Nat.ltb (q * fsize c + i) (p * fsize c + n))%bool eqn:E; auto. lia.
Qed.
Lemma filled_same s c p d n s' i : filled s (p * fsize c) d n s' -> (i < n)%nat -> rd s' (p * fsize c + i) = rd d i.
Proof.
  intros (L & R) Hi. rewrite R.
  destruct (Nat.leb (p * fsize c) (p * fsize c + i) && Nat.ltb (p * fsize c + i) (p * fsize c + n))%bool eqn:E; [f_equal; lia|lia].
Qed.
Lemma filled_not_yet s c p d n s' i : filled s (p * fsize c) d n s' -> (n <= i)%nat -> rd s' (p * fsize c + i) = rd s (p * fsize c + i).
Proof.
  intros (L & R) Hi. rewrite R.
  destruct (Nat.leb (p * fsize c) (p * fsize c + i) && Nat.ltb (p * fsize c + i) (p * fsize c + n))%bool eqn:E; [lia|auto].
Qed.
Lemma marked_length c d : length (marked c d) = length d.
Proof. apply wr_length. Qed.
Lemma marked_bytes c d : Forall is_byte d -> Forall is_byte (marked c d).
Proof. intros. apply Forall_wr; auto. red; lia. Qed.
Lemma rd_marked_last c d : ecfg_ok c -> length d = esize c -> rd (marked c d) (esize c - 1) = 0.
Proof. intros ((? & ?) & _) L. apply rd_wr_same. lia. Qed.
Lemma marked_without_last c d : ecfg_ok c -> length d = esize c -> marked c d = without_last d.
Proof.
  intros ((H & _) & _) L. unfold marked, without_last. rewrite <- L. assert (d <> []) as N by (destruct d; simpl in *; [lia|discriminate]).
  pose proof (app_removelast_last 0 N) as E. set (a := removelast d) in *. rewrite E. generalize (last d 0); intros z.
  rewrite app_length. simpl length. replace (length a + 1 - 1)%nat with (length a) by lia.
  clear. induction a; simpl; auto. now rewrite IHa.
Qed.

(** after an undisturbed save: page [p] holds the data, the pages behind it are blank *)
Lemma saved_page c s p d s' : ecfg_ok c -> length s = FLASH_SECTOR_SIZE -> Forall is_byte s -> length d = esize c -> Forall is_byte d ->
  rd d (esize c - 1) = 0 -> (p < numEepromPages c)%nat -> (forall q, (p < q < numEepromPages c)%nat -> blank c s q) ->
  filled s (p * fsize c) d (esize c) s' ->
  sector_ok c s' /\ findValidPage c s' = Some p /\ page_content c s' p = d.
Proof.
  intros Hc Ls Bs Ld Bd M Hp Bl F. assert (H1 : (1 <= esize c)%nat) by (destruct Hc as ((? & ?) & _); lia).
  assert (Mp : rd s' (p * fsize c + (esize c - 1)) = 0) by (rewrite (filled_same _ _ _ _ _ _ (esize c - 1) F) by lia; auto).
  assert (Bl' : forall q, (p < q < numEepromPages c)%nat -> blank c s' q).
  { intros q Hq i Hi. rewrite (filled_other c s p d (esize c) s' q i) by (auto; lia). apply Bl; auto. }
  assert (Fi : findValidPage c s' = Some p).
  { apply findPage_eq; auto. { rewrite Mp; lia. } intros q Hq. apply Bl'; auto. lia. }
  split; [|split; auto].
  - split. { destruct F; lia. } split. { apply (filled_bytes _ _ _ _ _ Bs Bd F). }
    intros a b Ua Hb. destruct (le_lt_dec b p) as [Le|Lt].
    + right. exists p. split; auto. split; auto. rewrite Mp; lia.
    + left. apply Bl'. lia.
  - unfold page_content. apply list_ext with (d := 0). { now rewrite map_length, seq_length. }
    intros i Hi. rewrite map_length, seq_length in Hi.
    change (rd (map (fun i0 => rd s' (p * fsize c + i0)) (seq 0 (esize c))) i = rd d i). rewrite rd_map_seq by auto. apply (filled_same _ _ _ _ _ _ _ F Hi).
Qed.
Lemma blank_repeat c q : ecfg_ok c -> (q < numEepromPages c)%nat -> blank c (repeat 255 FLASH_SECTOR_SIZE) q.
Proof. intros Hc Hq i Hi. apply rd_ff. apply page_in; auto. Qed.
Lemma bytes_repeat n : Forall is_byte (repeat 255 n).
Proof. apply Forall_forall. intros x I. apply repeat_spec in I. subst. red; lia. Qed.
Lemma pages_pos c : ecfg_ok c -> (1 <= numEepromPages c)%nat.
Proof. intros ((H1 & H2) & H3 & _). unfold numEepromPages. apply Nat.div_le_lower_bound; lia. Qed.
Lemma nextPage_range c s : ecfg_ok c -> (nextPage c s < numEepromPages c)%nat.
Proof.
  intros Hc. pose proof (pages_pos c Hc). unfold nextPage. destruct (findValidPage c s) eqn:E; [|lia].
  destruct (findPage_some _ _ _ _ E) as (A & _). destruct (Nat.eqb_spec n (numEepromPages c - 1)); lia.
Qed.
(** the sector a save programs: erased if the save starts over at the first page *)
Definition prepared (c : ecfg) (s : list Z) : list Z := if Nat.eqb (nextPage c s) 0 then repeat 255 FLASH_SECTOR_SIZE else s.
Lemma prepared_ok c s : ecfg_ok c -> sector_ok c s ->
  length (prepared c s) = FLASH_SECTOR_SIZE /\ Forall is_byte (prepared c s) /\ (forall q, (nextPage c s <= q < numEepromPages c)%nat -> blank c (prepared c s) q).
Proof.
  intros Hc Hs. unfold prepared. destruct (Nat.eqb_spec (nextPage c s) 0) as [E|E].
  - split. { apply repeat_length. } split. { apply bytes_repeat. } intros q Hq. apply blank_repeat; auto. lia.
  - split. { apply Hs. } split. { apply Hs. } intros q Hq.
    unfold nextPage in E, Hq. destruct (findValidPage c s) as [p|] eqn:F; [|lia].
    destruct (Nat.eqb_spec p (numEepromPages c - 1)); [lia|]. apply (found_blank c s p q Hs F). lia.
Qed.
Lemma saveOps_run c e : doOps (saveOps c e) (sector e) = doOps (progOps c (nextPage c (sector e)) (marked c (data e))) (prepared c (sector e)).
Proof. unfold saveOps, prepared. destruct (Nat.eqb (nextPage c (sector e)) 0); reflexivity. Qed.
Lemma save_spec c e : ecfg_ok c -> sector_ok c (sector e) -> length (data e) = esize c -> Forall is_byte (data e) -> isModified e = true ->
  exists s', writeUserEeprom c e = Some (mkEep s' (marked c (data e)) false) /\ sector_ok c s' /\ findValidPage c s' = Some (nextPage c (sector e)) /\
    page_content c s' (nextPage c (sector e)) = marked c (data e).
Proof.
  intros Hc Hs L B M. pose proof (nextPage_range c (sector e) Hc) as N. destruct (prepared_ok c (sector e) Hc Hs) as (P1 & P2 & P3).
  assert (L' : length (marked c (data e)) = esize c) by (now rewrite marked_length).
  pose proof (marked_bytes c _ B) as B'.
  destruct (progOps_done c (prepared c (sector e)) (marked c (data e)) (nextPage c (sector e)) Hc P1 L' B' N (P3 _ (conj (le_n _) N))) as (s' & D & F).
  exists s'. unfold writeUserEeprom. rewrite M, saveOps_run, D. split; auto.
  apply (saved_page c (prepared c (sector e)) (nextPage c (sector e)) (marked c (data e)) s'); auto.
  - now apply rd_marked_last.
  - intros q Hq. apply P3. lia.
Qed.
Lemma read_page c s p : ecfg_ok c -> length s = FLASH_SECTOR_SIZE -> (p < numEepromPages c)%nat -> firstn (esize c) (skipn (p * fsize c) s) = page_content c s p.
Proof. intros Hc L Hp. pose proof (page_fits c p Hc Hp). destruct Hc as ((? & ?) & _). apply firstn_skipn_map. lia. Qed.
Lemma read_content c e : ecfg_ok c -> length (sector e) = FLASH_SECTOR_SIZE -> content c (sector e) (data (readUserEeprom c e)).
Proof.
  intros Hc L. unfold readUserEeprom. cbn [data]. destruct (findValidPage c (sector e)) as [p|] eqn:F.
  - destruct (findPage_some _ _ _ _ F) as (A & B & D). left. exists p. split. { split; auto. } split.
    + intros q Hq (U & V). apply V. apply D. auto.
    + now apply read_page.
  - right. split; auto. intros q (U & V). apply V. apply (findPage_none _ _ _ F). auto.
Qed.
Lemma content_unique c s d d' : content c s d -> content c s d' -> d = d'.
Proof.
  intros [(p & U & A & ->)|(A & ->)] [(q & V & B & ->)|(B & ->)]; auto.
  - assert (p = q); [|now subst]. destruct (lt_eq_lt_dec p q) as [[L|]|L]; auto; exfalso; [now apply (A q L)|now apply (B p L)].
  - destruct (B p U).
  - destruct (A q V).
Qed.
Lemma found_content c s p d : findValidPage c s = Some p -> page_content c s p = d -> content c s d.
Proof.
  intros F E. destruct (findPage_some _ _ _ _ F) as (A & B & D). left. exists p. split. { split; auto. } split; auto.
  intros q Hq (U & V). apply V. apply D. auto.
Qed.
Lemma page_content_length c s p : length (page_content c s p) = esize c.
Proof. unfold page_content. now rewrite map_length, seq_length. Qed.
Lemma page_content_bytes c s p : Forall is_byte s -> Forall is_byte (page_content c s p).
Proof. intros H. apply Forall_forall. intros x I. apply in_map_iff in I. destruct I as (i & <- & _). now apply rd_byte. Qed.
Lemma content_shape c s d : Forall is_byte s -> content c s d -> length d = esize c /\ Forall is_byte d.
Proof.
  intros B [(p & _ & _ & ->)|(_ & ->)].
  - split. { apply page_content_length. } now apply page_content_bytes.
  - split. { apply repeat_length. } apply Forall_forall. intros x I. apply repeat_spec in I. subst. red; lia.
Qed.
