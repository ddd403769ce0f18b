(** Proofs for C52, C62 *)
From Verif Require Import Base Bits OneWire_Model OneWire_Spec.

(** ** Devices as bit strings *)
Definition has (v : bool) (act : list device) : bool := match write_bit v act with [] => false | _ => true end.
Lemma in_write v act d : In d (write_bit v act) <-> In (v :: d) act.
Proof.
  unfold write_bit. rewrite in_flat_map. split.
  - intros (x & Hx & H). destruct x as [|b r]; [contradiction|]. destruct (Bool.eqb_spec b v); [|contradiction]. destruct H as [<-|[]]. subst. auto.
  - intros H. exists (v :: d). split; auto. rewrite Bool.eqb_reflx. left. auto.
Qed.
Lemma has_iff v act : has v act = true <-> exists d, In (v :: d) act.
Proof.
  unfold has. destruct (write_bit v act) as [|d l] eqn:E.
  - split; [discriminate|]. intros [d H]. apply in_write in H. rewrite E in H. contradiction.
  - split; auto. intros _. exists d. apply in_write. rewrite E. left. auto.
Qed.
Lemma has_false v act d : has v act = false -> ~ In (v :: d) act.
Proof. intros H K. assert (has v act = true) by (apply has_iff; eauto). congruence. Qed.
Definition len (n : nat) (act : list device) : Prop := Forall (fun d => length d = n) act.
Lemma len_write n v act : len (S n) act -> len n (write_bit v act).
Proof.
  intros H. apply Forall_forall. intros d Hd. apply in_write in Hd. unfold len in H. rewrite Forall_forall in H. specialize (H _ Hd). cbn in H. lia.
Qed.
Lemma read_bit_has n act : len (S n) act -> read_bit act = negb (has false act).
Proof.
  intros H. unfold read_bit. destruct (has false act) eqn:E; cbn.
  - apply has_iff in E. destruct E as [d Hd]. apply not_true_is_false. intros F. rewrite forallb_forall in F. specialize (F _ Hd). discriminate.
  - apply forallb_forall. intros [|[|] d] Hd; auto. exfalso. eapply has_false; eauto.
Qed.
Lemma read_cmp_has n act : len (S n) act -> read_cmp act = negb (has true act).
Proof.
  intros H. unfold read_cmp. destruct (has true act) eqn:E; cbn.
  - apply has_iff in E. destruct E as [d Hd]. apply not_true_is_false. intros F. rewrite forallb_forall in F. specialize (F _ Hd). discriminate.
  - apply forallb_forall. intros [|[|] d] Hd; auto. exfalso. eapply has_false; eauto.
Qed.

(** ** The search on bit strings *)
Fixpoint asearch (n : nat) (k ld : Z) (prev : list bool) (act : list device) : option (list bool * Z) :=
  match n with
  | O => Some ([], 0)
  | S m =>
      if negb (has false act) && negb (has true act) then None
      else
        let dir := if xorb (has false act) (has true act) then has true act else if k <? ld then hd false prev else k =? ld in
        let z := if has false act && has true act && negb dir then k else 0 in
        match asearch m (k + 1) ld (tl prev) (write_bit dir act) with
        | None => None
        | Some (p, r) => Some (dir :: p, if r =? 0 then z else r)
        end
  end.

(** lexicographic order *)
Fixpoint blt (p q : list bool) : bool :=
  match p, q with a :: p', b :: q' => if Bool.eqb a b then blt p' q' else b | _, _ => false end.
Lemma blt_irrefl p : blt p p = false.
Proof. induction p; cbn; auto. rewrite Bool.eqb_reflx. auto. Qed.
Lemma blt_trans p : forall q r, blt p q = true -> blt q r = true -> blt p r = true.
Proof.
  induction p as [|a p IH]; intros [|b q] [|c r]; cbn; try discriminate. destruct a, b, c; cbn; intros; try discriminate; eauto.
Qed.
Lemma blt_total p : forall q, length p = length q -> blt p q = false -> blt q p = false -> p = q.
Proof.
  induction p as [|a p IH]; intros [|b q]; cbn; try discriminate; auto. intros L H1 H2. destruct a, b; cbn in *; try discriminate; f_equal; auto.
Qed.

(** position of the last 0 taken at a discrepancy on the way to [p] *)
Fixpoint lzero (k : Z) (act : list device) (p : list bool) : Z :=
  match p with
  | [] => 0
  | b :: p' => let r := lzero (k + 1) (write_bit b act) p' in if r =? 0 then (if negb b && has true act then k else 0) else r
  end.
Lemma lzero_range k act p : 0 < k -> lzero k act p = 0 \/ k <= lzero k act p.
Proof.
  revert k act. induction p as [|b p IH]; intros k act Hk; cbn; auto. destruct (IH (k + 1) (write_bit b act)) as [E|E]; [lia| |].
  - rewrite E. cbn. destruct (negb b && has true act); lia.
  - destruct (Z.eqb_spec (lzero (k + 1) (write_bit b act) p) 0); lia.
Qed.
Lemma lzero_max p : forall k act, 0 < k -> len (length p) act -> lzero k act p = 0 <-> (forall q, In q act -> blt p q = false).
Proof.
  induction p as [|b p IH]; intros k act Hk Hl; cbn [lzero].
  - split; auto.
  - specialize (IH (k + 1) (write_bit b act) ltac:(lia) (len_write _ b act Hl)).
    destruct (Z.eqb_spec (lzero (k + 1) (write_bit b act) p) 0) as [E|N].
    + destruct IH as [IH _]. specialize (IH E). destruct b; cbn [negb andb].
      * split; auto. intros _ [|[|] q] Hq; cbn in *; auto. apply IH. apply in_write. auto.
      * destruct (has true act) eqn:Ht.
        -- split; [lia|]. intros H. exfalso. apply has_iff in Ht. destruct Ht as [d Hd]. specialize (H _ Hd). discriminate.
        -- split; auto. intros _ [|[|] q] Hq; cbn in *; auto. { exfalso. eapply has_false; eauto. } apply IH. apply in_write. auto.
    + split; [contradiction|]. intros H. exfalso. apply N. apply IH. intros q Hq. specialize (H (b :: q)). cbn in H.
      rewrite Bool.eqb_reflx in H. apply H. apply in_write; auto.
Qed.

(** below the last discrepancy: the least device *)
Lemma asearch_fresh n : forall k ld prev act, 0 < k -> ld < k -> len n act -> act <> [] ->
  exists p, asearch n k ld prev act = Some (p, lzero k act p) /\ In p act /\ (forall q, In q act -> blt q p = false).
Proof.
  induction n as [|n IH]; intros k ld prev act Hk Hld Hl Hne; cbn [asearch].
  - exists []. destruct act as [|d act]; [congruence|]. unfold len in Hl. inversion Hl; subst. destruct d; [|discriminate].
    split; [reflexivity|]. split; [left; auto|]. intros q _. destruct q; reflexivity.
  - assert (HH : has false act = true \/ has false act = false /\ has true act = true).
    { destruct act as [|d act]; [congruence|]. assert (length d = S n) by (inversion Hl; auto). destruct d as [|b d]; [discriminate|].
      destruct (has false ((b :: d) :: act)) eqn:E; auto. right. split; auto. destruct b; [apply has_iff; exists d; left; auto|].
      exfalso. eapply has_false; [exact E|left; reflexivity]. }
    set (dir := if xorb (has false act) (has true act) then has true act else if k <? ld then hd false prev else k =? ld).
    assert (D : dir = negb (has false act)).
    { unfold dir. destruct (Z.ltb_spec k ld); [lia|]. destruct (Z.eqb_spec k ld); [lia|]. destruct HH as [->|[-> ->]]; [destruct (has true act)|]; reflexivity. }
    assert (W : write_bit dir act <> []).
    { rewrite D. destruct HH as [E|[E E']]; rewrite E; cbn; [unfold has in E; destruct (write_bit false act)|unfold has in E'; destruct (write_bit true act)]; congruence. }
    destruct (IH (k + 1) ld (tl prev) (write_bit dir act)) as (p & E1 & E2 & E3); auto; [lia|lia|apply len_write; auto|].
    assert (NB : negb (has false act) && negb (has true act) = false) by (destruct HH as [->|[-> ->]]; reflexivity).
    rewrite NB, E1. exists (dir :: p). split.
    + f_equal. f_equal. cbn [lzero]. destruct (Z.eqb_spec (lzero (k + 1) (write_bit dir act) p) 0); auto. rewrite D, Bool.negb_involutive.
      destruct (has false act), (has true act); reflexivity.
    + split; [apply in_write; auto|]. intros [|b q] Hq; [reflexivity|]. cbn [blt]. destruct (Bool.eqb_spec b dir) as [->|N].
      * apply E3. apply in_write. auto.
      * rewrite D in *. destruct (has false act) eqn:F; auto. cbn in *. destruct b; [congruence|]. exfalso. eapply has_false; eauto.
Qed.
(** at the last discrepancy of [p]: the next greater device *)
Lemma asearch_next n : forall k ld p act, 0 < k -> len n act -> In p act -> lzero k act p = ld -> ld <> 0 ->
  exists q, asearch n k ld p act = Some (q, lzero k act q) /\ In q act /\ blt p q = true /\
    (forall q', In q' act -> blt p q' = true -> blt q' q = false).
Proof.
  induction n as [|n IH]; intros k ld p act Hk Hl Hp Hz Hn; cbn [asearch].
  - unfold len in Hl. rewrite Forall_forall in Hl. specialize (Hl _ Hp). destruct p; [cbn in Hz; congruence|discriminate].
  - assert (Lp : length p = S n) by (unfold len in Hl; rewrite Forall_forall in Hl; auto). destruct p as [|b p]; [discriminate|].
    assert (Hb : has b act = true) by (apply has_iff; eauto).
    assert (NB : negb (has false act) && negb (has true act) = false) by (destruct b; rewrite Hb; cbn; auto; apply andb_false_r).
    rewrite NB. cbn [lzero] in Hz. pose proof (lzero_range (k + 1) (write_bit b act) p ltac:(lia)) as R.
    cbn [hd tl]. destruct (Z.eqb_spec (lzero (k + 1) (write_bit b act) p) 0) as [E|N].
    + destruct (negb b && has true act) eqn:X; [|congruence]. apply andb_true_iff in X. destruct X as [X1 X2]. destruct b; [discriminate|].
      subst ld. rewrite Hb, X2. cbn [xorb andb]. destruct (Z.ltb_spec k k); [lia|]. rewrite Z.eqb_refl. cbn [negb].
      destruct (asearch_fresh n (k + 1) k p (write_bit true act)) as (q & E1 & E2 & E3); try lia.
      { apply len_write. auto. } { unfold has in X2. destruct (write_bit true act); congruence. }
      rewrite E1. exists (true :: q). split.
      { reflexivity. }
      split; [apply in_write; auto|]. split; [reflexivity|]. intros [|c q'] Hq' Hlt; [reflexivity|]. destruct c; cbn [blt Bool.eqb] in *.
      * apply E3. apply in_write. auto.
      * exfalso. assert (M : forall x, In x (write_bit false act) -> blt p x = false).
        { apply (lzero_max p (k + 1)); auto; [lia|]. cbn in Lp. injection Lp as ->. apply len_write. auto. }
        rewrite M in Hlt by (apply in_write; auto). discriminate.
    + assert (K : (k <? ld) = true) by (apply Z.ltb_lt; lia). rewrite K.
      assert (D : (if xorb (has false act) (has true act) then has true act else b) = b).
      { destruct b; rewrite Hb; [destruct (has false act)|destruct (has true act)]; reflexivity. }
      rewrite D. destruct (IH (k + 1) ld p (write_bit b act)) as (q & E1 & E2 & E3 & E4); auto; try lia.
      { apply len_write. auto. } { apply in_write. auto. }
      rewrite E1. exists (b :: q). split.
      { f_equal. f_equal. cbn [lzero]. destruct (Z.eqb_spec (lzero (k + 1) (write_bit b act) q) 0); auto.
        destruct b; cbn [negb andb]; [rewrite andb_false_r; auto|rewrite andb_true_r, Hb; auto]. }
      split; [apply in_write; auto|]. split; [cbn; rewrite Bool.eqb_reflx; auto|]. intros [|c q'] Hq' Hlt; [reflexivity|]. cbn [blt] in *.
      destruct (Bool.eqb_spec b c) as [<-|C].
      * rewrite Bool.eqb_reflx. apply E4; auto. apply in_write. auto.
      * destruct (Bool.eqb_spec c b); [congruence|]. subst c. destruct b; auto; congruence.
Qed.
(** in any case an active device is found *)
Lemma asearch_in n : forall k ld prev act, len n act -> act <> [] -> exists p r, asearch n k ld prev act = Some (p, r) /\ In p act.
Proof.
  induction n as [|n IH]; intros k ld prev act Hl Hne; cbn [asearch].
  - exists [], 0. destruct act as [|d act]; [congruence|]. unfold len in Hl. inversion Hl; subst. destruct d; [|discriminate]. split; [reflexivity|left; auto].
  - set (dir := if xorb (has false act) (has true act) then has true act else if k <? ld then hd false prev else k =? ld).
    assert (HH : has false act = true \/ has true act = true).
    { destruct act as [|d act]; [congruence|]. assert (length d = S n) by (inversion Hl; auto). destruct d as [|b d]; [discriminate|].
      destruct b; [right|left]; apply has_iff; exists d; left; auto. }
    assert (NB : negb (has false act) && negb (has true act) = false) by (destruct HH as [->| ->]; auto; apply andb_false_r). rewrite NB.
    assert (W : has dir act = true).
    { unfold dir. destruct (has false act) eqn:F, (has true act) eqn:T; cbn [xorb]; auto; destruct HH; try discriminate.
      all: destruct (k <? ld); [destruct (hd false prev)|destruct (k =? ld)]; auto. }
    destruct (IH (k + 1) ld (tl prev) (write_bit dir act)) as (p & r & E1 & E2); [apply len_write; auto|unfold has in W; destruct (write_bit dir act); congruence|].
    rewrite E1. eexists. eexists. split; [reflexivity|]. apply in_write. auto.
Qed.
(** before the last discrepancy the previous path is followed as far as devices are on it *)
Lemma asearch_follow m : forall n k ld prev act d, len n act -> In d act -> (m <= n)%nat -> k + Z.of_nat m <= ld -> firstn m d = firstn m prev ->
  exists p r, asearch n k ld prev act = Some (p, r) /\ In p act /\ firstn m p = firstn m prev.
Proof.
  induction m as [|m IH]; intros n k ld prev act d Hl Hd Hm Hk Hf.
  - destruct (asearch_in n k ld prev act Hl) as (p & r & E1 & E2); [intros ->; contradiction|]. exists p, r. auto.
  - destruct n as [|n]; [lia|]. assert (Ld : length d = S n) by (unfold len in Hl; rewrite Forall_forall in Hl; auto).
    destruct d as [|b d]; [discriminate|]. destruct prev as [|c prev]; [discriminate|]. cbn [firstn] in Hf. injection Hf as <- Hf.
    assert (Hb : has b act = true) by (apply has_iff; eauto). cbn [asearch].
    assert (NB : negb (has false act) && negb (has true act) = false) by (destruct b; rewrite Hb; cbn; auto; apply andb_false_r). rewrite NB.
    assert (K : (k <? ld) = true) by (apply Z.ltb_lt; lia). rewrite K. cbn [hd tl].
    assert (D : (if xorb (has false act) (has true act) then has true act else b) = b).
    { destruct b; rewrite Hb; [destruct (has false act)|destruct (has true act)]; reflexivity. }
    rewrite D. destruct (IH n (k + 1) ld prev (write_bit b act) d) as (p & r & E1 & E2 & E3); auto; try lia.
    { apply len_write. auto. } { apply in_write. auto. }
    rewrite E1. eexists. eexists. split; [reflexivity|]. split; [apply in_write; auto|]. cbn [firstn]. f_equal. auto.
Qed.

(** ** The code's loop *)
Lemma rom_bits_length r : length (rom_bits r) = (8 * length r)%nat.
Proof. unfold rom_bits. induction r as [|b r IH]; cbn [flat_map length]; auto. rewrite app_length, IH. cbn. lia. Qed.
Lemma nth_byte_bits b j : (j < 8)%nat -> nth j (byte_bits b) false = Z.testbit b (Z.of_nat j).
Proof. intros H. unfold byte_bits. do 8 (destruct j as [|j]; [reflexivity|]). lia. Qed.
Lemma nth_rom_bits r : forall a j, (j < 8)%nat -> (a < length r)%nat -> nth (8 * a + j) (rom_bits r) false = Z.testbit (rd r a) (Z.of_nat j).
Proof.
  induction r as [|b r IH]; intros a j Hj Ha; [cbn in Ha; lia|]. unfold rom_bits. cbn [flat_map]. fold (rom_bits r). destruct a as [|a].
  - rewrite app_nth1 by (cbn; lia). cbn [Nat.mul Nat.add]. apply nth_byte_bits. auto.
  - rewrite app_nth2 by (cbn [byte_bits map length]; lia). cbn [byte_bits map length]. replace (8 * S a + j - 8)%nat with (8 * a + j)%nat by lia. apply IH; auto. cbn in Ha. lia.
Qed.
Definition set_rom (rom : list Z) (num : nat) (mask : Z) (dir : bool) : list Z :=
  if dir then wr rom num (Z.lor (rd rom num) mask) else wr rom num (Z.land (rd rom num) (u8 (Z.lnot mask))).
Lemma set_rom_ok rom a j dir : rom_ok rom -> (j < 8)%nat -> rom_ok (set_rom rom a (2 ^ Z.of_nat j) dir).
Proof.
  intros [H1 H2] Hj. assert (B : is_byte (2 ^ Z.of_nat j)).
  { red. split; [apply Z.pow_nonneg; lia|]. change 256 with (2 ^ 8). apply Z.pow_lt_mono_r; lia. }
  split; unfold set_rom; destruct dir; rewrite ?wr_length; auto; apply Forall_wr; auto.
  - apply lor_byte; auto. apply rd_byte. auto.
  - apply land_byte_l. apply rd_byte. auto.
Qed.
Lemma set_rom_bits rom a j dir : rom_ok rom -> (j < 8)%nat -> (a < 8)%nat ->
  rom_bits (set_rom rom a (2 ^ Z.of_nat j) dir) = wr (rom_bits rom) (8 * a + j) dir.
Proof.
  intros H Hj Ha. pose proof (set_rom_ok rom a j dir H Hj) as [L' _]. destruct H as [L B].
  apply (list_ext _ _ _ false). { rewrite wr_length, !rom_bits_length, L, L'. auto. }
  intros x Hx. rewrite rom_bits_length, L' in Hx. rewrite nth_wr, rom_bits_length, L.
  set (c := (x / 8)%nat). set (i := (x mod 8)%nat). assert (X : x = (8 * c + i)%nat) by (apply Nat.div_mod; lia).
  assert (Hi : (i < 8)%nat) by (apply Nat.mod_upper_bound; lia). assert (Hc : (c < 8)%nat) by lia. rewrite X. clearbody c i. clear X.
  rewrite !nth_rom_bits by lia.
  assert (E : rd (set_rom rom a (2 ^ Z.of_nat j) dir) c =
    if Nat.eqb a c then (if dir then Z.lor (rd rom a) (2 ^ Z.of_nat j) else Z.land (rd rom a) (u8 (Z.lnot (2 ^ Z.of_nat j)))) else rd rom c).
  { unfold set_rom, rd. destruct dir; rewrite nth_wr, L; destruct (Nat.eqb_spec a c); cbn [andb]; auto; destruct (Nat.ltb_spec a 8); auto; lia. }
  rewrite E. destruct (Nat.eqb_spec a c) as [<-|Nac].
  - assert (T : (Nat.eqb (8 * a + j) (8 * a + i) && Nat.ltb (8 * a + j) (8 * 8))%bool = Nat.eqb j i).
    { destruct (Nat.eqb_spec j i), (Nat.eqb_spec (8 * a + j) (8 * a + i)), (Nat.ltb_spec (8 * a + j) (8 * 8)); cbn; auto; lia. }
    rewrite T. destruct dir.
    + rewrite Z.lor_spec, Z.pow2_bits_eqb by lia. destruct (Nat.eqb_spec j i) as [<-|]; [rewrite Z.eqb_refl; apply orb_true_r|].
      destruct (Z.eqb_spec (Z.of_nat j) (Z.of_nat i)); [lia|]. apply orb_false_r.
    + rewrite Z.land_spec. unfold u8. change 256 with (2 ^ 8). rewrite Z.mod_pow2_bits_low, Z.lnot_spec, Z.pow2_bits_eqb by lia.
      destruct (Nat.eqb_spec j i) as [<-|]; [rewrite Z.eqb_refl; apply andb_false_r|]. destruct (Z.eqb_spec (Z.of_nat j) (Z.of_nat i)); [lia|]. apply andb_true_r.
  - destruct (Nat.eqb_spec (8 * a + j) (8 * c + i)); [lia|]. reflexivity.
Qed.
Lemma mask_test b j : is_byte b -> (j < 8)%nat -> (0 <? Z.land b (2 ^ Z.of_nat j)) = Z.testbit b (Z.of_nat j).
Proof.
  intros Hb Hj. assert (E : Z.land b (2 ^ Z.of_nat j) = if Z.testbit b (Z.of_nat j) then 2 ^ Z.of_nat j else 0).
  { apply Z.bits_inj'. intros i Hi. rewrite Z.land_spec, Z.pow2_bits_eqb by lia. destruct (Z.eqb_spec (Z.of_nat j) i) as [<-|N].
    - rewrite andb_true_r. destruct (Z.testbit b (Z.of_nat j)); [rewrite Z.pow2_bits_true by lia; auto|rewrite Z.bits_0; auto].
    - rewrite andb_false_r. destruct (Z.testbit b (Z.of_nat j)); [rewrite Z.pow2_bits_false by lia; auto|rewrite Z.bits_0; auto]. }
  rewrite E. destruct (Z.testbit b (Z.of_nat j)); [|reflexivity]. apply Z.ltb_lt. apply Z.pow_pos_nonneg; lia.
Qed.
Lemma wr_app_here (A : Type) (l : list A) x y r : wr (l ++ x :: r) (length l) y = l ++ y :: r.
Proof. induction l; cbn; f_equal; auto. Qed.
Lemma searchLoop_spec m : forall i fuel ld rom lz lfd act done prev,
  (i + m = 64)%nat -> (m < fuel)%nat -> (0 < m)%nat -> rom_ok rom -> rom_bits rom = done ++ prev -> length done = i -> len m act ->
  match asearch m (Z.of_nat i + 1) ld prev act with
  | None => True
  | Some (p, r) => exists rom' lfd', searchLoop fuel ld rom (Z.of_nat i + 1) (2 ^ Z.of_nat (i mod 8)) lz (i / 8) lfd act = Some (rom', 65, (if r =? 0 then lz else r), lfd') /\
      rom_ok rom' /\ rom_bits rom' = done ++ p
  end.
Proof.
  induction m as [|m IH]; intros i fuel ld rom lz lfd act done prev Hi Hf Hm Hr Hb Hd Hl; [lia|].
  destruct fuel as [|fuel]; [lia|]. cbn [asearch searchLoop]. rewrite (read_bit_has m), (read_cmp_has m) by auto.
  destruct (negb (has false act) && negb (has true act)) eqn:NB; [exact Logic.I|].
  set (j := (i mod 8)%nat). set (a := (i / 8)%nat). assert (Ei : i = (8 * a + j)%nat) by (apply Nat.div_mod; lia).
  assert (Hj : (j < 8)%nat) by (apply Nat.mod_upper_bound; lia). assert (Ha : (a < 8)%nat) by lia.
  destruct prev as [|c prev].
  { exfalso. rewrite app_nil_r in Hb. assert (X : length (rom_bits rom) = 64%nat) by (rewrite rom_bits_length; destruct Hr as [-> _]; reflexivity). rewrite Hb in X. lia. }
  cbn [hd tl].
  assert (T : (0 <? Z.land (rd rom a) (2 ^ Z.of_nat j)) = c).
  { rewrite mask_test by (auto; apply rd_byte; apply Hr). rewrite <- nth_rom_bits by (auto; destruct Hr as [-> _]; auto).
    rewrite Hb, <- Ei, <- Hd, app_nth2, Nat.sub_diag by lia. reflexivity. }
  rewrite T. set (dir := if xorb (has false act) (has true act) then has true act else if Z.of_nat i + 1 <? ld then c else Z.of_nat i + 1 =? ld).
  set (z := if has false act && has true act && negb dir then Z.of_nat i + 1 else 0).
  set (X0 := if negb (Bool.eqb _ _) then _ else _).
  assert (X : exists lfd1, X0 = (dir, (if z =? 0 then lz else z), lfd1)).
  { unfold X0, z, dir. clear -NB. destruct (has false act), (has true act); cbn [xorb negb Bool.eqb andb]; [|eexists; reflexivity|eexists; reflexivity|discriminate].
    assert (P : (Z.of_nat i + 1 =? 0) = false) by (apply Z.eqb_neq; lia).
    destruct (Z.of_nat i + 1 <? ld); [destruct c|destruct (Z.of_nat i + 1 =? ld)]; cbn [negb]; rewrite ?P; eexists; reflexivity. }
  destruct X as [lfd1 ->].
  change (if dir then wr rom a (Z.lor (rd rom a) (2 ^ Z.of_nat j)) else wr rom a (Z.land (rd rom a) (u8 (Z.lnot (2 ^ Z.of_nat j))))) with (set_rom rom a (2 ^ Z.of_nat j) dir).
  pose proof (set_rom_ok rom a j dir Hr Hj) as Hr'. pose proof (set_rom_bits rom a j dir Hr Hj Ha) as Hb'.
  rewrite <- Ei, Hb, <- Hd, wr_app_here in Hb'. set (rom1 := set_rom rom a (2 ^ Z.of_nat j) dir) in *. clearbody rom1.
  assert (U : u8 (Z.of_nat i + 1 + 1) = Z.of_nat (S i) + 1) by (unfold u8; rewrite Z.mod_small; lia). rewrite U.
  assert (Hz : z = 0 \/ 0 < z) by (unfold z; destruct (has false act && has true act && negb dir); lia).
  assert (MS : (if u8 (Z.shiftl (2 ^ Z.of_nat j) 1) =? 0 then (S a, 1) else (a, u8 (Z.shiftl (2 ^ Z.of_nat j) 1))) = ((S i / 8)%nat, 2 ^ Z.of_nat (S i mod 8))).
  { rewrite Z.shiftl_mul_pow2 by lia. rewrite <- Z.pow_add_r by lia.
    destruct (Nat.eq_dec j 7) as [J|J].
    - rewrite J. change (u8 (2 ^ (Z.of_nat 7 + 1))) with 0. cbn [Z.eqb].
      replace (S i) with (8 * (a + 1))%nat by lia. rewrite (Nat.mul_comm 8), Nat.div_mul, Nat.mod_mul by lia. rewrite Nat.add_1_r. reflexivity.
    - assert (P : 0 < 2 ^ (Z.of_nat j + 1) < 256).
      { split; [apply Z.pow_pos_nonneg; lia|]. change 256 with (2 ^ 8). apply Z.pow_lt_mono_r; lia. }
      unfold u8. rewrite Z.mod_small by lia. destruct (Z.eqb_spec (2 ^ (Z.of_nat j + 1)) 0); [lia|].
      assert (Q : (S i / 8)%nat = a) by (symmetry; apply (Nat.div_unique _ _ _ (S j)); lia).
      assert (R : (S i mod 8)%nat = S j) by (symmetry; apply (Nat.mod_unique _ _ a); lia). rewrite Q, R. do 2 f_equal. lia. }
  rewrite MS. clear MS. cbv zeta.
  destruct (Nat.eq_dec m 0) as [->|Nm].
  - assert (E63 : i = 63%nat) by lia. cbn [asearch]. rewrite E63.
    change (64 / 8 <? 8)%nat with false. exists rom1, lfd1.
    assert (Pn : prev = []).
    { assert (X : length (rom_bits rom) = 64%nat) by (rewrite rom_bits_length; destruct Hr as [-> _]; reflexivity). rewrite Hb, app_length in X. cbn in X. destruct prev; auto. cbn in X. lia. }
    subst prev. split; [|split; auto]. cbn [Z.eqb]. unfold z. rewrite E63. reflexivity.
  - assert (B : (S i / 8 <? 8)%nat = true) by (apply Nat.ltb_lt; apply Nat.div_lt_upper_bound; lia). rewrite B.
    specialize (IH (S i) fuel ld rom1 (if z =? 0 then lz else z) lfd1 (write_bit dir act) (done ++ [dir]) prev ltac:(lia) ltac:(lia) ltac:(lia) Hr').
    replace (Z.of_nat i + 1 + 1) with (Z.of_nat (S i) + 1) by lia.
    destruct (asearch m (Z.of_nat (S i) + 1) ld prev (write_bit dir act)) as [[p r]|] eqn:E; [|exact Logic.I].
    destruct IH as (rom' & lfd' & E1 & E2 & E3).
    { rewrite <- app_assoc. exact Hb'. } { rewrite app_length. cbn. lia. } { apply len_write. auto. }
    exists rom', lfd'. split; [|split; auto; rewrite E3, <- app_assoc; reflexivity].
    rewrite E1. do 3 f_equal. destruct (Z.eqb_spec r 0) as [->|]; cbn [Z.eqb]; auto. destruct (Z.eqb_spec r 0); [contradiction|auto].
Qed.

Lemma rom_bits_inj r1 r2 : rom_ok r1 -> rom_ok r2 -> rom_bits r1 = rom_bits r2 -> r1 = r2.
Proof.
  intros [L1 B1] [L2 B2] H. apply (list_ext _ _ _ 0). { congruence. }
  intros a Ha. change (rd r1 a = rd r2 a). apply Z.bits_inj'. intros i Hi. destruct (Z_lt_dec i 8) as [Lt|Ge].
  - replace i with (Z.of_nat (Z.to_nat i)) by lia. rewrite <- !nth_rom_bits by lia. rewrite H. reflexivity.
  - rewrite !byte_bits_above; auto; try lia; apply rd_byte; auto.
Qed.
Lemma search_call devs s p r : devs <> [] -> len 64 devs -> bLastDeviceFlag s = false -> rom_ok (ROM_NO s) ->
  asearch 64 1 (LastDiscrepancy s) (rom_bits (ROM_NO s)) devs = Some (p, r) ->
  exists rom lfd, rom_ok rom /\ rom_bits rom = p /\
    oneWireSearch devs s = Some (if rd rom 0 =? 0 then (true, None, mkSearch rom 0 0 false) else (true, Some rom, mkSearch rom r lfd (r =? 0))).
Proof.
  intros Hne Hl Hf Hr Ha.
  pose proof (searchLoop_spec 64 0 65 (LastDiscrepancy s) (ROM_NO s) 0 (LastFamilyDiscrepancy s) devs [] (rom_bits (ROM_NO s))
    ltac:(lia) ltac:(lia) ltac:(lia) Hr eq_refl eq_refl Hl) as S.
  change (Z.of_nat 0 + 1) with 1 in S. rewrite Ha in S. destruct S as (rom & lfd & E & Hr' & Hb). exists rom, lfd. split; auto. split; auto.
  unfold oneWireSearch. rewrite Hf. replace (negb (present devs)) with false by (destruct devs; [congruence|reflexivity]).
  change (2 ^ Z.of_nat (0 mod 8)) with 1 in E. change (0 / 8)%nat with 0%nat in E. rewrite E. cbn [Z.ltb Z.compare negb].
  change (negb (65 <? 65)) with true. cbv iota. cbn [negb orb]. rewrite orb_false_r.
  replace (if r =? 0 then 0 else r) with r by (destruct (Z.eqb_spec r 0); auto).
  destruct (rd rom 0 =? 0); reflexivity.
Qed.

(** ** Enumeration *)
Section Enum.
  Variable roms : list (list Z).
  Hypothesis Hok : Forall rom_ok roms.
  Hypothesis Hnd : NoDup roms.
  Hypothesis Hfam : Forall (fun r => rd r 0 <> 0) roms.
  Let devs := map rom_bits roms.
  Lemma devs_len : len 64 devs.
  Proof. apply Forall_forall. intros d Hd. apply in_map_iff in Hd. destruct Hd as (r & <- & Hr). pose proof (proj1 (Forall_forall _ _) Hok) as Hok'. destruct (Hok' _ Hr) as [L _]. rewrite rom_bits_length, L. reflexivity. Qed.
  Lemma in_devs r : rom_ok r -> In (rom_bits r) devs -> In r roms.
  Proof.
    intros Hr H. apply in_map_iff in H. destruct H as (r' & E & H). pose proof (proj1 (Forall_forall _ _) Hok) as Hok'.
    rewrite <- (rom_bits_inj r' r); auto.
  Qed.
  Definition above (r : list Z) : list (list Z) := filter (fun q => blt (rom_bits r) (rom_bits q)) roms.
  (** state after a call that reported [r] *)
  Definition at_rom (s : search) (r : list Z) : Prop :=
    ROM_NO s = r /\ In r roms /\ LastDiscrepancy s = lzero 1 devs (rom_bits r) /\ bLastDeviceFlag s = (lzero 1 devs (rom_bits r) =? 0).
  Lemma above_nil s r : at_rom s r -> bLastDeviceFlag s = true <-> above r = [].
  Proof.
    intros (E1 & E2 & E3 & ->). rewrite Z.eqb_eq. assert (L : len (length (rom_bits r)) devs).
    { pose proof (proj1 (Forall_forall _ _) Hok) as Hok'. destruct (Hok' _ E2) as [L _]. rewrite rom_bits_length, L. apply devs_len. }
    rewrite lzero_max by (auto; lia). split.
    - intros H. unfold above. destruct (filter _ roms) as [|q l] eqn:F; auto. exfalso. assert (I : In q (q :: l)) by (left; auto).
      rewrite <- F in I. apply filter_In in I. destruct I as [I1 I2]. rewrite H in I2; [discriminate|]. apply in_map. auto.
    - intros H q Hq. apply in_map_iff in Hq. destruct Hq as (q' & <- & Hq'). apply not_true_is_false. intros B.
      assert (I : In q' (above r)) by (apply filter_In; auto). rewrite H in I. contradiction.
  Qed.
  Lemma NoDup_above r : NoDup (above r). Proof. apply NoDup_filter. auto. Qed.
  Lemma blt_cmp q r : In q roms -> In r roms -> blt (rom_bits q) (rom_bits r) = false -> blt (rom_bits r) (rom_bits q) = false -> q = r.
  Proof.
    intros Hq Hr H1 H2. pose proof (proj1 (Forall_forall _ _) Hok) as Hok'. apply rom_bits_inj; auto. apply blt_total; auto.
    destruct (Hok' _ Hq) as [L1 _], (Hok' _ Hr) as [L2 _]. rewrite !rom_bits_length. congruence.
  Qed.
  Lemma perm_next (P : list (list Z)) r : In r roms -> NoDup P -> (forall q, In q P -> In q roms /\ blt (rom_bits q) (rom_bits r) = false) ->
    (forall q, In q (above r) -> In q P) -> In r P -> Permutation P (r :: above r).
  Proof.
    intros Hr Hn Hle Hab Hin. apply NoDup_Permutation; auto.
    - constructor; [|apply NoDup_above]. intros I. apply filter_In in I. rewrite blt_irrefl in I. destruct I; discriminate.
    - intros q. split.
      + intros I. destruct (Hle _ I) as [I1 I2]. destruct (blt (rom_bits r) (rom_bits q)) eqn:B; [right; apply filter_In; auto|]. left. symmetry. apply blt_cmp; auto.
      + intros [<-|I]; auto.
  Qed.
  Lemma search_first s : roms <> [] -> bLastDeviceFlag s = false -> LastDiscrepancy s = 0 -> rom_ok (ROM_NO s) ->
    exists r s', oneWireSearch devs s = Some (true, Some r, s') /\ at_rom s' r /\ Permutation roms (r :: above r).
  Proof.
    intros Hne Hf Hl Hr. assert (Hd : devs <> []) by (unfold devs; destruct roms; [congruence|discriminate]).
    destruct (asearch_fresh 64 1 0 (rom_bits (ROM_NO s)) devs ltac:(lia) ltac:(lia) devs_len Hd) as (p & E1 & E2 & E3).
    rewrite <- Hl in E1 at 1. destruct (search_call devs s _ _ Hd devs_len Hf Hr E1) as (rom & lfd & F1 & <- & F3).
    assert (I : In rom roms) by (apply in_devs; auto). pose proof (proj1 (Forall_forall _ _) Hfam _ I) as N. rewrite (proj2 (Z.eqb_neq _ _) N) in F3.
    eexists. eexists. split; [exact F3|]. split; [repeat apply conj; auto|]. apply perm_next; auto.
    - intros q Hq. split; auto. apply E3. apply in_map. auto.
    - intros q Hq. apply filter_In in Hq. tauto.
  Qed.
  Lemma search_next s r : at_rom s r -> above r <> [] ->
    exists r' s', oneWireSearch devs s = Some (true, Some r', s') /\ at_rom s' r' /\ Permutation (above r) (r' :: above r').
  Proof.
    intros A Hne. assert (Hf : bLastDeviceFlag s = false) by (apply not_true_is_false; intros X; apply Hne; apply (above_nil s); auto).
    destruct A as (<- & A2 & A3 & A4). assert (Hd : devs <> []) by (unfold devs; destruct roms; [contradiction|discriminate]).
    assert (Hr : rom_ok (ROM_NO s)) by (pose proof (proj1 (Forall_forall _ _) Hok) as Hok'; auto). rewrite Hf in A4. symmetry in A4. apply Z.eqb_neq in A4.
    destruct (asearch_next 64 1 (LastDiscrepancy s) (rom_bits (ROM_NO s)) devs ltac:(lia) devs_len) as (p & E1 & E2 & E3 & E4); auto; try congruence.
    { apply in_map. auto. }
    destruct (search_call devs s _ _ Hd devs_len Hf Hr E1) as (rom & lfd & F1 & <- & F3).
    assert (I : In rom roms) by (apply in_devs; auto). pose proof (proj1 (Forall_forall _ _) Hfam _ I) as N. rewrite (proj2 (Z.eqb_neq _ _) N) in F3.
    eexists. eexists. split; [exact F3|]. split; [repeat apply conj; auto|]. apply perm_next; auto; [apply NoDup_above| | |].
    - intros q Hq. apply filter_In in Hq. destruct Hq as [Q1 Q2]. split; auto. apply E4; auto. apply in_map. auto.
    - intros q Hq. apply filter_In in Hq. destruct Hq as [Q1 Q2]. apply filter_In. split; auto. eapply blt_trans; eauto.
    - apply filter_In. auto.
  Qed.
  Lemma searches_done n s : bLastDeviceFlag s = true -> searches n devs s = Some (repeat (false, None) n, s).
  Proof. intros H. induction n as [|n IH]; cbn [searches repeat]; auto. unfold oneWireSearch at 1. rewrite H, IH. reflexivity. Qed.
  Lemma searches_rest m : forall s r, at_rom s r -> length (above r) = m ->
    exists l s', searches m devs s = Some (map (fun x => (true, Some x)) l, s') /\ Permutation l (above r) /\ bLastDeviceFlag s' = true.
  Proof.
    induction m as [|m IH]; intros s r A L.
    - exists [], s. split; [reflexivity|]. destruct (above r) eqn:E; [|discriminate]. split; auto. apply (above_nil s r); auto.
    - destruct (search_next s r A) as (r' & s' & E1 & E2 & E3); [intros X; rewrite X in L; discriminate|].
      apply Permutation_length in E3 as E4. cbn [length] in E4. destruct (IH s' r' E2) as (l & s2 & F1 & F2 & F3); [lia|].
      exists (r' :: l), s2. cbn [searches map]. rewrite E1, F1. split; [reflexivity|]. split; auto.
      etransitivity; [|symmetry; exact E3]. constructor. auto.
  Qed.
  Lemma searches_all s : bLastDeviceFlag s = false -> LastDiscrepancy s = 0 -> rom_ok (ROM_NO s) -> roms <> [] ->
    exists l s', searches (length roms) devs s = Some (map (fun x => (true, Some x)) l, s') /\ Permutation l roms /\
      (forall n, searches n devs s' = Some (repeat (false, None) n, s')).
  Proof.
    intros H1 H2 H3 H4. destruct (search_first s H4 H1 H2 H3) as (r & s1 & E1 & E2 & E3). apply Permutation_length in E3 as E4. cbn [length] in E4.
    destruct (searches_rest (length (above r)) s1 r E2 eq_refl) as (l & s2 & F1 & F2 & F3). exists (r :: l), s2.
    rewrite E4. cbn [searches map]. rewrite E1, F1. split; [reflexivity|]. split.
    - etransitivity; [|symmetry; exact E3]. constructor. auto.
    - intros n. apply searches_done. auto.
  Qed.
  (** target search *)
  Lemma target_found f r : is_byte f -> f <> 0 -> In r roms -> rd r 0 = f ->
    exists r' s', oneWireSearch devs (targetSearch f) = Some (true, Some r', s') /\ In r' roms /\ rd r' 0 = f.
  Proof.
    intros Hb Hf Hr E. assert (Hd : devs <> []) by (unfold devs; destruct roms; [contradiction|discriminate]).
    assert (Ht : rom_ok (f :: repeat 0 7)).
    { split; [reflexivity|]. constructor; auto. apply Forall_forall. intros x Hx. apply repeat_spec in Hx. subst. red; lia. }
    assert (Hk : rom_ok r) by (pose proof (proj1 (Forall_forall _ _) Hok) as Hok'; auto).
    assert (Hx : forall x, rom_ok x -> firstn 8 (rom_bits x) = byte_bits (rd x 0)).
    { intros x [L _]. destruct x as [|a x]; [discriminate|]. unfold rom_bits. cbn [flat_map]. rewrite firstn_app. cbn. reflexivity. }
    destruct (asearch_follow 8 64 1 64 (rom_bits (f :: repeat 0 7)) devs (rom_bits r) devs_len) as (p & z & E1 & E2 & E3); try lia.
    { apply in_map. auto. }
    { rewrite !Hx by auto. rewrite E. reflexivity. }
    destruct (search_call devs (targetSearch f) p z Hd devs_len eq_refl Ht E1) as (rom & lfd & F1 & <- & F3).
    assert (I : In rom roms) by (apply in_devs; auto). pose proof (proj1 (Forall_forall _ _) Hfam _ I) as N. rewrite (proj2 (Z.eqb_neq _ _) N) in F3.
    eexists. eexists. split; [exact F3|]. split; auto. rewrite !Hx in E3 by auto. cbn [rd nth] in E3.
    apply Z.bits_inj'. intros i Hi. destruct (Z_lt_dec i 8) as [Lt|Ge].
    - replace i with (Z.of_nat (Z.to_nat i)) by lia. rewrite <- !nth_byte_bits by lia. rewrite E3. reflexivity.
    - rewrite !byte_bits_above; auto; try lia. apply rd_byte. apply F1.
  Qed.
End Enum.
