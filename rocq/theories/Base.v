(** Common definitions: bytes, wrap-around arithmetic, list update.
    No code of /repo is modelled here; these are the carriers used by all models. *)
From Coq Require Export ZArith List Bool Lia Arith.
From Coq Require Export ZifyBool.
Export ListNotations.
Open Scope Z_scope.

(** Proof engineering only: keep [simpl]/[cbn] from unfolding integer arithmetic. *)
Global Arguments Z.add : simpl never.
Global Arguments Z.sub : simpl never.
Global Arguments Z.mul : simpl never.
Global Arguments Z.opp : simpl never.
Global Arguments Z.div : simpl never.
Global Arguments Z.modulo : simpl never.
Global Arguments Z.land : simpl never.
Global Arguments Z.lor : simpl never.
Global Arguments Z.lxor : simpl never.
Global Arguments Z.shiftl : simpl never.
Global Arguments Z.shiftr : simpl never.
Global Arguments Z.pow : simpl never.
Global Arguments Z.of_nat : simpl never.
Global Arguments Z.to_nat : simpl never.
Global Arguments Z.testbit : simpl never.

(** C integer ranges (uint8_t, uint16_t, uint32_t). *)
Definition is_byte (z : Z) : Prop := 0 <= z < 256.
Definition is_u16 (z : Z) : Prop := 0 <= z < 65536.
Definition is_u32 (z : Z) : Prop := 0 <= z < 4294967296.

(** Conversions to unsigned types (C: value modulo 2^n). *)
Definition u8 (z : Z) : Z := z mod 256.
Definition u16 (z : Z) : Z := z mod 65536.
Definition u32 (z : Z) : Z := z mod 4294967296.

(** Conversion of an unsigned 32-bit value to int (two's complement). *)
Definition s32 (z : Z) : Z := let u := u32 z in if u <? 2147483648 then u else u - 4294967296.

(** Array read with default 0 and array write (no effect outside the array). *)
Definition rd (l : list Z) (i : nat) : Z := nth i l 0.
Fixpoint wr {A} (l : list A) (i : nat) (x : A) : list A :=
  match l, i with
  | [], _ => []
  | _ :: t, O => x :: t
  | h :: t, S j => h :: wr t j x
  end.

(** memcpy(dst, src, n): the first [n] bytes of [dst] are replaced. *)
Definition blit (dst src : list Z) (n : nat) : list Z := firstn n src ++ skipn n dst.

(** Overwrite [l] from index [i] with [src] (no effect outside). *)
Fixpoint wr_range {A} (l : list A) (i : nat) (src : list A) : list A :=
  match src with
  | [] => l
  | x :: r => wr_range (wr l i x) (S i) r
  end.

Lemma wr_length A (l : list A) i x : length (wr l i x) = length l.
Proof. revert i; induction l; destruct i; simpl; auto. Qed.

Lemma nth_wr_same A (l : list A) i x d : (i < length l)%nat -> nth i (wr l i x) d = x.
Proof. revert i; induction l; destruct i; simpl; intros; try lia; auto. apply IHl; lia. Qed.

Lemma nth_wr_other A (l : list A) i j x d : i <> j -> nth j (wr l i x) d = nth j l d.
Proof.
  revert i j; induction l; destruct i, j; simpl; intros; try congruence; auto.
Qed.

Lemma nth_wr A (l : list A) i j x d :
  nth j (wr l i x) d = if (Nat.eqb i j && Nat.ltb i (length l))%bool then x else nth j l d.
Proof.
  destruct (Nat.eqb_spec i j) as [->|N]; simpl.
  - destruct (Nat.ltb_spec j (length l)).
    + now apply nth_wr_same.
    + rewrite !nth_overflow; auto. rewrite wr_length; auto.
  - now apply nth_wr_other.
Qed.

Lemma rd_wr_same l i x : (i < length l)%nat -> rd (wr l i x) i = x.
Proof. apply nth_wr_same. Qed.
Lemma rd_wr_other l i j x : i <> j -> rd (wr l i x) j = rd l j.
Proof. apply nth_wr_other. Qed.

Lemma wr_out A (l : list A) i x : (length l <= i)%nat -> wr l i x = l.
Proof. revert i; induction l; destruct i; simpl; intros; auto; try lia. f_equal; apply IHl; lia. Qed.

Lemma Forall_wr (P : Z -> Prop) l i x : Forall P l -> P x -> Forall P (wr l i x).
Proof.
  revert i; induction l; destruct i; simpl; intros H Hx; auto; inversion H; subst; constructor; auto.
Qed.

Lemma Forall_rd (P : Z -> Prop) l i : Forall P l -> P 0 -> P (rd l i).
Proof.
  unfold rd; intros H H0. destruct (Nat.lt_ge_cases i (length l)).
  - rewrite Forall_forall in H. apply H, nth_In; auto.
  - rewrite nth_overflow; auto.
Qed.

Lemma rd_byte l i : Forall is_byte l -> is_byte (rd l i).
Proof. intros; apply Forall_rd; auto; red; lia. Qed.

Lemma wr_range_length A (src l : list A) i : length (wr_range l i src) = length l.
Proof. revert l i; induction src; simpl; intros; auto. rewrite IHsrc; apply wr_length. Qed.

Lemma nth_wr_range A (src l : list A) i j d :
  (i + length src <= length l)%nat ->
  nth j (wr_range l i src) d =
  if (Nat.leb i j && Nat.ltb j (i + length src))%bool then nth (j - i) src d else nth j l d.
Proof.
  revert l i; induction src as [|x r IH]; simpl; intros l i H.
  - destruct (Nat.leb_spec i j), (Nat.ltb_spec j (i+0)); simpl; auto; lia.
  - rewrite IH by (rewrite wr_length; lia).
    destruct (Nat.leb_spec (S i) j), (Nat.ltb_spec j (S i + length r)),
      (Nat.leb_spec i j), (Nat.ltb_spec j (i + S (length r))); simpl; try lia.
    + replace (j - i)%nat with (S (j - S i)) by lia. reflexivity.
    + rewrite nth_wr_other by lia. reflexivity.
    + assert (i = j) by lia. subst. rewrite Nat.sub_diag. apply nth_wr_same. lia.
    + rewrite nth_wr_other by lia. reflexivity.
Qed.

Lemma list_ext A (a b : list A) d :
  length a = length b -> (forall i, (i < length a)%nat -> nth i a d = nth i b d) -> a = b.
Proof. intros; eapply nth_ext; eauto. Qed.

(** Finite sweeps: a boolean test that holds for every byte. *)
Definition bytes256 : list Z := map Z.of_nat (seq 0 256).
Lemma bytes256_in b : is_byte b -> In b bytes256.
Proof.
  intros H. unfold bytes256. apply in_map_iff. exists (Z.to_nat b). split.
  - unfold is_byte in H; lia.
  - apply in_seq. unfold is_byte in H; lia.
Qed.
Lemma byte_forall (f : Z -> bool) : forallb f bytes256 = true -> forall b, is_byte b -> f b = true.
Proof. intros H b Hb. rewrite forallb_forall in H. apply H, bytes256_in; auto. Qed.

Definition range_Z (n : nat) : list Z := map Z.of_nat (seq 0 n).
Lemma range_Z_in n b : 0 <= b < Z.of_nat n -> In b (range_Z n).
Proof.
  intros H. unfold range_Z. apply in_map_iff. exists (Z.to_nat b). split; [lia|].
  apply in_seq; lia.
Qed.
Lemma range_forall n (f : Z -> bool) :
  forallb f (range_Z n) = true -> forall b, 0 <= b < Z.of_nat n -> f b = true.
Proof. intros H b Hb. rewrite forallb_forall in H. apply H, range_Z_in; auto. Qed.

Lemma u8_byte z : is_byte (u8 z). Proof. unfold u8, is_byte. apply Z.mod_pos_bound; lia. Qed.
Lemma u16_u16 z : is_u16 (u16 z). Proof. unfold u16, is_u16. apply Z.mod_pos_bound; lia. Qed.
Lemma u32_u32 z : is_u32 (u32 z). Proof. unfold u32, is_u32. apply Z.mod_pos_bound; lia. Qed.
Lemma u8_id z : is_byte z -> u8 z = z. Proof. intros; apply Z.mod_small; auto. Qed.
Lemma u16_id z : is_u16 z -> u16 z = z. Proof. intros; apply Z.mod_small; auto. Qed.
Lemma u32_id z : is_u32 z -> u32 z = z. Proof. intros; apply Z.mod_small; auto. Qed.
