(** Frames: what prepareTelegram and the repeat mark make of a telegram. *)
From Verif Require Import Base Bits Bus_Model Bus_Spec.

Lemma size_eq t : telegramSize t = size t.
Proof. unfold telegramSize, size, rd. rewrite land_15. pose proof (Z.mod_pos_bound (nth 5 t 0) 16). lia. Qed.
Lemma size_range t : (7 <= size t <= 22)%nat.
Proof. unfold size. pose proof (Z.mod_pos_bound (nth 5 t 0) 16). lia. Qed.
Lemma firstn_wr (f : list Z) n x : (n < length f)%nat -> firstn (S n) (wr f n x) = firstn n f ++ [x].
Proof. revert f; induction n as [|n IH]; intros [|a r] H; cbn in *; try lia; [reflexivity|]. f_equal. apply IH. lia. Qed.
Lemma xorBytes_acc c l : xorBytes c l = Z.lxor c (xor_all l).
Proof.
  unfold xorBytes, xor_all. revert c. induction l as [|a r IH]; intros c; cbn; [now rewrite Z.lxor_0_r|]. rewrite IH. now rewrite Z.lxor_assoc.
Qed.
Lemma xor_all_app a b : xor_all (a ++ b) = Z.lxor (xor_all a) (xor_all b).
Proof. induction a as [|x r IH]; cbn; [reflexivity|]. unfold xor_all in *. rewrite IH. now rewrite Z.lxor_assoc. Qed.
Lemma xor_all_byte l : Forall is_byte l -> is_byte (xor_all l).
Proof. induction 1; cbn; [unfold is_byte; lia|]. apply lxor_byte; auto. Qed.
Lemma setSender_cons c a b r own : is_u16 own -> setSenderAddress (c :: a :: b :: r) (u16 own) = c :: own / 256 :: own mod 256 :: r.
Proof.
  intros H. unfold setSenderAddress. cbn [wr]. unfold HIGH_BYTE, lowByte. rewrite (u16_id _ H), land_255, Z.shiftr_div_pow2 by lia. change (2 ^ 8) with 256.
  rewrite u8_id; [reflexivity|]. unfold is_byte, is_u16 in *. split; [apply Z.div_pos; lia | apply Z.div_lt_upper_bound; lia].
Qed.
Lemma body_firstn own t : (3 <= length t)%nat -> is_u16 own -> firstn (size t) (setSenderAddress t (u16 own)) = body own t.
Proof.
  intros Ht H. destruct t as [|c [|a [|b r]]]; cbn in Ht; try lia. rewrite setSender_cons by auto. unfold body.
  pose proof (size_range (c :: a :: b :: r)). destruct (size (c :: a :: b :: r)) as [|[|[|n]]]; try lia. cbn. now rewrite Nat.sub_0_r.
Qed.
Lemma body_length own t : length t = largest -> length (body own t) = size t.
Proof.
  intros H. unfold body. rewrite app_length, firstn_length, skipn_length. cbn [length]. pose proof (size_range t). rewrite H. unfold largest. lia.
Qed.
Lemma wire_length own t : length t = largest -> length (wire own t) = S (size t).
Proof. intros H. unfold wire. rewrite app_length, body_length by auto. cbn. lia. Qed.
Lemma Forall_firstn {A} (P : A -> Prop) n l : Forall P l -> Forall P (firstn n l).
Proof. intros H. revert n. induction H; destruct n; cbn; auto. Qed.
Lemma Forall_skipn {A} (P : A -> Prop) n l : Forall P l -> Forall P (skipn n l).
Proof. intros H. revert n. induction H; destruct n; cbn; auto. Qed.
Lemma body_bytes own t : Forall is_byte t -> is_u16 own -> Forall is_byte (body own t).
Proof.
  intros H U. unfold body. apply Forall_app. split.
  - repeat (apply Forall_cons; [|]); [exact (rd_byte t 0 H) | | | apply Forall_nil].
    + unfold is_byte, is_u16 in *. split; [apply Z.div_pos; lia | apply Z.div_lt_upper_bound; lia].
    + unfold is_byte. apply Z.mod_pos_bound. lia.
  - apply Forall_firstn, Forall_skipn, H.
Qed.
Lemma wire_xor own t : xor_all (wire own t) = 255.
Proof.
  unfold wire. rewrite xor_all_app. cbn [xor_all fold_right]. rewrite Z.lxor_0_r, (Z.lxor_comm 255), <- Z.lxor_assoc, Z.lxor_nilpotent. apply Z.lxor_0_l.
Qed.
(** the telegram as prepared *)
Definition prepared (f : list Z) (w : list Z) (n : nat) : Prop := length f = largest /\ size f = n /\ firstn (S n) f = w.
Lemma nth5_setSender t a : nth 5 (setSenderAddress t a) 0 = nth 5 t 0.
Proof. unfold setSenderAddress. now rewrite !nth_wr_other by lia. Qed.
Lemma prepare_ok own t : is_u16 own -> tel_buffer t -> prepared (prepareTelegram own t (size t)) (wire own t) (size t).
Proof.
  intros U [Hl Hb]. unfold prepareTelegram, prepared. set (s := setSenderAddress t (u16 own)).
  assert (Ls : length s = largest) by (unfold s, setSenderAddress; now rewrite !wr_length). pose proof (size_range t) as R.
  assert (B : firstn (size t) s = body own t) by (apply body_firstn; auto; rewrite Hl; unfold largest; lia).
  rewrite wr_length. split; [exact Ls|]. split.
  - unfold size at 1. rewrite nth_wr_other by lia. unfold s. now rewrite nth5_setSender.
  - rewrite firstn_wr by (rewrite Ls; unfold largest; lia). rewrite B, xorBytes_acc. unfold wire. f_equal. f_equal. apply u8_id.
    apply lxor_byte; [unfold is_byte; lia|]. apply xor_all_byte, body_bytes; auto.
Qed.
Lemma size_repeated t : size (repeated t) = size t.
Proof. unfold size, repeated. destruct t; reflexivity. Qed.
Lemma repeated_length t : length (repeated t) = length t.
Proof. destruct t; reflexivity. Qed.
Lemma nth0_wire own t : nth 0 (wire own t) 0 = nth 0 t 0.
Proof. reflexivity. Qed.
Lemma unflagged_ldiff c : Z.ldiff c SB_TEL_REPEAT_FLAG = unflagged c.
Proof. reflexivity. Qed.
Lemma flag_bit c : (Z.land c SB_TEL_REPEAT_FLAG =? 0) = negb (Z.testbit c 5).
Proof.
  unfold SB_TEL_REPEAT_FLAG. change 0x20 with (2 ^ 5). destruct (Z.testbit c 5) eqn:T; cbn [negb].
  - apply Z.eqb_neq. intro E. assert (X : Z.testbit (Z.land c (2 ^ 5)) 5 = true) by (rewrite Z.land_spec, T, Z.pow2_bits_true; [reflexivity|lia]).
    rewrite E, Z.bits_0 in X. discriminate.
  - apply Z.eqb_eq. apply Z.bits_inj'. intros n Hn. rewrite Z.land_spec, Z.bits_0, Z.pow2_bits_eqb by lia. destruct (Z.eqb_spec 5 n); [subst; now rewrite T|apply andb_false_r].
Qed.
Lemma unflagged_xor c : Z.testbit c 5 = true -> unflagged c = Z.lxor c 0x20.
Proof.
  intros T. apply Z.bits_inj'. intros n Hn. unfold unflagged. change 0x20 with (2 ^ 5). rewrite Z.clearbit_eqb, Z.lxor_spec, Z.pow2_bits_eqb by lia.
  destruct (Z.eqb_spec 5 n); [subst; now rewrite T|]. cbn. now rewrite andb_true_r, xorb_false_r.
Qed.
Lemma unflagged_clear c : Z.testbit c 5 = false -> unflagged c = c.
Proof.
  intros T. apply Z.bits_inj'. intros n Hn. unfold unflagged. rewrite Z.clearbit_eqb by lia. destruct (Z.eqb_spec 5 n); [subst; now rewrite T|]. apply andb_true_r.
Qed.
Lemma unflagged_bit c : Z.testbit (unflagged c) 5 = false.
Proof. unfold unflagged. rewrite Z.clearbit_eqb by lia. apply andb_false_r. Qed.
Lemma repeated_clear t : Z.testbit (nth 0 t 0) 5 = false -> repeated t = t.
Proof. destruct t as [|c r]; cbn [nth repeated]; [reflexivity|]. intros T. now rewrite unflagged_clear. Qed.
Lemma wire_repeated own t : length t = largest -> Z.testbit (nth 0 t 0) 5 = true ->
  wire own (repeated t) = (unflagged (nth 0 t 0) :: tl (body own t)) ++ [Z.lxor (Z.lxor 255 (xor_all (body own t))) 0x20].
Proof.
  intros L T. unfold wire. destruct t as [|c r]; [discriminate|]. cbn [nth] in T.
  assert (E : body own (repeated (c :: r)) = unflagged c :: tl (body own (c :: r))).
  { unfold body. rewrite size_repeated. reflexivity. }
  rewrite E. f_equal. f_equal. assert (B : body own (c :: r) = c :: tl (body own (c :: r))) by reflexivity. rewrite B at 2.
  generalize (tl (body own (c :: r))). intros l. cbn [xor_all fold_right]. fold (xor_all l). rewrite unflagged_xor by auto.
  rewrite !Z.lxor_assoc. f_equal. f_equal. apply Z.lxor_comm.
Qed.
Lemma mark_ok own t f : length t = largest -> prepared f (wire own t) (size t) ->
  prepared (markRepeated true (S (size f)) f) (wire own (repeated t)) (size t).
Proof.
  intros L (Lf & Sf & W). unfold markRepeated. cbn [andb]. rewrite flag_bit, Bool.negb_involutive.
  assert (N0 : rd f 0 = nth 0 t 0). { rewrite <- (nth0_wire own t), <- W. destruct f; [discriminate|reflexivity]. }
  rewrite N0. destruct (Z.testbit (nth 0 t 0) 5) eqn:T; [|rewrite repeated_clear by auto; repeat split; auto].
  rewrite unflagged_ldiff. rewrite Sf. cbn [Nat.sub]. rewrite Nat.sub_0_r. pose proof (size_range t) as R. unfold prepared. rewrite !wr_length. split; [auto|]. split.
  - rewrite <- Sf. unfold size at 1 3. rewrite nth_wr_other by lia. now rewrite nth_wr_other by lia.
  - rewrite firstn_wr by (rewrite wr_length, Lf; unfold largest; lia). rewrite wire_repeated by auto.
    assert (F : firstn (size t) f = body own t).
    { rewrite <- (firstn_firstn f (size t) (S (size t))) || idtac. replace (size t) with (Nat.min (size t) (S (size t))) by lia. rewrite <- firstn_firstn, W.
      unfold wire. rewrite firstn_app, body_length by auto. rewrite firstn_all2 by (rewrite body_length; auto). rewrite Nat.sub_diag. cbn. now rewrite app_nil_r. }
    f_equal.
    + destruct f as [|c r]; [discriminate|]. cbn [wr]. destruct (size t) as [|n] eqn:E; [lia|]. cbn [firstn] in *. rewrite <- F. reflexivity.
    + f_equal. rewrite rd_wr_other by lia. f_equal.
      assert (X : nth (size t) (firstn (S (size t)) f) 0 = nth (size t) (wire own t) 0) by now rewrite W.
      unfold wire in X. rewrite app_nth2, body_length, Nat.sub_diag in X by (rewrite ?body_length; auto). cbn [nth] in X. rewrite <- X. unfold rd.
      clear - Lf R. rewrite <- (firstn_skipn (S (size t)) f) at 1. rewrite app_nth1; [reflexivity|]. rewrite firstn_length, Lf. unfold largest. lia.
Qed.
Lemma mark_again own t f : prepared f (wire own (repeated t)) (size t) -> markRepeated true (S (size f)) f = f.
Proof.
  intros (Lf & Sf & W). unfold markRepeated. rewrite flag_bit, Bool.negb_involutive. cbn [andb].
  assert (N0 : rd f 0 = nth 0 (repeated t) 0). { rewrite <- (nth0_wire own), <- W. destruct f; [discriminate|reflexivity]. }
  rewrite N0. replace (Z.testbit _ 5) with false; [reflexivity|]. destruct t; cbn [repeated nth]; [now rewrite Z.bits_0|now rewrite unflagged_bit].
Qed.
