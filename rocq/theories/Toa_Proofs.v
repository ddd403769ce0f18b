(** Numbers as texts (C135). *)
From Verif Require Export Toa_Spec.

Lemma digitLoop_spec (w : Z -> Z) lim c : 1 <= c -> (forall x, 0 <= x < lim -> w x = x) -> forall n v d, 0 <= v < lim -> 0 <= d -> d + v / c <= 255 -> v / c <= Z.of_nat n ->
  digitLoop w n v c d = (d + v / c, v mod c).
Proof.
  intros C W. induction n as [|n IH]; intros v d V D B N; cbn [digitLoop].
  - assert (v / c = 0) by (pose proof (Z.div_pos v c ltac:(lia) ltac:(lia)); lia). rewrite H. f_equal; [lia|]. Z.div_mod_to_equations. nia.
  - destruct (Z.leb_spec c v) as [L|L].
    + assert (E : (v - c) / c = v / c - 1) by (replace (v - c) with (v + -1 * c) by ring; rewrite Z.div_add by lia; lia).
      assert (M : (v - c) mod c = v mod c) by (replace (v - c) with (v + -1 * c) by ring; apply Z.mod_add; lia).
      assert (P : 1 <= v / c) by (apply Z.div_le_lower_bound; lia).
      rewrite W by lia. unfold u8. rewrite Z.mod_small by lia. rewrite IH by lia. rewrite E, M. f_equal. lia.
    + rewrite Z.div_small, Z.mod_small by lia. f_equal. lia.
Qed.
Lemma u8_w x : 0 <= x < 256 -> u8 x = x. Proof. intros. unfold u8. apply Z.mod_small. lia. Qed.
Lemma u16_w x : 0 <= x < 65536 -> u16 x = x. Proof. intros. unfold u16. apply Z.mod_small. lia. Qed.
Lemma div_le_self v c : 0 <= v -> 1 <= c -> v / c <= v. Proof. intros. apply Z.div_le_upper_bound; nia. Qed.

Lemma u8toap_spec dest v : is_byte v -> (4 <= length dest)%nat ->
  u8toap dest v = Some ([48 + v / 100; 48 + v mod 100 / 10; 48 + v mod 10] ++ 0 :: skipn 4 dest).
Proof.
  intros V L. unfold is_byte in V. destruct dest as [|e0 [|e1 [|e2 [|e3 dest]]]]; cbn [length] in L; try lia.
  unfold u8toap, u8toa_tab. cbn [u8Loop].
  rewrite (digitLoop_spec u8 256 100 ltac:(lia) u8_w) by (unfold CHAR_0; Z.div_mod_to_equations; lia).
  cbn [put_at length Nat.ltb Nat.leb wr].
  rewrite (digitLoop_spec u8 256 10 ltac:(lia) u8_w) by (unfold CHAR_0; Z.div_mod_to_equations; lia).
  cbn [put_at length Nat.ltb Nat.leb wr].
  rewrite (digitLoop_spec u8 256 1 ltac:(lia) u8_w) by (unfold CHAR_0; Z.div_mod_to_equations; lia).
  cbn [put_at length Nat.ltb Nat.leb wr]. cbn [app skipn]. unfold CHAR_0. do 2 f_equal. f_equal. f_equal. rewrite Z.div_1_r. replace ((v mod 100) mod 10) with (v mod 10) by (Z.div_mod_to_equations; lia). reflexivity.
Qed.
Lemma u16toap_spec dest v : is_u16 v -> (6 <= length dest)%nat ->
  u16toap dest v = Some ([48 + v / 10000; 48 + v mod 10000 / 1000; 48 + v mod 1000 / 100; 48 + v mod 100 / 10; 48 + v mod 10] ++ 0 :: skipn 6 dest).
Proof.
  intros V L. unfold is_u16 in V. destruct dest as [|e0 [|e1 [|e2 [|e3 [|e4 [|e5 dest]]]]]]; cbn [length] in L; try lia.
  unfold u16toap. cbn [u16Loop]. change (10000 / 10) with 1000. change (1000 / 10) with 100. change (100 / 10) with 10. change (10 / 10) with 1.
  rewrite (digitLoop_spec u16 65536 10000 ltac:(lia) u16_w) by (unfold CHAR_0; Z.div_mod_to_equations; lia).
  cbn [put_at length Nat.ltb Nat.leb wr].
  rewrite (digitLoop_spec u16 65536 1000 ltac:(lia) u16_w) by (unfold CHAR_0; Z.div_mod_to_equations; lia).
  cbn [put_at length Nat.ltb Nat.leb wr].
  replace ((v mod 10000) mod 1000) with (v mod 1000) by (Z.div_mod_to_equations; lia).
  rewrite (digitLoop_spec u16 65536 100 ltac:(lia) u16_w) by (unfold CHAR_0; Z.div_mod_to_equations; lia).
  cbn [put_at length Nat.ltb Nat.leb wr].
  replace ((v mod 1000) mod 100) with (v mod 100) by (Z.div_mod_to_equations; lia).
  rewrite (digitLoop_spec u16 65536 10 ltac:(lia) u16_w) by (unfold CHAR_0; Z.div_mod_to_equations; lia).
  cbn [put_at length Nat.ltb Nat.leb wr].
  replace ((v mod 100) mod 10) with (v mod 10) by (Z.div_mod_to_equations; lia).
  rewrite (digitLoop_spec u16 65536 1 ltac:(lia) u16_w) by (unfold CHAR_0; Z.div_mod_to_equations; lia).
  cbn [put_at length Nat.ltb Nat.leb wr]. cbn [app skipn]. unfold CHAR_0. rewrite Z.div_1_r. reflexivity.
Qed.
Lemma text_digits s rest : Forall is_digit s -> text (s ++ 0 :: rest) = Some s.
Proof. induction 1 as [|c s D F IH]; [reflexivity|]. cbn [app text]. unfold is_digit in D. destruct (Z.eqb_spec c 0); [lia|]. rewrite IH. reflexivity. Qed.
Ltac digits := repeat (apply Forall_cons; [assumption|]); apply Forall_nil.
Lemma digit_of x : 0 <= x <= 9 -> is_digit (48 + x). Proof. unfold is_digit. lia. Qed.
Lemma u8toa_spec buf v d : is_byte v -> length buf = 4%nat -> 0 <= d <= 3 -> exists buf' s, u8toa buf v d = Some (buf', s) /\ length buf' = 4%nat /\ shows s d v.
Proof.
  intros V L D. unfold u8toa. rewrite (u8toap_spec buf v V ltac:(lia)). cbv zeta. rewrite (u8_w (3 - d)) by lia. unfold is_byte in V.
  assert (D1 : is_digit (48 + v / 100)) by (apply digit_of; Z.div_mod_to_equations; lia). assert (D2 : is_digit (48 + v mod 100 / 10)) by (apply digit_of; Z.div_mod_to_equations; lia).
  assert (D3 : is_digit (48 + v mod 10)) by (apply digit_of; Z.div_mod_to_equations; lia).
  destruct buf as [|e0 [|e1 [|e2 [|e3 [|]]]]]; try discriminate. unfold text_at. cbn [skipn app length]. destruct (Z.leb_spec (3 - d) (Z.of_nat 4)); [|lia].
  assert (d = 0 \/ d = 1 \/ d = 2 \/ d = 3) as [->|[->|[->| ->]]] by lia.
  - change (Z.to_nat (3 - 0)) with 3%nat. cbn [skipn]. exists [48 + v / 100; 48 + v mod 100 / 10; 48 + v mod 10; 0], []. split; [reflexivity|]. split; [reflexivity|]. split; [reflexivity|]. split; [constructor|]. cbn [value]. rewrite Z.mod_1_r. reflexivity.
  - change (Z.to_nat (3 - 1)) with 2%nat. cbn [skipn]. pose proof (text_digits [48 + v mod 10] [] ltac:(digits)) as T. cbn [app] in T. rewrite T. clear T. eexists _, _. split; [reflexivity|]. split; [reflexivity|]. split; [reflexivity|]. split; [digits|]. cbn [value]. change (10 ^ 1) with 10. lia.
  - change (Z.to_nat (3 - 2)) with 1%nat. cbn [skipn]. pose proof (text_digits [48 + v mod 100 / 10; 48 + v mod 10] [] ltac:(digits)) as T. cbn [app] in T. rewrite T. clear T. eexists _, _. split; [reflexivity|]. split; [reflexivity|]. split; [reflexivity|]. split; [digits|]. cbn [value]. change (10 ^ 2) with 100. Z.div_mod_to_equations. lia.
  - change (Z.to_nat (3 - 3)) with 0%nat. cbn [skipn]. pose proof (text_digits [48 + v / 100; 48 + v mod 100 / 10; 48 + v mod 10] [] ltac:(digits)) as T. cbn [app] in T. rewrite T. clear T. eexists _, _. split; [reflexivity|]. split; [reflexivity|]. split; [reflexivity|]. split; [digits|]. cbn [value]. change (10 ^ 3) with 1000. Z.div_mod_to_equations. lia.
Qed.
Lemma u16toa_spec buf v d : is_u16 v -> length buf = 6%nat -> 0 <= d <= 5 -> exists buf' s, u16toa buf v d = Some (buf', s) /\ length buf' = 6%nat /\ shows s d v.
Proof.
  intros V L D. unfold u16toa. rewrite (u16toap_spec buf v V ltac:(lia)). cbv zeta. rewrite (u8_w (5 - d)) by lia. unfold is_u16 in V.
  remember (v / 10000) as q4 eqn:Q4. remember (v mod 10000 / 1000) as q3 eqn:Q3. remember (v mod 1000 / 100) as q2 eqn:Q2. remember (v mod 100 / 10) as q1 eqn:Q1. remember (v mod 10) as q0 eqn:Q0.
  assert (D4 : is_digit (48 + q4)) by (apply digit_of; Z.div_mod_to_equations; lia). assert (D3 : is_digit (48 + q3)) by (apply digit_of; Z.div_mod_to_equations; lia).
  assert (D2 : is_digit (48 + q2)) by (apply digit_of; Z.div_mod_to_equations; lia). assert (D1 : is_digit (48 + q1)) by (apply digit_of; Z.div_mod_to_equations; lia). assert (D0 : is_digit (48 + q0)) by (apply digit_of; Z.div_mod_to_equations; lia).
  destruct buf as [|e0 [|e1 [|e2 [|e3 [|e4 [|e5 [|]]]]]]]; try discriminate. unfold text_at. cbn [skipn app length]. destruct (Z.leb_spec (5 - d) (Z.of_nat 6)); [|lia].
  assert (d = 0 \/ d = 1 \/ d = 2 \/ d = 3 \/ d = 4 \/ d = 5) as [->|[->|[->|[->|[->| ->]]]]] by lia.
  - change (Z.to_nat (5 - 0)) with 5%nat. cbn [skipn text]. change (0 =? 0) with true. cbv match. eexists _, []. split; [reflexivity|]. split; [reflexivity|]. split; [reflexivity|]. split; [constructor|]. cbn [value]. rewrite Z.mod_1_r. reflexivity.
  - change (Z.to_nat (5 - 1)) with 4%nat. cbn [skipn]. pose proof (text_digits [48 + q0] [] ltac:(digits)) as T. cbn [app] in T. rewrite T. clear T. eexists _, _. split; [reflexivity|]. split; [reflexivity|]. split; [reflexivity|]. split; [digits|]. cbn [value]. change (10 ^ 1) with 10. lia.
  - change (Z.to_nat (5 - 2)) with 3%nat. cbn [skipn]. pose proof (text_digits [48 + q1; 48 + q0] [] ltac:(digits)) as T. cbn [app] in T. rewrite T. clear T. eexists _, _. split; [reflexivity|]. split; [reflexivity|]. split; [reflexivity|]. split; [digits|]. cbn [value]. change (10 ^ 2) with 100. Z.div_mod_to_equations. lia.
  - change (Z.to_nat (5 - 3)) with 2%nat. cbn [skipn]. pose proof (text_digits [48 + q2; 48 + q1; 48 + q0] [] ltac:(digits)) as T. cbn [app] in T. rewrite T. clear T. eexists _, _. split; [reflexivity|]. split; [reflexivity|]. split; [reflexivity|]. split; [digits|]. cbn [value]. change (10 ^ 3) with 1000. Z.div_mod_to_equations. lia.
  - change (Z.to_nat (5 - 4)) with 1%nat. cbn [skipn]. pose proof (text_digits [48 + q3; 48 + q2; 48 + q1; 48 + q0] [] ltac:(digits)) as T. cbn [app] in T. rewrite T. clear T. eexists _, _. split; [reflexivity|]. split; [reflexivity|]. split; [reflexivity|]. split; [digits|]. cbn [value]. change (10 ^ 4) with 10000. Z.div_mod_to_equations. lia.
  - change (Z.to_nat (5 - 5)) with 0%nat. cbn [skipn]. pose proof (text_digits [48 + q4; 48 + q3; 48 + q2; 48 + q1; 48 + q0] [] ltac:(digits)) as T. cbn [app] in T. rewrite T. clear T. eexists _, _. split; [reflexivity|]. split; [reflexivity|]. split; [reflexivity|]. split; [digits|]. cbn [value]. change (10 ^ 5) with 100000. Z.div_mod_to_equations. lia.
Qed.
