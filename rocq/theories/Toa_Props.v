(** C135: numbers as texts *)
From Verif Require Import Toa_Proofs.

(** The text is the last [d] decimal digits, leading zeros kept. Missing: more digits than the type has, see the refutation *)
Theorem C135_u8_partial buf v d : is_byte v -> length buf = 4%nat -> 0 <= d <= 3 -> exists buf' s, u8toa buf v d = Some (buf', s) /\ length buf' = 4%nat /\ shows s d v.
Proof. apply u8toa_spec. Qed.
Print Assumptions C135_u8_partial.
Theorem C135_u16_partial buf v d : is_u16 v -> length buf = 6%nat -> 0 <= d <= 5 -> exists buf' s, u16toa buf v d = Some (buf', s) /\ length buf' = 6%nat /\ shows s d v.
Proof. apply u16toa_spec. Qed.
Print Assumptions C135_u16_partial.
(** A number that has no more digits than are asked for is shown as it is *)
Theorem C135_whole s d v : shows s d v -> 0 <= d -> 0 <= v < 10 ^ d -> value 0 s = v.
Proof. intros (_ & _ & E) D V. rewrite E. apply Z.mod_small. exact V. Qed.
Print Assumptions C135_whole.
(** Into an array of the caller: all digits and the zero, nothing behind is changed *)
Theorem C135_array8 dest v : is_byte v -> (4 <= length dest)%nat -> exists s, u8toap dest v = Some (s ++ 0 :: skipn 4 dest) /\ shows s 3 v.
Proof.
  intros V L. eexists. split; [apply u8toap_spec; auto|]. unfold is_byte in V. split; [reflexivity|]. split.
  - repeat (apply Forall_cons; [apply digit_of; Z.div_mod_to_equations; lia|]). apply Forall_nil.
  - cbn [value]. change (10 ^ 3) with 1000. Z.div_mod_to_equations. lia.
Qed.
Print Assumptions C135_array8.
Theorem C135_array16 dest v : is_u16 v -> (6 <= length dest)%nat -> exists s, u16toap dest v = Some (s ++ 0 :: skipn 6 dest) /\ shows s 5 v.
Proof.
  intros V L. eexists. split; [apply u16toap_spec; auto|]. unfold is_u16 in V. split; [reflexivity|]. split.
  - repeat (apply Forall_cons; [apply digit_of; Z.div_mod_to_equations; lia|]). apply Forall_nil.
  - cbn [value]. change (10 ^ 5) with 100000. Z.div_mod_to_equations. lia.
Qed.
Print Assumptions C135_array16.
(** More digits than the type has: the pointer returned lies far behind the static array *)
Theorem C135_digits_refuted : (forall buf v d, is_byte v -> length buf = 4%nat -> 4 <= d <= 200 -> u8toa buf v d = None) /\ (forall buf v d, is_u16 v -> length buf = 6%nat -> 6 <= d <= 200 -> u16toa buf v d = None).
Proof.
  split; intros buf v d V L D; [unfold u8toa; rewrite (u8toap_spec buf v V ltac:(lia))|unfold u16toa; rewrite (u16toap_spec buf v V ltac:(lia))]; cbv zeta; unfold text_at; rewrite app_length; cbn [length]; rewrite skipn_length, L.
  - replace (u8 (3 - d)) with (259 - d) by (unfold u8; Z.div_mod_to_equations; lia). destruct (Z.leb_spec (259 - d) (Z.of_nat (3 + S (4 - 4)))); [lia|reflexivity].
  - replace (u8 (5 - d)) with (261 - d) by (unfold u8; Z.div_mod_to_equations; lia). destruct (Z.leb_spec (261 - d) (Z.of_nat (5 + S (6 - 6)))); [lia|reflexivity].
Qed.
Print Assumptions C135_digits_refuted.
(** One array for all calls: the text of an earlier call is that of the last one *)
Theorem C135_shared_refuted : exists b1 s1 b2 s2, u8toa [0; 0; 0; 0] 12 2 = Some (b1, s1) /\ u8toa b1 34 2 = Some (b2, s2) /\ s1 = [49; 50] /\ text_at b2 1 = Some [51; 52].
Proof. do 4 eexists. split; [vm_compute; reflexivity|]. split; [vm_compute; reflexivity|]. split; reflexivity. Qed.
Print Assumptions C135_shared_refuted.

Example C135_example : is_byte 207 /\ u8toa [0; 0; 0; 0] 207 2 = Some ([50; 48; 55; 0], [48; 55]) /\ shows [48; 55] 2 207 /\ shows [48; 48; 55] 3 7 /\ value 0 [48; 48; 55] = 7
  /\ u16toa [0; 0; 0; 0; 0; 0] 50907 4 = Some ([53; 48; 57; 48; 55; 0], [48; 57; 48; 55]) /\ u8toap [1; 1; 1; 1; 1] 9 = Some [48; 48; 57; 0; 1].
Proof.
  split; [unfold is_byte; lia|]. split; [vm_compute; reflexivity|].
  split; [split; [reflexivity|]; split; [repeat (apply Forall_cons; [unfold is_digit; lia|]); apply Forall_nil|reflexivity]|].
  split; [split; [reflexivity|]; split; [repeat (apply Forall_cons; [unfold is_digit; lia|]); apply Forall_nil|reflexivity]|].
  split; [reflexivity|]. split; vm_compute; reflexivity.
Qed.
