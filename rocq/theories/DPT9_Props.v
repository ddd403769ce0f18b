(** C51 (2-byte KNX floats) *)
From Verif Require Import Base DPT9_Model DPT9_Spec DPT9_Proofs.

(** Decoding is the value of the KNX specification for all 65536 codes. *)
Theorem C51_decode : forall code, is_u16 code ->
  dpt9ToFloat code = match dpt9_value code with Some v => v | None => INVALID_DPT_FLOAT end.
Proof. exact decode_spec. Qed.
Print Assumptions C51_decode.
(** Encoding rounds down to the greatest representable value, by less than one step of the mantissa. *)
Theorem C51_encode_rounds_down : forall v, -67108864 <= v < 67076096 ->
  exists code r, floatToDpt9 v = Some code /\ is_u16 code /\ dpt9_value code = Some r /\ dpt9ToFloat code = r /\
    r <= v < r + 2 ^ exponent code /\ (forall r', representable r' -> r' <= v -> r' <= r).
Proof.
  intros v H. destruct (encode_decode v H) as (m & k & code & N & K & E & U & D & X). exists code, (m * 2 ^ k).
  split; auto. split; auto. split; auto. split; [rewrite decode_spec, D by auto; auto|]. rewrite X. split.
  - pose proof (norm_bounds _ _ _ N). lia.
  - intros r' R L. pose proof R as (c' & U' & D'). pose proof (value_range c' r' U' D') as B.
    destruct (encode_decode r' B) as (m' & k' & _ & N' & _). rewrite <- (representable_exact r' m' k') by auto.
    eapply norm_mono; eauto.
Qed.
Print Assumptions C51_encode_rounds_down.
(** Every code but "invalid" survives: encoding its value gives a code of the same value. *)
Theorem C51_reencode : forall code v, is_u16 code -> dpt9_value code = Some v ->
  exists code', floatToDpt9 (dpt9ToFloat code) = Some code' /\ dpt9_value code' = Some v.
Proof.
  intros code v U D. rewrite decode_spec, D by auto. destruct (encode_decode v (value_range code v U D)) as (m & k & code' & N & _ & E & _ & D' & _).
  exists code'. split; auto. rewrite D'. f_equal. apply representable_exact; auto. exists code. auto.
Qed.
Print Assumptions C51_reencode.
Theorem C51_monotone : forall v v' c c' r r', -67108864 <= v -> v <= v' -> v' < 67076096 ->
  floatToDpt9 v = Some c -> floatToDpt9 v' = Some c' -> dpt9_value c = Some r -> dpt9_value c' = Some r' -> r <= r'.
Proof.
  intros v v' c c' r r' H1 H2 H3 E E' D D'.
  destruct (encode_decode v ltac:(lia)) as (m & k & c0 & N & _ & E0 & _ & D0 & _).
  destruct (encode_decode v' ltac:(lia)) as (m' & k' & c0' & N' & _ & E0' & _ & D0' & _).
  rewrite E in E0. injection E0 as <-. rewrite E' in E0'. injection E0' as <-. rewrite D in D0. injection D0 as ->. rewrite D' in D0'. injection D0' as ->.
  eapply norm_mono; eauto.
Qed.
Print Assumptions C51_monotone.
(** Values outside the range become "invalid". *)
Theorem C51_out_of_range : forall v, v < -67108864 \/ 67076096 < v -> floatToDpt9 v = Some 0x7FFF.
Proof.
  intros v H. unfold floatToDpt9. destruct (Z.ltb_spec v (-67108864)); auto. destruct (Z.ltb_spec 67076096 v); auto. lia.
Qed.
Print Assumptions C51_out_of_range.
(** The documented maximum 670760.96 is itself encoded as "invalid". *)
Theorem C51_documented_maximum_refuted : exists v, v = 67076096 /\ floatToDpt9 v = Some 0x7FFF.
Proof. eexists. split; [reflexivity|]. vm_compute. reflexivity. Qed.
Print Assumptions C51_documented_maximum_refuted.
(** The documented way to send "invalid data" (value INVALID_DPT_FLOAT) sends the number 327.52 instead. *)
Theorem C51_invalid_marker_refuted : exists code, floatToDpt9 INVALID_DPT_FLOAT = Some code /\ code <> 0x7FFF /\ dpt9_value code = Some 32752.
Proof. exists 0x27FF. split; [vm_compute; reflexivity|]. split; [discriminate|reflexivity]. Qed.
Print Assumptions C51_invalid_marker_refuted.
Example C51_examples : floatToDpt9 2150 = Some 0x0C33 /\ dpt9_value 0x0C33 = Some 2150 /\ floatToDpt9 (-3000) = Some 0x8A24 /\
  dpt9_value 0x8A24 = Some (-3000) /\ floatToDpt9 (-3001) = Some 0x8A23 /\ floatToDpt9 (-67108864) = Some 0xF800.
Proof. vm_compute. auto 10. Qed.
