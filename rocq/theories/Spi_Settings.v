(** Proofs about SPI: the registers of settings. *)
From Verif Require Export Spi_Calls Bits.
Local Open Scope Z_scope.

Lemma still_tr p q r : still p q -> still q r -> still p r.
Proof. unfold still. intros (A & B & C & D) (E & F & G & H). repeat split; congruence. Qed.
Lemma frames_still sl n p : still p (Nat.iter n (frame sl) p).
Proof. induction n; [repeat split|]. change (Nat.iter (S n) (frame sl) p) with (frame sl (Nat.iter n (frame sl) p)). eapply still_tr; [exact IHn|apply frame_still]. Qed.
Lemma elapse_still wd no h : still (sel no h) (sel no (elapse wd h)).
Proof. rewrite sel_elapse. apply frames_still. Qed.
Lemma sel_other no h p : sel (negb no) (upd no h p) = sel (negb no) h.
Proof. destruct no; reflexivity. Qed.
(** get and put of a register *)
Lemma change_still wd no r f h : (r = CR0 \/ r = CR1) ->
  let h' := (let '(g, v) := reading wd no r h in writing wd no r g (f v)) in
  let p := sel no h in let q := sel no h' in
  c0 q = (match r with CR0 => f (c0 p) | _ => c0 p end) /\ c1 q = (match r with CR1 => f (c1 p) | _ => c1 p end) /\ cps q = cps p /\ msk q = msk p /\ still (sel (negb no) h) (sel (negb no) h').
Proof.
  intros R. destruct (elapse_still wd no h) as (A1 & A2 & A3 & A4). destruct (elapse_still wd no (elapse wd h)) as (B1 & B2 & B3 & B4).
  pose proof (still_tr _ _ _ (elapse_still wd (negb no) h) (elapse_still wd (negb no) (elapse wd h))) as O.
  destruct R as [-> | ->]; unfold reading, writing; cbv zeta; rewrite sel_upd, sel_other; cbn [c0 c1 cps msk set_c0].
  - repeat split; try congruence; apply O.
  - assert (BF : forall p, still p (begin_frame p)) by (intros p; unfold begin_frame, still; destruct (on p); auto; destruct (shift p); auto; destruct (tx p); auto).
    set (q := set_c1 _ _). destruct (BF q) as (C1 & C2 & C3 & C4). rewrite C1, C2, C3, C4. cbn [c0 c1 cps msk set_c1 q]. repeat split; try congruence; apply O.
Qed.

Lemma u32_small_lor a b n : 0 <= n <= 32 -> 0 <= a < 2 ^ 32 -> 0 <= b < 2 ^ n -> u32 (Z.lor a b) = Z.lor a b.
Proof.
  intros N A B. unfold u32. change 4294967296 with (2 ^ 32). apply Z.mod_small. split; [apply Z.lor_nonneg; lia|].
  assert (b < 2 ^ 32) by (eapply Z.lt_le_trans; [apply B|apply Z.pow_le_mono_r; lia]).
  destruct (Z.eq_dec (Z.lor a b) 0) as [->|NZ]; [lia|]. apply Z.log2_lt_pow2; [assert (0 <= Z.lor a b) by (apply Z.lor_nonneg; lia); lia|].
  rewrite Z.log2_lor by lia. apply Z.max_lub_lt; [destruct (Z.eq_dec a 0) as [->|]; [reflexivity|apply Z.log2_lt_pow2; lia]|destruct (Z.eq_dec b 0) as [->|]; [reflexivity|apply Z.log2_lt_pow2; lia]].
Qed.
Lemma land_u32 v m : is_u32 v -> 0 <= m -> 0 <= Z.land v m < 2 ^ 32.
Proof.
  intros V M. split; [apply Z.land_nonneg; auto|]. destruct (Z.eq_dec (Z.land v m) 0) as [->|N]; [lia|].
  apply Z.log2_lt_pow2; [assert (0 <= Z.land v m) by (apply Z.land_nonneg; auto); lia|]. red in V. pose proof (Z.log2_land v m ltac:(lia) ltac:(lia)) as L.
  assert (Z.log2 v < 32). { destruct (Z.eq_dec v 0) as [->|]; [reflexivity|apply Z.log2_lt_pow2; change (2 ^ 32) with 4294967296; lia]. } lia.
Qed.
Lemma mask_bits_of (i : Z) : 0 <= i -> Z.testbit 0xffff00ff i = (i <? 8) || ((16 <=? i) && (i <? 32)).
Proof.
  intros H. destruct (Z.ltb_spec i 32) as [L|L].
  - assert (G : forallb (fun k => Bool.eqb (Z.testbit 0xffff00ff (Z.of_nat k)) ((Z.of_nat k <? 8) || ((16 <=? Z.of_nat k) && (Z.of_nat k <? 32)))) (seq 0 32) = true) by (vm_compute; reflexivity).
    rewrite forallb_forall in G. specialize (G (Z.to_nat i)). rewrite Z2Nat.id in G by lia. apply eqb_prop in G; [|apply in_seq; lia]. rewrite G. destruct (Z.ltb_spec i 32); [reflexivity|lia].
  - rewrite Z.bits_above_log2 by (change (Z.log2 0xffff00ff) with 31; lia). symmetry. destruct (Z.ltb_spec i 8); [lia|]. rewrite andb_false_r. reflexivity.
Qed.
Lemma clock_value v d : is_u32 v -> 1 <= d <= 256 ->
  let x := u32 (Z.lor (Z.land v (u32 (Z.lnot 0xff00))) (Z.shiftl (Z.land (d - 1) 255) 8)) in
  divider x = d /\ forall i, (0 <= i < 8 \/ 16 <= i) -> Z.testbit x i = Z.testbit v i.
Proof.
  intros V D. change (u32 (Z.lnot 0xff00)) with 0xffff00ff. rewrite land_255. rewrite Z.mod_small by lia. cbv zeta.
  assert (SB : 0 <= Z.shiftl (d - 1) 8 < 2 ^ 16) by (rewrite Z.shiftl_mul_pow2 by lia; change (2 ^ 8) with 256; change (2 ^ 16) with 65536; lia).
  rewrite (u32_small_lor _ _ 16); [|lia|apply land_u32; auto; lia|exact SB].
  split.
  - unfold divider. change 256 with (2 ^ 8). rewrite <- Z.shiftr_div_pow2 by lia. rewrite <- Z.land_ones by lia.
    rewrite Z.shiftr_lor, Z.shiftr_land, Z.shiftr_shiftl_l by lia. rewrite Z.sub_diag, Z.shiftl_0_r. rewrite Z.land_lor_distr_l, <- Z.land_assoc.
    change (Z.land (Z.shiftr 0xffff00ff 8) (Z.ones 8)) with 0. rewrite Z.land_0_r, Z.lor_0_l. rewrite Z.land_ones by lia. rewrite Z.mod_small by (change (2 ^ 8) with 256; lia). lia.
  - intros i I. rewrite Z.lor_spec, Z.land_spec, mask_bits_of by lia.
    assert (HV : 32 <= i -> Z.testbit v i = false). { intros L. destruct (Z.eq_dec v 0) as [->|]; [apply Z.bits_0|]. apply Z.bits_above_log2; [red in V; lia|]. assert (Z.log2 v < 32) by (apply Z.log2_lt_pow2; red in V; change (2 ^ 32) with 4294967296; lia). lia. }
    destruct I as [I|I].
    + rewrite Z.shiftl_spec_low by lia. destruct (Z.ltb_spec i 8); [|lia]. cbn. rewrite andb_true_r, orb_false_r. reflexivity.
    + rewrite Z.shiftl_spec by lia. assert (Z.testbit (d - 1) (i - 8) = false) as ->.
      { destruct (Z.eq_dec (d - 1) 0) as [->|]; [apply Z.bits_0|]. apply Z.bits_above_log2; [lia|]. assert (Z.log2 (d - 1) < 8) by (apply Z.log2_lt_pow2; change (2 ^ 8) with 256; lia). lia. }
      destruct (Z.ltb_spec i 8); [lia|]. destruct (Z.leb_spec 16 i); [|lia]. cbn. destruct (Z.ltb_spec i 32); cbn; rewrite ?andb_true_r, ?andb_false_r, orb_false_r; auto. symmetry; auto.
Qed.
Lemma mask15_bits_of (i : Z) : 0 <= i -> Z.testbit 0xfffffff0 i = (4 <=? i) && (i <? 32).
Proof.
  intros H. destruct (Z.ltb_spec i 32) as [L|L].
  - assert (G : forallb (fun k => Bool.eqb (Z.testbit 0xfffffff0 (Z.of_nat k)) ((4 <=? Z.of_nat k) && (Z.of_nat k <? 32))) (seq 0 32) = true) by (vm_compute; reflexivity).
    rewrite forallb_forall in G. specialize (G (Z.to_nat i)). rewrite Z2Nat.id in G by lia. apply eqb_prop in G; [|apply in_seq; lia]. rewrite G. destruct (Z.ltb_spec i 32); [reflexivity|lia].
  - rewrite Z.bits_above_log2 by (change (Z.log2 0xfffffff0) with 31; lia). rewrite andb_false_r. reflexivity.
Qed.
Lemma size_value v n : is_u32 v -> 4 <= n <= 16 ->
  let x := u32 (Z.lor (Z.land v (u32 (Z.lnot 15))) (SPI_DATA_SIZE_OFFS n)) in
  x mod 16 + 1 = n /\ forall i, 4 <= i -> Z.testbit x i = Z.testbit v i.
Proof.
  intros V D. change (u32 (Z.lnot 15)) with 0xfffffff0. unfold SPI_DATA_SIZE_OFFS. change 15 with (Z.ones 4). rewrite (Z.land_ones (n - 1)) by lia. rewrite (Z.mod_small (n - 1)) by (change (2 ^ 4) with 16; lia). cbv zeta.
  rewrite (u32_small_lor _ _ 4); [|lia|apply land_u32; auto; lia|change (2 ^ 4) with 16; lia].
  split.
  - change 16 with (2 ^ 4) at 1. rewrite <- Z.land_ones by lia. rewrite Z.land_lor_distr_l, <- Z.land_assoc. change (Z.land 0xfffffff0 (Z.ones 4)) with 0. rewrite Z.land_0_r, Z.lor_0_l.
    rewrite Z.land_ones by lia. rewrite Z.mod_small by (change (2 ^ 4) with 16; lia). lia.
  - intros i I. rewrite Z.lor_spec, Z.land_spec, mask15_bits_of by lia.
    assert (HV : 32 <= i -> Z.testbit v i = false). { intros L. destruct (Z.eq_dec v 0) as [->|]; [apply Z.bits_0|]. apply Z.bits_above_log2; [red in V; lia|]. assert (Z.log2 v < 32) by (apply Z.log2_lt_pow2; red in V; change (2 ^ 32) with 4294967296; lia). lia. }
    assert (Z.testbit (n - 1) i = false) as ->.
    { apply Z.bits_above_log2; [lia|]. assert (Z.log2 (n - 1) < 4) by (apply Z.log2_lt_pow2; change (2 ^ 4) with 16; lia). lia. }
    destruct (Z.leb_spec 4 i); [|lia]. cbn. destruct (Z.ltb_spec i 32); cbn; rewrite ?andb_true_r, ?andb_false_r, orb_false_r; auto. symmetry; auto.
Qed.
Lemma begin_bits v i : 0 <= i -> Z.testbit (Z.lor v SSP_CR1_ENABLED) i = Z.testbit v i || (i =? 1).
Proof. intros H. rewrite Z.lor_spec. unfold SSP_CR1_ENABLED. rewrite Z.shiftl_1_l, Z.pow2_bits_eqb by lia. rewrite (Z.eqb_sym 1 i). reflexivity. Qed.
Lemma end_bits v i : is_u32 v -> 0 <= i -> Z.testbit (Z.land v (u32 (Z.lnot SSP_CR1_ENABLED))) i = Z.testbit v i && negb (i =? 1).
Proof.
  intros V H. rewrite Z.land_spec. change (u32 (Z.lnot SSP_CR1_ENABLED)) with 0xfffffffd. destruct (Z.ltb_spec i 32) as [L|L].
  - assert (G : forallb (fun k => Bool.eqb (Z.testbit 0xfffffffd (Z.of_nat k)) (negb (Z.of_nat k =? 1))) (seq 0 32) = true) by (vm_compute; reflexivity).
    rewrite forallb_forall in G. specialize (G (Z.to_nat i)). rewrite Z2Nat.id in G by lia. apply eqb_prop in G; [|apply in_seq; lia]. rewrite G. reflexivity.
  - assert (Z.testbit v i = false) as ->; auto. destruct (Z.eq_dec v 0) as [->|]; [apply Z.bits_0|]. apply Z.bits_above_log2; [red in V; lia|]. assert (Z.log2 v < 32) by (apply Z.log2_lt_pow2; red in V; change (2 ^ 32) with 4294967296; lia). lia.
Qed.
