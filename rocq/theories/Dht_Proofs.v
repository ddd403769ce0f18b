(** Proofs for C96 *)
From Verif Require Import Base Bits Dht_Model Dht_Spec.

(** ** Pulses *)
Definition follows (line : nat -> bool) (pos : nat) (l : list bool) : Prop := forall k, (k < length l)%nat -> line (pos + k)%nat = nth k l false.
Lemma follows_app line pos a b : follows line pos (a ++ b) <-> follows line pos a /\ follows line (pos + length a) b.
Proof.
  unfold follows. rewrite app_length. split.
  - intros H. split; intros k Hk; [rewrite H by lia; apply app_nth1; exact Hk|]. rewrite <- Nat.add_assoc, H by lia. rewrite app_nth2 by lia. f_equal. lia.
  - intros (A & B) k Hk. destruct (Nat.lt_ge_cases k (length a)) as [L|L]; [rewrite app_nth1 by exact L; apply A; exact L|]. rewrite app_nth2 by lia. rewrite <- B by lia. f_equal. lia.
Qed.
Lemma follows_cons line pos x l : follows line pos (x :: l) <-> line pos = x /\ follows line (S pos) l.
Proof.
  change (x :: l) with ([x] ++ l). rewrite follows_app. cbn [length]. replace (pos + 1)%nat with (S pos) by lia. split; intros (A & B); (split; [|exact B]).
  - specialize (A 0%nat ltac:(cbn; lia)). rewrite Nat.add_0_r in A. exact A.
  - intros k Hk. cbn in Hk. replace k with 0%nat by lia. rewrite Nat.add_0_r. exact A.
Qed.
Lemma pulse_run line level n : forall fuel count pos, follows line pos (repeat level n ++ [negb level]) -> (n <= fuel)%nat -> expectPulse fuel line level count pos = ((count + n)%nat, (pos + n + 1)%nat).
Proof.
  induction n as [|n IH]; intros fuel count pos F L; cbn [repeat app] in F; apply follows_cons in F; destruct F as (A & B).
  - destruct fuel; cbn [expectPulse]; rewrite A; destruct level; cbn; f_equal; lia.
  - destruct fuel as [|fuel]; [lia|]. cbn [expectPulse]. rewrite A, eqb_reflx. rewrite (IH fuel (S count) (S pos) B ltac:(lia)). f_equal; lia.
Qed.
(** the counts: the reading that ended the level before belongs to the pulse *)
Lemma pulses_signal max line ps : Forall (fun p => (1 < fst p <= Nat.min 256 (S max) /\ 1 < snd p <= Nat.min 256 (S max))%nat) ps ->
  forall pos, follows line pos (signal ps ++ [false]) ->
  pulses max (length ps) line (S pos) = map (fun p => (Z.of_nat (fst p) - 1, Z.of_nat (snd p) - 1)) ps.
Proof.
  induction 1 as [|(l, h) ps (HL & HH) F IH]; intros pos S; [reflexivity|]. cbn [length pulses map fst snd]. cbn [fst snd] in HL, HH. cbn [signal flat_map fst snd] in S. fold (signal ps) in S. rewrite <- !app_assoc in S.
  destruct l as [|l]; [lia|]. destruct h as [|h]; [lia|]. cbn [repeat app] in S. apply follows_cons in S. destruct S as (_ & S). rewrite follows_app in S. rewrite repeat_length in S. destruct S as (S1 & S2).
  assert (F1 : follows line (Datatypes.S pos) (repeat false l ++ [negb false])).
  { apply follows_app. split; [exact S1|]. rewrite repeat_length. apply follows_cons in S2. destruct S2 as (S2 & _). apply follows_cons. split; [exact S2|]. intros k Hk. cbn in Hk. lia. }
  rewrite (pulse_run line false l max 0 _ F1 ltac:(lia)). apply follows_cons in S2. destruct S2 as (_ & S2). pose proof S2 as S3. rewrite follows_app, repeat_length in S3. destruct S3 as (S3 & S4).
  assert (NX : exists q, signal ps ++ [false] = false :: q).
  { destruct ps as [|(l2, h2) ps]; [exists []; reflexivity|]. inversion F as [|? ? (Q & _) _]; subst. cbn [fst] in Q. destruct l2 as [|l2]; [lia|]. cbn [signal flat_map fst repeat app]. eexists. reflexivity. }
  replace (Datatypes.S pos + l + 1)%nat with (Datatypes.S (Datatypes.S pos + l)) by lia.
  assert (F2 : follows line (Datatypes.S (Datatypes.S pos + l)) (repeat true h ++ [negb true])).
  { apply follows_app. split; [exact S3|]. rewrite repeat_length. destruct NX as (q & NX). rewrite NX in S4. apply follows_cons in S4. apply follows_cons. split; [apply S4|]. intros k Hk. cbn in Hk. lia. }
  rewrite (pulse_run line true h max 0 _ F2 ltac:(lia)). cbn [Nat.add]. f_equal.
  - unfold u8. rewrite !Z.mod_small by lia. f_equal; lia.
  - replace (Datatypes.S (Datatypes.S (pos + l + h + 1)))%nat with (Datatypes.S (Datatypes.S (Datatypes.S (pos + l)) + h)) by lia. apply IH. exact S4.
Qed.

(** ** Bits *)
Definition bit (p : Z * Z) : Z := if fst p <? snd p then 1 else 0.
Definition horner (a : Z) (cs : list (Z * Z)) : Z := fold_left (fun a p => 2 * a + bit p) cs a.
Lemma wr_twice (d : list Z) i x y : wr (wr d i x) i y = wr d i y.
Proof. revert i. induction d as [|z d IH]; intros [|i]; cbn; [reflexivity..|]. f_equal. apply IH. Qed.
Lemma wr_rd (d : list Z) i : (i < length d)%nat -> wr d i (rd d i) = d.
Proof. revert i. induction d as [|z d IH]; intros [|i] H; cbn in *; [lia..| |]; [reflexivity|]. f_equal. apply IH. lia. Qed.
Lemma bits_chunk k cs : Forall (fun p => 0 < fst p /\ 0 < snd p) cs -> forall j r d, (j + length cs <= 8)%nat -> (k < length d)%nat -> 0 <= rd d k < 2 ^ Z.of_nat j ->
  bits (8 * k + j) (cs ++ r) d = bits (8 * k + (j + length cs)) r (wr d k (horner (rd d k) cs)).
Proof.
  induction 1 as [|(l, h) cs (HL & HH) F IH]; intros j r d L K B; cbn [app length horner fold_left].
  - rewrite Nat.add_0_r, wr_rd by exact K. reflexivity.
  - cbn [fst snd length] in *. cbn [bits]. destruct (Z.eqb_spec l 0); [lia|]. destruct (Z.eqb_spec h 0); [lia|]. cbn [orb].
    assert (D : ((8 * k + j) / 8 = k)%nat) by (rewrite Nat.mul_comm, Nat.div_add_l by lia; rewrite Nat.div_small by lia; lia). rewrite D.
    assert (P : 2 ^ Z.of_nat (S j) <= 256). { replace 256 with (2 ^ 8) by reflexivity. apply Z.pow_le_mono_r; lia. } rewrite Nat2Z.inj_succ, Z.pow_succ_r in P by lia.
    rewrite Z.shiftl_mul_pow2 by lia. change (2 ^ 1) with 2. unfold u8. rewrite Z.mod_small by lia. set (d1 := wr d k (rd d k * 2)).
    assert (E : (if l <? h then wr d1 k (Z.lor (rd d1 k) 1) else d1) = wr d k (2 * rd d k + bit (l, h))).
    { unfold bit. cbn [fst snd]. subst d1. destruct (l <? h).
      - rewrite wr_twice, rd_wr_same by exact K. f_equal. replace (rd d k * 2) with (Z.shiftl (rd d k) 1) by (rewrite Z.shiftl_mul_pow2 by lia; reflexivity).
        rewrite lor_shiftl_add by lia. lia.
      - f_equal. lia. }
    rewrite E. replace (S (8 * k + j)) with (8 * k + S j)%nat by lia. rewrite (IH (S j) r); [|lia|rewrite wr_length; exact K|].
    + rewrite rd_wr_same by exact K. rewrite wr_twice. f_equal. lia.
    + rewrite rd_wr_same by exact K. rewrite Nat2Z.inj_succ, Z.pow_succ_r by lia. unfold bit. destruct (_ <? _); lia.
Qed.
Lemma horner_from a cs : horner a cs = a * 2 ^ Z.of_nat (length cs) + horner 0 cs.
Proof.
  revert a. induction cs as [|p cs IH]; intros a; cbn [horner fold_left length]; [change (2 ^ Z.of_nat 0) with 1; unfold horner; cbn; lia|].
  change (fold_left (fun a p => 2 * a + bit p) cs (2 * a + bit p)) with (horner (2 * a + bit p) cs). change (fold_left (fun a p => 2 * a + bit p) cs (2 * 0 + bit p)) with (horner (2 * 0 + bit p) cs).
  rewrite (IH (2 * a + bit p)), (IH (2 * 0 + bit p)). rewrite Nat2Z.inj_succ, Z.pow_succ_r by lia. ring.
Qed.
Lemma horner_app a b : horner 0 (a ++ b) = horner 0 a * 2 ^ Z.of_nat (length b) + horner 0 b.
Proof. unfold horner at 1. rewrite fold_left_app. apply (horner_from (horner 0 a) b). Qed.
Lemma horner_range cs : 0 <= horner 0 cs < 2 ^ Z.of_nat (length cs).
Proof.
  induction cs as [|p cs IH] using rev_ind; [cbn; lia|]. rewrite horner_app, app_length, Nat2Z.inj_add. cbn [length]. rewrite Z.pow_add_r by lia. change (Z.of_nat 1) with 1. change (2 ^ 1) with 2.
  unfold horner at 2 4. cbn [fold_left]. unfold bit. destruct (_ <? _); lia.
Qed.
Definition counts (ps : list (nat * nat)) : list (Z * Z) := map (fun p => (Z.of_nat (fst p) - 1, Z.of_nat (snd p) - 1)) ps.
Lemma number_counts ps : number (bits_of ps) = horner 0 (counts ps).
Proof.
  unfold number, horner. assert (G : forall a, fold_left (fun a (b : bool) => 2 * a + (if b then 1 else 0)) (bits_of ps) a = fold_left (fun a p => 2 * a + bit p) (counts ps) a); [|apply G].
  induction ps as [|(l, h) ps IH]; intros a; [reflexivity|]. cbn [bits_of counts map fold_left fst snd]. unfold bits_of, counts in IH. rewrite IH. f_equal. f_equal. unfold bit. cbn [fst snd].
  destruct (Nat.ltb_spec l h), (Z.ltb_spec (Z.of_nat l - 1) (Z.of_nat h - 1)); try reflexivity; lia.
Qed.
(** five chunks of eight bits *)
Lemma bits_frame cs d : Forall (fun p => 0 < fst p /\ 0 < snd p) cs -> length cs = 40%nat -> (5 <= length d)%nat -> (forall k, (k < 5)%nat -> rd d k = 0) ->
  exists d', bits 0 cs d = (NONE, d') /\ length d' = length d /\ forall k, (k < 5)%nat -> rd d' k = part (horner 0 cs) k.
Proof.
  intros F L K Z0.
  assert (SP : exists c0 c1 c2 c3 c4, cs = c0 ++ c1 ++ c2 ++ c3 ++ c4 /\ length c0 = 8%nat /\ length c1 = 8%nat /\ length c2 = 8%nat /\ length c3 = 8%nat /\ length c4 = 8%nat).
  { assert (S8 : forall n (cs : list (Z * Z)), length cs = (8 + n)%nat -> exists c r, cs = c ++ r /\ length c = 8%nat /\ length r = n).
    { intros n l Ll. exists (firstn 8 l), (skipn 8 l). rewrite firstn_skipn, firstn_length, skipn_length, Ll. split; [reflexivity|lia]. }
    destruct (S8 32%nat cs L) as (c0 & r0 & E0 & A0 & B0). destruct (S8 24%nat r0 B0) as (c1 & r1 & E1 & A1 & B1). destruct (S8 16%nat r1 B1) as (c2 & r2 & E2 & A2 & B2). destruct (S8 8%nat r2 B2) as (c3 & r3 & E3 & A3 & B3).
    exists c0, c1, c2, c3, r3. subst. auto 10. }
  destruct SP as (c0 & c1 & c2 & c3 & c4 & -> & L0 & L1 & L2 & L3 & L4). rewrite !Forall_app in F. destruct F as (F0 & F1 & F2 & F3 & F4).
  assert (C : forall k c r d, Forall (fun p => 0 < fst p /\ 0 < snd p) c -> length c = 8%nat -> (k < length d)%nat -> rd d k = 0 -> bits (8 * k) (c ++ r) d = bits (8 * S k) r (wr d k (horner 0 c))).
  { intros k c r d1 Fc Lc Kd Rd. replace (8 * k)%nat with (8 * k + 0)%nat by lia. rewrite (bits_chunk k c Fc 0 r d1); [|lia|exact Kd|rewrite Rd; cbn; lia]. rewrite Lc, Rd. f_equal. lia. }
  change 0%nat with (8 * 0)%nat. rewrite (C 0%nat c0); [|exact F0|exact L0|lia|apply Z0; lia].
  rewrite (C 1%nat c1); [|exact F1|exact L1|rewrite wr_length; lia|rewrite rd_wr_other by lia; apply Z0; lia].
  rewrite (C 2%nat c2); [|exact F2|exact L2|rewrite !wr_length; lia|rewrite !rd_wr_other by lia; apply Z0; lia].
  rewrite (C 3%nat c3); [|exact F3|exact L3|rewrite !wr_length; lia|rewrite !rd_wr_other by lia; apply Z0; lia].
  rewrite <- (app_nil_r c4). rewrite (C 4%nat c4); [|exact F4|exact L4|rewrite !wr_length; lia|rewrite !rd_wr_other by lia; apply Z0; lia]. rewrite app_nil_r. cbn [bits].
  eexists. split; [reflexivity|]. split; [rewrite !wr_length; reflexivity|].
  pose proof (horner_range c0) as R0. pose proof (horner_range c1) as R1. pose proof (horner_range c2) as R2. pose proof (horner_range c3) as R3. pose proof (horner_range c4) as R4.
  rewrite !horner_app, !app_length, L0, L1, L2, L3, L4 in *. cbn [Nat.add] in *. change (Z.of_nat 8) with 8 in *. change (Z.of_nat 16) with 16. change (Z.of_nat 24) with 24. change (Z.of_nat 32) with 32.
  set (h0 := horner 0 c0) in *. set (h1 := horner 0 c1) in *. set (h2 := horner 0 c2) in *. set (h3 := horner 0 c3) in *. set (h4 := horner 0 c4) in *. clearbody h0 h1 h2 h3 h4. clear - K R0 R1 R2 R3 R4.
  change (2 ^ 8) with 256 in *. change (2 ^ 16) with 65536. change (2 ^ 24) with 16777216. change (2 ^ 32) with 4294967296.
  intros k Hk. unfold part. destruct k as [|[|[|[|[|k]]]]]; [..|lia].
  - rewrite !(rd_wr_other) by lia. rewrite rd_wr_same by lia. change (256 ^ (4 - Z.of_nat 0)) with 4294967296. apply Z.mod_unique with (q := 0); [lia|]. assert (Q : (h0 * 4294967296 + (h1 * 16777216 + (h2 * 65536 + (h3 * 256 + h4)))) / 4294967296 = h0) by (symmetry; apply Z.div_unique with (r := h1 * 16777216 + (h2 * 65536 + (h3 * 256 + h4))); lia). rewrite Q. lia.
  - rewrite !(rd_wr_other) by lia. rewrite rd_wr_same by (rewrite ?wr_length; lia). change (256 ^ (4 - Z.of_nat 1)) with 16777216. apply Z.mod_unique with (q := h0); [lia|]. symmetry. apply Z.div_unique with (r := h2 * 65536 + (h3 * 256 + h4)); lia.
  - rewrite !(rd_wr_other) by lia. rewrite rd_wr_same by (rewrite ?wr_length; lia). change (256 ^ (4 - Z.of_nat 2)) with 65536. apply Z.mod_unique with (q := h0 * 256 + h1); [lia|]. symmetry. apply Z.div_unique with (r := h3 * 256 + h4); lia.
  - rewrite !(rd_wr_other) by lia. rewrite rd_wr_same by (rewrite ?wr_length; lia). change (256 ^ (4 - Z.of_nat 3)) with 256. apply Z.mod_unique with (q := h0 * 65536 + h1 * 256 + h2); [lia|]. symmetry. apply Z.div_unique with (r := h4); lia.
  - rewrite rd_wr_same by (rewrite ?wr_length; lia). change (256 ^ (4 - Z.of_nat 4)) with 1. rewrite Z.div_1_r. apply Z.mod_unique with (q := h0 * 16777216 + h1 * 65536 + h2 * 256 + h3); lia.
Qed.
(** ** Values *)
Lemma convert_spec t22 n d : 0 <= n < 2 ^ 40 -> (forall k, (k < 5)%nat -> rd d k = part n k) -> convert t22 d = (humidity_of t22 n, temperature_of t22 n).
Proof.
  intros R P. unfold convert. rewrite !P by lia. unfold humidity_of, temperature_of. cbv zeta.
  assert (B : forall k, is_byte (part n k)) by (intros k; apply Z.mod_pos_bound; lia).
  assert (Q1 : n / 2 ^ 32 = part n 0). { unfold part. change (256 ^ (4 - Z.of_nat 0)) with (2 ^ 32). rewrite Z.mod_small; [reflexivity|]. split; [apply Z.div_pos; lia|]. apply Z.div_lt_upper_bound; lia. }
  assert (Q2 : n / 2 ^ 24 = part n 0 * 256 + part n 1). { rewrite <- Q1. unfold part. change (256 ^ (4 - Z.of_nat 1)) with (2 ^ 24). change (2 ^ 32) with (2 ^ 24 * 256). rewrite <- Z.div_div by lia. rewrite Z.mul_comm. apply Z.div_mod. lia. }
  assert (Q3 : n / 2 ^ 8 mod 2 ^ 16 = part n 2 * 256 + part n 3).
  { unfold part. change (256 ^ (4 - Z.of_nat 2)) with (2 ^ 8 * 256). change (256 ^ (4 - Z.of_nat 3)) with (2 ^ 8). rewrite <- Z.div_div by lia. set (m := n / 2 ^ 8). change (2 ^ 16) with (256 * 256). rewrite Z.rem_mul_r by lia. lia. }
  rewrite Q1, Q2, Q3. pose proof (B 0%nat) as B0. pose proof (B 1%nat) as B1. pose proof (B 2%nat) as B2. pose proof (B 3%nat) as B3. clear Q1 Q2 Q3 B P R d. set (b0 := part n 0) in *. set (b1 := part n 1) in *. set (b2 := part n 2) in *. set (b3 := part n 3) in *. clearbody b0 b1 b2 b3. clear n.
  rewrite !Z.shiftl_mul_pow2 by lia. change (2 ^ 8) with 256. rewrite (Z.land_comm 0x7F), land_127.
  assert (S : negb (Z.land b2 0x80 =? 0) = (128 <=? b2)) by (apply eqb_prop; apply (byte_forall (fun b => Bool.eqb (negb (Z.land b 0x80 =? 0)) (128 <=? b))); [vm_compute; reflexivity|exact B2]). rewrite S. unfold is_byte in *.
  assert (M : (b2 * 256 + b3) mod 2 ^ 15 = b2 mod 128 * 256 + b3). { change (2 ^ 15) with 32768. Z.div_mod_to_equations. lia. } rewrite M.
  assert (D : (b2 mod 128 * 256 + b3) / 256 = b2 mod 128) by (symmetry; apply Z.div_unique with (r := b3); lia). rewrite D.
  change (2 ^ 15) with 32768. destruct (Z.leb_spec 128 b2), (Z.leb_spec 32768 (b2 * 256 + b3)); try lia; [|rewrite (Z.mod_small b2) by lia]; destruct t22; f_equal; lia.
Qed.
(** ** Readings *)
Lemma bits_error cs : forall i d, fst (bits i cs d) = NONE \/ fst (bits i cs d) = DATA_TIMEOUT.
Proof. induction cs as [|(l, h) cs IH]; intros i d; cbn [bits]; [left; reflexivity|]. destruct (_ || _); [right; reflexivity|]. apply IH. Qed.
Lemma bits_none cs : Forall (fun p => 0 <= fst p /\ 0 <= snd p) cs -> forall i d, fst (bits i cs d) = NONE -> Forall (fun p => 0 < fst p /\ 0 < snd p) cs.
Proof.
  induction 1 as [|(l, h) cs (A & B) F IH]; intros i d; cbn [bits]; [constructor|]. cbn [fst snd] in *. destruct (Z.eqb_spec l 0); [discriminate|]. destruct (Z.eqb_spec h 0); [discriminate|]. cbn [orb]. intros E. constructor; [cbn; lia|apply (IH _ _ E)].
Qed.
Lemma pulses_ok max n : forall line pos, Forall (fun p => 0 <= fst p /\ 0 <= snd p) (pulses max n line pos) /\ length (pulses max n line pos) = n.
Proof.
  induction n as [|n IH]; intros line pos; cbn [pulses]; [split; constructor|]. destruct (expectPulse max line false 0 pos) as [a p]. destruct (expectPulse max line true 0 p) as [b q]. destruct (IH line q) as (F & L). split; [|cbn [length]; rewrite L; reflexivity].
  constructor; [|exact F]. cbn [fst snd]. split; apply Z.mod_pos_bound; lia.
Qed.
Definition cleared (d : list Z) : list Z := wr (wr (wr (wr (wr d 0 0) 1 0) 2 0) 3 0) 4 0.
Lemma cleared_ok d : length d = 6%nat -> length (cleared d) = 6%nat /\ forall k, (k < 5)%nat -> rd (cleared d) k = 0.
Proof.
  intros L. do 7 (destruct d as [|? d]; try discriminate). unfold cleared. cbn [wr]. split; [reflexivity|]. intros k Hk. do 5 (destruct k as [|k]; [reflexivity|]). lia.
Qed.
Lemma checked n d : (forall k, (k < 5)%nat -> rd d k = part n k) -> (rd d 4 =? Z.land (rd d 0 + rd d 1 + rd d 2 + rd d 3) 0xFF) = true <-> intact n.
Proof. intros P. rewrite !P by lia. rewrite land_255, Z.eqb_eq. reflexivity. Qed.
(** one reading with what the bits mean *)
Lemma frame_read s cs : length (data s) = 6%nat -> Forall (fun p => 0 < fst p /\ 0 < snd p) cs -> length cs = 40%nat ->
  exists d, bits 0 cs (cleared (data s)) = (NONE, d) /\ length d = 6%nat /\ 0 <= horner 0 cs < 2 ^ 40 /\ (forall k, (k < 5)%nat -> rd d k = part (horner 0 cs) k) /\ convert (type22 s) d = (humidity_of (type22 s) (horner 0 cs), temperature_of (type22 s) (horner 0 cs)).
Proof.
  intros L F L40. destruct (cleared_ok _ L) as (CL & CZ). destruct (bits_frame cs (cleared (data s)) F L40 ltac:(lia) CZ) as (d & E & Ld & P). exists d. pose proof (horner_range cs) as R. rewrite L40 in R.
  split; [exact E|]. split; [lia|]. split; [exact R|]. split; [exact P|]. apply convert_spec; assumption.
Qed.
