(** The effect of the calls on pins, pin by pin. *)
From Verif Require Import Base Pin_Model Pin_Spec Pin_Proofs.

Lemma spared_trans g g' g'' p : spared g g' p -> spared g' g'' p -> spared g g'' p.
Proof. intros [A B] [C D]. split; [congruence|]. intros l L. rewrite D, B by exact L. reflexivity. Qed.
Lemma spared_refl g p : spared g g p.
Proof. split; reflexivity. Qed.
Lemma locs_far q p x : In p pins -> In x (locs_of q p) -> (fst x = 6 \/ 44 <= fst x < 54)%nat.
Proof.
  intros H I. unfold locs_of in I. destruct (astray q p); [destruct I|]. destruct (place (wanted q) p) as [[w v]|] eqn:E; [|destruct I].
  destruct I as [<-|[]]. exact (proj1 (place_far _ _ _ _ H E)).
Qed.
(** stores to places that are no pin's word *)
Lemma stores_spared l g p : In p pins -> (forall x, In x l -> (fst x = 6 \/ 44 <= fst x < 54)%nat \/ exists p', In p' pins /\ p' <> p /\ fst x = word p') -> spared g (stores l g) p.
Proof.
  intros H F. destruct (stores_rest l g) as (E1 & E2 & E3 & E4 & E5 & E6). destruct (placed_ok p H) as (_ & _ & _ & _ & _ & P6 & P7 & _).
  split.
  - apply stores_other. intros x I. destruct (F x I) as [D|(p' & Hp & N & ->)]; [lia|]. exact (proj1 (apart_ok _ _ H Hp N)).
  - apply port_regs; rewrite ?E1, ?E2, ?E3, ?E4, ?E5, ?E6; reflexivity.
Qed.
Lemma turn_spared g p p' on : whole g -> In p pins -> In p' pins -> p' <> p -> spared g (turn g (port p) (2 ^ Z.of_nat (num p)) on) p'.
Proof.
  intros W H H' N. destruct (placed_ok p H) as (_ & _ & _ & P4 & P5 & _). destruct (placed_ok p' H') as (_ & _ & _ & _ & P5' & _).
  split; [reflexivity|]. apply port_regs; try reflexivity. unfold turn. cbn [setDIR DIR].
  apply bit_there; auto; [exact (proj1 (proj2 (proj2 W) DIR ltac:(cbn; tauto)))|]. exact (proj2 (apart_ok _ _ H H' N)).
Qed.
Lemma pin_mode_effect g p q n : whole g -> In p pins -> number p (wanted q) = Some n ->
  exists g', pinMode g (name p) (mode_of q) = Back g' /\ whole g' /\ serves g' p (wanted q) /\ pulled g' p (res q) /\ hysteresis g' p = hyst q /\ open_drain g' p = drain q /\
    analog_mode g' p = admode p && role_eqb (wanted q) Analog /\ output g' p = outward q /\ kept [DATA; IS; IBE; IEV; IE] g g' p /\
    (forall p', In p' pins -> p' <> p -> spared g g' p') /\ (astray q p = false -> routed g' (wanted q) p) /\
    (forall w, w <> word p -> (astray q p = true \/ forall v, place (wanted q) p <> Some (w, v)) -> rd (IOCON g') w = rd (IOCON g) w).
Proof.
  intros W H E. pose proof (pin_mode g p q W H) as M. rewrite E in M. destruct M as (v & M & V & M1 & M2 & M3 & M4 & M5).
  destruct (placed_ok p H) as (P1 & P2 & P3 & P4 & P5 & P6 & P7 & _).
  set (t := turn g (port p) (2 ^ Z.of_nat (num p)) (outward q)) in *.
  assert (Wt : whole t) by (apply whole_DIR, W).
  set (g' := stores (locs_of q p ++ [(word p, v)]) t) in *.
  assert (R : rd (IOCON g') (word p) = v).
  { unfold g'. rewrite stores_app. cbn [stores fold_left setIOCON IOCON fst snd]. rewrite rd_same by (rewrite stores_length, (proj1 Wt); lia). apply u32_small, V. }
  destruct (stores_rest (locs_of q p ++ [(word p, v)]) t) as (E1 & E2 & E3 & E4 & E5 & E6). fold g' in E1, E2, E3, E4, E5, E6.
  exists g'. split; [exact M|]. split; [apply whole_stores, Wt|].
  split; [unfold serves; rewrite R, E, M1; reflexivity|].
  split; [unfold pulled; rewrite R; exact M2|].
  split; [unfold hysteresis; rewrite R; exact M3|].
  split; [unfold open_drain; rewrite R; exact M4|].
  split. { unfold analog_mode. rewrite R. destruct (admode p); [|reflexivity]. rewrite M5 by reflexivity. rewrite negb_involutive. reflexivity. }
  split. { unfold output. rewrite E2. unfold t, turn. cbn [setDIR DIR]. apply bit_here; auto. exact (proj1 (proj2 (proj2 W) DIR ltac:(cbn; tauto))). }
  split. { intros f F. cbn in F. destruct F as [<-|[<-|[<-|[<-|[<-|[]]]]]]; rewrite ?E1, ?E3, ?E4, ?E5, ?E6; reflexivity. }
  split. { intros p' H' N. apply spared_trans with t; [apply turn_spared; auto|]. apply stores_spared; [exact H'|]. intros x I. apply in_app_or in I as [I|[<-|[]]]; [left; exact (locs_far _ _ _ H I)|].
    right. exists p. repeat split; auto. }
  split.
  - intro A. unfold routed. destruct (place (wanted q) p) as [[w x]|] eqn:Q; [|exact Logic.I]. destruct (place_far _ _ _ _ H Q) as [F X].
    unfold g', locs_of. rewrite A, Q. cbn [app stores fold_left fst snd setIOCON IOCON]. rewrite rd_other by lia. rewrite rd_same; [apply u32_small; unfold is_u32; lia|].
    unfold t, turn. cbn [setDIR IOCON]. rewrite (proj1 W). lia.
  - intros w N A. unfold g'. rewrite stores_other; [reflexivity|]. intros x I. apply in_app_or in I as [I|[<-|[]]]; [|cbn; congruence].
    unfold locs_of in I. destruct (astray q p); [destruct I|]. destruct A as [A|A]; [discriminate|]. destruct (place (wanted q) p) as [[w' v']|]; [|destruct I]. destruct I as [<-|[]]. cbn. intros ->. exact (A v' eq_refl).
Qed.

(** ** levels *)
Lemma write_effect g p v : whole g -> In p pins ->
  let g' := digitalWrite g (name p) v in
  whole g' /\ Z.testbit (rd (DATA g') (port p)) (Z.of_nat (num p)) = v /\ (forall p', In p' pins -> p' <> p -> spared g g' p') /\ IOCON g' = IOCON g /\ kept [DIR; IS; IBE; IEV; IE] g g' p.
Proof.
  intros W H g'. destruct (placed_ok p H) as (P1 & P2 & P3 & P4 & P5 & P6 & P7 & _).
  assert (L : length (DATA g) = 4%nat) by exact (proj1 (proj2 (proj2 W) DATA ltac:(cbn; tauto))).
  unfold g', digitalWrite, maskedWrite. cbv zeta. rewrite P1, P3.
  split; [apply whole_DATA, W|]. split. { cbn [setDATA DATA]. rewrite rd_same by lia. rewrite masked_bits by lia. rewrite Z.eqb_refl. reflexivity. }
  split. { intros p' H' N. destruct (placed_ok p' H') as (_ & _ & _ & _ & P5' & _). split; [reflexivity|]. apply port_regs; try reflexivity. cbn [setDATA DATA].
    destruct (Nat.eq_dec (port p') (port p)) as [E|E].
    - rewrite E, rd_same by lia. rewrite masked_bits by lia. pose proof (proj2 (apart_ok _ _ H H' N) E). destruct (Z.eqb_spec (Z.of_nat (num p)) (Z.of_nat (num p'))); [lia|reflexivity].
    - rewrite rd_other by congruence. reflexivity. }
  split; [reflexivity|]. intros f F. cbn in F. destruct F as [<-|[<-|[<-|[<-|[<-|[]]]]]]; reflexivity.
Qed.
Lemma spared_level g g' e p : spared g g' p -> level g' e p = level g e p.
Proof.
  intros [A B]. unfold level, output, open_drain. rewrite A. rewrite (B DIR) by (cbn; tauto). rewrite (B DATA) by (cbn; tauto). reflexivity.
Qed.
Lemma read_effect g e levels p : In p pins -> shown g e levels -> digitalRead levels (name p) = level g e p.
Proof.
  intros H S. rewrite <- (S p H). destruct (placed_ok p H) as (P1 & P2 & P3 & _). unfold digitalRead. rewrite P1, P3. generalize (rd levels (port p)) as d. intro d.
  set (n := Z.of_nat (num p)). assert (N : 0 <= n) by (unfold n; lia). clearbody n. destruct (Z.testbit d n) eqn:T.
  - apply negb_true_iff, Z.eqb_neq. intro E. assert (B : Z.testbit (Z.land d (2 ^ n)) n = false) by (rewrite E; apply Z.bits_0).
    rewrite Z.land_spec, T, Z.pow2_bits_true in B by exact N. discriminate.
  - apply negb_false_iff, Z.eqb_eq. apply Z.bits_inj. intro m. rewrite Z.land_spec, Z.bits_0, Z.pow2_bits_eqb by exact N. destruct (Z.eqb_spec n m) as [<-|]; [rewrite T; reflexivity|apply andb_false_r].
Qed.

(** ** the direction alone *)
Lemma direction_effect g p dir : whole g -> In p pins ->
  let g' := pinDirection g (name p) dir in
  whole g' /\ output g' p = (dir =? 0x6000) /\ IOCON g' = IOCON g /\ kept [DATA; IS; IBE; IEV; IE] g g' p /\ (forall p', In p' pins -> p' <> p -> spared g g' p').
Proof.
  intros W H g'. destruct (placed_ok p H) as (P1 & P2 & P3 & P4 & P5 & _).
  assert (E : g' = turn g (port p) (2 ^ Z.of_nat (num p)) (dir =? 0x6000)).
  { unfold g', pinDirection, turn, flagged, OUTPUT. rewrite P1, P2. destruct (dir =? 0x6000); reflexivity. }
  clearbody g'. subst g'. split; [apply whole_DIR, W|]. split.
  - unfold output, turn. cbn [setDIR DIR]. apply bit_here; auto. exact (proj1 (proj2 (proj2 W) DIR ltac:(cbn; tauto))).
  - split; [reflexivity|]. split; [intros f F; cbn in F; destruct F as [<-|[<-|[<-|[<-|[<-|[]]]]]]; reflexivity|]. intros; apply turn_spared; auto.
Qed.

(** ** whole ports *)
Lemma place_inj p p' : In p pins -> In p' pins -> port p' = port p -> num p' = num p -> p' = p.
Proof.
  intros H H' E1 E2. pose proof apart_all as C. rewrite forallb_forall in C. specialize (C p H). rewrite forallb_forall in C. specialize (C p' H').
  apply andb_prop in C as [_ C]. unfold same_place in C. rewrite E1, E2, !Nat.eqb_refl in C. cbn [andb orb implb] in C. apply Z.eqb_eq in C. symmetry. apply name_inj; auto.
Qed.
(** [mask] names pins of the port only *)
Definition names_pins (po : nat) (mask : Z) : Prop := 0 <= mask /\ forall m, 0 <= m -> Z.testbit mask m = true -> exists p, In p pins /\ port p = po /\ Z.of_nat (num p) = m.
Lemma port_loop po iocon : (po < 4)%nat -> is_u32 iocon -> forall k g n mask, whole g -> 0 <= n -> 0 <= mask < 2 ^ Z.of_nat k ->
  (forall m, 0 <= m -> Z.testbit mask m = true -> exists p, In p pins /\ port p = po /\ Z.of_nat (num p) = n + m) ->
  exists l, portLoop k g po n mask iocon = Back (stores l g) /\
    (forall x, In x l -> exists p, In p pins /\ port p = po /\ 0 <= Z.of_nat (num p) - n /\ Z.testbit mask (Z.of_nat (num p) - n) = true /\ x = (word p, iocon)) /\
    (forall p, In p pins -> port p = po -> n <= Z.of_nat (num p) -> Z.testbit mask (Z.of_nat (num p) - n) = true -> In (word p, iocon) l).
Proof.
  intros Hp Hi. induction k as [|k IH]; intros g n mask W Hn Hm Q; cbn [portLoop].
  { assert (mask = 0) by (cbn in Hm; lia). subst mask. cbn. exists []. split; [reflexivity|]. split; [intros x []|]. intros p _ _ _ T. rewrite Z.bits_0 in T. discriminate. }
  destruct (Z.eqb_spec mask 0) as [->|Nz].
  { exists []. split; [reflexivity|]. split; [intros x []|]. intros p _ _ _ T. rewrite Z.bits_0 in T. discriminate. }
  assert (SR : forall m, 0 <= m -> Z.testbit (Z.shiftr mask 1) m = Z.testbit mask (m + 1)) by (intros; apply Z.shiftr_spec; lia).
  assert (B : 0 <= Z.shiftr mask 1 < 2 ^ Z.of_nat k).
  { rewrite Z.shiftr_div_pow2 by lia. change (2 ^ 1) with 2. split; [apply Z.div_pos; lia|]. apply Z.div_lt_upper_bound; [lia|]. replace (Z.of_nat (S k)) with (1 + Z.of_nat k) in Hm by lia. rewrite Z.pow_add_r in Hm by lia. lia. }
  assert (Q' : forall m, 0 <= m -> Z.testbit (Z.shiftr mask 1) m = true -> exists p, In p pins /\ port p = po /\ Z.of_nat (num p) = n + 1 + m).
  { intros m M T. rewrite SR in T by exact M. destruct (Q (m + 1) ltac:(lia) T) as (p & A1 & A2 & A3). exists p. repeat split; auto. lia. }
  destruct (Z.odd mask) eqn:O.
  - rewrite <- Z.bit0_odd in O. destruct (Q 0 ltac:(lia) O) as (p & A1 & A2 & A3). destruct (placed_ok p A1) as (_ & _ & _ & _ & _ & _ & _ & _ & P9 & _).
    rewrite A2, A3, Z.add_0_r in P9. rewrite P9.
    destruct (IH (setIOCON g (word p) iocon) (n + 1) (Z.shiftr mask 1) (whole_stores [(word p, iocon)] g W) ltac:(lia) B Q') as (l & L1 & L2 & L3).
    exists ((word p, iocon) :: l). split; [exact L1|]. split.
    + intros x [<-|I]. { exists p. repeat split; auto; [lia|]. replace (Z.of_nat (num p) - n) with 0 by lia. exact O. }
      destruct (L2 x I) as (p' & C1 & C2 & C3 & C4 & C5). exists p'. repeat split; auto; [lia|]. rewrite SR in C4 by lia. rewrite <- C4. f_equal. lia.
    + intros p' C1 C2 C3 C4. destruct (Z.eq_dec (Z.of_nat (num p')) n) as [E|E].
      * left. assert (p' = p). { apply place_inj; auto; [congruence|lia]. } subst. reflexivity.
      * right. apply L3; auto; [lia|]. rewrite SR by lia. rewrite <- C4. f_equal. lia.
  - destruct (IH g (n + 1) (Z.shiftr mask 1) W ltac:(lia) B Q') as (l & L1 & L2 & L3). exists l. split; [exact L1|]. rewrite <- Z.bit0_odd in O. split.
    + intros x I. destruct (L2 x I) as (p' & C1 & C2 & C3 & C4 & C5). exists p'. repeat split; auto; [lia|]. rewrite SR in C4 by lia. rewrite <- C4. f_equal. lia.
    + intros p' C1 C2 C3 C4. destruct (Z.eq_dec (Z.of_nat (num p')) n) as [E|E]; [rewrite E, Z.sub_diag, O in C4; discriminate|]. apply L3; auto; [lia|]. rewrite SR by lia. rewrite <- C4. f_equal. lia.
Qed.

Lemma stores_value l g w v : (w < length (IOCON g))%nat -> is_u32 v -> (forall x, In x l -> snd x = v) -> (exists x, In x l /\ fst x = w) -> rd (IOCON (stores l g)) w = v.
Proof.
  intros L V. revert g L. induction l as [|[y v'] l IH]; intros g L A (x & I & F); [destruct I|].
  cbn [stores fold_left fst snd]. fold (stores l (setIOCON g y v')). destruct (in_dec Nat.eq_dec w (map fst l)) as [J|J].
  - apply IH; [cbn [setIOCON IOCON]; rewrite wr_length; exact L|intros; apply A; right; assumption|]. apply in_map_iff in J as (x' & E & J). exists x'. auto.
  - rewrite stores_other by (intros x' J' E; apply J; rewrite <- E; apply in_map, J').
    destruct I as [<-|I]; [|exfalso; apply J; rewrite <- F; apply in_map, I]. cbn in F. subst y. pose proof (A _ (or_introl eq_refl)) as E. cbn in E. subst v'. cbn [setIOCON IOCON]. rewrite rd_same by exact L. apply u32_small, V.
Qed.
Lemma port_mode_effect g po mask mode : whole g -> (po < 4)%nat -> names_pins po mask ->
  exists g', portMode g po mask mode = Back g' /\ whole g' /\
    (forall p, In p pins -> port p = po -> Z.testbit mask (Z.of_nat (num p)) = true ->
       rd (IOCON g') (word p) = Z.land mode 0xfff /\ output g' p = ((Z.land mode 0xf000 =? 0x6000) || (Z.land mode 0xf000 =? 0x7000)) /\ kept [DATA; IS; IBE; IEV; IE] g g' p) /\
    (forall p, In p pins -> (port p <> po \/ Z.testbit mask (Z.of_nat (num p)) = false) -> spared g g' p).
Proof.
  intros W P [M0 M]. set (out := (Z.land mode 0xf000 =? 0x6000) || (Z.land mode 0xf000 =? 0x7000)).
  set (t := setDIR g po (flagged out (rd (DIR g) po) mask)). assert (Wt : whole t) by (apply whole_DIR, W).
  assert (LD : length (DIR g) = 4%nat) by exact (proj1 (proj2 (proj2 W) DIR ltac:(cbn; tauto))).
  assert (MB : 0 <= mask < 2 ^ Z.of_nat 32).
  { split; [exact M0|]. destruct (Z.eq_dec mask 0) as [->|N]; [reflexivity|]. apply Z.log2_lt_pow2; [lia|]. pose proof (Z.log2_nonneg mask).
    destruct (M (Z.log2 mask) ltac:(lia) (Z.bit_log2 mask ltac:(lia))) as (p & A1 & A2 & A3). destruct (placed_ok p A1) as (_ & _ & _ & _ & P5 & _). lia. }
  assert (I32 : is_u32 (Z.land mode 0xfff)).
  { change 0xfff with (Z.ones 12). rewrite Z.land_ones by lia. pose proof (Z.mod_pos_bound mode (2 ^ 12) ltac:(lia)). unfold is_u32. lia. }
  destruct (port_loop po (Z.land mode 0xfff) P I32 32 t 0 mask Wt ltac:(lia) MB) as (l & L1 & L2 & L3).
  { intros m H T. rewrite Z.add_0_l. apply M; auto. }
  exists (stores l t). split.
  { unfold portMode, OUTPUT, OUTPUT_MATCH. cbv zeta. fold out. rewrite <- L1. unfold t, flagged. destruct out; reflexivity. }
  split; [apply whole_stores, Wt|]. destruct (stores_rest l t) as (E1 & E2 & E3 & E4 & E5 & E6).
  assert (DB : forall m, 0 <= m < 32 -> Z.testbit (rd (DIR (stores l t)) po) m = if Z.testbit mask m then out else Z.testbit (rd (DIR g) po) m).
  { intros m B. rewrite E2. unfold t. cbn [setDIR DIR]. rewrite rd_same by lia. rewrite u32_bits by exact B. unfold flagged.
    destruct out; [rewrite Z.lor_spec|rewrite Z.land_spec, Z.lnot_spec by lia]; destruct (Z.testbit mask m), (Z.testbit (rd (DIR g) po) m); reflexivity. }
  split.
  - intros p H Q T. destruct (placed_ok p H) as (_ & _ & _ & P4 & P5 & P6 & _). split; [|split].
    + apply stores_value; [rewrite (proj1 Wt); lia|exact I32| |].
      * intros x I. destruct (L2 x I) as (p' & _ & _ & _ & _ & ->). reflexivity.
      * exists (word p, Z.land mode 0xfff). split; [|reflexivity]. apply L3; auto; [lia|]. rewrite Z.sub_0_r. exact T.
    + unfold output. rewrite Q, DB, T by lia. reflexivity.
    + intros f F. cbn in F. destruct F as [<-|[<-|[<-|[<-|[<-|[]]]]]]; rewrite ?E1, ?E3, ?E4, ?E5, ?E6; reflexivity.
  - intros p H D. destruct (placed_ok p H) as (_ & _ & _ & P4 & P5 & P6 & _). apply spared_trans with t.
    + split; [reflexivity|]. apply port_regs; try reflexivity. unfold t. cbn [setDIR DIR]. destruct (Nat.eq_dec po (port p)) as [E|E]; [|rewrite rd_other by exact E; reflexivity].
      destruct D as [D|D]; [congruence|]. pose proof (DB (Z.of_nat (num p)) ltac:(lia)) as B. rewrite D, E2 in B. rewrite <- E. exact B.
    + apply stores_spared; [exact H|]. intros x I. right. destruct (L2 x I) as (p' & A1 & A2 & A3 & A4 & ->). exists p'. repeat split; auto. intros ->. rewrite Z.sub_0_r in A4. destruct D as [D|D]; congruence.
Qed.
