(** Circles, discs, rounded frames and boxes (C115). *)
From Verif Require Export U8gLine_Proofs.

(** The points of an eighth, as the loop visits them *)
Definition octant (r : Z) : list msg := circleWith (fun x y => [Pixel x y]) r.
Definition byPoint (section : Z -> Z -> list msg) (m : msg) : list msg := match m with Pixel x y => section x y | Eight _ _ _ _ => [] end.
Lemma circleLoop_points section n : forall x y f dx dy, circleLoop section n x y f dx dy = flat_map (byPoint section) (circleLoop (fun x y => [Pixel x y]) n x y f dx dy).
Proof.
  induction n as [|n IH]; intros; cbn [circleLoop]; [reflexivity|]. destruct (x <? y); [|reflexivity].
  destruct (if 0 <=? f then _ else _) as [[y' dy'] f']. cbn [app flat_map byPoint]. rewrite IH. reflexivity.
Qed.
Lemma circle_points section r : circleWith section r = flat_map (byPoint section) (octant r).
Proof. unfold octant, circleWith. cbn [app flat_map byPoint]. rewrite circleLoop_points. reflexivity. Qed.

Definition nearb (r a b : Z) : bool := ((b =? 0) || ((2 * b - 1) * (2 * b - 1) <? 4 * (r * r - a * a))) && (4 * (r * r - a * a) <? (2 * b + 1) * (2 * b + 1)).
Lemma nearb_spec r a b : nearb r a b = true <-> near r a b.
Proof.
  unfold nearb, near. rewrite andb_true_iff, orb_true_iff, Z.eqb_eq, !Z.ltb_lt. tauto.
Qed.
Definition has (l : list msg) (a b : Z) : bool := existsb (fun m => match m with Pixel x y => (x =? a) && (y =? b) | Eight _ _ _ _ => false end) l.
Lemma has_spec l a b : has l a b = true <-> In (Pixel a b) l.
Proof.
  unfold has. rewrite existsb_exists. split.
  - intros ([x y|] & I & E); [|discriminate]. apply andb_prop in E as [E1 E2]. apply Z.eqb_eq in E1, E2. subst. exact I.
  - intros I. exists (Pixel a b). split; [exact I|]. rewrite !Z.eqb_refl. reflexivity.
Qed.
(** For the radii that fit: each point visited is nearest to the circle or mirrors one that is; all of these are visited. The points depend on the radius only, so this is a computation *)
Definition octant_good (r : Z) : bool :=
  let o := octant r in
  forallb (fun m => match m with
    | Pixel a b => (0 <=? a) && (a <=? r) && (0 <=? b) && (b <=? r) && (if a <=? b then nearb r a b else has o b a)
    | Eight _ _ _ _ => false end) o
  && forallb (fun a => forallb (fun b => implb ((a <=? b) && nearb r a b) (has o a b)) (range_Z (Z.to_nat (r + 1)))) (range_Z (Z.to_nat (r + 1))).
Lemma octants_good : forallb octant_good (range_Z 77) = true. Proof. vm_compute. reflexivity. Qed.

Lemma near_le r a b : 0 <= a -> 0 <= b -> 0 <= r -> near r a b -> b <= r.
Proof. intros A B R [[->|N] _]; [lia|]. nia. Qed.
Lemma octant_arc r A B : 0 <= r <= 76 -> arc r A B <-> In (Pixel A B) (octant r) \/ In (Pixel B A) (octant r).
Proof.
  intros R. pose proof (proj1 (forallb_forall _ _) octants_good r (range_Z_in 77 r ltac:(lia))) as G. unfold octant_good in G. cbv zeta in G. apply andb_prop in G as [G1 G2].
  rewrite forallb_forall in G1, G2.
  assert (P : forall a b, In (Pixel a b) (octant r) -> 0 <= a <= r /\ 0 <= b <= r /\ if a <=? b then near r a b else In (Pixel b a) (octant r)).
  { intros a b I. specialize (G1 _ I). cbv beta iota in G1. apply andb_prop in G1 as [G1 E5]. apply andb_prop in G1 as [G1 E4]. apply andb_prop in G1 as [G1 E3]. apply andb_prop in G1 as [E1 E2].
    apply Z.leb_le in E1, E2, E3, E4. split; [lia|]. split; [lia|]. destruct (a <=? b); [apply nearb_spec|apply has_spec]; exact E5. }
  assert (Q : forall a b, 0 <= a <= b -> near r a b -> In (Pixel a b) (octant r)).
  { intros a b L N. pose proof (near_le r a b ltac:(lia) ltac:(lia) ltac:(lia) N). specialize (G2 a (range_Z_in (Z.to_nat (r + 1)) a ltac:(lia))). rewrite forallb_forall in G2. specialize (G2 b (range_Z_in (Z.to_nat (r + 1)) b ltac:(lia))).
    cbv beta in G2. apply nearb_spec in N. rewrite N in G2. destruct (Z.leb_spec a b); [|lia]. cbn [andb implb] in G2. apply has_spec. exact G2. }
  assert (K : forall a b, In (Pixel a b) (octant r) -> arc r a b).
  { intros a b I. destruct (P a b I) as (Pa & Pb & X). unfold arc. destruct (Z.leb_spec a b) as [L|L]; [left; split; [lia|exact X]|]. right. split; [lia|].
    destruct (P b a X) as (_ & _ & Y). destruct (Z.leb_spec b a); [exact Y|lia]. }
  split.
  - intros [[L N]|[L N]]; [left|right]; apply Q; auto.
  - intros [I|I]; [apply K; exact I|]. apply K in I. unfold arc in *. tauto.
Qed.
Lemma arc_range r A B : 0 <= r -> arc r A B -> 0 <= A <= r /\ 0 <= B <= r.
Proof. intros R [[L N]|[L N]]; [pose proof (near_le r A B ltac:(lia) ltac:(lia) R N)|pose proof (near_le r B A ltac:(lia) ltac:(lia) R N)]; lia. Qed.
Lemma octant_pixels r m : In m (octant r) -> exists a b, m = Pixel a b.
Proof.
  unfold octant, circleWith. assert (L : forall n x y f dx dy m, In m (circleLoop (fun x y => [Pixel x y]) n x y f dx dy) -> exists a b, m = Pixel a b).
  { induction n as [|n IH]; intros x y f dx dy m0; cbn [circleLoop]; [intros []|]. destruct (x <? y); [|intros []]. destruct (if 0 <=? f then _ else _) as [[y' dy'] f']. cbn [app In].
    intros [<-|I]; [eauto|eapply IH; eauto]. }
  cbn [app In]. intros [<-|I]; [eauto|eapply L; eauto].
Qed.

(** A shape made of sections: its dots are those of the sections of the arc, provided a section has the dots of both points *)
Lemma circle_union section (S : Z -> Z -> Z -> Z -> Prop) r (D : Z -> Z -> Prop) : 0 <= r <= 76 ->
  (forall a b, 0 <= a <= r -> 0 <= b <= r -> Forall msg_ok (section a b)) ->
  (forall a b x y, 0 <= a <= r -> 0 <= b <= r -> D x y -> covers (section a b) x y <-> S a b x y \/ S b a x y) ->
  Forall msg_ok (circleWith section r) /\ forall x y, D x y -> covers (circleWith section r) x y <-> exists A B, arc r A B /\ S A B x y.
Proof.
  intros R F H. rewrite circle_points.
  assert (Pt : forall m, In m (octant r) -> exists a b, m = Pixel a b /\ arc r a b).
  { intros m I. destruct (octant_pixels r m I) as (a & b & ->). exists a, b. split; [reflexivity|]. apply octant_arc; auto. }
  split.
  - apply Forall_forall. intros m I. apply in_flat_map in I as (q & I1 & I2). destruct (Pt q I1) as (a & b & -> & Ar). cbn [byPoint] in I2. destruct (arc_range r a b ltac:(lia) Ar).
    specialize (F a b ltac:(lia) ltac:(lia)). rewrite Forall_forall in F. apply F, I2.
  - intros x y Dx. split.
    + intros (m & I & O). apply in_flat_map in I as (q & I1 & I2). destruct (Pt q I1) as (a & b & -> & Ar). cbn [byPoint] in I2. destruct (arc_range r a b ltac:(lia) Ar).
      assert (C : covers (section a b) x y) by (exists m; auto). apply H in C; auto; try lia. destruct C as [C|C]; [exists a, b; auto|]. exists b, a. split; [|exact C]. unfold arc in *. tauto.
    + intros (A & B & Ar & SA). destruct (arc_range r A B ltac:(lia) Ar). pose proof (proj1 (octant_arc r A B R) Ar) as [I|I].
      * assert (C : covers (section A B) x y) by (apply H; auto; lia). destruct C as (m & I2 & O). exists m. split; [|exact O]. apply in_flat_map. exists (Pixel A B). auto.
      * assert (C : covers (section B A) x y) by (apply H; auto; lia). destruct C as (m & I2 & O). exists m. split; [|exact O]. apply in_flat_map. exists (Pixel B A). auto.
Qed.

Lemma option_bits v : is_byte v -> negb (Z.land v DRAW_UPPER_RIGHT =? 0) = Z.testbit v 0 /\ negb (Z.land v DRAW_UPPER_LEFT =? 0) = Z.testbit v 1
  /\ negb (Z.land v DRAW_LOWER_LEFT =? 0) = Z.testbit v 2 /\ negb (Z.land v DRAW_LOWER_RIGHT =? 0) = Z.testbit v 3.
Proof.
  intros H. pose proof (byte_forall (fun v => Bool.eqb (negb (Z.land v DRAW_UPPER_RIGHT =? 0)) (Z.testbit v 0) && Bool.eqb (negb (Z.land v DRAW_UPPER_LEFT =? 0)) (Z.testbit v 1)
    && Bool.eqb (negb (Z.land v DRAW_LOWER_LEFT =? 0)) (Z.testbit v 2) && Bool.eqb (negb (Z.land v DRAW_LOWER_RIGHT =? 0)) (Z.testbit v 3)) ltac:(vm_compute; reflexivity) v H) as E.
  cbv beta in E. apply andb_prop in E as [E E4]. apply andb_prop in E as [E E3]. apply andb_prop in E as [E1 E2]. apply eqb_prop in E1, E2, E3, E4. auto.
Qed.

(** The four quarters of a section *)
Lemma quarters option (P : Z -> Z -> Prop) : (exists sx sy, quarter option sx sy /\ P sx sy) <->
  (Z.testbit option 0 = true /\ P 1 (-1)) \/ (Z.testbit option 1 = true /\ P (-1) (-1)) \/ (Z.testbit option 3 = true /\ P 1 1) \/ (Z.testbit option 2 = true /\ P (-1) 1).
Proof.
  unfold quarter. split.
  - intros (sx & sy & [(-> & -> & T)|[(-> & -> & T)|[(-> & -> & T)|(-> & -> & T)]]] & H); auto 6.
  - intros [[T H]|[[T H]|[[T H]|[T H]]]]; [exists 1, (-1)|exists (-1), (-1)|exists 1, 1|exists (-1), 1]; split; auto 8.
Qed.
Lemma covers_if (b : bool) l x y : covers (if b then l else []) x y <-> b = true /\ covers l x y.
Proof. destruct b; [tauto|]. rewrite covers_nil. intuition discriminate. Qed.
Lemma Forall_if (b : bool) l : Forall msg_ok l -> Forall msg_ok (if b then l else []).
Proof. destruct b; auto. Qed.
Lemma covers2 m1 m2 x y : covers [m1; m2] x y <-> on m1 x y \/ on m2 x y.
Proof. rewrite !covers_cons, covers_nil. tauto. Qed.
Lemma plus_u8 c a : u8 (c + a) = (c + 1 * a) mod 256. Proof. rewrite Z.mul_1_l. reflexivity. Qed.
Lemma minus_u8 c a : u8 (c - a) = (c + -1 * a) mod 256. Proof. replace (c + -1 * a) with (c - a) by ring. reflexivity. Qed.

Lemma circle_section_spec a b cx cy option : is_byte option -> Forall msg_ok (circle_section a b cx cy option) /\ forall x y,
  covers (circle_section a b cx cy option) x y <-> (exists sx sy, quarter option sx sy /\ (x = (cx + sx * a) mod 256 /\ y = (cy + sy * b) mod 256))
    \/ (exists sx sy, quarter option sx sy /\ (x = (cx + sx * b) mod 256 /\ y = (cy + sy * a) mod 256)).
Proof.
  intros O. unfold circle_section. destruct (option_bits option O) as (-> & -> & -> & ->). split.
  - repeat (apply Forall_app; split); apply Forall_if; repeat (constructor; [split; apply u8_byte|]); constructor.
  - intros x y. rewrite !covers_app, !covers_if, !covers2. cbn [on]. rewrite (quarters option (fun sx sy => x = (cx + sx * a) mod 256 /\ y = (cy + sy * b) mod 256)),
      (quarters option (fun sx sy => x = (cx + sx * b) mod 256 /\ y = (cy + sy * a) mod 256)). rewrite !plus_u8, !minus_u8. tauto.
Qed.

Lemma draw_circle_spec cx cy r option : 0 <= r <= 76 -> is_byte option ->
  Forall msg_ok (draw_circle cx cy r option) /\ forall x y, covers (draw_circle cx cy r option) x y <-> circle cx cy r option x y.
Proof.
  intros R O. unfold draw_circle.
  destruct (circle_union (fun x y => circle_section x y cx cy option) (fun A B x y => exists sx sy, quarter option sx sy /\ (x = (cx + sx * A) mod 256 /\ y = (cy + sy * B) mod 256)) r (fun _ _ => True) R) as [F C].
  - intros a b _ _. apply circle_section_spec. exact O.
  - intros a b x y _ _ _. apply circle_section_spec. exact O.
  - split; [exact F|]. intros x y. rewrite C by exact Logic.I. unfold circle. split.
    + intros (A & B & H1 & sx & sy & H2 & H3 & H4). exists A, B, sx, sy. auto.
    + intros (A & B & sx & sy & H1 & H2 & H3 & H4). exists A, B. split; [exact H1|]. exists sx, sy. auto.
Qed.

Lemma quarter_signs option sx sy : quarter option sx sy -> (sx = 1 \/ sx = -1) /\ (sy = 1 \/ sy = -1).
Proof. unfold quarter. lia. Qed.
Lemma in_square c s A r x : 0 <= r <= 126 -> 0 <= A <= r -> s = 1 \/ s = -1 -> x = (c + s * A) mod 256 -> off x (u8 (c - (r + 1))) < 2 * (r + 1).
Proof. intros R HA [->| ->] ->; unfold off, u8; Z.div_mod_to_equations; lia. Qed.

Lemma Circle_draws c cx cy r option : box_ok c -> 0 <= r <= 76 -> is_byte option -> draws c (DrawCircle c cx cy r option) (circle cx cy r option).
Proof.
  intros C R O. unfold DrawCircle. rewrite (u8_small (r + 1)), (u8_small ((r + 1) * 2)) by lia. destruct (draw_circle_spec cx cy r option R O) as [F K].
  apply draws_clipped; auto; try apply u8_byte; try lia.
  - intros x y (A & B & sx & sy & Ar & Q & X & Y). destruct (quarter_signs _ _ _ Q). destruct (arc_range r A B ltac:(lia) Ar).
    unfold rect. replace ((r + 1) * 2) with (2 * (r + 1)) by ring. split; [apply (in_square cx sx A r x)|apply (in_square cy sy B r y)]; auto; lia.
  - split; [exact F|]. intros x y _. apply K.
Qed.

Lemma column_up c cx cy A B s x y : box_ok c -> inside c x y -> is_byte cy -> 0 <= A <= 76 -> 0 <= B <= 76 ->
  covers (DrawVLine c (u8 (cx + s * A)) (u8 (cy - B)) (u8 (B + 1))) x y <-> exists t, 0 <= t <= B /\ x = (cx + s * A) mod 256 /\ y = (cy + -1 * t) mod 256.
Proof.
  intros C I Y HA HB. destruct (inside_bytes c x y C I) as [X' Y'].
  assert (W : is_byte (u8 (B + 1))) by apply u8_byte. destruct (VLine_draws c (u8 (cx + s * A)) (u8 (cy - B)) (u8 (B + 1)) C (u8_byte _) (u8_byte _) W) as [_ K]. rewrite K by exact I.
  unfold rect. rewrite (u8_small (B + 1)) by lia. rewrite (off_lt1 x) by (auto; apply u8_byte). unfold is_byte in *. split.
  - intros [-> L]. exists (B - off y (u8 (cy - B))). pose proof (off_range y (u8 (cy - B))). split; [lia|]. split; [reflexivity|]. unfold off, u8 in *. Z.div_mod_to_equations. lia.
  - intros (t & T & -> & ->). split; [reflexivity|]. unfold off, u8. Z.div_mod_to_equations. lia.
Qed.
Lemma column_down c cx cy A B s x y : box_ok c -> inside c x y -> is_byte cy -> 0 <= A <= 76 -> 0 <= B <= 76 ->
  covers (DrawVLine c (u8 (cx + s * A)) cy (u8 (B + 1))) x y <-> exists t, 0 <= t <= B /\ x = (cx + s * A) mod 256 /\ y = (cy + 1 * t) mod 256.
Proof.
  intros C I Y HA HB. destruct (inside_bytes c x y C I) as [X' Y'].
  assert (W : is_byte (u8 (B + 1))) by apply u8_byte. destruct (VLine_draws c (u8 (cx + s * A)) cy (u8 (B + 1)) C (u8_byte _) Y W) as [_ K]. rewrite K by exact I.
  unfold rect. rewrite (u8_small (B + 1)) by lia. rewrite (off_lt1 x) by (auto; apply u8_byte). unfold is_byte in *. split.
  - intros [-> L]. exists (off y cy). pose proof (off_range y cy). split; [lia|]. split; [reflexivity|]. unfold off in *. Z.div_mod_to_equations. lia.
  - intros (t & T & -> & ->). split; [reflexivity|]. unfold off. Z.div_mod_to_equations. lia.
Qed.

Lemma plus1 cx a : cx + a = cx + 1 * a. Proof. ring. Qed.
Lemma minus1 cx a : cx - a = cx + -1 * a. Proof. ring. Qed.
Definition col (cx cy option A B x y : Z) : Prop := exists sx sy, quarter option sx sy /\ exists t, 0 <= t <= B /\ x = (cx + sx * A) mod 256 /\ y = (cy + sy * t) mod 256.
Lemma disc_section_spec c a b cx cy option : box_ok c -> is_byte option -> is_byte cy -> 0 <= a <= 76 -> 0 <= b <= 76 ->
  Forall msg_ok (disc_section c a b cx cy option) /\ forall x y, inside c x y -> covers (disc_section c a b cx cy option) x y <-> col cx cy option a b x y \/ col cx cy option b a x y.
Proof.
  intros C O Y A B. unfold disc_section. destruct (option_bits option O) as (-> & -> & -> & ->). split.
  - repeat (apply Forall_app; split); apply Forall_if; apply Forall_app; split; (apply VLine_draws; auto; apply u8_byte).
  - intros x y I. unfold col. rewrite (quarters option (fun sx sy => exists t, 0 <= t <= b /\ x = (cx + sx * a) mod 256 /\ y = (cy + sy * t) mod 256)),
      (quarters option (fun sx sy => exists t, 0 <= t <= a /\ x = (cx + sx * b) mod 256 /\ y = (cy + sy * t) mod 256)).
    rewrite !covers_app, !covers_if, !covers_app. rewrite (plus1 cx a), (plus1 cx b), (minus1 cx a), (minus1 cx b).
    rewrite (column_up c cx cy a b 1), (column_up c cx cy b a 1), (column_up c cx cy a b (-1)), (column_up c cx cy b a (-1)) by auto.
    rewrite (column_down c cx cy a b 1), (column_down c cx cy b a 1), (column_down c cx cy a b (-1)), (column_down c cx cy b a (-1)) by auto. tauto.
Qed.
Lemma draw_disc_spec c cx cy r option : box_ok c -> is_byte cy -> 0 <= r <= 76 -> is_byte option -> draws c (draw_disc c cx cy r option) (disc cx cy r option).
Proof.
  intros C Y R O. unfold draw_disc.
  destruct (circle_union (fun x y => disc_section c x y cx cy option) (fun A B x y => col cx cy option A B x y) r (fun x y => inside c x y) R) as [F K].
  - intros a b A B. apply disc_section_spec; auto; lia.
  - intros a b x y A B I. apply disc_section_spec; auto; lia.
  - split; [exact F|]. intros x y I. rewrite K by exact I. unfold disc, col. split.
    + intros (A & B & H1 & sx & sy & H2 & t & H3 & H4 & H5). exists A, B, t, sx, sy. auto.
    + intros (A & B & t & sx & sy & H1 & H2 & H3 & H4 & H5). exists A, B. split; [exact H1|]. exists sx, sy. split; [exact H3|]. exists t. auto.
Qed.
Lemma Disc_draws c cx cy r option : box_ok c -> is_byte cy -> 0 <= r <= 76 -> is_byte option -> draws c (DrawDisc c cx cy r option) (disc cx cy r option).
Proof.
  intros C Yc R O. unfold DrawDisc. rewrite (u8_small (r + 1)), (u8_small ((r + 1) * 2)) by lia.
  apply draws_clipped; auto; try apply u8_byte; try lia; [|apply draw_disc_spec; auto].
  intros x y (A & B & t & sx & sy & Ar & T & Q & X & Y). destruct (quarter_signs _ _ _ Q). destruct (arc_range r A B ltac:(lia) Ar).
  unfold rect. replace ((r + 1) * 2) with (2 * (r + 1)) by ring. split; [apply (in_square cx sx A r x)|apply (in_square cy sy t r y)]; auto; lia.
Qed.
