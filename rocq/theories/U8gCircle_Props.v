(** C115: circles, discs, rounded frames and boxes *)
From Verif Require Import U8gRound_Proofs.

(** In every page exactly the dots nearest to the circle, in the quarters asked for. Missing: radii above 76, see the refutation *)
Theorem C115_circle_partial c cx cy r option : box_ok c -> 0 <= r <= 76 -> is_byte option -> draws c (DrawCircle c cx cy r option) (circle cx cy r option).
Proof. apply Circle_draws. Qed.
Print Assumptions C115_circle_partial.
Theorem C115_disc_partial c cx cy r option : box_ok c -> is_byte cy -> 0 <= r <= 76 -> is_byte option -> draws c (DrawDisc c cx cy r option) (disc cx cy r option).
Proof. apply Disc_draws. Qed.
Print Assumptions C115_disc_partial.
(** Missing: corners that do not leave room for two dots between them, see the refutations *)
Theorem C115_rframe_partial c a b w h r : box_ok c -> is_byte a -> is_byte b -> 0 <= r <= 76 -> 2 * r + 2 <= w <= 255 -> 2 * r + 2 <= h <= 255 -> draws c (DrawRFrame c a b w h r) (rframe a b w h r).
Proof. apply RFrame_draws. Qed.
Print Assumptions C115_rframe_partial.
Theorem C115_rbox_partial c a b w h r : box_ok c -> is_byte a -> is_byte b -> 0 <= r <= 76 -> 2 * r + 2 <= w <= 255 -> 2 * r + 3 <= h <= 255 -> draws c (DrawRBox c a b w h r) (rbox a b w h r).
Proof. apply RBox_draws. Qed.
Print Assumptions C115_rbox_partial.

(** What an arc is: a circle of radius [r] has a dot in each column, no further than half a dot outside, and the disc has every dot of the round plate *)
Theorem C115_arc r : 0 <= r ->
  (forall A, 0 <= A <= r -> exists B, arc r A B) /\ (forall A B, arc r A B -> 0 <= A <= r /\ 0 <= B <= r /\ r * r - r <= A * A + B * B <= r * r + r)
  /\ (forall A B, arc r A B -> arc r B A).
Proof.
  intros R. split; [|split].
  - intros A HA. destruct (solid r A 0 ltac:(lia) ltac:(lia) ltac:(nia) R) as (B & Ar & _). eauto.
  - intros A B Ar. destruct (arc_range r A B R Ar) as [HA HB]. pose proof (arc_outside r A B R Ar). split; [lia|]. split; [lia|]. split; [|lia].
    destruct Ar as [[L [_ N]]|[L [_ N]]]; nia.
  - unfold arc. tauto.
Qed.
Print Assumptions C115_arc.
Theorem C115_disc_solid cx cy r option A t sx sy : 0 <= r -> 0 <= A -> 0 <= t -> A * A + t * t <= r * r -> quarter option sx sy -> disc cx cy r option ((cx + sx * A) mod 256) ((cy + sy * t) mod 256).
Proof. intros R HA Ht S Q. destruct (solid r A t HA Ht S R) as (B & Ar & L). exists A, B, t, sx, sy. auto 8. Qed.
Print Assumptions C115_disc_solid.

(** Radius 77: the signed 8 bit numbers overflow; the dot in column 10 is one row too near to the centre *)
Theorem C115_radius_refuted : covers (draw_circle 100 100 77 8) 110 175 /\ ~ circle 100 100 77 8 110 175 /\ circle 100 100 77 8 110 176 /\ ~ covers (draw_circle 100 100 77 8) 110 176.
Proof.
  split; [|split; [|split]].
  - exists (Pixel 110 175). split; [vm_compute; repeat first [left; reflexivity | right]|cbn [on]; auto].
  - intros (A & B & sx & sy & Ar & Q & X & Y). apply q8 in Q as [-> ->]. pose proof (arc_range 77 A B ltac:(lia) Ar). rewrite Z.mod_small in X, Y by lia. assert (A = 10) by lia. assert (B = 75) by lia. subst.
    destruct Ar as [[_ N]|[? _]]; [|lia]. apply nearb_spec in N. vm_compute in N. discriminate.
  - exists 10, 76, 1, 1. split; [left; split; [lia|apply nearb_spec; reflexivity]|]. split; [apply q8; auto|]. split; reflexivity.
  - intros (m & I & O). assert (F : forallb (fun m => match m with Pixel x y => negb ((x =? 110) && (y =? 176)) | _ => false end) (draw_circle 100 100 77 8) = true) by (vm_compute; reflexivity).
    rewrite forallb_forall in F. specialize (F m I). destruct m; [|discriminate]. destruct O as [<- <-]. discriminate.
Qed.
Print Assumptions C115_radius_refuted.

(** One column less than the corners need: a row over the whole width *)
Theorem C115_rframe_refuted : let c := mkBox 0 0 101 7 in ~ rect 10 0 5 20 90 0 /\ covers (DrawRFrame c 10 0 5 20 2) 90 0.
Proof.
  cbn zeta. split; [unfold rect, off; vm_compute; intuition congruence|]. exists (Eight 85 0 0 255). split; [vm_compute; repeat first [left; reflexivity | right]|].
  exists 5. repeat split; lia.
Qed.
Print Assumptions C115_rframe_refuted.
Lemma has8_spec l : existsb (fun m => match m with Eight a b d q => (a =? 10) && (b =? 54) && (d =? 0) && (q =? 255) | Pixel _ _ => false end) l = true -> In (Eight 10 54 0 255) l.
Proof.
  intros H. apply existsb_exists in H as ([|a b d q] & I & E); [discriminate|]. apply andb_prop in E as [E E4]. apply andb_prop in E as [E E3]. apply andb_prop in E as [E1 E2].
  apply Z.eqb_eq in E1, E2, E3, E4. subst. exact I.
Qed.
(** A rounded box of exactly two corners' height fills the columns over the whole height *)
Theorem C115_rbox_refuted : let c := mkBox 0 48 101 55 in ~ rect 10 40 20 12 15 54 /\ covers (DrawRBox c 10 40 20 12 5) 15 54.
Proof.
  cbn zeta. split; [unfold rect, off; vm_compute; intuition congruence|]. exists (Eight 10 54 0 255). split; [|exists 5; repeat split; lia].
  apply has8_spec. vm_compute. reflexivity.
Qed.
Print Assumptions C115_rbox_refuted.

Example C115_circle_example : let c := mkBox 0 8 101 15 in box_ok c /\ inside c 50 15 /\ circle 50 20 5 15 50 15 /\ ~ circle 50 20 5 15 50 14 /\ circle 50 20 5 15 53 16 /\ ~ circle 50 20 5 8 50 15.
Proof.
  cbn zeta. split; [unfold box_ok; cbn; lia|]. split; [unfold inside; cbn; lia|]. split; [|split; [|split]].
  - exists 0, 5, 1, (-1). split; [left; split; [lia|apply nearb_spec; reflexivity]|]. split; [left; auto|]. split; reflexivity.
  - intros (A & B & sx & sy & Ar & Q & X & Y). destruct (quarter_signs _ _ _ Q) as [S1 S2]. pose proof (arc_range 5 A B ltac:(lia) Ar). destruct S2 as [-> | ->]; Z.div_mod_to_equations; lia.
  - exists 3, 4, 1, (-1). split; [left; split; [lia|apply nearb_spec; reflexivity]|]. split; [left; auto|]. split; reflexivity.
  - intros (A & B & sx & sy & Ar & Q & X & Y). apply q8 in Q as [-> ->]. pose proof (arc_range 5 A B ltac:(lia) Ar). Z.div_mod_to_equations; lia.
Qed.
Example C115_arc_example : arc 5 3 4 /\ arc 5 4 3 /\ arc 5 0 5 /\ ~ arc 5 3 3.
Proof.
  assert (N : forall a b, 0 <= a <= b -> nearb 5 a b = true -> arc 5 a b /\ arc 5 b a) by (intros a b L N; apply nearb_spec in N; unfold arc; auto).
  destruct (N 3 4 ltac:(lia) eq_refl). destruct (N 0 5 ltac:(lia) eq_refl). repeat split; auto. intros [[_ M]|[_ M]]; apply nearb_spec in M; discriminate.
Qed.
Example C115_disc_example : let c := mkBox 0 8 101 15 in box_ok c /\ inside c 51 15 /\ disc 50 12 3 8 51 14 /\ 0 <= 3 <= 76 /\ 1 * 1 + 2 * 2 <= 3 * 3 /\ quarter 8 1 1
  /\ DrawDisc c 50 12 3 8 <> [].
Proof.
  cbn zeta. split; [unfold box_ok; cbn; lia|]. split; [unfold inside; cbn; lia|]. split; [|repeat split; try lia; [apply q8; auto|vm_compute; discriminate]].
  exists 1, 3, 2, 1, 1. split; [left; split; [lia|apply nearb_spec; reflexivity]|]. split; [lia|]. split; [apply q8; auto|]. split; reflexivity.
Qed.
Example C115_round_example : let c := mkBox 0 8 101 15 in rframe 10 10 20 12 3 15 10 /\ ~ rframe 10 10 20 12 3 15 12 /\ rbox 10 10 20 12 3 15 12 /\ inside c 15 12 /\ 2 * 3 + 3 <= 12 <= 255
  /\ covers (DrawRFrame c 10 10 20 12 3) 15 10.
Proof.
  cbn zeta. assert (F1 : rframe 10 10 20 12 3 15 10) by (unfold rframe, rect, off; do 4 right; left; vm_compute; auto).
  split; [exact F1|]. split.
  { intros H. destruct (RFrame_draws (mkBox 0 8 101 15) 10 10 20 12 3) as [_ K]; try (unfold is_byte, box_ok; cbn; lia). apply K in H; [|unfold inside; cbn; lia].
    destruct H as (m & I & O). assert (G : forallb (fun m => match m with Pixel x y => negb ((x =? 15) && (y =? 12)) | Eight x y d q => if d =? 0 then negb (y =? 12) else negb (x =? 15) end) (DrawRFrame (mkBox 0 8 101 15) 10 10 20 12 3) = true) by (vm_compute; reflexivity).
    assert (G2 : forallb (fun m => match m with Pixel _ _ => true | Eight x y d q => (0 <=? x) && (x <? 256) && (0 <=? y) && (y <? 256) && ((d =? 0) || (d =? 1)) end) (DrawRFrame (mkBox 0 8 101 15) 10 10 20 12 3) = true) by (vm_compute; reflexivity).
    rewrite forallb_forall in G, G2. specialize (G m I). specialize (G2 m I). destruct m as [x y|x y d q]; [destruct O as [<- <-]; discriminate|].
    repeat (apply andb_prop in G2 as [G2 ?]). apply Z.leb_le in G2. rewrite Z.ltb_lt in *. rewrite Z.leb_le in *. destruct O as (k & K1 & _ & X & Y).
    destruct (Z.eqb_spec d 0) as [->|N0].
    - cbn [stepY] in Y. rewrite Z.mul_0_r, Z.add_0_r, Z.mod_small in Y by lia. subst y. discriminate.
    - destruct (Z.eqb_spec d 1) as [->|N1]; [|discriminate]. cbn [stepX] in X. rewrite Z.mul_0_r, Z.add_0_r, Z.mod_small in X by lia. subst x. discriminate. }
  split; [unfold rbox, rect, off; do 4 right; left; vm_compute; auto|]. split; [unfold inside; cbn; lia|]. split; [lia|].
  apply (RFrame_draws (mkBox 0 8 101 15) 10 10 20 12 3); try (unfold is_byte, box_ok, inside; cbn; lia). exact F1.
Qed.
