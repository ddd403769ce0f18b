(** Rounded frames and boxes; a disc has no holes (C115). *)
From Verif Require Export U8gCircle_Proofs.

Lemma mod_u8 c k : (u8 c + k) mod 256 = (c + k) mod 256. Proof. unfold u8. apply Zplus_mod_idemp_l. Qed.
Lemma circle_u8 cx cy r o x y : circle (u8 cx) (u8 cy) r o x y <-> circle cx cy r o x y.
Proof. unfold circle. setoid_rewrite mod_u8. tauto. Qed.
Lemma disc_u8 cx cy r o x y : disc (u8 cx) (u8 cy) r o x y <-> disc cx cy r o x y.
Proof. unfold disc. setoid_rewrite mod_u8. tauto. Qed.
Lemma off_u8 x a : off x (u8 a) = off x a.
Proof. unfold off, u8. apply Zminus_mod_idemp_r. Qed.
Lemma rect_u8 a b w h x y : rect (u8 a) (u8 b) w h x y <-> rect a b w h x y.
Proof. unfold rect. rewrite !off_u8. tauto. Qed.
Lemma rect_u8b a b w h x y : rect a (u8 b) w h x y <-> rect a b w h x y.
Proof. unfold rect. rewrite !off_u8. tauto. Qed.
Lemma rect_u8a a b w h x y : rect (u8 a) b w h x y <-> rect a b w h x y.
Proof. unfold rect. rewrite !off_u8. tauto. Qed.
Lemma end_u8 x w r : u8 (u8 (u8 (x + w) - r) - 1) = u8 (x + w - r - 1).
Proof. unfold u8. rewrite Zminus_mod_idemp_l. rewrite <- (Zminus_mod_idemp_l (x + w - r)). rewrite <- (Zminus_mod_idemp_l ((x + w) mod 256 - r)), (Zminus_mod_idemp_l (x + w)).
  rewrite Zminus_mod_idemp_l. reflexivity. Qed.
Lemma len_u8 w r : 0 <= r -> 2 * r + 2 <= w <= 255 -> u8 (u8 (u8 (w - r) - r) - 2) = w - 2 * r - 2.
Proof. intros. rewrite (u8_small (w - r)) by lia. rewrite (u8_small (w - r - r)) by lia. rewrite u8_small by lia. ring. Qed.
Lemma next_u8 x r : u8 (u8 (x + r) + 1) = u8 (x + r + 1). Proof. apply u8_u8_add. Qed.
Lemma last_u8 x w : 1 <= w <= 255 -> u8 (x + u8 (w - 1)) = u8 (x + w - 1).
Proof. intros. rewrite (u8_small (w - 1)) by lia. unfold u8. f_equal. ring. Qed.

(** Where the quarters lie *)
Lemma in_start a r A w x : 0 <= A <= r -> 2 * r + 2 <= w <= 255 -> x = (a + r + -1 * A) mod 256 -> off x a < w.
Proof. intros HA W ->. unfold off. replace ((a + r + -1 * A) mod 256 - a) with ((a + (r - A)) mod 256 - a) by (do 2 f_equal; ring). Z.div_mod_to_equations. lia. Qed.
Lemma in_end a r A w x : 0 <= A <= r -> 2 * r + 2 <= w <= 255 -> x = (a + w - r - 1 + 1 * A) mod 256 -> off x a < w.
Proof. intros HA W ->. unfold off. replace (a + w - r - 1 + 1 * A) with (a + (w - r - 1 + A)) by ring. Z.div_mod_to_equations. lia. Qed.
Lemma in_mid a n k w x : 0 <= n -> 0 <= k -> n + k <= w -> w <= 255 -> off x (a + n) < k -> off x a < w.
Proof. intros N K L W. unfold off. intros H. Z.div_mod_to_equations. lia. Qed.
Ltac quarter1 := unfold quarter; split; [intros [(-> & -> & T)|[(-> & -> & T)|[(-> & -> & T)|(-> & -> & T)]]]; try discriminate T; auto|intros [-> ->]; auto 8].
Lemma q2 sx sy : quarter 2 sx sy <-> sx = -1 /\ sy = -1. Proof. quarter1. Qed.
Lemma q1 sx sy : quarter 1 sx sy <-> sx = 1 /\ sy = -1. Proof. quarter1. Qed.
Lemma q4 sx sy : quarter 4 sx sy <-> sx = -1 /\ sy = 1. Proof. quarter1. Qed.
Lemma q8 sx sy : quarter 8 sx sy <-> sx = 1 /\ sy = 1. Proof. quarter1. Qed.

Lemma rframe_rect a b w h r x y : 0 <= r -> 2 * r + 2 <= w <= 255 -> 2 * r + 2 <= h <= 255 -> rframe a b w h r x y -> rect a b w h x y.
Proof.
  intros R W H [C|[C|[C|[C|[C|[C|[C|C]]]]]]].
  1,2,3,4: destruct C as (A & B & sx & sy & Ar & Q & X & Y); destruct (arc_range r A B R Ar); first [apply q2 in Q as [-> ->]|apply q1 in Q as [-> ->]|apply q4 in Q as [-> ->]|apply q8 in Q as [-> ->]];
    split; first [eapply in_start; [| |eassumption]; lia|eapply in_end; [| |eassumption]; lia].
  all: destruct C as [C1 C2]; split.
  - replace (a + r + 1) with (a + (r + 1)) in C1 by ring. apply (in_mid a (r + 1) (w - 2 * r - 2)); auto; lia.
  - lia.
  - replace (a + r + 1) with (a + (r + 1)) in C1 by ring. apply (in_mid a (r + 1) (w - 2 * r - 2)); auto; lia.
  - replace (b + h - 1) with (b + (h - 1)) in C2 by ring. apply (in_mid b (h - 1) 1); auto; lia.
  - lia.
  - replace (b + r + 1) with (b + (r + 1)) in C2 by ring. apply (in_mid b (r + 1) (h - 2 * r - 2)); auto; lia.
  - replace (a + w - 1) with (a + (w - 1)) in C1 by ring. apply (in_mid a (w - 1) 1); auto; lia.
  - replace (b + r + 1) with (b + (r + 1)) in C2 by ring. apply (in_mid b (r + 1) (h - 2 * r - 2)); auto; lia.
Qed.

Lemma RFrame_draws c a b w h r : box_ok c -> is_byte a -> is_byte b -> 0 <= r <= 76 -> 2 * r + 2 <= w <= 255 -> 2 * r + 2 <= h <= 255 -> draws c (DrawRFrame c a b w h r) (rframe a b w h r).
Proof.
  intros C A B R W H. unfold DrawRFrame. cbn zeta. apply draws_clipped; auto; try lia; [intros x y; apply rframe_rect; auto; lia|].
  rewrite !end_u8, !len_u8, !next_u8, !last_u8 by lia.
  set (xr := a + w - r - 1). set (yl := b + h - r - 1).
  assert (Wb : is_byte (w - 2 * r - 2)) by (unfold is_byte; lia). assert (Hb : is_byte (h - 2 * r - 2)) by (unfold is_byte; lia).
  destruct (draw_circle_spec (u8 (a + r)) (u8 (b + r)) r DRAW_UPPER_LEFT R ltac:(vm_compute; split; [discriminate|reflexivity])) as [F1 K1].
  destruct (draw_circle_spec (u8 xr) (u8 (b + r)) r DRAW_UPPER_RIGHT R ltac:(vm_compute; split; [discriminate|reflexivity])) as [F2 K2].
  destruct (draw_circle_spec (u8 (a + r)) (u8 yl) r DRAW_LOWER_LEFT R ltac:(vm_compute; split; [discriminate|reflexivity])) as [F3 K3].
  destruct (draw_circle_spec (u8 xr) (u8 yl) r DRAW_LOWER_RIGHT R ltac:(vm_compute; split; [discriminate|reflexivity])) as [F4 K4].
  destruct (draw_hline_spec (u8 (a + r + 1)) b (w - 2 * r - 2) (u8_byte _) B Wb) as [F5 K5].
  destruct (draw_hline_spec (u8 (a + r + 1)) (u8 (b + h - 1)) (w - 2 * r - 2) (u8_byte _) (u8_byte _) Wb) as [F6 K6].
  destruct (draw_vline_spec a (u8 (b + r + 1)) (h - 2 * r - 2) A (u8_byte _) Hb) as [F7 K7].
  destruct (draw_vline_spec (u8 (a + w - 1)) (u8 (b + r + 1)) (h - 2 * r - 2) (u8_byte _) (u8_byte _) Hb) as [F8 K8].
  split; [repeat first [assumption|apply Forall_app; split]|]. intros x y I. destruct (inside_bytes c x y C I) as [X Y].
  rewrite !covers_app, K1, K2, K3, K4, K5, K6, K7, K8 by auto. rewrite !circle_u8. unfold rframe. fold xr yl.
  change DRAW_UPPER_LEFT with 2. change DRAW_UPPER_RIGHT with 1. change DRAW_LOWER_LEFT with 4. change DRAW_LOWER_RIGHT with 8.
  rewrite <- (off_lt1 y b), <- (off_lt1 y (u8 (b + h - 1))), <- (off_lt1 x a), <- (off_lt1 x (u8 (a + w - 1))) by (auto; apply u8_byte). rewrite !off_u8. unfold rect. tauto.
Qed.

Lemma rbox_rect a b w h r x y : 0 <= r -> 2 * r + 2 <= w <= 255 -> 2 * r + 2 <= h <= 255 -> rbox a b w h r x y -> rect a b w h x y.
Proof.
  intros R W H [C|[C|[C|[C|[C|[C|C]]]]]].
  1,2,3,4: destruct C as (A & B & t & sx & sy & Ar & T & Q & X & Y); destruct (arc_range r A B R Ar); assert (0 <= t <= r) by lia;
    first [apply q2 in Q as [-> ->]|apply q1 in Q as [-> ->]|apply q4 in Q as [-> ->]|apply q8 in Q as [-> ->]]; split; first [eapply in_start; [| |eassumption]; lia|eapply in_end; [| |eassumption]; lia].
  all: destruct C as [C1 C2]; split.
  - replace (a + r + 1) with (a + (r + 1)) in C1 by ring. apply (in_mid a (r + 1) (w - 2 * r - 2)); auto; lia.
  - lia.
  - replace (a + r + 1) with (a + (r + 1)) in C1 by ring. apply (in_mid a (r + 1) (w - 2 * r - 2)); auto; lia.
  - replace (b + h - r - 1) with (b + (h - r - 1)) in C2 by ring. apply (in_mid b (h - r - 1) (r + 1)); auto; lia.
  - exact C1.
  - replace (b + r + 1) with (b + (r + 1)) in C2 by ring. apply (in_mid b (r + 1) (h - 2 * r - 2)); auto; lia.
Qed.

Lemma RBox_draws c a b w h r : box_ok c -> is_byte a -> is_byte b -> 0 <= r <= 76 -> 2 * r + 2 <= w <= 255 -> 2 * r + 3 <= h <= 255 -> draws c (DrawRBox c a b w h r) (rbox a b w h r).
Proof.
  intros C A B R W H. unfold DrawRBox. cbn zeta. apply draws_clipped; auto; try lia; [intros x y; apply rbox_rect; auto; lia|].
  rewrite !end_u8, !len_u8, !next_u8 by lia. rewrite (u8_small (r + 1)) by lia.
  set (xr := a + w - r - 1). set (yl := b + h - r - 1).
  assert (Wb : is_byte (w - 2 * r - 2)) by (unfold is_byte; lia).
  destruct (draw_disc_spec c (u8 (a + r)) (u8 (b + r)) r DRAW_UPPER_LEFT C (u8_byte _) R ltac:(vm_compute; split; [discriminate|reflexivity])) as [F1 K1].
  destruct (draw_disc_spec c (u8 xr) (u8 (b + r)) r DRAW_UPPER_RIGHT C (u8_byte _) R ltac:(vm_compute; split; [discriminate|reflexivity])) as [F2 K2].
  destruct (draw_disc_spec c (u8 (a + r)) (u8 yl) r DRAW_LOWER_LEFT C (u8_byte _) R ltac:(vm_compute; split; [discriminate|reflexivity])) as [F3 K3].
  destruct (draw_disc_spec c (u8 xr) (u8 yl) r DRAW_LOWER_RIGHT C (u8_byte _) R ltac:(vm_compute; split; [discriminate|reflexivity])) as [F4 K4].
  destruct (draw_box_spec (u8 (a + r + 1)) b (w - 2 * r - 2) (r + 1) (u8_byte _) B Wb ltac:(lia)) as [F5 K5].
  destruct (draw_box_spec (u8 (a + r + 1)) (u8 yl) (w - 2 * r - 2) (r + 1) (u8_byte _) (u8_byte _) Wb ltac:(lia)) as [F6 K6].
  destruct (draw_box_spec a (u8 (b + r + 1)) w (h - 2 * r - 2) A (u8_byte _) ltac:(unfold is_byte; lia) ltac:(lia)) as [F7 K7].
  split; [repeat first [assumption|apply Forall_app; split]|]. intros x y I. destruct (inside_bytes c x y C I) as [X Y].
  rewrite !covers_app, K1, K2, K3, K4, K5, K6, K7 by auto. rewrite !disc_u8, ?rect_u8, ?rect_u8a, ?rect_u8b. unfold rbox. fold xr yl.
  change DRAW_UPPER_LEFT with 2. change DRAW_UPPER_RIGHT with 1. change DRAW_LOWER_LEFT with 4. change DRAW_LOWER_RIGHT with 8. tauto.
Qed.

(** ** The arc *)
Lemma near_unique r a b b' : 0 <= b -> 0 <= b' -> near r a b -> near r a b' -> b = b'.
Proof. intros B B' [[->|L] U] [[->|L'] U']; auto; nia. Qed.
Lemma near_exists r a : 0 <= a <= r -> exists b, 0 <= b /\ near r a b.
Proof.
  intros A. set (s := r * r - a * a). assert (S0 : 0 <= s) by (unfold s; nia). pose proof (Z.sqrt_spec s S0) as [Q1 Q2]. set (q := Z.sqrt s) in *. assert (Q0 : 0 <= q) by apply Z.sqrt_nonneg.
  unfold near. fold s. destruct (Z_lt_le_dec (4 * s) ((2 * q + 1) * (2 * q + 1))) as [H|H].
  - exists q. split; [lia|]. split; [|exact H]. destruct (Z.eq_dec q 0); [left; auto|right; nia].
  - exists (q + 1). split; [lia|]. split; [right|]; nia.
Qed.
(** Every point of the quarter of the round plate lies in the disc *)
Lemma solid r A t : 0 <= A -> 0 <= t -> A * A + t * t <= r * r -> 0 <= r -> exists B, arc r A B /\ t <= B.
Proof.
  intros HA Ht HS R.
  assert (up : forall a v b, 0 <= a -> 0 <= v -> 0 <= b -> near r a b -> a * a + v * v <= r * r -> v <= b).
  { intros a v b Ha Hv Hb [_ U] S. nia. }
  destruct (Z_le_gt_dec A t) as [L|G].
  - destruct (near_exists r A ltac:(nia)) as (b & Hb & N). pose proof (up A t b HA Ht Hb N HS). exists b. split; [|lia]. left. split; [lia|exact N].
  - (* the row t: walk towards the middle until the arc is in column A *)
    assert (W : forall n a, Z.of_nat n = A - a -> 0 <= a -> t <= a <= A -> forall b, 0 <= b -> near r a b -> A <= b -> exists B, arc r A B /\ t <= B).
    { induction n as [|n IH]; intros a En Ha Hta b Hb N LB.
      - assert (a = A) by lia. subst a. exists b. split; [|lia]. left. split; [lia|exact N].
      - destruct (Z.eq_dec b A) as [->|NE]; [exists a; split; [|lia]; right; split; [lia|exact N]|].
        assert (b <= r) by (apply (near_le r a b); auto).
        destruct (near_exists r (a + 1) ltac:(lia)) as (b' & Hb' & N'). apply (IH (a + 1) ltac:(lia) ltac:(lia) ltac:(lia) b' Hb' N').
        destruct N as [[->|N1] N2]; [lia|]. destruct N' as [_ N2']. assert (b - 1 <= b') by nia. lia. }
    destruct (near_exists r t ltac:(nia)) as (b & Hb & N). apply (W (Z.to_nat (A - t)) t ltac:(lia) Ht ltac:(lia) b Hb N). apply (up t A b); auto. lia.
Qed.
(** and nothing that is more than half a dot outside *)
Lemma arc_outside r A B : 0 <= r -> arc r A B -> A * A + B * B <= r * r + r.
Proof. intros R Ar. destruct (arc_range r A B R Ar). destruct Ar as [[L [[->|N] _]]|[L [[->|N] _]]]; nia. Qed.
