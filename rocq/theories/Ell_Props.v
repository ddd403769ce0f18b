(** C133: ellipses *)
From Verif Require Import Ell_Proofs.

(** The call ends, and shows in every page exactly the dots nearest to the ellipse, in the quarters asked for. Missing: radii that are 0 or too large for 16 bit numbers, see the refutations *)
Theorem C133_ellipse_partial n c cx cy rx ry option : box_ok c -> small rx ry -> is_byte option -> (Z.to_nat (Z.max rx ry) < n)%nat ->
  exists l, DrawEllipse n c cx cy rx ry option = Some l /\ draws c l (ellipse cx cy rx ry option).
Proof. apply Ellipse_draws. Qed.
Print Assumptions C133_ellipse_partial.
Theorem C133_filled_partial n c cx cy rx ry option : box_ok c -> is_byte cy -> small rx ry -> is_byte option -> (Z.to_nat (Z.max rx ry) < n)%nat ->
  exists l, DrawFilledEllipse n c cx cy rx ry option = Some l /\ draws c l (plate cx cy rx ry option).
Proof. apply Filled_draws. Qed.
Print Assumptions C133_filled_partial.

(** What a quarter is: it stays within the radii, has both ends, its dots are no more than half a column or row off, and it is the same with the axes exchanged *)
Theorem C133_arc rx ry : small rx ry ->
  (forall a b, ellarc rx ry a b -> 0 <= a <= rx /\ 0 <= b <= ry) /\ ellarc rx ry rx 0 /\ ellarc rx ry 0 ry
  /\ (forall a b, ellarc rx ry a b <-> ellarc ry rx b a)
  /\ (forall a b, ellarc rx ry a b -> - (ry * ry * (2 * a + 1)) < 2 * outside rx ry a b <= ry * ry * (2 * a - 1) \/ - (rx * rx * (2 * b + 1)) < 2 * outside rx ry a b <= rx * rx * (2 * b - 1)).
Proof.
  intros S. assert (E : forall rx ry, small rx ry -> steep rx ry rx 0).
  { clear. intros rx ry (X & Y & _). apply steep_at; auto. split; [lia|]. split; [nia|]. split; [lia|]. unfold two. nia. }
  assert (N : forall rx ry a b, small rx ry -> steep rx ry a b -> - (ry * ry * (2 * a + 1)) < 2 * outside rx ry a b <= ry * ry * (2 * a - 1)).
  { clear. intros rx ry a b (X & Y & _) H. apply steep_at in H; auto. destruct H as (_ & _ & _ & T1 & T2). unfold two in T1, T2. unfold outside. lia. }
  split; [intros a b; apply ellarc_range; exact S|]. split; [left; auto|]. split; [right; apply E, small_sym, S|]. split; [unfold ellarc; tauto|].
  intros a b [H|H]; [left; auto|right]. apply N in H; [|apply small_sym, S]. replace (outside rx ry a b) with (outside ry rx b a) by (unfold outside; ring). exact H.
Qed.
Print Assumptions C133_arc.

(** An ellipse of both radii 0 on the page: the call never returns *)
Theorem C133_endless_refuted : forall n option, DrawEllipse n (mkBox 0 8 101 15) 50 12 0 0 option = None /\ DrawFilledEllipse n (mkBox 0 8 101 15) 50 12 0 0 option = None.
Proof.
  intros n option. assert (H : half n 0 0 = None) by (apply loop_stuck).
  unfold DrawEllipse, DrawFilledEllipse. cbv zeta. replace (IsBBXIntersection _ _ _ _ _) with true by reflexivity. unfold draw_ellipse, draw_filled_ellipse, ellipseWith. rewrite H. cbn [negb]. auto.
Qed.
Print Assumptions C133_endless_refuted.

(** A narrow ellipse has gaps: with the radii 8 and 1 column 6 has no dot at all, filled or not, although its dot in the middle row is inside *)
Theorem C133_gap_refuted : small 8 1 /\ outside 8 1 6 0 < 0 /\ (forall b, ~ ellarc 8 1 6 b) /\ (forall y, ~ plate 50 12 8 1 15 56 y).
Proof.
  assert (S : small 8 1) by (unfold small; lia).
  assert (G : forall b, ~ ellarc 8 1 6 b).
  { intros b Ar. destruct (ellarc_range 8 1 6 b S Ar) as [_ Rb]. destruct Ar as [H|H]; apply steep_at in H; try lia; destruct H as (_ & K & _ & T1 & T2); unfold two in T1, T2; assert (b = 0 \/ b = 1) as [-> | ->] by lia; lia. }
  split; [exact S|]. split; [unfold outside; lia|]. split; [exact G|].
  intros y (A & B & t & sx & sy & Ar & _ & Q & X & _). destruct (ellarc_range 8 1 A B S Ar) as [RA _]. destruct (quarter_signs _ _ _ Q) as [[->| ->] _].
  - assert (A = 6) by (Z.div_mod_to_equations; lia). subst A. apply (G B Ar).
  - Z.div_mod_to_equations. lia.
Qed.
Print Assumptions C133_gap_refuted.

(** Radius 26 in both directions: the 16 bit numbers overflow, nothing at all is drawn *)
Theorem C133_radius_refuted : half 100 26 26 = Some [] /\ steep 26 26 26 0 /\ draw_ellipse 100 50 30 26 26 15 = Some [].
Proof.
  split; [vm_compute; reflexivity|]. split; [|vm_compute; reflexivity]. apply steep_at; try lia. split; [lia|]. split; [lia|]. split; [lia|]. unfold two. lia.
Qed.
Print Assumptions C133_radius_refuted.

Example C133_ellipse_example : let c := mkBox 0 8 101 15 in box_ok c /\ small 6 3 /\ (Z.to_nat (Z.max 6 3) < 7)%nat /\ inside c 56 12 /\ ellipse 50 12 6 3 15 56 12 /\ ~ ellipse 50 12 6 3 15 55 12
  /\ ellipse 50 12 6 3 15 50 15 /\ plate 50 12 6 3 15 50 13 /\ DrawEllipse 7 c 50 12 6 3 15 <> Some [].
Proof.
  assert (S : small 6 3) by (unfold small; lia). destruct (C133_arc 6 3 S) as (R & E1 & E2 & _ & _). cbn zeta. split; [unfold box_ok; cbn; lia|]. split; [exact S|]. split; [lia|]. split; [unfold inside; cbn; lia|].
  split; [exists 6, 0, 1, 1; repeat split; auto; unfold quarter; right; right; right; auto|]. split; [|split; [|split]].
  - intros (A & B & sx & sy & Ar & Q & X & Y). destruct (R A B Ar) as [RA RB]. assert (A = 5 /\ B = 0) as [-> ->].
    { destruct (quarter_signs _ _ _ Q) as [[->| ->] [->| ->]]; Z.div_mod_to_equations; lia. }
    destruct Ar as [H|H]; apply steep_at in H; try lia; destruct H as (_ & K & L & T1 & T2); unfold two in T1, T2; lia.
  - exists 0, 3, 1, 1. repeat split; auto. unfold quarter. right. right. right. auto.
  - exists 0, 3, 1, 1, 1. repeat split; auto; try lia. unfold quarter. right. right. right. auto.
  - vm_compute. discriminate.
Qed.
