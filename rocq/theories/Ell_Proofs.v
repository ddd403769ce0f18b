(** Ellipses (C133). *)
From Verif Require Export Ell_Spec U8gRound_Proofs.
From Coq Require Import Psatz.

Lemma i16_small v : -32768 <= v <= 32767 -> i16 v = v.
Proof. intros H. unfold i16, u16. cbv zeta. destruct (Z.ltb_spec (v mod 65536) 32768); Z.div_mod_to_equations; lia. Qed.

Lemma le_mul a k : 1 <= a -> 1 <= k -> a <= a * k. Proof. nia. Qed.
Lemma zero_mul a b y : 1 <= a -> 0 <= y -> a * y <= b * 0 -> y = 0. Proof. nia. Qed.

Section Half.
  Context (rx ry : Z).
  Let A := rx * rx.
  Let B := ry * ry.
  (** The sum of [outside] for a column and the one next to it inwards *)
  Definition two (a b : Z) : Z := B * (2 * (a * a) - 2 * a + 1) + 2 * (A * (b * b)) - 2 * (A * B).
  Definition out (a b : Z) : Z := B * (a * a) + A * (b * b) - A * B.
  Lemma two_out a b : two a b = out a b + out (a - 1) b. Proof. unfold two, out. ring. Qed.
  Context (Hx : 1 <= rx) (Hy : 1 <= ry).
  Lemma A_pos : 1 <= A. Proof. unfold A. nia. Qed.
  Lemma B_pos : 1 <= B. Proof. unfold B. nia. Qed.
  Lemma two_mono a b a' b' : 1 <= a <= a' -> 0 <= b <= b' -> two a b <= two a' b'.
  Proof.
    intros Ha Hb. unfold two. pose proof A_pos as PA. pose proof B_pos as PB.
    assert (E1 : 2 * (a * a) - 2 * a + 1 <= 2 * (a' * a') - 2 * a' + 1) by nia. assert (E2 : b * b <= b' * b') by nia.
    apply (Z.mul_le_mono_nonneg_l _ _ B) in E1; [|lia]. apply (Z.mul_le_mono_nonneg_l _ _ A) in E2; [|lia]. lia.
  Qed.
  Lemma out_lt a a' b : 0 <= a < a' -> out a b < out a' b.
  Proof. intros Ha. unfold out. pose proof B_pos as PB. assert (E : a * a < a' * a') by nia. apply (Z.mul_lt_mono_pos_l B) in E; lia. Qed.
  Lemma out_le a a' b : 0 <= a <= a' -> out a b <= out a' b.
  Proof. intros Ha. destruct (Z.eq_dec a a') as [->|]; [lia|]. pose proof (out_lt a a' b). lia. Qed.
  Definition at_ (a b : Z) : Prop := 1 <= a /\ two a b <= 0 < two (a + 1) b.
  Lemma steep_at a b : steep rx ry a b <-> 0 <= b /\ A * b <= B * a /\ at_ a b.
  Proof.
    unfold steep. change (rx * rx) with A. change (ry * ry) with B. split.
    - intros (Pa & Pb & S & N). split; [exact Pb|]. split; [exact S|].
      assert (N' : forall c, 0 <= c -> Z.abs (out a b) <= Z.abs (out c b) /\ (a < c -> Z.abs (out a b) < Z.abs (out c b))) by (intros c Hc; apply (N c Hc)).
      pose proof A_pos as PA. pose proof B_pos as PB.
      assert (L : 1 <= a).
      { destruct (Z.eq_dec a 0) as [->|]; [|lia]. assert (b = 0) by nia. subst b. destruct (N' rx ltac:(lia)) as [M _]. exfalso. revert M. unfold out.
        replace (B * (rx * rx) + A * (0 * 0) - A * B) with 0 by (unfold A; ring). replace (B * (0 * 0) + A * (0 * 0) - A * B) with (- (A * B)) by ring. nia. }
      split; [exact L|]. destruct (N' (a - 1) ltac:(lia)) as [M1 _]. destruct (N' (a + 1) ltac:(lia)) as [_ M2]. specialize (M2 ltac:(lia)).
      rewrite !two_out. replace (a + 1 - 1) with a by ring. pose proof (out_lt (a - 1) a b ltac:(lia)). pose proof (out_lt a (a + 1) b ltac:(lia)). lia.
    - intros (Pb & S & L & T1 & T2). split; [lia|]. split; [lia|]. split; [exact S|]. rewrite two_out in T1, T2. replace (a + 1 - 1) with a in T2 by ring.
      assert (N' : forall c, 0 <= c -> Z.abs (out a b) <= Z.abs (out c b) /\ (a < c -> Z.abs (out a b) < Z.abs (out c b))); [|exact N'].
      intros c Hc. destruct (Z.lt_trichotomy c a) as [H|[->|H]].
      + pose proof (out_le c (a - 1) b ltac:(lia)). pose proof (out_lt (a - 1) a b ltac:(lia)). lia.
      + lia.
      + pose proof (out_le (a + 1) c b ltac:(lia)). pose proof (out_lt a (a + 1) b ltac:(lia)). lia.
  Qed.
  Lemma at_below a b : 0 <= b -> at_ a b -> b < ry.
  Proof.
    intros Hb (L & T & _). unfold two in T. pose proof A_pos as PA. pose proof B_pos as PB. assert (1 <= 2 * (a * a) - 2 * a + 1) by nia.
    assert (E : B <= B * (2 * (a * a) - 2 * a + 1)) by nia. assert (K : A * (b * b) < A * B) by lia. apply Z.mul_lt_mono_pos_l in K; [|lia]. unfold B in K. nia.
  Qed.
  Lemma at_within a b : 0 <= b -> at_ a b -> a <= rx.
  Proof.
    intros Hb (L & T & _). pose proof A_pos as PA. pose proof B_pos as PB. destruct (Z_le_gt_dec a rx) as [|G]; [assumption|]. exfalso.
    pose proof (two_mono (rx + 1) 0 a b ltac:(lia) ltac:(lia)) as M. assert (0 < two (rx + 1) 0); [|lia]. unfold two, A. nia.
  Qed.
  Context (F1 : 3 * (B * rx) + 2 * A <= 32767) (F2 : 3 * (A * ry) + 2 * B <= 32767).
  Lemma rx_le : rx <= 104. Proof. unfold A in *. nia. Qed.
  Lemma ry_le : ry <= 104. Proof. unfold B in *. nia. Qed.

  Lemma loop_spec n : forall x y, 0 <= y <= ry -> 0 <= x <= rx -> (y = 0 -> x = rx) -> (A * y <= B * x -> two x y <= 0) -> 0 < two (x + 1) y -> (Z.to_nat (ry - y) < n)%nat ->
    exists l, ellLoop n (2 * A) (2 * B) x y (B * (1 - 2 * x)) (A * (2 * y + 1)) (out x y) (2 * (B * x)) (2 * (A * y)) = Some l
      /\ forall a b, In (a, b) l <-> y <= b /\ A * b <= B * a /\ at_ a b.
  Proof.
    pose proof A_pos as PA. pose proof B_pos as PB. pose proof rx_le as LX. pose proof ry_le as LY.
    induction n as [|n IH]; intros x y Y X Y0 T1 T2 N; [lia|]. cbn [ellLoop]. destruct (Z.leb_spec (2 * (A * y)) (2 * (B * x))) as [C|C].
    - specialize (T1 ltac:(lia)).
      assert (X1 : 1 <= x). { destruct (Z.eq_dec x 0) as [->|]; [|lia]. assert (y = 0) by (apply (zero_mul A B); lia). specialize (Y0 ltac:(assumption)). lia. }
      assert (At : at_ x y) by (split; auto). pose proof (at_below x y ltac:(lia) At) as LB.
      assert (B1 : B <= B * x) by (apply le_mul; lia). assert (Bx : B * x <= B * rx) by (apply Z.mul_le_mono_nonneg_l; lia). assert (Ay : A <= A * ry) by (apply le_mul; lia).
      assert (U : 2 * out x y <= B * (2 * x - 1)). { revert T1. unfold two, out. lia. }
      assert (V : - (B * (2 * x + 1)) < 2 * out x y). { revert T2. unfold two, out. lia. }
      assert (AA : 3 * A + 2 * (A * y) <= 32767). { destruct (Z.eq_dec y 0) as [->|]; [lia|]. assert (A <= A * y) by (apply le_mul; lia). lia. }
      rewrite (u8_small (y + 1)) by lia.
      replace (2 * (A * y) + 2 * A) with (2 * (A * (y + 1))) by ring. rewrite (i16_small (2 * (A * (y + 1)))) by lia.
      replace (out x y + A * (2 * y + 1)) with (out x (y + 1)) by (unfold out; ring).
      assert (W : out x (y + 1) = out x y + 2 * (A * y) + A) by (unfold out; ring). rewrite (i16_small (out x (y + 1))) by lia.
      replace (A * (2 * y + 1) + 2 * A) with (A * (2 * (y + 1) + 1)) by ring. rewrite (i16_small (A * (2 * (y + 1) + 1))) by lia.
      replace (2 * out x (y + 1) + B * (1 - 2 * x)) with (two x (y + 1)) by (unfold two, out; ring).
      destruct (Z.ltb_spec 0 (two x (y + 1))) as [D|D].
      + rewrite (u8_small (x - 1)) by lia. replace (2 * (B * x) - 2 * B) with (2 * (B * (x - 1))) by ring. rewrite (i16_small (2 * (B * (x - 1)))) by lia.
        replace (out x (y + 1) + B * (1 - 2 * x)) with (out (x - 1) (y + 1)) by (unfold out; ring).
        assert (W2 : out (x - 1) (y + 1) = out x (y + 1) + B - 2 * (B * x)) by (unfold out; ring). rewrite two_out in D. rewrite (i16_small (out (x - 1) (y + 1))) by lia.
        replace (B * (1 - 2 * x) + 2 * B) with (B * (1 - 2 * (x - 1))) by ring. rewrite (i16_small (B * (1 - 2 * (x - 1)))) by lia.
        destruct (IH (x - 1) (y + 1)) as (l & -> & M); try lia.
        * intros K. revert T1. unfold two. lia.
        * replace (x - 1 + 1) with x by ring. rewrite two_out. exact D.
        * exists ((x, y) :: l). split; [reflexivity|]. intros a b. cbn [In]. rewrite M. split.
          { intros [[= <- <-]|(K1 & K2 & K3)]; [split; [lia|split; [lia|exact At]]|]. split; [lia|split; auto]. }
          intros (K1 & K2 & K3). destruct (Z.eq_dec b y) as [->|Q]; [|right; split; [lia|auto]]. left. f_equal. destruct K3 as (L & G1 & G2).
          destruct (Z.lt_trichotomy a x) as [H|[->|H]]; [|reflexivity|].
          { pose proof (two_mono (a + 1) y x y ltac:(lia) ltac:(lia)). lia. }
          { pose proof (two_mono (x + 1) y a y ltac:(lia) ltac:(lia)). lia. }
      + destruct (IH x (y + 1)) as (l & -> & M); try lia.
        * pose proof (two_mono (x + 1) y (x + 1) (y + 1) ltac:(lia) ltac:(lia)). lia.
        * exists ((x, y) :: l). split; [reflexivity|]. intros a b. cbn [In]. rewrite M. split.
          { intros [[= <- <-]|(K1 & K2 & K3)]; [split; [lia|split; [lia|exact At]]|]. split; [lia|split; auto]. }
          intros (K1 & K2 & K3). destruct (Z.eq_dec b y) as [->|Q]; [|right; split; [lia|auto]]. left. f_equal. destruct K3 as (L & G1 & G2).
          destruct (Z.lt_trichotomy a x) as [H|[->|H]]; [|reflexivity|].
          { pose proof (two_mono (a + 1) y x y ltac:(lia) ltac:(lia)). lia. }
          { pose proof (two_mono (x + 1) y a y ltac:(lia) ltac:(lia)). lia. }
    - exists []. split; [reflexivity|]. intros a b. split; [intros []|]. intros (K1 & K2 & L & G1 & G2).
      assert (a <= x). { destruct (Z_le_gt_dec a x); [assumption|]. exfalso. pose proof (two_mono (x + 1) y a b ltac:(lia) ltac:(lia)). lia. }
      assert (B * a <= B * x) by (apply Z.mul_le_mono_nonneg_l; lia). assert (A * y <= A * b) by (apply Z.mul_le_mono_nonneg_l; lia). lia.
  Qed.

  Lemma half_spec n : (Z.to_nat ry < n)%nat -> exists l, half n rx ry = Some l /\ forall a b, In (a, b) l <-> steep rx ry a b.
  Proof.
    pose proof A_pos as PA. pose proof B_pos as PB. pose proof rx_le as LX. pose proof ry_le as LY.
    assert (Ay : A <= A * ry) by (apply le_mul; lia). assert (Bx : B <= B * rx) by (apply le_mul; lia).
    intros N. unfold half. rewrite (i16_small rx), (i16_small ry) by lia. fold A. fold B. rewrite (i16_small A), (i16_small B) by lia. rewrite (i16_small (A * 2)), (i16_small (B * 2)) by lia.
    rewrite (i16_small (B * 2 * rx)) by lia. rewrite (i16_small (1 - rx)) by lia. rewrite (i16_small (1 - rx - rx)) by lia.
    assert (M1 : ry <= B) by (unfold B; nia). assert (M2 : ry * rx <= B * rx) by (apply Z.mul_le_mono_nonneg_r; lia).
    rewrite (i16_small ((1 - rx - rx) * ry)) by nia. replace ((1 - rx - rx) * ry * ry) with (B * (1 - 2 * rx)) by (unfold B; ring). rewrite (i16_small (B * (1 - 2 * rx))) by lia.
    destruct (loop_spec n rx 0) as (l & E & M); try lia.
    - intros _. unfold two. fold A. nia.
    - unfold two. fold A. nia.
    - exists l. split.
      + rewrite <- E. f_equal; unfold out; fold A; ring.
      + intros a b. rewrite M, steep_at. tauto.
  Qed.
End Half.

Lemma small_sym rx ry : small rx ry -> small ry rx. Proof. unfold small. tauto. Qed.
Lemma small_le rx ry : small rx ry -> 1 <= rx <= 104 /\ 1 <= ry <= 104.
Proof. intros (X & Y & F1 & F2). pose proof (rx_le rx ry Y F2). pose proof (ry_le rx ry X F1). lia. Qed.
Lemma steep_range rx ry a b : small rx ry -> steep rx ry a b -> 1 <= a <= rx /\ 0 <= b < ry.
Proof.
  intros (X & Y & _ & _) S. apply steep_at in S; auto. destruct S as (Hb & _ & At). pose proof (at_below rx ry X Y a b Hb At). pose proof (at_within rx ry X Y a b Hb At). destruct At. lia.
Qed.
Lemma ellarc_range rx ry a b : small rx ry -> ellarc rx ry a b -> 0 <= a <= rx /\ 0 <= b <= ry.
Proof. intros S [H|H]; [apply steep_range in H; auto; lia|]. apply steep_range in H; [lia|apply small_sym; auto]. Qed.

Lemma ellipse_union n section (Q : Z -> Z -> Z -> Z -> Prop) rx ry (D : Z -> Z -> Prop) : small rx ry -> (Z.to_nat (Z.max rx ry) < n)%nat ->
  (forall a b, 0 <= a <= rx -> 0 <= b <= ry -> Forall msg_ok (section a b)) ->
  (forall a b x y, 0 <= a <= rx -> 0 <= b <= ry -> D x y -> covers (section a b) x y <-> Q a b x y) ->
  exists l, ellipseWith n section rx ry = Some l /\ Forall msg_ok l /\ forall x y, D x y -> covers l x y <-> exists A B, ellarc rx ry A B /\ Q A B x y.
Proof.
  intros S N F H. destruct S as (X & Y & F1 & F2). assert (S : small rx ry) by (repeat split; auto).
  destruct (half_spec rx ry X Y F1 F2 n ltac:(lia)) as (l1 & E1 & M1). destruct (half_spec ry rx Y X F2 F1 n ltac:(lia)) as (l2 & E2 & M2).
  unfold ellipseWith. rewrite E1, E2. eexists. split; [reflexivity|]. split.
  - apply Forall_app. split; apply Forall_forall; intros m I; apply in_flat_map in I as ([a b] & I1 & I2); cbn [fst snd] in I2.
    + apply M1 in I1. destruct (ellarc_range rx ry a b S (or_introl I1)) as [Ra Rb]. specialize (F a b Ra Rb). rewrite Forall_forall in F. auto.
    + apply M2 in I1. destruct (ellarc_range rx ry b a S (or_intror I1)) as [Ra Rb]. specialize (F b a Ra Rb). rewrite Forall_forall in F. auto.
  - intros x y Dx. rewrite covers_app. split.
    + intros [(m & I & O)|(m & I & O)]; apply in_flat_map in I as ([a b] & I1 & I2); cbn [fst snd] in I2.
      * apply M1 in I1. destruct (ellarc_range rx ry a b S (or_introl I1)) as [Ra Rb]. exists a, b. split; [left; exact I1|]. apply (H a b x y Ra Rb Dx). exists m. auto.
      * apply M2 in I1. destruct (ellarc_range rx ry b a S (or_intror I1)) as [Ra Rb]. exists b, a. split; [right; exact I1|]. apply (H b a x y Ra Rb Dx). exists m. auto.
    + intros (a & b & Ar & Qx). destruct (ellarc_range rx ry a b S Ar) as [Ra Rb]. apply (H a b x y Ra Rb Dx) in Qx. destruct Qx as (m & I & O).
      destruct Ar as [Ar|Ar]; [left; apply M1 in Ar|right; apply M2 in Ar]; exists m; (split; [|exact O]); apply in_flat_map; eexists; (split; [exact Ar|exact I]).
Qed.

Lemma covers1 m x y : covers [m] x y <-> on m x y. Proof. rewrite covers_cons, covers_nil. tauto. Qed.
Lemma ellipse_section_spec a b cx cy option : is_byte option -> Forall msg_ok (ellipse_section a b cx cy option) /\ forall x y,
  covers (ellipse_section a b cx cy option) x y <-> exists sx sy, quarter option sx sy /\ (x = (cx + sx * a) mod 256 /\ y = (cy + sy * b) mod 256).
Proof.
  intros O. unfold ellipse_section. destruct (option_bits option O) as (-> & -> & -> & ->). split.
  - repeat (apply Forall_app; split); apply Forall_if; repeat (constructor; [split; apply u8_byte|]); constructor.
  - intros x y. rewrite !covers_app, !covers_if, !covers1. cbn [on]. rewrite (quarters option (fun sx sy => x = (cx + sx * a) mod 256 /\ y = (cy + sy * b) mod 256)). rewrite !plus_u8, !minus_u8. tauto.
Qed.

Lemma col_up c cx cy A B s x y : box_ok c -> inside c x y -> is_byte cy -> 0 <= B <= 126 ->
  covers (DrawVLine c (u8 (cx + s * A)) (u8 (cy - B)) (u8 (B + 1))) x y <-> exists t, 0 <= t <= B /\ x = (cx + s * A) mod 256 /\ y = (cy + -1 * t) mod 256.
Proof.
  intros C I Y HB. destruct (inside_bytes c x y C I) as [X' Y'].
  assert (W : is_byte (u8 (B + 1))) by apply u8_byte. destruct (VLine_draws c (u8 (cx + s * A)) (u8 (cy - B)) (u8 (B + 1)) C (u8_byte _) (u8_byte _) W) as [_ K]. rewrite K by exact I.
  unfold rect. rewrite (u8_small (B + 1)) by lia. rewrite (off_lt1 x) by (auto; apply u8_byte). unfold is_byte in *. split.
  - intros [-> L]. exists (B - off y (u8 (cy - B))). pose proof (off_range y (u8 (cy - B))). split; [lia|]. split; [reflexivity|]. unfold off, u8 in *. Z.div_mod_to_equations. lia.
  - intros (t & T & -> & ->). split; [reflexivity|]. unfold off, u8. Z.div_mod_to_equations. lia.
Qed.
Lemma col_down c cx cy A B s x y : box_ok c -> inside c x y -> is_byte cy -> 0 <= B <= 126 ->
  covers (DrawVLine c (u8 (cx + s * A)) cy (u8 (B + 1))) x y <-> exists t, 0 <= t <= B /\ x = (cx + s * A) mod 256 /\ y = (cy + 1 * t) mod 256.
Proof.
  intros C I Y HB. destruct (inside_bytes c x y C I) as [X' Y'].
  assert (W : is_byte (u8 (B + 1))) by apply u8_byte. destruct (VLine_draws c (u8 (cx + s * A)) cy (u8 (B + 1)) C (u8_byte _) Y W) as [_ K]. rewrite K by exact I.
  unfold rect. rewrite (u8_small (B + 1)) by lia. rewrite (off_lt1 x) by (auto; apply u8_byte). unfold is_byte in *. split.
  - intros [-> L]. exists (off y cy). pose proof (off_range y cy). split; [lia|]. split; [reflexivity|]. unfold off in *. Z.div_mod_to_equations. lia.
  - intros (t & T & -> & ->). split; [reflexivity|]. unfold off. Z.div_mod_to_equations. lia.
Qed.
Lemma filled_section_spec c a b cx cy option : box_ok c -> is_byte option -> is_byte cy -> 0 <= b <= 126 ->
  Forall msg_ok (filled_section c a b cx cy option) /\ forall x y, inside c x y -> covers (filled_section c a b cx cy option) x y <-> col cx cy option a b x y.
Proof.
  intros C O Y B. unfold filled_section. destruct (option_bits option O) as (-> & -> & -> & ->). split.
  - repeat (apply Forall_app; split); apply Forall_if; (apply VLine_draws; auto; apply u8_byte).
  - intros x y I. unfold col. rewrite (quarters option (fun sx sy => exists t, 0 <= t <= b /\ x = (cx + sx * a) mod 256 /\ y = (cy + sy * t) mod 256)).
    rewrite !covers_app, !covers_if. rewrite (plus1 cx a), (minus1 cx a).
    rewrite (col_up c cx cy a b 1), (col_up c cx cy a b (-1)), (col_down c cx cy a b 1), (col_down c cx cy a b (-1)) by auto. tauto.
Qed.

Lemma clip_some c a b w h o (s : Z -> Z -> Prop) : box_ok c -> is_byte a -> is_byte b -> 1 <= w <= 255 -> 1 <= h <= 255 -> (forall x y, s x y -> rect a b w h x y) ->
  (exists l, o = Some l /\ draws c l s) -> exists l, (if negb (IsBBXIntersection c a b w h) then Some [] else o) = Some l /\ draws c l s.
Proof.
  intros C Ha Hb W H R (l & -> & D). pose proof (draws_clipped c a b w h l s C Ha Hb W H R D) as K. destruct (negb (IsBBXIntersection c a b w h)); eauto.
Qed.
Lemma Ellipse_draws n c cx cy rx ry option : box_ok c -> small rx ry -> is_byte option -> (Z.to_nat (Z.max rx ry) < n)%nat ->
  exists l, DrawEllipse n c cx cy rx ry option = Some l /\ draws c l (ellipse cx cy rx ry option).
Proof.
  intros C S O N. pose proof (small_le rx ry S) as [LX LY]. unfold DrawEllipse. cbv zeta. rewrite (u8_small (rx + 1)), (u8_small ((rx + 1) * 2)), (u8_small (ry + 1)), (u8_small ((ry + 1) * 2)) by lia.
  apply clip_some; auto; try apply u8_byte; try lia.
  - intros x y (A & B & sx & sy & Ar & Q & X & Y). destruct (quarter_signs _ _ _ Q). destruct (ellarc_range rx ry A B S Ar).
    unfold rect. rewrite (Z.mul_comm (rx + 1)), (Z.mul_comm (ry + 1)). split; [apply (in_square cx sx A rx x)|apply (in_square cy sy B ry y)]; auto; lia.
  - unfold draw_ellipse.
    destruct (ellipse_union n (fun x y => ellipse_section x y cx cy option) (fun A B x y => exists sx sy, quarter option sx sy /\ (x = (cx + sx * A) mod 256 /\ y = (cy + sy * B) mod 256)) rx ry (fun _ _ => True) S N) as (l & E & F & K).
    + intros a b _ _. apply ellipse_section_spec. exact O.
    + intros a b x y _ _ _. apply ellipse_section_spec. exact O.
    + exists l. split; [exact E|]. split; [exact F|]. intros x y _. rewrite K by exact Logic.I. unfold ellipse. split.
      * intros (A & B & H1 & sx & sy & H2 & H3 & H4). exists A, B, sx, sy. auto.
      * intros (A & B & sx & sy & H1 & H2 & H3 & H4). exists A, B. split; [exact H1|]. exists sx, sy. auto.
Qed.
Lemma Filled_draws n c cx cy rx ry option : box_ok c -> is_byte cy -> small rx ry -> is_byte option -> (Z.to_nat (Z.max rx ry) < n)%nat ->
  exists l, DrawFilledEllipse n c cx cy rx ry option = Some l /\ draws c l (plate cx cy rx ry option).
Proof.
  intros C Yc S O N. pose proof (small_le rx ry S) as [LX LY]. unfold DrawFilledEllipse. cbv zeta. rewrite (u8_small (rx + 1)), (u8_small ((rx + 1) * 2)), (u8_small (ry + 1)), (u8_small ((ry + 1) * 2)) by lia.
  apply clip_some; auto; try apply u8_byte; try lia.
  - intros x y (A & B & t & sx & sy & Ar & T & Q & X & Y). destruct (quarter_signs _ _ _ Q). destruct (ellarc_range rx ry A B S Ar).
    unfold rect. rewrite (Z.mul_comm (rx + 1)), (Z.mul_comm (ry + 1)). split; [apply (in_square cx sx A rx x)|apply (in_square cy sy t ry y)]; auto; lia.
  - unfold draw_filled_ellipse.
    destruct (ellipse_union n (fun x y => filled_section c x y cx cy option) (fun A B x y => col cx cy option A B x y) rx ry (fun x y => inside c x y) S N) as (l & E & F & K).
    + intros a b _ HB. apply filled_section_spec; auto. lia.
    + intros a b x y _ HB I. apply filled_section_spec; auto. lia.
    + exists l. split; [exact E|]. split; [exact F|]. intros x y I. rewrite K by exact I. unfold plate, col. split.
      * intros (A & B & H1 & sx & sy & H2 & t & H3 & H4 & H5). exists A, B, t, sx, sy. auto.
      * intros (A & B & t & sx & sy & H1 & H2 & H3 & H4 & H5). exists A, B. split; [exact H1|]. exists sx, sy. split; [exact H3|]. exists t. auto.
Qed.

(** Both radii 0: the loop never leaves *)
Lemma loop_stuck n x y : ellLoop n 0 0 x y 0 0 0 0 0 = None.
Proof. revert x y. induction n as [|n IH]; intros x y; [reflexivity|]. cbn [ellLoop]. change (0 <=? 0) with true. cbv match zeta. change (i16 (0 + 0)) with 0. change (0 <? 2 * 0 + 0) with false. cbv match. rewrite IH. reflexivity. Qed.
