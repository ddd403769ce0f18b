(** The page buffer of eight rows and the picture loop (C112). *)
From Verif Require Export U8g_Spec.

Lemma u8_mod v : u8 v = v mod 256. Proof. reflexivity. Qed.
Lemma u8_small v : 0 <= v < 256 -> u8 v = v. Proof. intros. apply Z.mod_small; lia. Qed.
Lemma u8_range v : 0 <= u8 v < 256. Proof. apply Z.mod_pos_bound. lia. Qed.
Lemma u8_u8_add a b : u8 (u8 a + b) = u8 (a + b). Proof. rewrite !u8_mod. apply Zplus_mod_idemp_l. Qed.

Lemma dot_unique x y l v : dot x y l v -> forall v', dot x y l v' -> v = v'.
Proof.
  induction 1 as [|l c m v H IH Hon|l c m v H IH Hoff]; intros v' H'; inversion H' as [E|l' c' m' w Hd Hm E|l' c' m' w Hd Hm E]; subst;
    try (symmetry in E; apply app_eq_nil in E as [_ E]; discriminate); try (apply app_eq_nil in E as [_ E]; discriminate);
    try (destruct l; discriminate); try reflexivity; apply app_inj_tail in E as [-> E]; inversion E; subst; auto; contradiction.
Qed.

Lemma on_dec m x y : {on m x y} + {~ on m x y}.
Proof.
  destruct m as [a b|a b dir pat]; cbn [on].
  - destruct (Z.eq_dec x a), (Z.eq_dec y b); [left; auto|right; intros []; contradiction..].
  - set (f := fun k => Z.testbit pat (7 - k) && (x =? (a + k * stepX dir) mod 256) && (y =? (b + k * stepY dir) mod 256)).
    destruct (existsb f (map Z.of_nat (seq 0 8))) eqn:E.
    + left. apply existsb_exists in E as (k & Hk & E). apply in_map_iff in Hk as (n & <- & Hn). apply in_seq in Hn.
      unfold f in E. apply andb_prop in E as [E E3]. apply andb_prop in E as [E1 E2]. apply Z.eqb_eq in E2, E3. exists (Z.of_nat n). repeat split; auto; lia.
    + right. intros (k & Hk & E1 & E2 & E3). apply not_true_iff_false in E. apply E. apply existsb_exists. exists k. split.
      * apply in_map_iff. exists (Z.to_nat k). split; [lia|]. apply in_seq. lia.
      * unfold f. rewrite E1, E2, E3, !Z.eqb_refl. reflexivity.
Qed.

Lemma dot_total x y l : exists v, dot x y l v.
Proof.
  induction l as [|[c m] l [v H]] using rev_ind; [exists false; constructor|].
  destruct (on_dec m x y); [exists (negb (c =? 0))|exists v]; econstructor; eauto.
Qed.

Definition same_frame (b b' : pb) : Prop := p b' = p b /\ width b' = width b /\ length (buf b') = length (buf b) /\ skipn (Z.to_nat (width b)) (buf b') = skipn (Z.to_nat (width b)) (buf b).
Lemma same_frame_trans a b c : same_frame a b -> same_frame b c -> same_frame a c.
Proof. unfold same_frame. intros (A & B & C & X) (D & E & F & Y). rewrite B in Y. repeat split; congruence. Qed.

Lemma skipn_wr n : forall (l : list Z) i v, (i < n)%nat -> skipn n (wr l i v) = skipn n l.
Proof. induction n; intros [|a l] [|i] v H; cbn [wr skipn]; auto; try lia. apply IHn. lia. Qed.

Lemma SetPixel_frame b x y c : 0 <= x -> same_frame b (pb8v1_SetPixel b x y c).
Proof.
  intros Hx. unfold pb8v1_SetPixel, pb8v1_set_pixel, same_frame. destruct (y <? _); [auto|]. destruct (_ <? y); [auto|]. destruct (Z.leb_spec (width b) x); [auto|]. cbn [p width buf]. rewrite wr_length, skipn_wr by lia. auto.
Qed.

Lemma SetPixel_bit b x y c X Y : page_ok b -> is_byte x -> is_byte y -> vis b X Y ->
  bit (pb8v1_SetPixel b x y c) X Y = if (X =? x) && (Y =? y) then negb (c =? 0) else bit b X Y.
Proof.
  intros (P1 & P2 & P3 & P4 & P5 & P6) Hx Hy [V1 V2]. unfold is_byte in Hx, Hy. unfold pb8v1_SetPixel.
  destruct (y <? page_y0 (p b)) eqn:E1; [apply Z.ltb_lt in E1; destruct (Z.eqb_spec X x), (Z.eqb_spec Y y); cbn [andb]; auto; lia|].
  destruct (page_y1 (p b) <? y) eqn:E2; [apply Z.ltb_lt in E2; destruct (Z.eqb_spec X x), (Z.eqb_spec Y y); cbn [andb]; auto; lia|].
  destruct (width b <=? x) eqn:E3; [apply Z.leb_le in E3; destruct (Z.eqb_spec X x), (Z.eqb_spec Y y); cbn [andb]; auto; lia|].
  apply Z.ltb_ge in E1, E2. apply Z.leb_gt in E3. unfold pb8v1_set_pixel, bit. cbn [p buf].
  rewrite (u8_small (y - _)) by lia. set (k := y - page_y0 (p b)). assert (Hk : 0 <= k <= 7) by (unfold k; lia).
  replace (Z.land k 7) with k by (change 7 with (Z.ones 3); rewrite Z.land_ones by lia; symmetry; apply Z.mod_small; change (2 ^ 3) with 8; lia).
  replace (u8 (Z.shiftl 1 k)) with (2 ^ k).
  2:{ rewrite Z.shiftl_mul_pow2 by lia. rewrite Z.mul_1_l. symmetry. apply u8_small. pose proof (Z.pow_pos_nonneg 2 k). pose proof (Z.pow_le_mono_r 2 k 7). change (2 ^ 7) with 128 in *. lia. }
  destruct (Z.eqb_spec X x) as [->|N]; cbn [andb].
  - rewrite rd_wr_same by lia. set (j := Y - page_y0 (p b)). assert (Hj : 0 <= j <= 7) by (unfold j; lia).
    assert (Ej : (k =? j) = (Y =? y)) by (unfold j, k; destruct (Z.eqb_spec Y y), (Z.eqb_spec (y - page_y0 (p b)) (Y - page_y0 (p b))); auto; lia).
    destruct (c =? 0); cbn [negb].
    + rewrite Z.land_spec, Z.lxor_spec, Z.pow2_bits_eqb, Ej by lia. change 0xff with (Z.ones 8). rewrite Z.ones_spec_low by lia.
      destruct (Y =? y); cbn [xorb]; [apply andb_false_r|apply andb_true_r].
    + rewrite Z.lor_spec, Z.pow2_bits_eqb, Ej by lia. destruct (Y =? y); [apply orb_true_r|apply orb_false_r].
  - rewrite rd_wr_other by lia. reflexivity.
Qed.

Lemma page_ok_frame b b' : same_frame b b' -> page_ok b -> page_ok b'.
Proof. unfold same_frame, page_ok. intros (A & B & C & _) H. rewrite A, B, C. exact H. Qed.
Lemma vis_frame b b' x y : same_frame b b' -> vis b x y -> vis b' x y.
Proof. unfold same_frame, vis. intros (A & B & C & _) H. rewrite A, B. exact H. Qed.

(** Dots of [n] pixels with steps *)
Definition onN (n a b dx dy pat x y : Z) : Prop := exists k, 0 <= k < n /\ Z.testbit pat (7 - k) = true /\ x = u8 (a + k * dx) /\ y = u8 (b + k * dy).

Lemma bit7 v : is_byte v -> negb (Z.land v 128 =? 0) = Z.testbit v 7.
Proof. unfold is_byte. intros H. apply (byte_forall (fun v => Bool.eqb (negb (Z.land v 128 =? 0)) (Z.testbit v 7)) ltac:(vm_compute; reflexivity)) in H. apply eqb_prop in H. exact H. Qed.
Lemma shl_bit v k : 0 <= k < 7 -> Z.testbit (u8 (Z.shiftl v 1)) (7 - k) = Z.testbit v (7 - (k + 1)).
Proof. intros. rewrite u8_mod. change 256 with (2 ^ 8). rewrite Z.mod_pow2_bits_low by lia. rewrite Z.shiftl_spec by lia. f_equal. lia. Qed.

Lemma opt2_frame n : forall b x y dx dy pat c, 0 <= x -> same_frame b (opt2Loop n b x y dx dy pat c).
Proof.
  induction n; intros b x y dx dy pat c Hx; cbn [opt2Loop]; [unfold same_frame; auto|].
  assert (F : same_frame b (if negb (Z.land pat 128 =? 0) then pb8v1_SetPixel b x y c else b)) by (destruct (negb _); [apply SetPixel_frame; exact Hx|unfold same_frame; auto]).
  destruct (negb (u8 _ =? 0)); [|exact F]. eapply same_frame_trans; [exact F|apply IHn; apply u8_range].
Qed.

Lemma opt2_bit X Y n : forall b x y dx dy pat c, (n <= 8)%nat -> page_ok b -> is_byte x -> is_byte y -> is_byte pat -> vis b X Y ->
  (onN (Z.of_nat n) x y dx dy pat X Y -> bit (opt2Loop n b x y dx dy pat c) X Y = negb (c =? 0))
  /\ (~ onN (Z.of_nat n) x y dx dy pat X Y -> bit (opt2Loop n b x y dx dy pat c) X Y = bit b X Y).
Proof.
  induction n as [|n IH]; intros b x y dx dy pat c Hn P Hx Hy Hp V; cbn [opt2Loop].
  { split; [intros (k & Hk & _); lia|auto]. }
  rewrite (bit7 pat Hp). set (b1 := if Z.testbit pat 7 then pb8v1_SetPixel b x y c else b).
  assert (F : same_frame b b1) by (unfold b1; destruct (Z.testbit pat 7); [apply SetPixel_frame; unfold is_byte in Hx; lia|unfold same_frame; auto]).
  assert (B1 : bit b1 X Y = if Z.testbit pat 7 && ((X =? x) && (Y =? y)) then negb (c =? 0) else bit b X Y).
  { unfold b1. destruct (Z.testbit pat 7); cbn [andb]; [apply SetPixel_bit; auto|reflexivity]. }
  set (pat' := u8 (Z.shiftl pat 1)).
  assert (S1 : onN (Z.of_nat (S n)) x y dx dy pat X Y <-> (Z.testbit pat 7 && ((X =? x) && (Y =? y)) = true \/ onN (Z.of_nat n) (u8 (x + dx)) (u8 (y + dy)) dx dy pat' X Y)).
  { unfold is_byte in Hx, Hy. split.
    - intros (k & Hk & T & EX & EY). destruct (Z.eq_dec k 0) as [->|K].
      + left. rewrite !Z.mul_0_l, !Z.add_0_r, u8_small in EX, EY by lia. change (7 - 0) with 7 in T. rewrite T. subst. rewrite !Z.eqb_refl. reflexivity.
      + right. exists (k - 1). split; [lia|]. unfold pat'. rewrite shl_bit by lia. replace (7 - (k - 1 + 1)) with (7 - k) by lia. rewrite !u8_u8_add.
        repeat split; auto; [rewrite EX|rewrite EY]; f_equal; ring.
    - intros [E|(k & Hk & T & EX & EY)].
      + apply andb_prop in E as [T E]. apply andb_prop in E as [EX EY]. apply Z.eqb_eq in EX, EY. subst. exists 0. rewrite !Z.mul_0_l, !Z.add_0_r, !u8_small by lia. repeat split; auto; lia.
      + exists (k + 1). unfold pat' in T. rewrite shl_bit in T by lia. rewrite !u8_u8_add in EX, EY. repeat split; auto; try lia; [rewrite EX|rewrite EY]; f_equal; ring. }
  destruct (Z.eqb_spec pat' 0) as [Z0|NZ]; cbn [negb].
  - assert (NO : ~ onN (Z.of_nat n) (u8 (x + dx)) (u8 (y + dy)) dx dy pat' X Y) by (intros (k & _ & T & _); rewrite Z0, Z.testbit_0_l in T; discriminate).
    rewrite S1, B1. split; intros H.
    + destruct H as [->|H]; [reflexivity|contradiction].
    + destruct (Z.testbit pat 7 && _); [exfalso; apply H; auto|reflexivity].
  - specialize (IH b1 (u8 (x + dx)) (u8 (y + dy)) dx dy pat' c ltac:(lia) (page_ok_frame _ _ F P) (u8_range _) (u8_range _) (u8_range _) (vis_frame _ _ _ _ F V)).
    destruct IH as [I1 I2].
    assert (D : onN (Z.of_nat n) (u8 (x + dx)) (u8 (y + dy)) dx dy pat' X Y \/ ~ onN (Z.of_nat n) (u8 (x + dx)) (u8 (y + dy)) dx dy pat' X Y).
    { set (f := fun k => Z.testbit pat' (7 - k) && (X =? u8 (u8 (x + dx) + k * dx)) && (Y =? u8 (u8 (y + dy) + k * dy))).
      destruct (existsb f (map Z.of_nat (seq 0 n))) eqn:E.
      + left. apply existsb_exists in E as (k & Hk & E). apply in_map_iff in Hk as (j & <- & Hj). apply in_seq in Hj.
        unfold f in E. apply andb_prop in E as [E E3]. apply andb_prop in E as [E1 E2]. apply Z.eqb_eq in E2, E3. exists (Z.of_nat j). repeat split; auto; lia.
      + right. intros (k & Hk & E1 & E2 & E3). apply not_true_iff_false in E. apply E. apply existsb_exists. exists k. split.
        * apply in_map_iff. exists (Z.to_nat k). split; [lia|]. apply in_seq. lia.
        * unfold f. rewrite E1, E2, E3, !Z.eqb_refl. reflexivity. }
    rewrite S1. split; intros H.
    + destruct D as [D|D]; [apply I1, D|]. rewrite (I2 D), B1. destruct H as [->|H]; [reflexivity|contradiction].
    + rewrite I2 by tauto. rewrite B1. destruct (Z.testbit pat 7 && _); [exfalso; apply H; auto|reflexivity].
Qed.

(** The loop's steps are those of the direction *)
Lemma dirs dir : is_byte dir -> exists dx dy,
  (if dir =? 0 then (1, 0) else if dir =? 1 then (0, 1) else if dir =? 2 then (u8 (0 - 1), 0) else if dir =? 3 then (0, u8 (0 - 1)) else (0, 0)) = (dx, dy)
  /\ (forall a k, u8 (a + k * dx) = (a + k * stepX dir) mod 256) /\ (forall b k, u8 (b + k * dy) = (b + k * stepY dir) mod 256).
Proof.
  intros Hd. unfold is_byte in Hd.
  assert (M : forall a k, u8 (a + k * u8 (0 - 1)) = (a + k * -1) mod 256).
  { intros. change (u8 (0 - 1)) with 255. rewrite u8_mod. replace (a + k * 255) with (a + k * -1 + k * 256) by ring. apply Z.mod_add. lia. }
  destruct (Z.eqb_spec dir 0) as [->|N0]; [exists 1, 0; repeat split; auto|].
  destruct (Z.eqb_spec dir 1) as [->|N1]; [exists 0, 1; repeat split; auto|].
  destruct (Z.eqb_spec dir 2) as [->|N2]; [exists (u8 (0 - 1)), 0; repeat split; auto|].
  destruct (Z.eqb_spec dir 3) as [->|N3]; [exists 0, (u8 (0 - 1)); repeat split; auto|].
  exists 0, 0. assert (stepX dir = 0 /\ stepY dir = 0) as [-> ->] by (unfold stepX, stepY; destruct dir as [|[[]|[]|]|]; auto; lia). repeat split; auto.
Qed.

Lemma hidden b a y dir pat X Y : page_ok b -> is_byte y -> is_byte dir -> vis b X Y -> pb_Is8PixelVisible b y dir = false -> ~ on (Eight a y dir pat) X Y.
Proof.
  intros (P1 & P2 & P3 & P4 & _) Hy Hd [_ V] E (k & Hk & _ & _ & EY). unfold is_byte in *. unfold pb_Is8PixelVisible, pb_IsYIntersection in E.
  destruct (Z.eqb_spec dir 1) as [->|N1]; [|destruct (Z.eqb_spec dir 3) as [->|N3]].
  - cbn [stepY] in EY. rewrite Z.mul_1_r in EY. rewrite u8_mod in E. destruct (Z.leb_spec y (page_y1 (p b))), (Z.leb_spec (page_y0 (p b)) ((y + 8) mod 256)), (Z.ltb_spec ((y + 8) mod 256) y);
      cbn in E; try discriminate; Z.div_mod_to_equations; lia.
  - cbn [stepY] in EY. rewrite u8_mod in E. destruct (Z.leb_spec ((y - 8) mod 256) (page_y1 (p b))), (Z.leb_spec (page_y0 (p b)) y), (Z.ltb_spec y ((y - 8) mod 256));
      cbn in E; try discriminate; Z.div_mod_to_equations; lia.
  - assert (Es : stepY dir = 0) by (unfold stepY; destruct dir as [|[[]|[]|]|]; auto; lia). rewrite Es, Z.mul_0_r, Z.add_0_r, Z.mod_small in EY by lia. subst Y.
    destruct (Z.leb_spec y (page_y1 (p b))), (Z.leb_spec (page_y0 (p b)) y), (Z.ltb_spec y y); cbn in E; try discriminate; lia.
Qed.

Lemma draw_frame b c m : msg_ok m -> same_frame b (pb8v1_draw b c m).
Proof.
  destruct m as [x y|x y dir pat]; cbn [pb8v1_draw msg_ok]; unfold is_byte; intros M; [apply SetPixel_frame; lia|]. destruct (pb_Is8PixelVisible b y dir); [|unfold same_frame; auto].
  unfold pb8v1_Set8PixelOpt2. destruct (if dir =? 0 then _ else _) as [dx dy]. apply opt2_frame. lia.
Qed.

Lemma draw_bit b c m X Y : page_ok b -> msg_ok m -> vis b X Y ->
  (on m X Y -> bit (pb8v1_draw b c m) X Y = negb (c =? 0)) /\ (~ on m X Y -> bit (pb8v1_draw b c m) X Y = bit b X Y).
Proof.
  intros P M V. destruct m as [x y|x y dir pat]; cbn [pb8v1_draw].
  - destruct M as [Hx Hy]. rewrite SetPixel_bit by auto. cbn [on]. destruct (Z.eqb_spec X x), (Z.eqb_spec Y y); cbn [andb]; split; auto; tauto.
  - destruct M as (Hx & Hy & Hd & Hp). destruct (pb_Is8PixelVisible b y dir) eqn:E.
    + unfold pb8v1_Set8PixelOpt2. destruct (dirs dir Hd) as (dx & dy & -> & DX & DY).
      assert (EQ : on (Eight x y dir pat) X Y <-> onN 8 x y dx dy pat X Y) by (cbn [on]; unfold onN; split; intros (k & Hk & T & EX & EY); exists k; rewrite ?DX, ?DY in *; auto).
      rewrite EQ. apply (opt2_bit X Y 8 b x y dx dy pat c); auto.
    + pose proof (hidden b x y dir pat X Y P Hy Hd V E). split; [contradiction|auto].
Qed.

(** A list of messages on a page *)
Definition drawn (b : pb) (l : list (Z * msg)) : Prop := forall X Y, vis b X Y -> dot X Y l (bit b X Y).
Lemma drawAll_frame l : forall b, Forall (fun e => msg_ok (snd e)) l -> same_frame b (fold_left (fun b e => pb8v1_draw b (fst e) (snd e)) l b).
Proof. induction l as [|[c m] l IH]; intros b F; cbn [fold_left]; [unfold same_frame; auto|]. inversion F; subst. eapply same_frame_trans; [apply draw_frame|apply IH]; auto. Qed.
Lemma drawAll l : forall b l0, page_ok b -> Forall (fun e => msg_ok (snd e)) l -> drawn b l0 -> drawn (fold_left (fun b e => pb8v1_draw b (fst e) (snd e)) l b) (l0 ++ l).
Proof.
  induction l as [|[c m] l IH]; intros b l0 P F D; cbn [fold_left]; [rewrite app_nil_r; exact D|].
  inversion F as [|? ? M F']; subst. replace (l0 ++ (c, m) :: l) with ((l0 ++ [(c, m)]) ++ l) by (rewrite <- app_assoc; reflexivity).
  cbn [fst snd] in *. pose proof (draw_frame b c m M) as Fr. apply IH; [eapply page_ok_frame; eauto|exact F'|].
  intros X Y V. assert (V' : vis b X Y) by (destruct Fr as (A & B & _); unfold vis in *; rewrite A, B in V; exact V).
  destruct (draw_bit b c m X Y P M V') as [H1 H2]. specialize (D X Y V'). destruct (on_dec m X Y) as [o|o]; [rewrite (H1 o)|rewrite (H2 o)]; econstructor; eauto.
Qed.

(** ** The loop *)
Definition at_page (w h k : Z) (b : pb) : Prop :=
  page_height (p b) = 8 /\ total_height (p b) = h /\ page_y0 (p b) = 8 * k /\ page_y1 (p b) <= Z.min (8 * k + 7) (Z.max 7 (h - 1)) /\ Z.min (8 * k + 7) (h - 1) <= page_y1 (p b)
  /\ pageNo (p b) = k /\ width b = w /\ (Z.to_nat w <= length (buf b))%nat.
Lemma at_page_ok w h k b : at_page w h k b -> 1 <= w <= 255 -> 1 <= h <= 128 -> 0 <= k -> 8 * k < h -> page_ok b.
Proof. unfold at_page, page_ok. intros (A & B & C & D & E & F & G & I). intros. rewrite C, G, I. repeat split; lia. Qed.

Lemma Clear_rd b i : (i < Z.to_nat (width b))%nat -> rd (buf (pb_Clear b)) i = 0.
Proof. intros. unfold pb_Clear, rd. cbn [buf]. rewrite app_nth1 by (rewrite repeat_length; lia). destruct (nth_in_or_default i (repeat 0 (Z.to_nat (width b))) 0) as [E|E]; [apply repeat_spec in E; exact E|exact E]. Qed.
Lemma Clear_bit b x y : page_ok b -> vis b x y -> bit (pb_Clear b) x y = false.
Proof.
  intros (_ & _ & _ & _ & W & L) [V _]. unfold bit. rewrite Clear_rd by lia. apply Z.testbit_0_l.
Qed.
Lemma Clear_drawn b : page_ok b -> drawn (pb_Clear b) [].
Proof. intros P X Y V. rewrite Clear_bit; auto. constructor. Qed.
Lemma Clear_frame b : (Z.to_nat (width b) <= length (buf b))%nat -> same_frame b (pb_Clear b).
Proof.
  intros. unfold same_frame, pb_Clear. cbn [p width buf]. repeat split.
  - rewrite app_length, repeat_length, skipn_length. lia.
  - rewrite skipn_app, repeat_length, Nat.sub_diag, skipn_all2 by (rewrite repeat_length; lia). reflexivity.
Qed.

Lemma first_at w h b : display_ok w h b -> at_page w h 0 (pb8v1_first b) /\ drawn (pb8v1_first b) [].
Proof.
  intros (W & H & A & B & C & D).
  assert (P : at_page w h 0 (pb8v1_first b)).
  { unfold at_page, pb8v1_first, page_First. cbn [p page_height total_height page_y0 page_y1 pageNo width buf pb_Clear]. rewrite A, B. repeat split; auto; try (change (u8 (8 - 1)) with 7; lia).
    change (Z.to_nat w <= length (buf (pb_Clear b)))%nat. destruct (Clear_frame b ltac:(rewrite C; exact D)) as (_ & _ & -> & _). exact D. }
  split; [exact P|]. intros X Y V. replace (bit (pb8v1_first b) X Y) with false; [constructor|].
  symmetry. destruct V as [V _]. unfold bit. change (buf (pb8v1_first b)) with (buf (pb_Clear b)). change (width (pb8v1_first b)) with (width b) in V. rewrite Clear_rd by lia. apply Z.testbit_0_l.
Qed.

Lemma next_at w h k b : at_page w h k b -> 1 <= w <= 255 -> 1 <= h <= 128 -> 0 <= k -> 8 * k < h ->
  let '(b', more) := pb8v1_next b in
  more = (8 * (k + 1) <? h) /\ skipn (Z.to_nat w) (buf b') = skipn (Z.to_nat w) (buf b) /\ (more = true -> at_page w h (k + 1) b' /\ drawn b' []).
Proof.
  intros A W H K L. pose proof A as (A1 & A2 & A3 & A4 & A5 & A6 & A7 & A8). unfold pb8v1_next, page_Next. rewrite A1, A2, A3.
  rewrite (u8_small (8 * k + 8)) by lia. destruct (Z.leb_spec h (8 * k + 8)).
  { split; [symmetry; apply Z.ltb_ge; lia|split; [reflexivity|discriminate]]. }
  split; [symmetry; apply Z.ltb_lt; lia|]. split.
  { match goal with |- context [pb_Clear ?q] => destruct (Clear_frame q ltac:(cbn [width buf]; rewrite A7; exact A8)) as (_ & _ & _ & E) end. cbn [width buf] in E. rewrite <- A7. exact E. }
  intros _.
  assert (E1 : page_y1 (p b) = 8 * k + 7) by lia. rewrite E1, A6. rewrite (u8_small (8 * k + 7 + 8)), (u8_small (h - 1)), (u8_small (k + 1)) by lia.
  match goal with |- at_page _ _ _ (pb_Clear ?q) /\ _ => set (b1 := q) end.
  assert (P : at_page w h (k + 1) b1).
  { unfold at_page, b1. cbn [p page_height total_height page_y0 page_y1 pageNo width buf]. repeat split; auto; try lia; destruct (Z.leb_spec h (8 * k + 7 + 8)); lia. }
  split.
  - unfold at_page in *. change (p (pb_Clear b1)) with (p b1). change (width (pb_Clear b1)) with (width b1). destruct P as (?&?&?&?&?&?&P7&P8). destruct (Clear_frame b1 ltac:(rewrite P7; exact P8)) as (_ & _ & -> & _). repeat split; auto.
  - apply Clear_drawn. apply (at_page_ok w h (k + 1)); auto; lia.
Qed.

Lemma nth_firstn_lt n : forall (l : list Z) i d, (i < n)%nat -> nth i (firstn n l) d = nth i l d.
Proof. induction n; intros [|a l] [|i] d H; cbn [firstn nth]; auto; try lia. apply IHn. lia. Qed.
Lemma shown_app l1 l2 x y : shown (l1 ++ l2) x y = match shown l2 x y with Some v => Some v | None => shown l1 x y end.
Proof. induction l1 as [|[s d] l1 IH]; cbn [app shown]; [destruct (shown l2 x y); auto|]. rewrite IH. destruct (shown l2 x y); auto. Qed.

Section Loop.
Context (w h : Z) (draw : box -> list (Z * msg)) (l : list (Z * msg)).
Hypothesis W : 1 <= w <= 255.
Hypothesis H : 1 <= h <= 128.
Hypothesis OK : forall c, page_of w h c -> Forall (fun e => msg_ok (snd e)) (draw c).
Hypothesis SAME : forall k x y v, 0 <= k -> 8 * k < h -> 0 <= x < w -> 8 * k <= y <= Z.min (8 * k + 7) (h - 1) ->
  forall c, x0 c = 0 -> x1 c = w - 1 -> y0 c = 8 * k -> Z.min (8 * k + 7) (h - 1) <= y1 c <= Z.min (8 * k + 7) (Z.max 7 (h - 1)) -> dot x y (draw c) v -> dot x y l v.

Definition done (k : Z) (log : list (Z * list Z)) : Prop :=
  map fst log = map (fun j => 0xb0 + Z.of_nat j) (seq 0 (Z.to_nat k)) /\ Forall (fun e => length (snd e) = Z.to_nat w) log
  /\ forall x y, 0 <= x < w -> 0 <= y < h -> y < 8 * k -> exists v, shown log x y = Some v /\ dot x y l v.

Lemma lor_b0 k : 0 <= k < 16 -> Z.lor 0xb0 k = 0xb0 + k.
Proof. intros. assert (F : forallb (fun k => Z.lor 0xb0 k =? 0xb0 + k) (map Z.of_nat (seq 0 16)) = true) by reflexivity.
  rewrite forallb_forall in F. specialize (F k). apply Z.eqb_eq, F. apply in_map_iff. exists (Z.to_nat k). split; [lia|]. apply in_seq. lia. Qed.

Lemma one_page k b log : 0 <= k -> 8 * k < h -> at_page w h k b -> drawn b [] -> done k log ->
  let b' := fold_left (fun b e => pb8v1_draw b (fst e) (snd e)) (draw (pb_GetPageBox b)) b in
  let '(b'', log', more) := dogs102_next b' log in
  done (k + 1) log' /\ skipn (Z.to_nat w) (buf b'') = skipn (Z.to_nat w) (buf b) /\ more = (8 * (k + 1) <? h) /\ (more = true -> at_page w h (k + 1) b'' /\ drawn b'' []).
Proof.
  intros K L A D (L1 & L2 & L3). cbn zeta. set (b' := fold_left _ _ b). pose proof (at_page_ok w h k b A W H K L) as P.
  assert (GB : pb_GetPageBox b = mkBox 0 (8 * k) (w - 1) (page_y1 (p b))).
  { unfold pb_GetPageBox. destruct A as (_ & _ & -> & _ & _ & _ & -> & _). rewrite u8_small by lia. reflexivity. }
  assert (PG : page_of w h (pb_GetPageBox b)) by (rewrite GB; exists k; cbn [x0 x1 y0 y1]; destruct A as (_ & _ & _ & A4 & A5 & _); lia).
  pose proof (drawAll_frame (draw (pb_GetPageBox b)) b (OK _ PG)) as Fr. fold b' in Fr. pose proof (drawAll (draw (pb_GetPageBox b)) b [] P (OK _ PG) D) as Dr. fold b' in Dr. cbn [app] in Dr.
  assert (A' : at_page w h k b') by (unfold at_page in *; destruct Fr as (F1 & F2 & F3 & _); rewrite F1, F2, F3; exact A).
  clearbody b'. unfold dogs102_next. pose proof (next_at w h k b' A' W H K L) as N. destruct (pb8v1_next b') as [b'' more]. destruct N as (N1 & N0 & N2).
  split; [|split; [rewrite N0; destruct Fr as (_ & _ & _ & F4); destruct A as (_ & _ & _ & _ & _ & _ & A7 & _); rewrite A7 in F4; exact F4|split; assumption]].
  destruct A' as (_ & _ & Y0 & Y1 & Y2 & PN & WW & LL). rewrite PN, WW, lor_b0 by lia. unfold done.
  split; [|split].
  - rewrite map_app, L1. cbn [map fst]. replace (Z.to_nat (k + 1)) with (Z.to_nat k + 1)%nat by lia. rewrite seq_app, map_app. cbn [seq map]. do 3 f_equal. lia.
  - apply Forall_app. split; [exact L2|]. constructor; [cbn [snd]; rewrite firstn_length; lia|constructor].
  - intros x y X Y Yk. rewrite shown_app. cbn [shown]. destruct (Z.leb_spec (8 * k) y).
    + replace (y / 8) with k by (apply Z.div_unique with (y - 8 * k); lia). rewrite Z.eqb_refl. cbn [andb].
      rewrite firstn_length. destruct (Z.ltb_spec x (Z.of_nat (Nat.min (Z.to_nat w) (length (buf b'))))); [|lia]. eexists. split; [reflexivity|].
      apply (SAME k x y _ K L X ltac:(lia) (pb_GetPageBox b)); try (rewrite GB; cbn [x0 x1 y0 y1]); auto.
      * destruct Fr as (F1 & _). rewrite <- F1. lia.
      * rewrite <- GB. specialize (Dr x y). unfold vis in Dr. rewrite WW, Y0 in Dr. specialize (Dr ltac:(lia)).
        replace (Z.testbit _ (y mod 8)) with (bit b' x y); [exact Dr|]. unfold bit. rewrite Y0. f_equal; [|apply Z.mod_unique with k; lia]. unfold rd. symmetry. apply nth_firstn_lt. lia.
    + destruct (L3 x y X Y ltac:(lia)) as (v & E & Dv). exists v. split; [|exact Dv].
      assert (Hd : y / 8 <> k) by (Z.div_mod_to_equations; lia). destruct (Z.eqb_spec (176 + k) (176 + y / 8)); [lia|]. cbn [andb]. exact E.
Qed.

Lemma loop_done n : forall k b log, 0 <= k -> 8 * k < h -> at_page w h k b -> drawn b [] -> done k log -> (pages h <= Z.to_nat k + n)%nat ->
  exists b' log', pictureLoop n draw b log = Some (b', log') /\ done (Z.of_nat (pages h)) log' /\ skipn (Z.to_nat w) (buf b') = skipn (Z.to_nat w) (buf b).
Proof.
  induction n as [|n IH]; intros k b log K L A D Dn Hn.
  { exfalso. unfold pages in Hn. Z.div_mod_to_equations. lia. }
  cbn [pictureLoop]. pose proof (one_page k b log K L A D Dn) as O. cbn zeta in O. destruct (dogs102_next _ log) as [[b'' log'] more]. destruct O as (O1 & O0 & O2 & O3).
  destruct more.
  - destruct (O3 eq_refl) as [O4 O5]. symmetry in O2. apply Z.ltb_lt in O2. rewrite <- O0. apply (IH (k + 1)); auto; lia.
  - symmetry in O2. apply Z.ltb_ge in O2. exists b'', log'. split; [reflexivity|]. split; [|exact O0]. replace (Z.of_nat (pages h)) with (k + 1); [exact O1|]. unfold pages. Z.div_mod_to_equations. lia.
Qed.
End Loop.
