(** Clipping, lines, frames, boxes, bitmaps (C113). *)
From Verif Require Export U8gShape_Spec U8g_Proofs.

Lemma off_range x a : 0 <= off x a < 256. Proof. unfold off. apply Z.mod_pos_bound. lia. Qed.
Lemma off_eq x a k : 0 <= k < 256 -> 0 <= x < 256 -> off x a = k <-> x = u8 (a + k).
Proof. unfold off, u8. intros. Z.div_mod_to_equations. lia. Qed.
Lemma off_step x a : forall n, 0 <= n < 256 -> off x (u8 (a + n)) = if n <=? off x a then off x a - n else off x a - n + 256.
Proof. unfold off, u8. intros n H. destruct (Z.leb_spec n ((x - a) mod 256)); Z.div_mod_to_equations; lia. Qed.
Lemma off_0 x a : is_byte x -> is_byte a -> off x a = 0 <-> x = a.
Proof. unfold off, is_byte. intros. Z.div_mod_to_equations. lia. Qed.
Lemma off_lt1 x a : is_byte x -> is_byte a -> off x a < 1 <-> x = a.
Proof. intros. rewrite <- off_0 by auto. pose proof (off_range x a). lia. Qed.

Lemma covers_nil x y : covers [] x y <-> False. Proof. unfold covers. split; [intros (m & [] & _)|tauto]. Qed.
Lemma covers_cons m l x y : covers (m :: l) x y <-> on m x y \/ covers l x y.
Proof. unfold covers. cbn [In]. split; [intros (n & [<-|I] & O); eauto|intros [O|(n & I & O)]; eauto]. Qed.
Lemma covers_app l1 l2 x y : covers (l1 ++ l2) x y <-> covers l1 x y \/ covers l2 x y.
Proof. unfold covers. setoid_rewrite in_app_iff. split; [intros (m & [I|I] & O); eauto|intros [(m & I & O)|(m & I & O)]; eauto]. Qed.

(** ** Clipping *)
Lemma tree_spec a0 a1 v w : 0 <= a0 <= a1 -> a1 <= 255 -> is_byte v -> 1 <= w <= 255 ->
  is_intersection_decision_tree a0 a1 v (u8 (u8 (v + w) - 1)) = true <-> exists t, a0 <= t <= a1 /\ off t v < w.
Proof.
  unfold is_byte. intros A1 A2 V W. set (v1 := u8 (u8 (v + w) - 1)). assert (E : v1 = u8 (v + (w - 1))) by (unfold v1, u8; Z.div_mod_to_equations; lia). clearbody v1.
  assert (E' : v1 = if v + w - 1 <? 256 then v + w - 1 else v + w - 1 - 256).
  { rewrite E. unfold u8. destruct (Z.ltb_spec (v + w - 1) 256); Z.div_mod_to_equations; lia. }
  assert (O : forall t, 0 <= t <= 255 -> off t v = if v <=? t then t - v else t - v + 256) by (intros t T; unfold off; destruct (Z.leb_spec v t); Z.div_mod_to_equations; lia).
  clear E. unfold is_intersection_decision_tree. split.
  - intros H. destruct (Z.ltb_spec (v + w - 1) 256).
    + exists (Z.max v a0). assert (v <= a1 /\ a0 <= v1) by (destruct (Z.leb_spec v a1), (Z.leb_spec a0 v1), (Z.ltb_spec v1 v); try discriminate; lia).
      rewrite O by lia. destruct (Z.leb_spec v (Z.max v a0)); lia.
    + destruct (Z.leb_spec v a1); [exists a1|exists a0]; rewrite O by lia; [destruct (Z.leb_spec v a1); lia|].
      destruct (Z.leb_spec a0 v1), (Z.ltb_spec v1 v); try discriminate; try lia. destruct (Z.leb_spec v a0); lia.
  - intros (t & T & W'). rewrite O in W' by lia.
    destruct (Z.ltb_spec (v + w - 1) 256), (Z.leb_spec v t), (Z.leb_spec v a1), (Z.leb_spec a0 v1), (Z.ltb_spec v1 v); auto; lia.
Qed.

Lemma bbx_spec c a b w h : box_ok c -> is_byte a -> is_byte b -> 1 <= w <= 255 -> 1 <= h <= 255 ->
  IsBBXIntersection c a b w h = true <-> exists x y, inside c x y /\ rect a b w h x y.
Proof.
  intros (C1 & C2 & C3 & C4) A B W H. unfold IsBBXIntersection, inside, rect. pose proof (tree_spec (y0 c) (y1 c) b h C3 C4 B H) as TY. pose proof (tree_spec (x0 c) (x1 c) a w C1 C2 A W) as TX.
  destruct (is_intersection_decision_tree (y0 c) (y1 c) b _); cbn [negb].
  - rewrite TX. destruct (proj1 TY eq_refl) as (y & Y1 & Y2). split; [intros (x & X1 & X2); exists x, y; auto|intros (x & y' & X1 & X2); exists x; tauto].
  - split; [discriminate|]. intros (x & y & I & R1 & R2). apply TY. exists y. tauto.
Qed.
Lemma bbx_off c a b w h x y : box_ok c -> is_byte a -> is_byte b -> 1 <= w <= 255 -> 1 <= h <= 255 -> IsBBXIntersection c a b w h = false -> inside c x y -> ~ rect a b w h x y.
Proof. intros C A B W H E I R. assert (T : IsBBXIntersection c a b w h = true) by (apply bbx_spec; eauto). congruence. Qed.

(** ** Rows of eight *)
Lemma on_right a b pat x y : is_byte a -> is_byte b -> is_byte x -> on (Eight a b 0 pat) x y <-> y = b /\ off x a < 8 /\ Z.testbit pat (7 - off x a) = true.
Proof.
  intros A B X. unfold is_byte in *. cbn [on stepX stepY]. split.
  - intros (k & K & T & EX & EY). rewrite Z.mul_0_r, Z.add_0_r, Z.mod_small in EY by lia. rewrite Z.mul_1_r in EX. assert (O : off x a = k) by (apply off_eq; auto; lia). rewrite O. repeat split; auto; lia.
  - intros (-> & L & T). exists (off x a). pose proof (off_range x a). split; [lia|]. split; [exact T|]. rewrite Z.mul_0_r, Z.add_0_r, (Z.mod_small b) by lia. split; [|reflexivity].
    rewrite Z.mul_1_r. apply off_eq; auto; lia.
Qed.
Lemma on_down a b pat x y : is_byte a -> is_byte b -> is_byte y -> on (Eight a b 1 pat) x y <-> x = a /\ off y b < 8 /\ Z.testbit pat (7 - off y b) = true.
Proof.
  intros A B X. unfold is_byte in *. cbn [on stepX stepY]. split.
  - intros (k & K & T & EX & EY). rewrite Z.mul_0_r, Z.add_0_r, Z.mod_small in EX by lia. rewrite Z.mul_1_r in EY. assert (O : off y b = k) by (apply off_eq; auto; lia). rewrite O. repeat split; auto; lia.
  - intros (-> & L & T). exists (off y b). pose proof (off_range y b). split; [lia|]. split; [exact T|]. rewrite Z.mul_0_r, Z.add_0_r, (Z.mod_small a) by lia. split; [reflexivity|].
    rewrite Z.mul_1_r. apply off_eq; auto; lia.
Qed.
Lemma on_left a b pat x y : is_byte a -> is_byte b -> is_byte x -> on (Eight (u8 (a + 7)) b 2 pat) x y <-> y = b /\ off x a < 8 /\ Z.testbit pat (off x a) = true.
Proof.
  intros A B X. unfold is_byte in *. cbn [on stepX stepY]. split.
  - intros (k & K & T & EX & EY). rewrite Z.mul_0_r, Z.add_0_r, Z.mod_small in EY by lia.
    assert (O : off x a = 7 - k) by (apply off_eq; try lia; rewrite EX; unfold u8; Z.div_mod_to_equations; lia). rewrite O. repeat split; auto; lia.
  - intros (-> & L & T). exists (7 - off x a). pose proof (off_range x a). split; [lia|]. replace (7 - (7 - off x a)) with (off x a) by lia. split; [exact T|]. rewrite Z.mul_0_r, Z.add_0_r, (Z.mod_small b) by lia. split; [|reflexivity].
    assert (E : x = u8 (a + off x a)) by (apply off_eq; auto; lia). rewrite E at 1. unfold u8. Z.div_mod_to_equations. lia.
Qed.

(** The last, shorter row of a line *)
Lemma rest_pat w k : 0 <= w < 8 -> 0 <= k -> (k < 8 /\ Z.testbit (u8 (Z.shiftl 0xff (Z.land (u8 (Z.lxor w 7 + 1)) 7))) (7 - k) = true /\ w <> 0) <-> k < w.
Proof.
  intros W K. destruct (Z.ltb_spec k 8) as [K8|K8]; [|split; [intros; lia|intros; lia]].
  assert (F : forallb (fun w => forallb (fun k => Bool.eqb (Z.testbit (u8 (Z.shiftl 0xff (Z.land (u8 (Z.lxor w 7 + 1)) 7))) (7 - k) && negb (w =? 0)) (k <? w)) (range_Z 8)) (range_Z 8) = true) by reflexivity.
  rewrite forallb_forall in F. specialize (F w (range_Z_in 8 w ltac:(lia))). rewrite forallb_forall in F. specialize (F k (range_Z_in 8 k ltac:(lia))). apply eqb_prop in F.
  destruct (Z.ltb_spec k w) as [L|L].
  - apply andb_prop in F as [F1 F2]. rewrite F1. lia.
  - split; [|lia]. intros (_ & T & N). rewrite T in F. destruct (Z.eqb_spec w 0); [lia|discriminate].
Qed.
Lemma eight_ok a b d q : is_byte a -> is_byte b -> is_byte d -> is_byte q -> msg_ok (Eight a b d q). Proof. cbn [msg_ok]. auto. Qed.

Lemma hline_spec n : forall a b w, is_byte a -> is_byte b -> 0 <= w <= 255 -> Z.of_nat n = w / 8 ->
  Forall msg_ok (hlineLoop n a b w) /\ forall x y, is_byte x -> covers (hlineLoop n a b w) x y <-> y = b /\ off x a < w.
Proof.
  induction n as [|n IH]; intros a b w A B W N; cbn [hlineLoop].
  - assert (W8 : 0 <= w < 8) by (Z.div_mod_to_equations; lia). destruct (Z.eqb_spec w 0) as [->|Nz]; cbn [negb].
    + split; [constructor|]. intros x y X. rewrite covers_nil. pose proof (off_range x a). lia.
    + split; [constructor; [|constructor]; apply eight_ok; auto; [unfold is_byte; lia|apply u8_byte]|].
      intros x y X. rewrite covers_cons, covers_nil, on_right by auto. pose proof (off_range x a). pose proof (rest_pat w (off x a) W8 ltac:(lia)). tauto.
  - assert (W8 : 8 <= w) by (Z.div_mod_to_equations; lia).
    destruct (IH (u8 (a + 8)) b (u8 (w - 8)) (u8_byte _) B) as [F C]; [rewrite u8_small; lia|rewrite u8_small by lia; Z.div_mod_to_equations; lia|].
    split; [constructor; [apply eight_ok; auto; unfold is_byte; lia|exact F]|].
    intros x y X. rewrite covers_cons, on_right, C by auto. rewrite (u8_small (w - 8)), off_step by lia. pose proof (off_range x a).
    assert (T : off x a < 8 -> Z.testbit 255 (7 - off x a) = true) by (intros; change 255 with (Z.ones 8); apply Z.ones_spec_low; lia).
    destruct (Z.leb_spec 8 (off x a)); intuition lia.
Qed.
Lemma draw_hline_spec a b w : is_byte a -> is_byte b -> is_byte w ->
  Forall msg_ok (draw_hline a b w) /\ forall x y, is_byte x -> covers (draw_hline a b w) x y <-> y = b /\ off x a < w.
Proof. unfold is_byte at 3. intros. apply hline_spec; auto; [lia|]. rewrite Z2Nat.id; [reflexivity|]. apply Z.div_pos; lia. Qed.

Lemma vline_spec n : forall a b w, is_byte a -> is_byte b -> 0 <= w <= 255 -> Z.of_nat n = w / 8 ->
  Forall msg_ok (vlineLoop n a b w) /\ forall x y, is_byte y -> covers (vlineLoop n a b w) x y <-> x = a /\ off y b < w.
Proof.
  induction n as [|n IH]; intros a b w A B W N; cbn [vlineLoop].
  - assert (W8 : 0 <= w < 8) by (Z.div_mod_to_equations; lia). destruct (Z.eqb_spec w 0) as [->|Nz]; cbn [negb].
    + split; [constructor|]. intros x y X. rewrite covers_nil. pose proof (off_range y b). lia.
    + split; [constructor; [|constructor]; apply eight_ok; auto; [unfold is_byte; lia|apply u8_byte]|].
      intros x y X. rewrite covers_cons, covers_nil, on_down by auto. pose proof (off_range y b). pose proof (rest_pat w (off y b) W8 ltac:(lia)). tauto.
  - assert (W8 : 8 <= w) by (Z.div_mod_to_equations; lia).
    destruct (IH a (u8 (b + 8)) (u8 (w - 8)) A (u8_byte _)) as [F C]; [rewrite u8_small; lia|rewrite u8_small by lia; Z.div_mod_to_equations; lia|].
    split; [constructor; [apply eight_ok; auto; unfold is_byte; lia|exact F]|].
    intros x y X. rewrite covers_cons, on_down, C by auto. rewrite (u8_small (w - 8)), off_step by lia. pose proof (off_range y b).
    assert (T : off y b < 8 -> Z.testbit 255 (7 - off y b) = true) by (intros; change 255 with (Z.ones 8); apply Z.ones_spec_low; lia).
    destruct (Z.leb_spec 8 (off y b)); intuition lia.
Qed.
Lemma draw_vline_spec a b w : is_byte a -> is_byte b -> is_byte w ->
  Forall msg_ok (draw_vline a b w) /\ forall x y, is_byte y -> covers (draw_vline a b w) x y <-> x = a /\ off y b < w.
Proof. unfold is_byte at 3. intros. apply vline_spec; auto; [lia|]. rewrite Z2Nat.id; [reflexivity|]. apply Z.div_pos; lia. Qed.

Lemma boxLoop_spec n : forall a b w, is_byte a -> is_byte b -> is_byte w -> Z.of_nat n <= 255 ->
  Forall msg_ok (boxLoop n a b w) /\ forall x y, is_byte x -> is_byte y -> covers (boxLoop n a b w) x y <-> off x a < w /\ off y b <= Z.of_nat n.
Proof.
  induction n as [|n IH]; intros a b w A B W N; cbn [boxLoop]; destruct (draw_hline_spec a b w A B W) as [F C].
  - rewrite app_nil_r. split; [exact F|]. intros x y X Y. rewrite C by auto. rewrite <- (off_lt1 y b) by auto. lia.
  - destruct (IH a (u8 (b + 1)) w A (u8_byte _) W ltac:(lia)) as [F' C']. split; [apply Forall_app; auto|]. intros x y X Y. rewrite covers_app, C, C' by auto.
    rewrite off_step by lia. pose proof (off_range y b). pose proof (off_0 y b Y B). destruct (Z.leb_spec 1 (off y b)); intuition lia.
Qed.
Lemma draw_box_spec a b w h : is_byte a -> is_byte b -> is_byte w -> 1 <= h <= 255 ->
  Forall msg_ok (draw_box a b w h) /\ forall x y, is_byte x -> is_byte y -> covers (draw_box a b w h) x y <-> rect a b w h x y.
Proof.
  intros A B W H. unfold draw_box. rewrite u8_small by lia. destruct (boxLoop_spec (Z.to_nat (h - 1)) a b w A B W ltac:(lia)) as [F C]. split; [exact F|].
  intros x y X Y. rewrite C by auto. unfold rect. lia.
Qed.

Lemma inside_bytes c x y : box_ok c -> inside c x y -> is_byte x /\ is_byte y.
Proof. unfold box_ok, inside, is_byte. lia. Qed.
Lemma draws_clipped c a b w h l (s : Z -> Z -> Prop) : box_ok c -> is_byte a -> is_byte b -> 1 <= w <= 255 -> 1 <= h <= 255 ->
  (forall x y, s x y -> rect a b w h x y) -> draws c l s -> draws c (if negb (IsBBXIntersection c a b w h) then [] else l) s.
Proof.
  intros C A B W H S D. destruct (IsBBXIntersection c a b w h) eqn:E; cbn [negb]; [exact D|]. split; [constructor|]. intros x y I. rewrite covers_nil. split; [tauto|].
  intros K. eapply (bbx_off c a b w h x y); eauto.
Qed.

Lemma HLine_draws c a b w : box_ok c -> is_byte a -> is_byte b -> is_byte w -> draws c (DrawHLine c a b w) (rect a b w 1).
Proof.
  intros C A B W. pose proof (draw_hline_spec a b w A B W) as [F K]. unfold DrawHLine.
  assert (D : draws c (draw_hline a b w) (rect a b w 1)).
  { split; [exact F|]. intros x y I. destruct (inside_bytes c x y C I) as [X Y]. rewrite K by auto. unfold rect. rewrite (off_lt1 y b) by auto. tauto. }
  destruct (Z.eq_dec w 0) as [->|Nw].
  - destruct (negb _); [|exact D]. split; [constructor|]. intros x y I. rewrite covers_nil. unfold rect. pose proof (off_range x a). lia.
  - apply draws_clipped; auto; unfold is_byte in W; lia.
Qed.
Lemma VLine_draws c a b h : box_ok c -> is_byte a -> is_byte b -> is_byte h -> draws c (DrawVLine c a b h) (rect a b 1 h).
Proof.
  intros C A B W. pose proof (draw_vline_spec a b h A B W) as [F K]. unfold DrawVLine.
  assert (D : draws c (draw_vline a b h) (rect a b 1 h)).
  { split; [exact F|]. intros x y I. destruct (inside_bytes c x y C I) as [X Y]. rewrite K by auto. unfold rect. rewrite (off_lt1 x a) by auto. tauto. }
  destruct (Z.eq_dec h 0) as [->|Nw].
  - destruct (negb _); [|exact D]. split; [constructor|]. intros x y I. rewrite covers_nil. unfold rect. pose proof (off_range y b). lia.
  - apply draws_clipped; auto; unfold is_byte in W; lia.
Qed.
Lemma Box_draws c a b w h : box_ok c -> is_byte a -> is_byte b -> is_byte w -> 1 <= h <= 255 -> draws c (DrawBox c a b w h) (rect a b w h).
Proof.
  intros C A B W H. pose proof (draw_box_spec a b w h A B W H) as [F K]. unfold DrawBox.
  assert (D : draws c (draw_box a b w h) (rect a b w h)).
  { split; [exact F|]. intros x y I. destruct (inside_bytes c x y C I) as [X Y]. apply K; auto. }
  destruct (Z.eq_dec w 0) as [->|Nw].
  - destruct (negb _); [|exact D]. split; [constructor|]. intros x y I. rewrite covers_nil. unfold rect. pose proof (off_range x a). lia.
  - apply draws_clipped; auto; unfold is_byte in W; lia.
Qed.
Lemma off_last x a w : is_byte x -> is_byte a -> 1 <= w <= 255 -> x = u8 (u8 (a + w) - 1) <-> off x a = w - 1.
Proof. intros X A W. unfold is_byte in *. rewrite off_eq by lia. unfold u8. Z.div_mod_to_equations. lia. Qed.
Lemma Frame_draws c a b w h : box_ok c -> is_byte a -> is_byte b -> 1 <= w <= 255 -> 1 <= h <= 255 -> draws c (DrawFrame c a b w h) (frame a b w h).
Proof.
  intros C A B W H. unfold DrawFrame. apply draws_clipped; auto; [unfold frame; tauto|].
  assert (Wb : is_byte w) by (unfold is_byte; lia). assert (Hb : is_byte h) by (unfold is_byte; lia).
  pose proof (draw_hline_spec a b w A B Wb) as [F1 K1]. pose proof (draw_vline_spec a b h A B Hb) as [F2 K2].
  pose proof (draw_vline_spec (u8 (u8 (a + w) - 1)) b h (u8_byte _) B Hb) as [F3 K3]. pose proof (draw_hline_spec a (u8 (u8 (b + h) - 1)) w A (u8_byte _) Wb) as [F4 K4].
  split; [repeat (apply Forall_app; split); auto|]. intros x y I. destruct (inside_bytes c x y C I) as [X Y].
  rewrite !covers_app, K1, K2, K3, K4 by auto. rewrite (off_last x a w), (off_last y b h) by auto. rewrite <- (off_0 x a), <- (off_0 y b) by auto. unfold frame, rect.
  pose proof (off_range x a). pose proof (off_range y b). intuition lia.
Qed.

(** ** Bitmaps *)
Lemma rd_skipn n : forall (l : list Z) i, rd (skipn n l) i = rd l (n + i).
Proof. unfold rd. induction n; intros [|z l] i; cbn [skipn Nat.add nth]; auto. destruct i; reflexivity. Qed.
Lemma Forall_skipn_b (Q : Z -> Prop) n : forall l, Forall Q l -> Forall Q (skipn n l).
Proof. induction n; intros l F; cbn [skipn]; auto. destruct l; auto. inversion F; auto. Qed.

Lemma hbitmap_spec n : forall a b bm, (n <= 32)%nat -> is_byte a -> is_byte b -> Forall is_byte bm ->
  Forall msg_ok (DrawHBitmap n a b bm) /\ forall x y, is_byte x ->
  covers (DrawHBitmap n a b bm) x y <-> y = b /\ off x a < 8 * Z.of_nat n /\ Z.testbit (rd bm (Z.to_nat (off x a / 8))) (7 - off x a mod 8) = true.
Proof.
  induction n as [|n IH]; intros a b bm N A B F; cbn [DrawHBitmap].
  - split; [constructor|]. intros x y X. rewrite covers_nil. pose proof (off_range x a). lia.
  - destruct (IH (u8 (a + 8)) b (skipn 1 bm) ltac:(lia) (u8_byte _) B (Forall_skipn_b _ 1 _ F)) as [G C].
    split; [constructor; [apply eight_ok; auto; [unfold is_byte; lia|apply (rd_byte bm 0 F)]|exact G]|].
    intros x y X. rewrite covers_cons, on_right, C by auto. rewrite off_step, rd_skipn by lia. pose proof (off_range x a) as R. destruct (Z.leb_spec 8 (off x a)) as [L|L].
    + replace ((off x a - 8) mod 8) with (off x a mod 8) by (rewrite <- (Z.mod_add (off x a - 8) 1 8) by lia; f_equal; lia).
      replace (1 + Z.to_nat ((off x a - 8) / 8))%nat with (Z.to_nat (off x a / 8)) by (Z.div_mod_to_equations; lia). intuition lia.
    + rewrite (Z.div_small (off x a) 8), (Z.mod_small (off x a) 8) by lia. change (Z.to_nat 0) with 0%nat. intuition lia.
Qed.

(** Rows one below the other, each [k] bytes further *)
Section Rows.
Context (row : Z -> list Z -> list msg) (k : nat) (dots : list Z -> Z -> Prop) (rows : nat -> Z -> list Z -> list msg).
Hypothesis rows0 : forall y bm, rows 0%nat y bm = [].
Hypothesis rowsS : forall h y bm, rows (S h) y bm = row y bm ++ rows h (u8 (y + 1)) (skipn k bm).
Hypothesis row_spec : forall b bm, is_byte b -> Forall is_byte bm -> Forall msg_ok (row b bm) /\ forall x y, is_byte x -> covers (row b bm) x y <-> y = b /\ dots bm x.
Lemma rows_spec h : forall b bm, (h <= 255)%nat -> is_byte b -> Forall is_byte bm ->
  Forall msg_ok (rows h b bm) /\ forall x y, is_byte x -> is_byte y -> covers (rows h b bm) x y <-> off y b < Z.of_nat h /\ dots (skipn (Z.to_nat (off y b) * k) bm) x.
Proof.
  induction h as [|h IH]; intros b bm Hh B F.
  - rewrite rows0. split; [constructor|]. intros x y X Y. rewrite covers_nil. pose proof (off_range y b). lia.
  - rewrite rowsS. destruct (row_spec b bm B F) as [F1 C1]. destruct (IH (u8 (b + 1)) (skipn k bm) ltac:(lia) (u8_byte _) (Forall_skipn_b _ k _ F)) as [F2 C2].
    split; [apply Forall_app; auto|]. intros x y X Y. rewrite covers_app, C1, C2 by auto. rewrite off_step by lia. pose proof (off_range y b) as R. rewrite <- (off_0 y b) by auto.
    destruct (Z.leb_spec 1 (off y b)) as [L|L].
    + assert (E : skipn (Z.to_nat (off y b - 1) * k) (skipn k bm) = skipn (Z.to_nat (off y b) * k) bm).
      { replace (Z.to_nat (off y b)) with (S (Z.to_nat (off y b - 1))) by lia. cbn [Nat.mul]. generalize (Z.to_nat (off y b - 1) * k)%nat as m. intros m. clear. revert bm.
        induction k as [|k' IHk]; intros bm; cbn [skipn Nat.add]; auto. destruct bm; [destruct m; reflexivity|apply IHk]. }
      rewrite E. intuition lia.
    + assert (E : off y b = 0) by lia. rewrite E. change (Z.to_nat 0 * k)%nat with 0%nat. cbn [skipn]. intuition lia.
Qed.
End Rows.

Lemma Bitmap_draws c a b cnt h bm : box_ok c -> is_byte a -> is_byte b -> 0 <= cnt <= 31 -> is_byte h -> Forall is_byte bm ->
  draws c (DrawBitmap c a b cnt h bm) (bitmap a b cnt h bm).
Proof.
  intros C A B N H F. unfold is_byte in H. unfold DrawBitmap.
  pose proof (rows_spec (fun y bm => DrawHBitmap (Z.to_nat cnt) a y bm) (Z.to_nat cnt) (fun bm x => off x a < 8 * cnt /\ Z.testbit (rd bm (Z.to_nat (off x a / 8))) (7 - off x a mod 8) = true)
    (fun h y bm => bitmapLoop h a y (Z.to_nat cnt) bm) (fun _ _ => eq_refl) (fun _ _ _ => eq_refl)) as R.
  destruct (R) with (h := Z.to_nat h) (b := b) (bm := bm) as [G K]; auto; try lia.
  { intros b' bm' B' F'. destruct (hbitmap_spec (Z.to_nat cnt) a b' bm' ltac:(lia) A B' F') as [G K]. split; [exact G|]. intros x y X. rewrite K by auto. rewrite Z2Nat.id by lia. tauto. }
  assert (D : draws c (bitmapLoop (Z.to_nat h) a b (Z.to_nat cnt) bm) (bitmap a b cnt h bm)).
  { split; [exact G|]. intros x y I. destruct (inside_bytes c x y C I) as [X Y]. rewrite K by auto. unfold bitmap, rect. rewrite rd_skipn.
    pose proof (off_range x a). pose proof (off_range y b). rewrite Z2Nat.id by lia.
    replace (Z.to_nat (off y b) * Z.to_nat cnt + Z.to_nat (off x a / 8))%nat with (Z.to_nat (off y b * cnt + off x a / 8)); [tauto|].
    rewrite Z2Nat.inj_add, Z2Nat.inj_mul; try lia; try apply Z.div_pos; nia. }
  rewrite u8_small by lia. destruct (Z.eq_dec cnt 0) as [->|Nc]; [|destruct (Z.eq_dec h 0) as [->|Nh]].
  - destruct (negb _); [|exact D]. split; [constructor|]. intros x y I. rewrite covers_nil. unfold bitmap, rect. pose proof (off_range x a). lia.
  - destruct (negb _); [|exact D]. split; [constructor|]. intros x y I. rewrite covers_nil. unfold bitmap, rect. pose proof (off_range y b). lia.
  - apply draws_clipped; auto; try lia. unfold bitmap. intros x y [Q _]. replace (cnt * 8) with (8 * cnt) by lia. exact Q.
Qed.

Lemma xbmBits_spec n : forall a b d, (n <= 8)%nat -> is_byte a -> is_byte b -> 0 <= d ->
  Forall msg_ok (xbmBits n a b d) /\ forall x y, is_byte x -> covers (xbmBits n a b d) x y <-> y = b /\ off x a < Z.of_nat n /\ Z.testbit d (off x a) = true.
Proof.
  induction n as [|n IH]; intros a b d N A B D; cbn [xbmBits].
  - split; [constructor|]. intros x y X. rewrite covers_nil. pose proof (off_range x a). lia.
  - destruct (IH (u8 (a + 1)) b (Z.shiftr d 1) ltac:(lia) (u8_byte _) B) as [G C]; [apply Z.shiftr_nonneg; lia|].
    assert (T0 : negb (Z.land d 1 =? 0) = Z.testbit d 0).
    { change 1 with (Z.ones 1). rewrite Z.land_ones by lia. change (2 ^ 1) with 2. rewrite <- Z.bit0_mod. destruct (Z.testbit d 0); reflexivity. }
    rewrite T0. split; [apply Forall_app; split; [destruct (Z.testbit d 0); [constructor; [exact (conj A B)|constructor]|constructor]|exact G]|].
    intros x y X. rewrite covers_app, C by auto. rewrite off_step by lia. pose proof (off_range x a) as R.
    assert (P : covers (if Z.testbit d 0 then [Pixel a b] else []) x y <-> y = b /\ off x a = 0 /\ Z.testbit d 0 = true).
    { destruct (Z.testbit d 0); [rewrite covers_cons|]; rewrite covers_nil; [cbn [on]; rewrite (off_0 x a) by auto; tauto|intuition discriminate]. }
    rewrite P. destruct (Z.leb_spec 1 (off x a)) as [L|L].
    + rewrite Z.shiftr_spec by lia. replace (off x a - 1 + 1) with (off x a) by lia. intuition lia.
    + assert (E : off x a = 0) by lia. rewrite E. intuition lia.
Qed.

Lemma xbmLoop_spec n : forall a b w bm, is_byte a -> is_byte b -> is_byte w -> Forall is_byte bm -> Z.of_nat n = w / 8 ->
  Forall msg_ok (xbmLoop n (u8 (a + 7)) b w bm) /\ forall x y, is_byte x ->
  covers (xbmLoop n (u8 (a + 7)) b w bm) x y <-> y = b /\ off x a < w /\ Z.testbit (rd bm (Z.to_nat (off x a / 8))) (off x a mod 8) = true.
Proof.
  induction n as [|n IH]; intros a b w bm A B W F N; cbn [xbmLoop]; unfold is_byte in W.
  - assert (W8 : 0 <= w < 8) by (Z.div_mod_to_equations; lia). destruct (Z.ltb_spec 0 w).
    + replace (u8 (u8 (a + 7) - 7)) with a by (unfold is_byte, u8 in *; Z.div_mod_to_equations; lia).
      destruct (xbmBits_spec (Z.to_nat w) a b (rd bm 0) ltac:(lia) A B) as [G C]; [pose proof (rd_byte bm 0 F); unfold is_byte in *; lia|].
      split; [exact G|]. intros x y X. rewrite C by auto. pose proof (off_range x a). rewrite Z2Nat.id by lia.
      destruct (Z.ltb_spec (off x a) w); [rewrite (Z.div_small (off x a) 8), (Z.mod_small (off x a) 8) by lia; tauto|intuition lia].
    + split; [constructor|]. intros x y X. rewrite covers_nil. pose proof (off_range x a). lia.
  - assert (W8 : 8 <= w) by (Z.div_mod_to_equations; lia).
    replace (u8 (u8 (a + 7) + 8)) with (u8 (u8 (a + 8) + 7)) by (unfold u8; Z.div_mod_to_equations; lia).
    rewrite (u8_small (w - 8)) by lia.
    destruct (IH (u8 (a + 8)) b (w - 8) (skipn 1 bm) (u8_byte _) B) as [G C]; [unfold is_byte; lia|apply Forall_skipn_b; auto|Z.div_mod_to_equations; lia|].
    split; [constructor; [apply eight_ok; auto; [apply u8_byte|unfold is_byte; lia|apply (rd_byte bm 0 F)]|exact G]|].
    intros x y X. rewrite covers_cons, on_left, C by auto. rewrite off_step, rd_skipn by lia. pose proof (off_range x a) as R. destruct (Z.leb_spec 8 (off x a)) as [L|L].
    + replace ((off x a - 8) mod 8) with (off x a mod 8) by (rewrite <- (Z.mod_add (off x a - 8) 1 8) by lia; f_equal; lia).
      replace (1 + Z.to_nat ((off x a - 8) / 8))%nat with (Z.to_nat (off x a / 8)) by (Z.div_mod_to_equations; lia). intuition lia.
    + rewrite (Z.div_small (off x a) 8), (Z.mod_small (off x a) 8) by lia. change (Z.to_nat 0) with 0%nat. intuition lia.
Qed.

Lemma XBM_draws c a b w h bm : box_ok c -> is_byte a -> is_byte b -> 0 <= w <= 248 -> is_byte h -> Forall is_byte bm ->
  draws c (DrawXBM c a b w h bm) (xbm a b w h bm).
Proof.
  intros C A B W H F. unfold is_byte in H. unfold DrawXBM.
  assert (Eb : Z.shiftr (u8 (w + 7)) 3 = (w + 7) / 8) by (rewrite u8_small, Z.shiftr_div_pow2 by lia; reflexivity). rewrite Eb.
  pose proof (rows_spec (fun y bm => DrawHXBM a y w bm) (Z.to_nat ((w + 7) / 8)) (fun bm x => off x a < w /\ Z.testbit (rd bm (Z.to_nat (off x a / 8))) (off x a mod 8) = true)
    (fun h y bm => xbmRows h a y w (Z.to_nat ((w + 7) / 8)) bm) (fun _ _ => eq_refl) (fun _ _ _ => eq_refl)) as R.
  destruct (R) with (h := Z.to_nat h) (b := b) (bm := bm) as [G K]; auto; try lia.
  { intros b' bm' B' F'. unfold DrawHXBM. apply xbmLoop_spec; auto; [unfold is_byte; lia|]. rewrite Z2Nat.id; [reflexivity|]. apply Z.div_pos; lia. }
  assert (D : draws c (xbmRows (Z.to_nat h) a b w (Z.to_nat ((w + 7) / 8)) bm) (xbm a b w h bm)).
  { split; [exact G|]. intros x y I. destruct (inside_bytes c x y C I) as [X Y]. rewrite K by auto. unfold xbm, rect. rewrite rd_skipn.
    pose proof (off_range x a). pose proof (off_range y b). rewrite Z2Nat.id by lia. assert (0 <= (w + 7) / 8) by (apply Z.div_pos; lia).
    replace (Z.to_nat (off y b) * Z.to_nat ((w + 7) / 8) + Z.to_nat (off x a / 8))%nat with (Z.to_nat (off y b * ((w + 7) / 8) + off x a / 8)); [tauto|].
    rewrite Z2Nat.inj_add, Z2Nat.inj_mul; try lia; try (apply Z.div_pos; lia). }
  destruct (Z.eq_dec w 0) as [->|Nc]; [|destruct (Z.eq_dec h 0) as [->|Nh]].
  - destruct (negb _); [|exact D]. split; [constructor|]. intros x y I. rewrite covers_nil. unfold xbm, rect. pose proof (off_range x a). lia.
  - destruct (negb _); [|exact D]. split; [constructor|]. intros x y I. rewrite covers_nil. unfold xbm, rect. pose proof (off_range y b). lia.
  - apply draws_clipped; auto; try lia. unfold xbm. tauto.
Qed.
