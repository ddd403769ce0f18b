(** C113: clipping, lines along the axes, frames, boxes, bitmaps *)
From Verif Require Import U8gRect_Proofs.

(** The test with which functions skip what is not in the page: true exactly if the rectangle, wrapped round, has a dot in the page *)
Theorem C113_clipping c a b w h : box_ok c -> is_byte a -> is_byte b -> 1 <= w <= 255 -> 1 <= h <= 255 ->
  IsBBXIntersection c a b w h = true <-> exists x y, inside c x y /\ rect a b w h x y.
Proof. apply bbx_spec. Qed.
Print Assumptions C113_clipping.

(** In every page exactly the dots of the shape are drawn *)
Theorem C113_hline c a b w : box_ok c -> is_byte a -> is_byte b -> is_byte w -> draws c (DrawHLine c a b w) (rect a b w 1).
Proof. apply HLine_draws. Qed.
Print Assumptions C113_hline.
Theorem C113_vline c a b h : box_ok c -> is_byte a -> is_byte b -> is_byte h -> draws c (DrawVLine c a b h) (rect a b 1 h).
Proof. apply VLine_draws. Qed.
Print Assumptions C113_vline.
Theorem C113_box_partial c a b w h : box_ok c -> is_byte a -> is_byte b -> is_byte w -> 1 <= h <= 255 -> draws c (DrawBox c a b w h) (rect a b w h).
Proof. apply Box_draws. Qed.
Print Assumptions C113_box_partial.
Theorem C113_frame_partial c a b w h : box_ok c -> is_byte a -> is_byte b -> 1 <= w <= 255 -> 1 <= h <= 255 -> draws c (DrawFrame c a b w h) (frame a b w h).
Proof. apply Frame_draws. Qed.
Print Assumptions C113_frame_partial.
(** Missing: more than 31 bytes in a row *)
Theorem C113_bitmap_partial c a b cnt h bits : box_ok c -> is_byte a -> is_byte b -> 0 <= cnt <= 31 -> is_byte h -> Forall is_byte bits ->
  draws c (DrawBitmap c a b cnt h bits) (bitmap a b cnt h bits).
Proof. apply Bitmap_draws. Qed.
Print Assumptions C113_bitmap_partial.
(** Missing: more than 248 columns *)
Theorem C113_xbm_partial c a b w h bits : box_ok c -> is_byte a -> is_byte b -> 0 <= w <= 248 -> is_byte h -> Forall is_byte bits ->
  draws c (DrawXBM c a b w h bits) (xbm a b w h bits).
Proof. apply XBM_draws. Qed.
Print Assumptions C113_xbm_partial.

(** A box of height 0 fills its columns over the whole height *)
Theorem C113_box0_refuted c w y : box_ok c -> inside c 0 y -> 1 <= w <= 255 -> exists b, is_byte b /\ covers (DrawBox c 0 b w 0) 0 y /\ ~ rect 0 b w 0 0 y.
Proof.
  intros C I W. destruct (inside_bytes c 0 y C I) as [X Y]. exists y. split; [exact Y|]. unfold is_byte in Y. split.
  - unfold DrawBox. assert (E : IsBBXIntersection c 0 y w 0 = true).
    { unfold IsBBXIntersection. replace (u8 (u8 (y + 0) - 1)) with (u8 (u8 (y + 255))) by (unfold u8; Z.div_mod_to_equations; lia). destruct C as (C1 & C2 & C3 & C4). destruct I as [I1 I2].
      assert (T1 : is_intersection_decision_tree (y0 c) (y1 c) y (u8 (u8 (y + 255))) = true).
      { unfold is_intersection_decision_tree. destruct (Z.leb_spec y (y1 c)); [|lia]. destruct (Z.leb_spec (y0 c) (u8 (u8 (y + 255)))); [reflexivity|].
        destruct (Z.ltb_spec (u8 (u8 (y + 255))) y); [reflexivity|]. unfold u8 in *. Z.div_mod_to_equations. lia. }
      rewrite T1. cbn [negb]. replace (u8 (u8 (0 + w) - 1)) with (w - 1) by (unfold u8; Z.div_mod_to_equations; lia). unfold is_intersection_decision_tree.
      destruct (Z.leb_spec 0 (x1 c)); [|lia]. destruct (Z.leb_spec (x0 c) (w - 1)); [reflexivity|lia]. }
    rewrite E. cbn [negb]. unfold draw_box. change (Z.to_nat (u8 (0 - 1))) with 255%nat.
    destruct (boxLoop_spec 255 0 y w X) as [_ K]; [unfold is_byte; lia|unfold is_byte; lia|lia|]. apply K; auto.
    pose proof (off_range y y). change (off 0 0) with 0. lia.
  - unfold rect. pose proof (off_range y y). lia.
Qed.
Print Assumptions C113_box0_refuted.

(** An X bitmap of 249 columns has 32 bytes per row, but each row is drawn from the first byte *)
Theorem C113_xbm_refuted : let c := mkBox 0 0 101 7 in let bits := repeat 0 32 ++ [1] ++ repeat 0 31 in
  box_ok c /\ inside c 0 1 /\ xbm 0 0 249 2 bits 0 1 /\ ~ covers (DrawXBM c 0 0 249 2 bits) 0 1.
Proof.
  cbn zeta. split; [unfold box_ok; cbn; lia|]. split; [unfold inside; cbn; lia|]. split; [unfold xbm, rect, off; vm_compute; repeat split; congruence|].
  intros (m & I & O). assert (F : Forall (fun m => match m with Eight _ _ _ q => q = 0 | Pixel _ _ => False end) (DrawXBM (mkBox 0 0 101 7) 0 0 249 2 (repeat 0 32 ++ [1] ++ repeat 0 31))).
  { vm_compute. repeat constructor. }
  rewrite Forall_forall in F. specialize (F m I). destruct m; [contradiction|]. subst. destruct O as (k & _ & T & _). rewrite Z.testbit_0_l in T. discriminate.
Qed.
Print Assumptions C113_xbm_refuted.

Definition page1 := mkBox 0 8 101 15.
Lemma page1_ok : box_ok page1. Proof. unfold box_ok. cbn. lia. Qed.
(** Over the right edge and round to the left; partly in the page; not in it *)
Example C113_hline_example : box_ok page1 /\ inside page1 2 9 /\ rect 250 9 10 1 2 9 /\ ~ rect 250 9 10 1 4 9 /\ DrawHLine page1 250 9 10 = [Eight 250 9 0 255; Eight 2 9 0 192]
  /\ DrawHLine page1 250 16 10 = [].
Proof. split; [apply page1_ok|]. unfold inside, rect, off. cbn [x0 x1 y0 y1 page1]. repeat split; try lia; try reflexivity; vm_compute; intuition congruence. Qed.
Example C113_vline_example : inside page1 5 12 /\ rect 5 250 1 20 5 12 /\ ~ rect 5 250 1 20 5 14 /\ DrawVLine page1 5 250 20 = [Eight 5 250 1 255; Eight 5 2 1 255; Eight 5 10 1 240].
Proof. unfold inside, rect, off. cbn [x0 x1 y0 y1 page1]. repeat split; try lia; try reflexivity; vm_compute; intuition congruence. Qed.
Example C113_clipping_example : IsBBXIntersection page1 200 250 60 20 = true /\ IsBBXIntersection page1 102 8 10 8 = false /\ is_byte 200.
Proof. repeat split; vm_compute; congruence. Qed.
Example C113_box_example : rect 10 6 3 4 12 9 /\ ~ rect 10 6 3 4 13 9 /\ inside page1 12 9 /\ DrawBox page1 10 6 3 4 = map (fun y => Eight 10 y 0 224) [6; 7; 8; 9].
Proof. unfold rect, inside, off. cbn [x0 x1 y0 y1 page1]. repeat split; try lia; try reflexivity; vm_compute; intuition congruence. Qed.
Example C113_frame_example : frame 10 6 3 5 12 9 /\ ~ frame 10 6 3 5 11 9 /\ inside page1 11 9
  /\ DrawFrame page1 10 6 3 5 = [Eight 10 6 0 224; Eight 10 6 1 248; Eight 12 6 1 248; Eight 10 10 0 224].
Proof. unfold frame, rect, inside, off. cbn [x0 x1 y0 y1 page1]. repeat split; try lia; try reflexivity; vm_compute; try congruence; intuition congruence. Qed.
Example C113_bitmap_example : let bits := [0x80; 0x01; 0x40; 0x02] in
  bitmap 20 9 2 2 bits 34 10 /\ ~ bitmap 20 9 2 2 bits 35 10 /\ inside page1 34 10 /\ Forall is_byte bits
  /\ DrawBitmap page1 20 9 2 2 bits = [Eight 20 9 0 0x80; Eight 28 9 0 0x01; Eight 20 10 0 0x40; Eight 28 10 0 0x02].
Proof.
  cbn zeta. split; [unfold bitmap, rect, off; vm_compute; repeat split; congruence|]. split; [unfold bitmap; vm_compute; intros [_ E]; congruence|].
  split; [unfold inside; cbn; lia|]. split; [repeat constructor; lia|reflexivity].
Qed.
Example C113_xbm_example : let bits := [0x80; 0x01; 0x40; 0x02] in
  xbm 20 9 10 2 bits 29 10 /\ ~ xbm 20 9 10 2 bits 28 10 /\ inside page1 29 10 /\ Forall is_byte bits
  /\ DrawXBM page1 20 9 10 2 bits = [Eight 27 9 2 0x80; Pixel 28 9; Eight 27 10 2 0x40; Pixel 29 10].
Proof.
  cbn zeta. split; [unfold xbm, rect, off; vm_compute; repeat split; congruence|]. split; [unfold xbm; vm_compute; intros [_ E]; congruence|].
  split; [unfold inside; cbn; lia|]. split; [repeat constructor; lia|reflexivity].
Qed.
Example C113_box0_example : box_ok page1 /\ inside page1 0 12. Proof. split; [apply page1_ok|unfold inside; cbn; lia]. Qed.
