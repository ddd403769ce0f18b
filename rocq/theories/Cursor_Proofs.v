From Verif Require Export Cursor_Spec Font_Proofs U8gPaint_Proofs U8g_Props.

Lemma u8_of v : is_byte v -> u8 v = v.
Proof. unfold is_byte, u8. intros H. apply Z.mod_small. lia. Qed.
Lemma u8_back e : is_byte e -> u8 (u8 (e + 1) - 1) = e.
Proof. unfold is_byte, u8. intros H. rewrite Zminus_mod_idemp_l. replace (e + 1 - 1) with e by lia. apply Z.mod_small. lia. Qed.
Lemma byte_u8 v : is_byte (u8 v).
Proof. unfold is_byte, u8. apply Z.mod_pos_bound. lia. Qed.

Lemma DrawCursor_spec fmt F f c u : cursor_font u = Some f -> is_font fmt F f -> box_ok c -> ctx_ok u ->
  exists back fore, DrawCursor c u = Some (map (pair (cursor_bg u)) back ++ map (pair (cursor_fg u)) fore, u)
  /\ draws c back (glyph_has F ((cursor_encoding u + 1) mod 256) (cursor_x u) (cursor_y u)) /\ draws c fore (glyph_has F (cursor_encoding u) (cursor_x u) (cursor_y u)).
Proof.
  intros CF IF C (K1 & K2 & K3 & K4). destruct u as [fo co cf ce fg bg cx cy fn]. cbn [font color cursor_font cursor_encoding cursor_fg cursor_bg cursor_x cursor_y cursor_fn] in *. subst cf.
  destruct (draw_glyph_spec fmt F f c cx cy (u8 (ce + 1)) IF C (byte_u8 _)) as (back & E1 & D1).
  destruct (draw_glyph_spec fmt F f c cx cy ce IF C K2) as (fore & E2 & D2).
  exists back, fore. unfold DrawCursor, glyph_msgs, SetColorIndex, put_font. cbn [font color cursor_font cursor_encoding cursor_fg cursor_bg cursor_x cursor_y cursor_fn].
  rewrite E1. rewrite (u8_back ce K2), E2, !u8_of by assumption. split; [reflexivity|]. split; [exact D1|exact D2].
Qed.

Lemma cursor_dot F c e fg bg px py back fore l x y v0 : draws c back (glyph_has F ((e + 1) mod 256) px py) -> draws c fore (glyph_has F e px py) -> inside c x y -> dot x y l v0 ->
  exists v, dot x y (l ++ map (pair bg) back ++ map (pair fg) fore) v /\ overlaid F e fg bg px py x y v0 v.
Proof.
  intros [_ B] [_ D] I H. specialize (B x y I). specialize (D x y I). rewrite app_assoc. destruct (dot_block x y bg back l v0 H) as [A1 A2].
  destruct (covers_dec back x y) as [Y|N].
  - specialize (A1 Y). destruct (dot_block x y fg fore _ _ A1) as [G1 G2]. destruct (covers_dec fore x y) as [Y2|N2].
    + eexists. split; [apply G1, Y2|]. apply ov_shape, D, Y2.
    + eexists. split; [apply G2, N2|]. apply ov_mask; [rewrite <- D; exact N2|apply B, Y].
  - specialize (A2 N). destruct (dot_block x y fg fore _ _ A2) as [G1 G2]. destruct (covers_dec fore x y) as [Y2|N2].
    + eexists. split; [apply G1, Y2|]. apply ov_shape, D, Y2.
    + eexists. split; [apply G2, N2|]. apply ov_picture; [rewrite <- D; exact N2|rewrite <- B; exact N].
Qed.
Lemma overlaid_unique F e fg bg px py x y v0 v v' : overlaid F e fg bg px py x y v0 v -> overlaid F e fg bg px py x y v0 v' -> v = v'.
Proof. intros H H'. inversion H; inversion H'; subst; try reflexivity; contradiction. Qed.
