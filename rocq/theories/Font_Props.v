(** C131: text *)
From Verif Require Import Font_Proofs U8gPaint_Proofs U8g_Props.

(** Each character of a font is found, with or without the shortcuts of its header, where its entry is and with the numbers of its glyph; a character the font does not have is not found
    and is as a glyph of size 0. Nothing outside the file is read *)
Theorem C131_glyph fmt F font ch : is_font fmt F font -> is_byte ch ->
  GetGlyph font ch = Some (match glyph_of F ch with
                           | Some g => (Some (entry_pos fmt F ch), mkCache (g_dx g) (g_x g) (g_y g) (g_w g) (g_h g))
                           | None => (None, mkCache 0 0 0 0 0)
                           end)
  /\ IsGlyph font ch = Some (match glyph_of F ch with Some _ => true | None => false end)
  /\ GetGlyphDeltaX font ch = Some (match glyph_of F ch with Some g => g_dx g | None => 0 end).
Proof. intros IF CH. unfold IsGlyph, GetGlyphDeltaX. rewrite (GetGlyph_spec fmt F font ch IF CH). destruct (glyph_of F ch); repeat split. Qed.
Print Assumptions C131_glyph.

(** In every page exactly the dots of the text are drawn; DrawStr returns how far the pen has moved, as GetStrWidth says before *)
Theorem C131_text fmt F font c vref px py s : is_font fmt F font -> box_ok c -> Forall is_byte s ->
  exists l, DrawStr c font vref px py s = Some (l, advance F s mod 256) /\ draws c l (text_dots F s px (py + vref)) /\ GetStrWidth font s = Some (advance F s mod 256).
Proof.
  intros IF C FS. unfold DrawStr, GetStrWidth. destruct (strLoop_spec fmt F font c (u8 (py + vref)) IF C s px 0 FS) as (l & E & D). exists l. rewrite E, (widthLoop_spec fmt F font IF s 0 FS).
  assert (T : match s with [] => 0 | _ => u8 (0 + advance F s) end = advance F s mod 256) by (destruct s; reflexivity). rewrite T. split; [reflexivity|]. split; [|reflexivity].
  eapply draws_ext; [|exact D]. intros x y. apply text_dots_shift; [reflexivity|]. unfold u8. apply Z.mod_mod. lia.
Qed.
Print Assumptions C131_text.

(** A text drawn in the picture loop: the display shows the dots of the text and no others *)
Theorem C131_shown fmt F font w h b vref px py s : is_font fmt F font -> Forall is_byte s -> display_ok w h b ->
  forall n, (pages h <= n)%nat -> exists b' log,
    picture n (fun c => match DrawStr c font vref px py s with Some (l, _) => map (pair 1) l | None => [] end) b = Some (b', log)
    /\ forall x y, 0 <= x < w -> 0 <= y < h -> exists v, shown log x y = Some v /\ (v = true <-> text_dots F s px (py + vref) x y).
Proof.
  intros IF FS D n Hn. pose proof D as (W & H & _). set (draw := fun c => match DrawStr c font vref px py s with Some (l, _) => map (pair 1) l | None => [] end).
  set (full := mkBox 0 0 255 255). assert (FO : box_ok full) by (unfold box_ok, full; cbn; lia).
  assert (PO : forall c, page_of w h c -> box_ok c) by (intros c (k & K1 & K2 & K3 & K4 & K5 & K6); unfold box_ok; lia).
  assert (ONE : forall c x y, box_ok c -> inside c x y -> exists v, dot x y (draw c) v /\ (v = true <-> text_dots F s px (py + vref) x y)).
  { intros c x y C I. destruct (C131_text fmt F font c vref px py s IF C FS) as (l & E & [M K] & _). unfold draw. rewrite E. specialize (K x y I).
    destruct (dot_block x y 1 l [] false (dot_none x y)) as [A B]. cbn [app] in A, B. destruct (covers_dec l x y) as [Y|N].
    - exists true. split; [apply A; exact Y|]. tauto.
    - exists false. split; [apply B; exact N|]. split; [discriminate|]. intros Q. exfalso. apply N, K, Q. }
  assert (FI : forall c x y, box_ok c -> inside c x y -> inside full x y) by (intros c x y C I; unfold inside, full, box_ok in *; cbn; lia).
  destruct (C112_picture w h b draw (draw full) D) with (fuel := n) as (b' & log & E & _ & _ & K & _); auto.
  - intros c P. destruct (C131_text fmt F font c vref px py s IF (PO c P) FS) as (l & E & [M K] & _). unfold draw. rewrite E. apply Forall_forall. intros e I. apply in_map_iff in I as (m & <- & I).
    cbn [snd]. rewrite Forall_forall in M. auto.
  - intros c P x y v I. pose proof (PO c P) as C. destruct (ONE c x y C I) as (v1 & D1 & T1). destruct (ONE full x y FO (FI c x y C I)) as (v2 & D2 & T2).
    assert (EQ : v1 = v2) by (destruct v1, v2; try reflexivity; [symmetry; apply T2, T1; reflexivity|apply T1, T2; reflexivity]). subst v2.
    split; intros Dv; [rewrite (dot_unique _ _ _ _ Dv _ D1); exact D2|rewrite (dot_unique _ _ _ _ Dv _ D2); exact D1].
  - exists b', log. split; [exact E|]. intros x y X Y. destruct (K x y X Y) as (v & S & Dv). exists v. split; [exact S|].
    destruct (ONE full x y FO) as (v1 & D1 & T1); [unfold inside, full; cbn; lia|]. rewrite (dot_unique _ _ _ _ Dv _ D1). exact T1.
Qed.
Print Assumptions C131_shown.

(** GetStrPixelWidth: from the left edge of the first glyph to the right edge of the last, where DrawStr places them *)
Theorem C131_pixel_width fmt F font s : is_font fmt F font -> Forall is_byte s -> s <> [] ->
  GetStrPixelWidth font s = Some ((right_edge F s - left_edge F s) mod 256).
Proof.
  intros IF FS NE. destruct s as [|ch s]; [congruence|]. inversion FS as [|? ? CH FS']; subst. unfold GetStrPixelWidth. destruct (GetGlyph_dx fmt F font ch IF CH) as (p & k & E & Q). rewrite E.
  rewrite (pixelLoop_spec fmt F font IF s ch k _ CH FS' Q). f_equal. rewrite u8_u8_add. unfold u8, left_edge. cbn [hd]. f_equal. destruct Q as (_ & -> & _). lia.
Qed.
Print Assumptions C131_pixel_width.

(** Where the reference rows of a line lie for the four vertical positions: on the baseline; above [y]; below [y]; half above, half from [y] on, modulo 256. Missing: more than 127 rows *)
Theorem C131_position_partial r y : -128 <= ref_ascent r <= 127 -> -128 <= ref_descent r <= 127 -> 0 <= ref_ascent r - ref_descent r <= 127 ->
  calc_vref Baseline r = 0
  /\ last_row r (y + calc_vref Bottom r) mod 256 = (y - 1) mod 256
  /\ first_row r (y + calc_vref Top r) mod 256 = (y + 1) mod 256
  /\ exists up down, first_row r (y + calc_vref Center r) mod 256 = (y - up) mod 256 /\ last_row r (y + calc_vref Center r) mod 256 = (y + down - 1) mod 256
     /\ up + down = ref_ascent r - ref_descent r /\ 0 <= up - down <= 1.
Proof.
  intros A D B. unfold first_row, last_row, calc_vref. split; [reflexivity|]. split; [unfold u8; Z.div_mod_to_equations; lia|]. split; [unfold u8; Z.div_mod_to_equations; lia|].
  set (a := ref_ascent r) in *. set (d := ref_descent r) in *. rewrite (s8_small (a - d)) by lia. rewrite Z.quot_div_nonneg by lia.
  assert (Q : -128 <= (a - d) / 2 + d <= 127) by (Z.div_mod_to_equations; lia). rewrite s8_small by exact Q. exists ((a - d) - (a - d) / 2), ((a - d) / 2).
  clear Q. unfold u8. clearbody a d. clear r. repeat split; Z.div_mod_to_equations; lia.
Qed.
Print Assumptions C131_position_partial.
(** With 128 rows or more the text for "center" is drawn 128 rows too far up *)
Theorem C131_center_refuted : let r := mkRef 100 (-30) 130 in
  ~ exists up down, first_row r (calc_vref Center r) mod 256 = (0 - up) mod 256 /\ up + down = ref_ascent r - ref_descent r /\ 0 <= up - down <= 1.
Proof.
  cbn zeta. intros (up & down & E & S & U). cbn [ref_ascent ref_descent] in S. assert (up = 65) by lia. subst. vm_compute in E. discriminate.
Qed.
Print Assumptions C131_center_refuted.

(** The reference rows are those of the mode, and lines drawn in the distance of the line spacing touch without overlap; the factor is in 64ths *)
Theorem C131_lines fmt F font mode factor : is_font fmt F font -> is_byte factor -> exists r, UpdateRefHeight font mode factor = Some r
  /\ (ref_ascent r mod 256 = rd font (if mode =? 0 then 5 else if mode =? 1 then 15 else 13)) /\ (ref_descent r mod 256 = rd font (if mode =? 0 then 12 else if mode =? 1 then 16 else 14))
  /\ -128 <= ref_ascent r <= 127 /\ -128 <= ref_descent r <= 127
  /\ (factor = 64 -> forall y, first_row r (y + line_spacing r) mod 256 = (last_row r y + 1) mod 256)
  /\ (ref_descent r <= ref_ascent r -> line_spacing r = (ref_ascent r - ref_descent r) * factor / 64 mod 256).
Proof.
  intros (hd & rest & E & L & FB & _) FA. unfold is_byte in FA.
  assert (GB : forall i, (i < 17)%nat -> get_byte font i = Some (rd font i) /\ is_byte (rd font i)).
  { intros i Hi. split; [|apply rd_byte; exact FB]. rewrite E, get_hd by lia. f_equal. unfold rd. rewrite app_nth1 by lia. reflexivity. }
  assert (S8 : forall v, is_byte v -> s8 v mod 256 = v /\ -128 <= s8 v <= 127).
  { intros v V. unfold is_byte in V. unfold s8. rewrite u8_small by lia. destruct (Z.ltb_spec v 128); split; try lia; [apply Z.mod_small; lia|Z.div_mod_to_equations; lia]. }
  assert (M : exists i j, (i < 17)%nat /\ (j < 17)%nat /\ (if mode =? 0 then (5, 12)%nat else if mode =? 1 then (15, 16)%nat else (13, 14)%nat) = (i, j)
    /\ i = (if mode =? 0 then 5%nat else if mode =? 1 then 15%nat else 13%nat) /\ j = (if mode =? 0 then 12%nat else if mode =? 1 then 16%nat else 14%nat)).
  { destruct (mode =? 0); [exists 5%nat, 12%nat|destruct (mode =? 1); [exists 15%nat, 16%nat|exists 13%nat, 14%nat]]; repeat split; lia. }
  destruct M as (i & j & Hi & Hj & EM & Ei & Ej). unfold UpdateRefHeight. rewrite EM, <- Ei, <- Ej. destruct (GB i Hi) as [Gi Bi]. destruct (GB j Hj) as [Gj Bj]. rewrite Gi, Gj.
  destruct (S8 _ Bi) as [A1 A2]. destruct (S8 _ Bj) as [D1 D2]. set (a := s8 (rd font i)) in *. set (d := s8 (rd font j)) in *. eexists. split; [reflexivity|]. cbn [ref_ascent ref_descent line_spacing].
  split; [exact A1|]. split; [exact D1|]. split; [exact A2|]. split; [exact D2|]. clearbody a d. clear - FA A2 D2. unfold first_row, last_row. cbn [ref_ascent ref_descent line_spacing]. split.
  - intros -> y. rewrite Z.eqb_refl. cbn [negb]. unfold u8, u16. Z.div_mod_to_equations. lia.
  - intros LE. destruct (Z.eqb_spec factor 64) as [->|N]; cbn [negb].
    + rewrite Z.div_mul by lia. unfold u8, u16. Z.div_mod_to_equations. lia.
    + assert (E1 : u16 (a - d) = a - d) by (unfold u16; apply Z.mod_small; lia). rewrite E1. rewrite land_255 by lia. assert (E2 : u16 ((a - d) * factor) = (a - d) * factor) by (unfold u16; apply Z.mod_small; nia).
      rewrite E2, Z.shiftr_div_pow2 by lia. reflexivity.
Qed.
Print Assumptions C131_lines.

(** ** Examples *)
(** Format 1: a gap at 64, A of 5 columns, B of 9 columns that begins one column further and one row lower; shortcut to A *)
Definition glyphA := mkGlyph 6 5 2 0 0 [0x88; 0xF8].
Definition glyphB := mkGlyph 10 9 1 1 (-1) [0x80; 0x80].
Definition face1 := mkFace 64 [None; Some glyphA; Some glyphB].
Definition file1 := [1; 9; 2; 0; 255; 2; 0; 18; 0; 0; 64; 66; 255; 2; 255; 2; 255; 255; 0x02; 0x52; 0x62; 0x88; 0xF8; 0x11; 0x91; 0xA2; 0x80; 0x80; 77].
Lemma file1_ok : is_font 1 face1 file1.
Proof.
  exists (firstn 17 file1), [77]. split; [reflexivity|]. split; [reflexivity|]. split; [unfold file1; repeat (apply Forall_cons; [split; [discriminate|reflexivity]|]); apply Forall_nil|].
  split; [lia|]. split; [reflexivity|]. split; [reflexivity|]. split; [reflexivity|]. split; [discriminate|]. split; [right; split; [cbn; lia|reflexivity]|]. split; [left; reflexivity|].
  intros g [G|[G|[G|[]]]]; [discriminate| |]; injection G as <-.
  - split; [|change (1 =? 1) with true; cbn; lia]. split; [repeat constructor; lia|]. split; [reflexivity|]. cbn [glyphA g_w g_h g_data]. change ((5 + 7) / 8) with 1. intros r k R K.
    assert (P : r = 0 \/ r = 1) by lia. assert (Q : k = 5 \/ k = 6 \/ k = 7) by lia. destruct P as [-> | ->]; destruct Q as [-> |[-> | ->]]; reflexivity.
  - split; [|change (1 =? 1) with true; cbn; lia]. split; [repeat constructor; lia|]. split; [reflexivity|]. cbn [glyphB g_w g_h g_data]. change ((9 + 7) / 8) with 2. intros r k R K.
    assert (P : r = 0) by lia. assert (Q : k = 9 \/ k = 10 \/ k = 11 \/ k = 12 \/ k = 13 \/ k = 14 \/ k = 15) by lia. subst. repeat destruct Q as [-> |Q]; subst; reflexivity.
Qed.
(** The same in format 0, without shortcuts, with an offset to the left *)
Definition face0 := mkFace 65 [Some (mkGlyph 8 5 2 (-1) 0 [0x88; 0xF8])].
Definition file0 := [0; 9; 2; 0; 255; 2; 0; 0; 0; 0; 65; 65; 255; 2; 255; 2; 255; 5; 2; 2; 8; 255; 0; 0x88; 0xF8].
Lemma file0_ok : is_font 0 face0 file0.
Proof.
  exists (firstn 17 file0), []. split; [reflexivity|]. split; [reflexivity|]. split; [unfold file0; repeat (apply Forall_cons; [split; [discriminate|reflexivity]|]); apply Forall_nil|].
  split; [lia|]. split; [reflexivity|]. split; [reflexivity|]. split; [reflexivity|]. split; [discriminate|]. split; [left; reflexivity|]. split; [left; reflexivity|].
  intros g [G|[]]; injection G as <-. split; [|change (0 =? 1) with false; cbn; lia]. split; [repeat constructor; lia|]. split; [reflexivity|]. cbn [g_w g_h g_data]. change ((5 + 7) / 8) with 1. intros r k R K.
  assert (P : r = 0 \/ r = 1) by lia. assert (Q : k = 5 \/ k = 6 \/ k = 7) by lia. destruct P as [-> | ->]; destruct Q as [-> |[-> | ->]]; reflexivity.
Qed.
Example C131_glyph_example : is_font 1 face1 file1 /\ is_font 0 face0 file0 /\ glyph_of face1 66 = Some glyphB /\ entry_pos 1 face1 66 = 23%nat /\ glyph_of face1 64 = None /\ glyph_of face1 67 = None
  /\ GetGlyph file1 66 = Some (Some 23%nat, mkCache 10 1 (-1) 9 1) /\ GetGlyph file0 65 = Some (Some 17%nat, mkCache 8 (-1) 0 5 2).
Proof. split; [exact file1_ok|]. split; [exact file0_ok|]. repeat split; reflexivity. Qed.
Definition page0 := mkBox 0 0 101 7.
(** "A?B" at the pen 3, baseline under row 4 *)
Example C131_text_example : box_ok page0 /\ Forall is_byte [65; 63; 66] /\ DrawStr page0 file1 0 3 5 [65; 63; 66] = Some ([Eight 3 3 0 0x88; Eight 3 4 0 0xF8; Eight 10 5 0 0x80; Eight 18 5 0 0x80], 16)
  /\ text_dots face1 [65; 63; 66] 3 5 18 5 /\ ~ glyph_dots glyphA 3 5 4 3.
Proof.
  split; [unfold box_ok; cbn; lia|]. split; [repeat constructor; lia|]. split; [reflexivity|]. split.
  - exists [65; 63], 66, [], glyphB. split; [reflexivity|]. split; [reflexivity|]. vm_compute. repeat split.
  - intros (_ & _ & T). vm_compute in T. discriminate.
Qed.
Example C131_shown_example : display_ok 102 64 (mkPb (mkPage 8 64 0 7 0) 102 (repeat 0 102)) /\ (pages 64 <= 8)%nat.
Proof. unfold display_ok. cbn [p page_height total_height width buf]. rewrite repeat_length. repeat split; try lia. vm_compute. lia. Qed.
Example C131_pixel_width_example : GetStrPixelWidth file1 [65; 66] = Some 16 /\ right_edge face1 [65; 66] = 16 /\ left_edge face0 [65] = -1 /\ GetStrPixelWidth file0 [65] = Some 5.
Proof. repeat split; reflexivity. Qed.
Example C131_position_example : let r := mkRef 7 (-2) 9 in 0 <= ref_ascent r - ref_descent r <= 127 /\ calc_vref Top r = 8 /\ calc_vref Bottom r = 254 /\ calc_vref Center r = 2.
Proof. cbn zeta. cbn [ref_ascent ref_descent]. repeat split; try lia; reflexivity. Qed.
Example C131_lines_example : UpdateRefHeight file1 0 64 = Some (mkRef 2 (-1) 3) /\ UpdateRefHeight file1 0 96 = Some (mkRef 2 (-1) 4) /\ is_byte 96.
Proof. repeat split; try reflexivity; discriminate. Qed.

(** The width of a text of more than 255 columns is given modulo 256: 32 characters of 8 columns have the width 0 *)
Theorem C131_width_refuted : is_font 0 face0 file0 /\ advance face0 (repeat 65 32) = 256 /\ GetStrWidth file0 (repeat 65 32) = Some 0.
Proof. split; [exact file0_ok|]. split; reflexivity. Qed.
Print Assumptions C131_width_refuted.
