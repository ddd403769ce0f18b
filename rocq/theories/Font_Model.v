(** u8glib: text written from left to right: fonts, glyphs, strings (u8glib/src/u8g_font.c).
    A font is the list of its bytes in flash; reading behind them is undefined: None. U8G_16BIT is not defined: u8g_uint_t is uint8_t *)
From Verif Require Export U8g_Model.

(** Value of an int8_t: two's complement, as the compiler for the ARM converts *)
Definition s8 (v : Z) : Z := let v := u8 v in if v <? 128 then v else v - 256.
(** inc/u8g.h:1067-1071: the fields of the glyph that was looked up last *)
Record cache := mkCache { glyph_dx : Z; glyph_x : Z; glyph_y : Z; glyph_width : Z; glyph_height : Z }.

(** u8g_font.c:88-92 *)
Definition get_byte (font : list Z) (offset : nat) : option Z := nth_error font offset.
(** u8g_font.c:95-104 *)
Definition get_word (font : list Z) (offset : nat) : option Z :=
  match get_byte font offset, get_byte font (offset + 1) with Some a, Some b => Some (u16 (u16 (Z.shiftl a 8) + b)) | _, _ => None end.
(** u8g_font.c:116-125 *)
Definition GlyphStructureSize (format : Z) : nat := if format =? 0 then 6 else if format =? 1 then 3 else if format =? 2 then 6 else 3.

(** u8g_font.c:278-334; [g]: index of the glyph in the font *)
Definition CopyGlyphDataToCache (font : list Z) (format : Z) (g : nat) : option cache :=
  if (format =? 0) || (format =? 2) then
    match get_byte font (g + 0), get_byte font (g + 1), get_byte font (g + 3), get_byte font (g + 4), get_byte font (g + 5) with
    | Some w, Some h, Some d, Some x, Some y => Some (mkCache (s8 d) (s8 x) (s8 y) w h)
    | _, _, _, _, _ => None
    end
  else
    match get_byte font (g + 0), get_byte font (g + 1), get_byte font (g + 2) with
    | Some t0, Some t1, Some t2 => Some (mkCache (s8 (Z.shiftr t2 4)) (s8 (Z.shiftr t0 4)) (s8 (Z.land t0 15 - 2)) (Z.shiftr t1 4) (Z.land t1 15))
    | _, _, _ => None
    end.
(** u8g_font.c:337-344 *)
Definition emptyCache : cache := mkCache 0 0 0 0 0.
(** u8g_font.c:393-412: the loop; [n] = end - i passes after the first. Inner None: not found *)
Fixpoint glyphLoop (n : nat) (font : list Z) (mask : Z) (size : nat) (requested : Z) (p : nat) (i : Z) : option (option nat) :=
  match get_byte font p with
  | None => None
  | Some v =>
      if v =? 255 then match n with O => Some None | S n => glyphLoop n font mask size requested (p + 1) (u8 (i + 1)) end else
      if i =? requested then Some (Some p) else
      match get_byte font (p + 2) with
      | None => None
      | Some len => let p := (p + Z.to_nat (Z.land len mask) + size)%nat in
                    match n with O => Some None | S n => glyphLoop n font mask size requested p (u8 (i + 1)) end
      end
  end.
(** u8g_font.c:350-418 *)
Definition GetGlyph (font : list Z) (requested : Z) : option (option nat * cache) :=
  match get_byte font 0, get_byte font 10, get_byte font 11, get_word font 8 with
  | Some format, Some start, Some fin, Some pos97 =>
      let size := GlyphStructureSize format in
      let mask := if format =? 1 then 15 else 255 in
      let at_ := if (97 <=? requested) && (0 <? pos97) then Some (Z.to_nat pos97, 97) else
                 match get_word font 6 with
                 | None => None
                 | Some pos65 => if (65 <=? requested) && (0 <? pos65) then Some (Z.to_nat pos65, 65) else Some (17%nat, start)
                 end in
      match at_ with
      | None => None
      | Some (p, start) =>
          if fin <? requested then Some (None, emptyCache) else
          if start <=? fin then
            match glyphLoop (Z.to_nat (fin - start)) font mask size requested p start with
            | None => None
            | Some None => Some (None, emptyCache)
            | Some (Some p) => match CopyGlyphDataToCache font format p with None => None | Some c => Some (Some p, c) end
            end
          else Some (None, emptyCache)
      end
  | _, _, _, _ => None
  end.
(** u8g_font.c:420-425 *)
Definition IsGlyph (font : list Z) (requested : Z) : option bool :=
  match GetGlyph font requested with None => None | Some (Some _, _) => Some true | Some (None, _) => Some false end.
(** u8g_font.c:427-432 *)
Definition GetGlyphDeltaX (font : list Z) (requested : Z) : option Z :=
  match GetGlyph font requested with None => None | Some (Some _, c) => Some (glyph_dx c) | Some (None, _) => Some 0 end.

(** u8g_font.c:564-606; [c]: u8g->current_page. The messages and the value returned. The data are read as in [bitmapLoop]; 201-204: where they start *)
Definition draw_glyph (c : box) (font : list Z) (x y encoding : Z) : option (list msg * Z) :=
  match GetGlyph font encoding, get_byte font 0 with
  | Some (Some g, k), Some format =>
      let data := skipn (g + GlyphStructureSize format) font in
      let w := glyph_width k in
      let h := glyph_height k in
      let x := u8 (x + glyph_x k) in
      let y := u8 (y - glyph_y k) in
      let y := u8 (y - 1) in
      if negb (IsBBXIntersection c x (u8 (y - h + 1)) w h) then Some ([], glyph_dx k) else
      let w := u8 (w + 7) / 8 in
      let iy := u8 (u8 (y - h) + 1) in
      Some (bitmapLoop (Z.to_nat h) x iy (Z.to_nat w) data, glyph_dx k)
  | Some (None, _), Some _ => Some ([], 0)
  | _, _ => None
  end.
(** u8g_font.c:803-809: the loop; [s]: the characters before the 0, as char is unsigned or converted to uint8_t *)
Fixpoint strLoop (c : box) (font : list Z) (s : list Z) (x y t : Z) : option (list msg * Z) :=
  match s with
  | [] => Some ([], t)
  | ch :: s =>
      match draw_glyph c font x y ch with
      | None => None
      | Some (l, d) => match strLoop c font s (u8 (x + d)) y (u8 (t + d)) with None => None | Some (l', t) => Some (l ++ l', t) end
      end
  end.
(** u8g_font.c:793-811; [vref]: what font_calc_vref gives. u8g_DrawStrP (880-899) is the same for flash *)
Definition DrawStr (c : box) (font : list Z) (vref x y : Z) (s : list Z) : option (list msg * Z) := strLoop c font s x (u8 (y + vref)) 0.

(** u8g_font.c:1202-1215: the loop *)
Fixpoint widthLoop (font : list Z) (s : list Z) (w : Z) : option Z :=
  match s with
  | [] => Some w
  | ch :: s => match GetGlyph font ch with None => None | Some (_, k) => widthLoop font s (u8 (w + glyph_dx k)) end
  end.
(** u8g_font.c:1194-1217; u8g_GetStrWidthP (1220-1243) is the same for flash *)
Definition GetStrWidth (font : list Z) (s : list Z) : option Z := widthLoop font s 0.
(** u8g_font.c:1134-1164: the loop and what follows; [k]: the glyph of [enc], looked up last *)
Fixpoint pixelLoop (font : list Z) (enc : Z) (k : cache) (s : list Z) (w : Z) : option Z :=
  match s with
  | [] => Some (if negb (enc =? 32) then u8 (u8 (w + glyph_width k) + glyph_x k) else u8 (w + glyph_dx k))
  | ch :: s => match GetGlyph font ch with None => None | Some (_, k') => pixelLoop font ch k' s (u8 (w + glyph_dx k)) end
  end.
(** u8g_font.c:1107-1177 *)
Definition GetStrPixelWidth (font : list Z) (s : list Z) : option Z :=
  match s with
  | [] => Some 0
  | ch :: s => match GetGlyph font ch with None => None | Some (_, k) => pixelLoop font ch k s (u8 (- glyph_x k)) end
  end.

(** inc/u8g.h:1073-1078 *)
Record ref := mkRef { ref_ascent : Z; ref_descent : Z; line_spacing : Z }.
(** u8g_font.c:972-1001; [mode]: font_height_mode, [factor]: font_line_spacing_factor *)
Definition UpdateRefHeight (font : list Z) (mode factor : Z) : option ref :=
  let '(i, j) := if mode =? 0 then (5, 12)%nat else if mode =? 1 then (15, 16)%nat else (13, 14)%nat in
  match get_byte font i, get_byte font j with
  | Some a, Some d =>
      let a := s8 a in
      let d := s8 d in
      let ls := u16 (a - d) in
      let ls := if negb (factor =? 64) then Z.shiftr (u16 (Z.land ls 255 * factor)) 6 else ls in
      Some (mkRef a d (u8 ls))
  | _, _ => None
  end.
(** Which function font_calc_vref is *)
Inductive vpos := Baseline | Bottom | Top | Center.
(** u8g_font.c:1034-1084 *)
Definition calc_vref (v : vpos) (r : ref) : Z :=
  match v with
  | Baseline => 0
  | Bottom => u8 (ref_descent r)
  | Top => u8 (u8 (ref_ascent r) + 1)
  | Center => u8 (s8 (Z.quot (s8 (ref_ascent r - ref_descent r)) 2 + ref_descent r))
  end.
