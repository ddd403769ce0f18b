(** u8glib: text in the directions 90, 180 and 270 degrees (u8glib/src/u8g_font.c). *)
From Verif Require Export Font_Model.

(** u8g_font.c:650-655, 702-707, 756-761: the inner loops; [ax], [ay]: what they add to ix and iy *)
Fixpoint dirLine (w : nat) (ix iy ax ay dir : Z) (data : list Z) : list msg :=
  match w with O => [] | S w => Eight ix iy dir (rd data 0) :: dirLine w (u8 (ix + ax)) (u8 (iy + ay)) ax ay dir (skipn 1 data) end.
(** u8g_font.c:647-657, 699-709, 753-763: the outer loops; [bx], [by_]: what they add *)
Fixpoint dirLoop (h : nat) (ix iy : Z) (w : nat) (ax ay bx by_ dir : Z) (data : list Z) : list msg :=
  match h with O => [] | S h => dirLine w ix iy ax ay dir data ++ dirLoop h (u8 (ix + bx)) (u8 (iy + by_)) w ax ay bx by_ dir (skipn w data) end.

(** The glyph and where its data start, as in [draw_glyph]: u8g_font.c:623-628, 675-680, 727-732 *)
Definition glyphFor (font : list Z) (encoding : Z) : option (option (list Z * cache)) :=
  match GetGlyph font encoding, get_byte font 0 with
  | Some (Some g, k), Some format => Some (Some (skipn (g + GlyphStructureSize format) font, k))
  | Some (None, _), Some _ => Some None
  | _, _ => None
  end.
(** u8g_font.c:616-659 *)
Definition draw_glyph90 (c : box) (font : list Z) (x y encoding : Z) : option (list msg * Z) :=
  match glyphFor font encoding with
  | Some (Some (data, k)) =>
      let w := glyph_width k in
      let h := glyph_height k in
      let x := u8 (u8 (x + glyph_y k) + 1) in
      let y := u8 (y + glyph_x k) in
      if negb (IsBBXIntersection c x y h w) then Some ([], glyph_dx k) else
      let w := u8 (w + 7) / 8 in
      let ix := u8 (u8 (x + h) - 1) in
      Some (dirLoop (Z.to_nat h) ix y (Z.to_nat w) 0 8 (-1) 0 1 data, glyph_dx k)
  | Some None => Some ([], 0)
  | None => None
  end.
(** u8g_font.c:668-711 *)
Definition draw_glyph180 (c : box) (font : list Z) (x y encoding : Z) : option (list msg * Z) :=
  match glyphFor font encoding with
  | Some (Some (data, k)) =>
      let w := glyph_width k in
      let h := glyph_height k in
      let x := u8 (x - glyph_x k) in
      let y := u8 (u8 (y + glyph_y k) + 1) in
      if negb (IsBBXIntersection c (u8 (x - (w - 1))) y w h) then Some ([], glyph_dx k) else
      let w := u8 (w + 7) / 8 in
      let iy := u8 (u8 (y + h) - 1) in
      Some (dirLoop (Z.to_nat h) x iy (Z.to_nat w) (-8) 0 0 (-1) 2 data, glyph_dx k)
  | Some None => Some ([], 0)
  | None => None
  end.
(** u8g_font.c:720-765 *)
Definition draw_glyph270 (c : box) (font : list Z) (x y encoding : Z) : option (list msg * Z) :=
  match glyphFor font encoding with
  | Some (Some (data, k)) =>
      let w := glyph_width k in
      let h := glyph_height k in
      let x := u8 (u8 (x - glyph_y k) - 1) in
      let y := u8 (y - glyph_x k) in
      if negb (IsBBXIntersection c (u8 (x - (h - 1))) (u8 (y - (w - 1))) h w) then Some ([], glyph_dx k) else
      let w := u8 (w + 7) / 8 in
      let ix := u8 (u8 (x - h) + 1) in
      Some (dirLoop (Z.to_nat h) ix y (Z.to_nat w) 0 (-8) 1 0 3 data, glyph_dx k)
  | Some None => Some ([], 0)
  | None => None
  end.
(** u8g_font.c:820-826: the loop *)
Fixpoint strLoop90 (c : box) (font : list Z) (s : list Z) (x y t : Z) : option (list msg * Z) :=
  match s with
  | [] => Some ([], t)
  | ch :: s =>
      match draw_glyph90 c font x y ch with
      | None => None
      | Some (l, d) => match strLoop90 c font s x (u8 (y + d)) (u8 (t + d)) with None => None | Some (l', t) => Some (l ++ l', t) end
      end
  end.
(** u8g_font.c:837-843: the loop *)
Fixpoint strLoop180 (c : box) (font : list Z) (s : list Z) (x y t : Z) : option (list msg * Z) :=
  match s with
  | [] => Some ([], t)
  | ch :: s =>
      match draw_glyph180 c font x y ch with
      | None => None
      | Some (l, d) => match strLoop180 c font s (u8 (x - d)) y (u8 (t + d)) with None => None | Some (l', t) => Some (l ++ l', t) end
      end
  end.
(** u8g_font.c:854-860: the loop *)
Fixpoint strLoop270 (c : box) (font : list Z) (s : list Z) (x y t : Z) : option (list msg * Z) :=
  match s with
  | [] => Some ([], t)
  | ch :: s =>
      match draw_glyph270 c font x y ch with
      | None => None
      | Some (l, d) => match strLoop270 c font s x (u8 (y - d)) (u8 (t + d)) with None => None | Some (l', t) => Some (l ++ l', t) end
      end
  end.
(** u8g_font.c:813-828 *)
Definition DrawStr90 (c : box) (font : list Z) (vref x y : Z) (s : list Z) : option (list msg * Z) := strLoop90 c font s (u8 (x - vref)) y 0.
(** u8g_font.c:830-845 *)
Definition DrawStr180 (c : box) (font : list Z) (vref x y : Z) (s : list Z) : option (list msg * Z) := strLoop180 c font s x (u8 (y - vref)) 0.
(** u8g_font.c:847-862 *)
Definition DrawStr270 (c : box) (font : list Z) (vref x y : Z) (s : list Z) : option (list msg * Z) := strLoop270 c font s (u8 (x + vref)) y 0.
(** u8g_font.c:864-878 *)
Definition DrawStrDir (c : box) (font : list Z) (vref x y dir : Z) (s : list Z) : option (list msg * Z) :=
  if dir =? 0 then DrawStr c font vref x y s else if dir =? 1 then DrawStr90 c font vref x y s else if dir =? 2 then DrawStr180 c font vref x y s
  else if dir =? 3 then DrawStr270 c font vref x y s else Some ([], 0).
