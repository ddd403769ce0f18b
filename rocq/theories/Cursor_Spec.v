(** What a cursor is: two glyphs of its font over the picture, the mask in the background colour, and over it the shape in the foreground colour *)
From Verif Require Export Cursor_Model Font_Spec.

(** The dot is one of the character's *)
Definition glyph_has (F : face) (ch px py x y : Z) : Prop := exists g, glyph_of F ch = Some g /\ glyph_dots g px py x y.
(** The dot [x], [y] that is [v0] in the picture, under the cursor of shape [e] *)
Inductive overlaid (F : face) (e fg bg px py x y : Z) (v0 : bool) : bool -> Prop :=
| ov_shape : glyph_has F e px py x y -> overlaid F e fg bg px py x y v0 (negb (fg =? 0))
| ov_mask : ~ glyph_has F e px py x y -> glyph_has F ((e + 1) mod 256) px py x y -> overlaid F e fg bg px py x y v0 (negb (bg =? 0))
| ov_picture : ~ glyph_has F e px py x y -> ~ glyph_has F ((e + 1) mod 256) px py x y -> overlaid F e fg bg px py x y v0 v0.
(** Values that uint8_t fields have *)
Definition ctx_ok (u : ctx) : Prop := is_byte (color u) /\ is_byte (cursor_encoding u) /\ is_byte (cursor_fg u) /\ is_byte (cursor_bg u).
