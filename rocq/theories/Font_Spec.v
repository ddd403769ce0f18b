(** What a font is and what a text looks like. *)
From Verif Require Export U8gShape_Spec Font_Model.

(** A glyph: how far to go to the next, size of its picture, where its lower left corner is from the pen, rows of whole bytes *)
Record glyph := mkGlyph { g_dx : Z; g_w : Z; g_h : Z; g_x : Z; g_y : Z; g_data : list Z }.
(** A font: one glyph or a gap for each character from [f_start] on *)
Record face := mkFace { f_start : Z; f_glyphs : list (option glyph) }.
(** The glyph of a character *)
Definition glyph_of (F : face) (ch : Z) : option glyph := if ch <? f_start F then None else nth (Z.to_nat (ch - f_start F)) (f_glyphs F) None.

(** Rows of whole bytes, nothing behind the last column *)
Definition picture_ok (g : glyph) : Prop :=
  Forall is_byte (g_data g) /\ Z.of_nat (length (g_data g)) = (g_w g + 7) / 8 * g_h g
  /\ forall r k, 0 <= r < g_h g -> g_w g <= k < 8 * ((g_w g + 7) / 8) -> Z.testbit (rd (g_data g) (Z.to_nat (r * ((g_w g + 7) / 8) + k / 8))) (7 - k mod 8) = false.
(** What the formats can hold: format 1 has four bits for each number; 255 in the first byte is the mark of a gap *)
Definition glyph_ok (fmt : Z) (g : glyph) : Prop :=
  picture_ok g /\
  (if fmt =? 1 then 0 <= g_w g <= 15 /\ 0 <= g_h g <= 15 /\ 0 <= g_dx g <= 15 /\ 0 <= g_x g <= 15 /\ -2 <= g_y g <= 13 /\ ~ (g_x g = 15 /\ g_y g = 13) /\ (length (g_data g) <= 15)%nat
   else 0 <= g_w g <= 248 /\ 0 <= g_h g <= 255 /\ -128 <= g_dx g <= 127 /\ -128 <= g_x g <= 127 /\ -128 <= g_y g <= 127 /\ Z.of_nat (length (g_data g)) <= 255).
(** The bytes of an entry *)
Definition entry (fmt : Z) (e : option glyph) : list Z :=
  match e with
  | None => [255]
  | Some g => (if fmt =? 1 then [16 * g_x g + (g_y g + 2); 16 * g_w g + g_h g; 16 * g_dx g + Z.of_nat (length (g_data g))]
               else [g_w g; g_h g; Z.of_nat (length (g_data g)); g_dx g mod 256; g_x g mod 256; g_y g mod 256]) ++ g_data g
  end.
(** Where the entry of a character begins *)
Definition entry_pos (fmt : Z) (F : face) (ch : Z) : nat := 17 + length (concat (map (entry fmt) (firstn (Z.to_nat (ch - f_start F)) (f_glyphs F)))).
(** A shortcut of the header, two bytes, most significant first: 0, or where the entry of [ch] begins *)
Definition shortcut (fmt : Z) (F : face) (hd : list Z) (at_ : nat) (ch : Z) : Prop :=
  let pos := 256 * rd hd at_ + rd hd (S at_) in
  pos = 0 \/ (f_start F <= ch < f_start F + Z.of_nat (length (f_glyphs F)) /\ pos = Z.of_nat (entry_pos fmt F ch)).
(** [font] is the file of [F] in the format [fmt], whatever follows it in flash *)
Definition is_font (fmt : Z) (F : face) (font : list Z) : Prop :=
  exists hd rest, font = hd ++ concat (map (entry fmt) (f_glyphs F)) ++ rest /\ length hd = 17%nat /\ Forall is_byte font
  /\ 0 <= fmt <= 2 /\ rd hd 0 = fmt /\ rd hd 10 = f_start F /\ rd hd 11 = f_start F + Z.of_nat (length (f_glyphs F)) - 1 /\ f_glyphs F <> []
  /\ shortcut fmt F hd 6 65 /\ shortcut fmt F hd 8 97 /\ (forall g, In (Some g) (f_glyphs F) -> glyph_ok fmt g).

(** The dots of a glyph with the pen at [px] and the baseline between the rows [py] - 1 and [py]; coordinates wrap round at 256 *)
Definition glyph_dots (g : glyph) (px py x y : Z) : Prop :=
  let col := (x - (px + g_x g)) mod 256 in
  let row := (y - (py - g_y g - g_h g)) mod 256 in
  col < g_w g /\ row < g_h g /\ Z.testbit (rd (g_data g) (Z.to_nat (row * ((g_w g + 7) / 8) + col / 8))) (7 - col mod 8) = true.
(** How far the pen moves for a text; characters the font does not have are skipped *)
Fixpoint advance (F : face) (s : list Z) : Z :=
  match s with [] => 0 | ch :: s => match glyph_of F ch with Some g => g_dx g | None => 0 end + advance F s end.
(** The dots of a text: each glyph where the characters before it have moved the pen *)
Definition text_dots (F : face) (s : list Z) (px py x y : Z) : Prop :=
  exists a ch b g, s = a ++ ch :: b /\ glyph_of F ch = Some g /\ glyph_dots g (px + advance F a) py x y.
(** The rows of the reference height around the baseline *)
Definition first_row (r : ref) (py : Z) : Z := py - ref_ascent r.
Definition last_row (r : ref) (py : Z) : Z := py - 1 - ref_descent r.
(** From the pen to the left edge of the first glyph, and to the right edge of the last; a blank at the end counts with its advance *)
Definition left_edge (F : face) (s : list Z) : Z := match glyph_of F (hd 0 s) with Some g => g_x g | None => 0 end.
Definition right_edge (F : face) (s : list Z) : Z :=
  advance F (removelast s) + match glyph_of F (last s 0) with Some g => if last s 0 =? 32 then g_dx g else g_x g + g_w g | None => 0 end.
