(** Pictures of grey levels 0 to 3 *)
From Verif Require Export Gray_Model U8g_Spec.

(** The level at [x], [y] after a list of coloured messages: the colour of the last message that has the dot, modulo 4 *)
Inductive level (x y : Z) : list (Z * msg) -> Z -> Prop :=
| level_none : level x y [] 0
| level_on l c m v : level x y l v -> on m x y -> level x y (l ++ [(c, m)]) (c mod 4)
| level_off l c m v : level x y l v -> ~ on m x y -> level x y (l ++ [(c, m)]) v.
(** The page lies in four rows of a buffer of bytes *)
Definition gray_page_ok (b : pb) : Prop := 0 <= page_y0 (p b) /\ page_y0 (p b) <= page_y1 (p b) <= page_y0 (p b) + 3 /\ page_y1 (p b) <= 255
  /\ 1 <= width b <= 255 /\ (Z.to_nat (width b) <= length (buf b))%nat /\ Forall is_byte (buf b).
(** The level in the buffer: two bits for each row, the upper row in the lowest *)
Definition gray (b : pb) (x y : Z) : Z := (rd (buf b) (Z.to_nat x) / 4 ^ (y - page_y0 (p b))) mod 4.
(** The dots of the page *)
Definition in_page (b : pb) (x y : Z) : Prop := 0 <= x < width b /\ page_y0 (p b) <= y <= page_y1 (p b).
