(** What a picture drawn with u8glib is: a set of dots with coordinates modulo 256, painted one over the other; what a display of pages of eight rows shows. *)
From Verif Require Export U8g_Model.

Definition canvas := Z -> Z -> bool.
Definition blank : canvas := fun _ _ => false.
(** Step in direction [dir]: right, down, left, up; the other numbers stay in place *)
Definition stepX (dir : Z) : Z := match dir with 0 => 1 | 2 => -1 | _ => 0 end.
Definition stepY (dir : Z) : Z := match dir with 1 => 1 | 3 => -1 | _ => 0 end.
(** The dots of a message: of eight pixels the first is bit 7 of the pattern *)
Definition on (m : msg) (x y : Z) : Prop :=
  match m with
  | Pixel a b => x = a /\ y = b
  | Eight a b dir pat => exists k, 0 <= k < 8 /\ Z.testbit pat (7 - k) = true /\ x = (a + k * stepX dir) mod 256 /\ y = (b + k * stepY dir) mod 256
  end.
(** The arguments are of their types *)
Definition msg_ok (m : msg) : Prop :=
  match m with Pixel a b => is_byte a /\ is_byte b | Eight a b dir pat => is_byte a /\ is_byte b /\ is_byte dir /\ is_byte pat end.
(** The dot at [x], [y] after a list of coloured messages: as the last message that has it says *)
Inductive dot (x y : Z) : list (Z * msg) -> bool -> Prop :=
| dot_none : dot x y [] false
| dot_on l c m v : dot x y l v -> on m x y -> dot x y (l ++ [(c, m)]) (negb (c =? 0))
| dot_off l c m v : dot x y l v -> ~ on m x y -> dot x y (l ++ [(c, m)]) v.
(** What a display shows after (select byte, bytes) writes: the last write of a page counts, bit 0 is the uppermost row; None: the page was never written *)
Fixpoint shown (log : list (Z * list Z)) (x y : Z) : option bool :=
  match log with
  | [] => None
  | (sel, bytes) :: rest =>
      match shown rest x y with
      | Some v => Some v
      | None => if (sel =? 0xb0 + y / 8) && (x <? Z.of_nat (length bytes)) then Some (Z.testbit (rd bytes (Z.to_nat x)) (y mod 8)) else None
      end
  end.
(** A display of [w] columns and [h] rows with its page buffer, whatever the buffer and the memory behind it hold *)
Definition display_ok (w h : Z) (b : pb) : Prop :=
  1 <= w <= 255 /\ 1 <= h <= 128 /\ page_height (p b) = 8 /\ total_height (p b) = h /\ width b = w /\ (Z.to_nat w <= length (buf b))%nat.
(** In a box *)
Definition inside (c : box) (x y : Z) : Prop := x0 c <= x <= x1 c /\ y0 c <= y <= y1 c.
(** Two lists of messages that give the same dots in the page *)
Definition same_dots (c : box) (l1 l2 : list (Z * msg)) : Prop := forall x y v, inside c x y -> dot x y l1 v <-> dot x y l2 v.
(** The box of one of the pages of a display; only a display of less than eight rows has a page that is longer than the display *)
Definition page_of (w h : Z) (c : box) : Prop := exists k, 0 <= k /\ 8 * k < h /\ x0 c = 0 /\ x1 c = w - 1 /\ y0 c = 8 * k /\ Z.min (8 * k + 7) (h - 1) <= y1 c <= Z.min (8 * k + 7) (Z.max 7 (h - 1)).
(** How many pages a display has *)
Definition pages (h : Z) : nat := Z.to_nat ((h + 7) / 8).
(** The page of the buffer lies in eight rows *)
Definition page_ok (b : pb) : Prop := 0 <= page_y0 (p b) /\ page_y1 (p b) <= page_y0 (p b) + 7 /\ page_y0 (p b) <= page_y1 (p b) /\ page_y1 (p b) <= 255
  /\ 1 <= width b <= 255 /\ (Z.to_nat (width b) <= length (buf b))%nat.
(** The dot of the buffer, and which dots it has *)
Definition bit (b : pb) (x y : Z) : bool := Z.testbit (rd (buf b) (Z.to_nat x)) (y - page_y0 (p b)).
Definition vis (b : pb) (x y : Z) : Prop := 0 <= x < width b /\ page_y0 (p b) <= y <= page_y1 (p b).
