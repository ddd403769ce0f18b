(** The rows of a page one behind the other, eight dots in a byte, the left one in the most significant bit *)
From Verif Require Export Horiz_Model U8g_Spec.

Definition hbit (b : pb) (x y : Z) : bool := Z.testbit (rd (buf b) (Z.to_nat ((y - page_y0 (p b)) * (width b / 8) + x / 8))) (7 - x mod 8).
(** A page of up to eight rows of whole bytes *)
Definition hpage_ok (b : pb) : Prop := page_ok b /\ width b mod 8 = 0.
(** The dots of the page *)
Definition in_rows (b : pb) (x y : Z) : Prop := 0 <= x < width b /\ page_y0 (p b) <= y <= page_y1 (p b).
