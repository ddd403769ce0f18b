(** Two rows of bytes, the upper eight rows of the page in the first one, the upper row of each in bit 0 *)
From Verif Require Export Double_Model U8g_Spec.

Definition dbit (b : pb) (x y : Z) : bool := let r := y - page_y0 (p b) in Z.testbit (rd (buf b) (Z.to_nat (r / 8 * width b + x))) (r mod 8).
(** A page of up to sixteen rows *)
Definition dpage_ok (b : pb) : Prop := 0 <= page_y0 (p b) /\ page_y1 (p b) <= page_y0 (p b) + 15 /\ page_y0 (p b) <= page_y1 (p b) /\ page_y1 (p b) <= 255
  /\ 1 <= width b <= 255 /\ (2 * Z.to_nat (width b) <= length (buf b))%nat.
(** The dots of the page *)
Definition in_double (b : pb) (x y : Z) : Prop := 0 <= x < width b /\ page_y0 (p b) <= y <= page_y1 (p b).
