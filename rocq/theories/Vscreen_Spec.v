(** What displays side by side show: each its part of one picture *)
From Verif Require Export Vscreen_Model U8g_Spec.

(** The box of a page, at the place of the display [a], [b] in the picture *)
Definition moved (a b : Z) (c : box) : box := mkBox (x0 c + a) (y0 c + b) (x1 c + a) (y1 c + b).
(** A display of [w] columns and [h] rows that lies in the picture of 256 by 256 dots *)
Definition child_ok (w h : Z) (k : child) : Prop := display_ok w h (cb k) /\ 0 <= cx k /\ cx k + w <= 256 /\ 0 <= cy k /\ cy k + Z.max 8 h <= 256.
(** The application draws in each page the part of the picture [l] that is in it *)
Definition draws_picture (draw : box -> list (Z * msg)) (l : list (Z * msg)) (w h : Z) (k : child) : Prop :=
  forall c, page_of w h c -> Forall (fun e => msg_ok (snd e)) (draw (moved (cx k) (cy k) c)) /\ same_dots (moved (cx k) (cy k) c) (draw (moved (cx k) (cy k) c)) l.
(** The display [k] has become [k'], that shows the part of the picture that is at its place *)
Definition shows (l : list (Z * msg)) (w h : Z) (k k' : child) : Prop :=
  cx k' = cx k /\ cy k' = cy k
  /\ forall x y, 0 <= x < w -> 0 <= y < h -> exists v, shown (clog k') x y = Some v /\ dot (x + cx k) (y + cy k) l v.
