(** Shapes as sets of dots on a picture whose coordinates wrap round at 256. *)
From Verif Require Export U8g_Spec.

(** How far [x] is to the right of [a], going round *)
Definition off (x a : Z) : Z := (x - a) mod 256.
(** The dots of a list of messages *)
Definition covers (l : list msg) (x y : Z) : Prop := exists m, In m l /\ on m x y.
(** A page, or any other part of the screen *)
Definition box_ok (c : box) : Prop := 0 <= x0 c <= x1 c /\ x1 c <= 255 /\ 0 <= y0 c <= y1 c /\ y1 c <= 255.
(** [l] gives exactly the set [s] within [c], and its messages are well-formed *)
Definition draws (c : box) (l : list msg) (s : Z -> Z -> Prop) : Prop := Forall msg_ok l /\ forall x y, inside c x y -> covers l x y <-> s x y.
Definition rect (a b w h x y : Z) : Prop := off x a < w /\ off y b < h.
(** The border of a rectangle *)
Definition frame (a b w h x y : Z) : Prop := rect a b w h x y /\ (off x a = 0 \/ off x a = w - 1 \/ off y b = 0 \/ off y b = h - 1).
(** Rows of [cnt] bytes, most significant bit left *)
Definition bitmap (a b cnt h : Z) (bits : list Z) (x y : Z) : Prop :=
  rect a b (8 * cnt) h x y /\ Z.testbit (rd bits (Z.to_nat (off y b * cnt + off x a / 8))) (7 - off x a mod 8) = true.
(** X bitmap: rows of whole bytes, least significant bit left *)
Definition xbm (a b w h : Z) (bits : list Z) (x y : Z) : Prop :=
  rect a b w h x y /\ Z.testbit (rd bits (Z.to_nat (off y b * ((w + 7) / 8) + off x a / 8))) (off x a mod 8) = true.
