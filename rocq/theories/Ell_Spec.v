(** Ellipses as sets of dots. *)
From Verif Require Export U8gDraw_Spec Ell_Model.

(** How far the dot [a], [b], seen from the centre, is outside of the ellipse b^2 x^2 + a^2 y^2 = a^2 b^2 with the radii [rx] and [ry] *)
Definition outside (rx ry a b : Z) : Z := ry * ry * (a * a) + rx * rx * (b * b) - rx * rx * (ry * ry).
(** [a] is the column nearest to the ellipse in row [b]; of two the outer one *)
Definition nearest (rx ry a b : Z) : Prop :=
  forall c, 0 <= c -> Z.abs (outside rx ry a b) <= Z.abs (outside rx ry c b) /\ (a < c -> Z.abs (outside rx ry a b) < Z.abs (outside rx ry c b)).
(** The rows where the ellipse is steep: its nearest columns *)
Definition steep (rx ry a b : Z) : Prop := 0 <= a /\ 0 <= b /\ rx * rx * b <= ry * ry * a /\ nearest rx ry a b.
(** A quarter: the nearest columns where it is steep, the nearest rows where it is flat *)
Definition ellarc (rx ry a b : Z) : Prop := steep rx ry a b \/ steep ry rx b a.
Definition ellipse (cx cy rx ry option x y : Z) : Prop :=
  exists A B sx sy, ellarc rx ry A B /\ quarter option sx sy /\ x = (cx + sx * A) mod 256 /\ y = (cy + sy * B) mod 256.
(** The columns from the middle row to the dots of the ellipse *)
Definition plate (cx cy rx ry option x y : Z) : Prop :=
  exists A B t sx sy, ellarc rx ry A B /\ 0 <= t <= B /\ quarter option sx sy /\ x = (cx + sx * A) mod 256 /\ y = (cy + sy * t) mod 256.
(** Radii for which the 16 bit numbers are enough *)
Definition small (rx ry : Z) : Prop := 1 <= rx /\ 1 <= ry /\ 3 * (ry * ry * rx) + 2 * (rx * rx) <= 32767 /\ 3 * (rx * rx * ry) + 2 * (ry * ry) <= 32767.
