(** Lines and circles as sets of dots. *)
From Verif Require Export U8gShape_Spec U8gDraw_Model.

(** A line that is not steep from (a, b) to the right to (a', b'): in each column the row nearest to the straight line, half a row is rounded towards the start *)
Definition flat (a b a' b' u v : Z) : Prop :=
  let D := a' - a in let d := Z.abs (b' - b) in
  exists k n, 0 <= k <= D /\ u = a + k /\ v = b + n * Z.sgn (b' - b) /\ (D = 0 /\ n = 0 \/ - D <= 2 * (n * D - k * d) < D).
Definition line (x1 y1 x2 y2 x y : Z) : Prop :=
  if Z.abs (y2 - y1) <=? Z.abs (x2 - x1) then (if x1 <=? x2 then flat x1 y1 x2 y2 x y else flat x2 y2 x1 y1 x y)
  else (if y1 <=? y2 then flat y1 x1 y2 x2 y x else flat y2 x2 y1 x1 y x).
(** What fits the signed 8 bit number that the function computes with: the longer side [D] and the shorter [d] *)
Definition fits (D d : Z) : Prop := d = 0 \/ d = D \/ D - d <= 128 /\ d <= 128.

(** [b] is the row nearest to the circle of radius [r] in column [a], seen from the centre *)
Definition near (r a b : Z) : Prop := (b = 0 \/ (2 * b - 1) * (2 * b - 1) < 4 * (r * r - a * a)) /\ 4 * (r * r - a * a) < (2 * b + 1) * (2 * b + 1).
(** The dots of a quarter of a circle: the eighth where the rows are nearest, and its mirror image *)
Definition arc (r A B : Z) : Prop := (0 <= A <= B /\ near r A B) \/ (0 <= B <= A /\ near r B A).
(** The quarters of the option: upper right, upper left, lower left, lower right *)
Definition quarter (option sx sy : Z) : Prop :=
  (sx = 1 /\ sy = -1 /\ Z.testbit option 0 = true) \/ (sx = -1 /\ sy = -1 /\ Z.testbit option 1 = true)
  \/ (sx = -1 /\ sy = 1 /\ Z.testbit option 2 = true) \/ (sx = 1 /\ sy = 1 /\ Z.testbit option 3 = true).
Definition circle (cx cy r option x y : Z) : Prop :=
  exists A B sx sy, arc r A B /\ quarter option sx sy /\ x = (cx + sx * A) mod 256 /\ y = (cy + sy * B) mod 256.
(** The disc: the columns from the middle row to the circle *)
Definition disc (cx cy r option x y : Z) : Prop :=
  exists A B t sx sy, arc r A B /\ 0 <= t <= B /\ quarter option sx sy /\ x = (cx + sx * A) mod 256 /\ y = (cy + sy * t) mod 256.
(** Frame with quarters of circles at its corners *)
Definition rframe (a b w h r x y : Z) : Prop :=
  circle (a + r) (b + r) r 2 x y \/ circle (a + w - r - 1) (b + r) r 1 x y \/ circle (a + r) (b + h - r - 1) r 4 x y \/ circle (a + w - r - 1) (b + h - r - 1) r 8 x y
  \/ rect (a + r + 1) b (w - 2 * r - 2) 1 x y \/ rect (a + r + 1) (b + h - 1) (w - 2 * r - 2) 1 x y
  \/ rect a (b + r + 1) 1 (h - 2 * r - 2) x y \/ rect (a + w - 1) (b + r + 1) 1 (h - 2 * r - 2) x y.
(** Box with quarters of discs at its corners *)
Definition rbox (a b w h r x y : Z) : Prop :=
  disc (a + r) (b + r) r 2 x y \/ disc (a + w - r - 1) (b + r) r 1 x y \/ disc (a + r) (b + h - r - 1) r 4 x y \/ disc (a + w - r - 1) (b + h - r - 1) r 8 x y
  \/ rect (a + r + 1) b (w - 2 * r - 2) (r + 1) x y \/ rect (a + r + 1) (b + h - r - 1) (w - 2 * r - 2) (r + 1) x y \/ rect a (b + r + 1) w (h - 2 * r - 2) x y.
