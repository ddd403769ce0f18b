(** Turned and doubled pictures: where on the display a dot of the picture is to be seen. *)
From Verif Require Export U8gShape_Spec U8gRot_Model.

(** What may be done with a picture: turned clockwise by quarters of a turn (1, 2, 3), doubled in size *)
Inductive layer := Turn (q : Z) | Double.
(** [l]: the last that was done first *)
Definition quarters (r : rotFn) : Z := match r with Dummy => 0 | R90 => 1 | R180 => 2 | R270 => 3 end.
(** The device [d] and those behind it do [l] *)
Inductive does (s : chain) : dev -> list layer -> Prop :=
| does_base : does s Base []
| does_turn l : rot_fn s <> Dummy -> does s (rot_mem s) l -> does s RotDev (Turn (quarters (rot_fn s)) :: l)
| does_double l : does s (scale_mem s) l -> does s ScaleDev (Double :: l).
(** Calls of the application *)
Inductive call := CRot (r : rotFn) | CUndoRot | CScale | CUndoScale.
Definition run (k : call) (s : chain) : chain := match k with CRot r => SetRot r s | CUndoRot => UndoRotation s | CScale => SetScale2x2 s | CUndoScale => UndoScale s end.
(** What they are to do: a turn replaces a turn, undo takes away what was done last *)
Definition wanted (k : call) (l : list layer) : list layer :=
  match k, l with
  | CRot r, Turn _ :: l => Turn (quarters r) :: l
  | CRot r, l => Turn (quarters r) :: l
  | CUndoRot, Turn _ :: l => l
  | CScale, Double :: l => Double :: l
  | CScale, l => Double :: l
  | CUndoScale, Double :: l => l
  | _, l => l
  end.
(** Turned under the doubling, doubled under the turn *)
Fixpoint turns (l : list layer) : nat := match l with [] => 0 | Turn _ :: l => S (turns l) | Double :: l => turns l end.
Fixpoint doubles (l : list layer) : nat := match l with [] => 0 | Turn _ :: l => doubles l | Double :: l => S (doubles l) end.
Definition once (l : list layer) : Prop := (turns l <= 1)%nat /\ (doubles l <= 1)%nat.

(** The size of the picture on a display of [w] columns and [h] rows *)
Fixpoint size (l : list layer) (w h : Z) : Z * Z :=
  match l with
  | [] => (w, h)
  | Turn q :: l => let '(a, b) := size l w h in if q =? 2 then (a, b) else (b, a)
  | Double :: l => let '(a, b) := size l w h in (a / 2, b / 2)
  end.
(** Which dot of the picture is seen at the dot (X, Y) of something of the size (w, h); coordinates go round at 256 *)
Definition seen1 (k : layer) (w h X Y : Z) : Z * Z :=
  match k with
  | Turn 1 => (Y, (w - 1 - X) mod 256)
  | Turn 2 => ((w - 1 - X) mod 256, (h - 1 - Y) mod 256)
  | Turn _ => ((h - 1 - Y) mod 256, X)
  | Double => (X / 2, Y / 2)
  end.
Fixpoint seen (l : list layer) (w h X Y : Z) : Z * Z :=
  match l with
  | [] => (X, Y)
  | k :: l => let '(x, y) := seen l w h X Y in let '(a, b) := size l w h in seen1 k a b x y
  end.
(** What a message may be: to be turned, its direction must be one of the four; to be doubled, it must go to the right or downwards and stay below 128 *)
Definition heads (P : Z -> Prop) (m : msg) : Prop := match m with Pixel _ _ => True | Eight _ _ dir _ => P dir end.
Definition fits_in (l : list layer) (w h : Z) (m : msg) : Prop :=
  match l with
  | [] => True
  | [Turn _] => heads (fun d => 0 <= d <= 3) m
  | Turn q :: l => heads (fun d => 0 <= d <= 3 /\ ((d + q) mod 4 = 0 \/ (d + q) mod 4 = 1)) m
      /\ forall X Y, is_byte X -> is_byte Y -> let '(a, b) := size l w h in let '(x, y) := seen1 (Turn q) a b X Y in on m x y -> X < 128 /\ Y < 128
  | Double :: _ => heads (fun d => d = 0 \/ d = 1) m /\ forall x y, on m x y -> x < 128 /\ y < 128
  end.
