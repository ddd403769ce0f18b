(** A text turned round its pen. *)
From Verif Require Export Font_Spec FontDir_Model.

(** The dot of the text before it was turned: how far along the text and how far below its baseline [x], [y] is, seen from the pen; a quarter clockwise for each step of [dir] *)
Definition unturned (dir px py x y : Z) : Z * Z :=
  match dir with
  | 0 => (x - px, y - py)
  | 1 => (y - py, px - x)
  | 2 => (px - x, py - y)
  | _ => (py - y, x - px)
  end.
(** The dots of a text in a direction, [vref] rows lower in the direction of its rows *)
Definition turned_text (F : face) (s : list Z) (dir vref px py x y : Z) : Prop :=
  let '(u, v) := unturned dir px py x y in text_dots F s 0 vref u v.
