(** u8glib: ellipses (u8glib/src/u8g_ellipse.c:101-393). *)
From Verif Require Export U8gDraw_Model.

(** Conversion to u8g_long_t = int16_t (u8g_ellipse.c:101-105), as the compiler defines it *)
Definition i16 (v : Z) : Z := let u := u16 v in if u <? 32768 then u else u - 65536.

(** u8g_ellipse.c:113-139 *)
Definition ellipse_section (x y x0 y0 option : Z) : list msg :=
  (if negb (Z.land option DRAW_UPPER_RIGHT =? 0) then [Pixel (u8 (x0 + x)) (u8 (y0 - y))] else [])
  ++ (if negb (Z.land option DRAW_UPPER_LEFT =? 0) then [Pixel (u8 (x0 - x)) (u8 (y0 - y))] else [])
  ++ (if negb (Z.land option DRAW_LOWER_RIGHT =? 0) then [Pixel (u8 (x0 + x)) (u8 (y0 + y))] else [])
  ++ (if negb (Z.land option DRAW_LOWER_LEFT =? 0) then [Pixel (u8 (x0 - x)) (u8 (y0 + y))] else []).

(** u8g_ellipse.c:176-189, the points handed to the section, in order; None: more than [fuel] passes. The second loop (212-225) is this one with x and y exchanged *)
Fixpoint ellLoop (fuel : nat) (rxrx2 ryry2 x y xchg ychg err stopx stopy : Z) : option (list (Z * Z)) :=
  match fuel with
  | O => None
  | S n =>
      if stopy <=? stopx then
        let y' := u8 (y + 1) in
        let stopy := i16 (stopy + rxrx2) in
        let err := i16 (err + ychg) in
        let ychg := i16 (ychg + rxrx2) in
        let '(x', stopx, err, xchg) :=
          if 0 <? 2 * err + xchg then (u8 (x - 1), i16 (stopx - ryry2), i16 (err + xchg), i16 (xchg + ryry2)) else (x, stopx, err, xchg) in
        option_map (cons (x, y)) (ellLoop n rxrx2 ryry2 x' y' xchg ychg err stopx stopy)
      else Some []
  end.
(** u8g_ellipse.c:150-174 before the first loop; 191-210 before the second is the same with x and y exchanged (stopy *= ry for stopx *= rx) *)
Definition half (fuel : nat) (rx ry : Z) : option (list (Z * Z)) :=
  let rxrx2 := i16 (i16 (i16 rx * rx) * 2) in
  let ryry2 := i16 (i16 (i16 ry * ry) * 2) in
  let x := rx in
  let y := 0 in
  let xchg := i16 (i16 (i16 (i16 (1 - rx) - rx) * ry) * ry) in
  let ychg := i16 (i16 rx * rx) in
  let err := 0 in
  let stopx := i16 (ryry2 * rx) in
  let stopy := 0 in
  ellLoop fuel rxrx2 ryry2 x y xchg ychg err stopx stopy.
(** u8g_ellipse.c:141-228, with the section of the points left open; the filled one (282-369) has the same code *)
Definition ellipseWith (fuel : nat) (section : Z -> Z -> list msg) (rx ry : Z) : option (list msg) :=
  match half fuel rx ry, half fuel ry rx with
  | Some l1, Some l2 => Some (flat_map (fun q => section (fst q) (snd q)) l1 ++ flat_map (fun q => section (snd q) (fst q)) l2)
  | _, _ => None
  end.
(** u8g_ellipse.c:141-228 *)
Definition draw_ellipse (fuel : nat) (x0 y0 rx ry option : Z) : Datatypes.option (list msg) := ellipseWith fuel (fun x y => ellipse_section x y x0 y0 option) rx ry.
(** u8g_ellipse.c:230-252 *)
Definition DrawEllipse (fuel : nat) (c : box) (x0 y0 rx ry option : Z) : Datatypes.option (list msg) :=
  let rxp := u8 (rx + 1) in
  let rxp2 := u8 (rxp * 2) in
  let ryp := u8 (ry + 1) in
  let ryp2 := u8 (ryp * 2) in
  if negb (IsBBXIntersection c (u8 (x0 - rxp)) (u8 (y0 - ryp)) rxp2 ryp2) then Some [] else draw_ellipse fuel x0 y0 rx ry option.
(** u8g_ellipse.c:254-280 *)
Definition filled_section (c : box) (x y x0 y0 option : Z) : list msg :=
  (if negb (Z.land option DRAW_UPPER_RIGHT =? 0) then DrawVLine c (u8 (x0 + x)) (u8 (y0 - y)) (u8 (y + 1)) else [])
  ++ (if negb (Z.land option DRAW_UPPER_LEFT =? 0) then DrawVLine c (u8 (x0 - x)) (u8 (y0 - y)) (u8 (y + 1)) else [])
  ++ (if negb (Z.land option DRAW_LOWER_RIGHT =? 0) then DrawVLine c (u8 (x0 + x)) y0 (u8 (y + 1)) else [])
  ++ (if negb (Z.land option DRAW_LOWER_LEFT =? 0) then DrawVLine c (u8 (x0 - x)) y0 (u8 (y + 1)) else []).
(** u8g_ellipse.c:282-369 *)
Definition draw_filled_ellipse (fuel : nat) (c : box) (x0 y0 rx ry option : Z) : Datatypes.option (list msg) := ellipseWith fuel (fun x y => filled_section c x y x0 y0 option) rx ry.
(** u8g_ellipse.c:371-393 *)
Definition DrawFilledEllipse (fuel : nat) (c : box) (x0 y0 rx ry option : Z) : Datatypes.option (list msg) :=
  let rxp := u8 (rx + 1) in
  let rxp2 := u8 (rxp * 2) in
  let ryp := u8 (ry + 1) in
  let ryp2 := u8 (ryp * 2) in
  if negb (IsBBXIntersection c (u8 (x0 - rxp)) (u8 (y0 - ryp)) rxp2 ryp2) then Some [] else draw_filled_ellipse fuel c x0 y0 rx ry option.
