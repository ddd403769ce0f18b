(** u8glib: lines, circles, discs, rounded frames and boxes (u8glib/src/u8g_line.c, u8g_circle.c, u8g_rect.c:129-232). *)
From Verif Require Export U8g_Model.

(** Conversion to u8g_int_t = int8_t (inc/u8g.h:164), as the compiler defines it *)
Definition i8 (v : Z) : Z := let u := u8 v in if u <? 128 then u else u - 256.

(** u8g_line.c:68-80: the loop. None: more than [fuel] passes *)
Fixpoint lineLoop (fuel : nat) (swapxy : bool) (x x2 y dx dy ystep err : Z) : option (list msg) :=
  match fuel with
  | O => None
  | S n =>
      if x <=? x2 then
        let d := if negb swapxy then Pixel x y else Pixel y x in
        let err := i8 (err - dy) in
        let '(y, err) := if err <? 0 then (u8 (y + u8 ystep), i8 (err + dx)) else (y, err) in
        option_map (cons d) (lineLoop n swapxy (u8 (x + 1)) x2 y dx dy ystep err)
      else Some []
  end.
(** u8g_line.c:38-81 *)
Definition DrawLine (fuel : nat) (x1 y1 x2 y2 : Z) : option (list msg) :=
  let dx := if x2 <? x1 then u8 (x1 - x2) else u8 (x2 - x1) in
  let dy := if y2 <? y1 then u8 (y1 - y2) else u8 (y2 - y1) in
  let '(swapxy, dx, dy, x1, y1, x2, y2) := if dx <? dy then (true, dy, dx, y1, x1, y2, x2) else (false, dx, dy, x1, y1, x2, y2) in
  let '(x1, y1, x2, y2) := if x2 <? x1 then (x2, y2, x1, y1) else (x1, y1, x2, y2) in
  let err := i8 (Z.shiftr dx 1) in
  let ystep := if y1 <? y2 then 1 else -1 in
  lineLoop fuel swapxy x1 x2 y1 dx dy ystep err.

(** inc/u8g.h:1309-1312 *)
Definition DRAW_UPPER_RIGHT : Z := 0x01.
Definition DRAW_UPPER_LEFT : Z := 0x02.
Definition DRAW_LOWER_LEFT : Z := 0x04.
Definition DRAW_LOWER_RIGHT : Z := 0x08.
(** u8g_circle.c:208-237 *)
Definition circle_section (x y x0 y0 option : Z) : list msg :=
  (if negb (Z.land option DRAW_UPPER_RIGHT =? 0) then [Pixel (u8 (x0 + x)) (u8 (y0 - y)); Pixel (u8 (x0 + y)) (u8 (y0 - x))] else [])
  ++ (if negb (Z.land option DRAW_UPPER_LEFT =? 0) then [Pixel (u8 (x0 - x)) (u8 (y0 - y)); Pixel (u8 (x0 - y)) (u8 (y0 - x))] else [])
  ++ (if negb (Z.land option DRAW_LOWER_RIGHT =? 0) then [Pixel (u8 (x0 + x)) (u8 (y0 + y)); Pixel (u8 (x0 + y)) (u8 (y0 + x))] else [])
  ++ (if negb (Z.land option DRAW_LOWER_LEFT =? 0) then [Pixel (u8 (x0 - x)) (u8 (y0 + y)); Pixel (u8 (x0 - y)) (u8 (y0 + x))] else []).
(** u8g_circle.c:258-271; x grows with each pass and y does not, so [n] = rad passes are enough. [section] draws the points x, y and y, x in the quadrants *)
Fixpoint circleLoop (section : Z -> Z -> list msg) (n : nat) (x y f ddF_x ddF_y : Z) : list msg :=
  match n with
  | O => []
  | S n =>
      if x <? y then
        let '(y, ddF_y, f) := if 0 <=? f then (u8 (y - 1), i8 (ddF_y + 2), i8 (f + i8 (ddF_y + 2))) else (y, ddF_y, f) in
        let x := u8 (x + 1) in
        let ddF_x := i8 (ddF_x + 2) in
        let f := i8 (f + ddF_x) in
        section x y ++ circleLoop section n x y f ddF_x ddF_y
      else []
  end.
(** u8g_circle.c:247-271; the code of draw_disc (334-358) is the same with the other section *)
Definition circleWith (section : Z -> Z -> list msg) (rad : Z) : list msg :=
  let f := i8 (1 - rad) in
  let ddF_x := 1 in
  let ddF_y := i8 (i8 (0 - rad) * 2) in
  section 0 rad ++ circleLoop section (Z.to_nat rad) 0 rad f ddF_x ddF_y.
(** u8g_circle.c:239-272 *)
Definition draw_circle (x0 y0 rad option : Z) : list msg := circleWith (fun x y => circle_section x y x0 y0 option) rad.
(** u8g_circle.c:274-291 *)
Definition DrawCircle (c : box) (x0 y0 rad option : Z) : list msg :=
  let radp := u8 (rad + 1) in
  let radp2 := u8 (radp * 2) in
  if negb (IsBBXIntersection c (u8 (x0 - radp)) (u8 (y0 - radp)) radp2 radp2) then [] else draw_circle x0 y0 rad option.
(** u8g_circle.c:295-324 *)
Definition disc_section (c : box) (x y x0 y0 option : Z) : list msg :=
  (if negb (Z.land option DRAW_UPPER_RIGHT =? 0) then DrawVLine c (u8 (x0 + x)) (u8 (y0 - y)) (u8 (y + 1)) ++ DrawVLine c (u8 (x0 + y)) (u8 (y0 - x)) (u8 (x + 1)) else [])
  ++ (if negb (Z.land option DRAW_UPPER_LEFT =? 0) then DrawVLine c (u8 (x0 - x)) (u8 (y0 - y)) (u8 (y + 1)) ++ DrawVLine c (u8 (x0 - y)) (u8 (y0 - x)) (u8 (x + 1)) else [])
  ++ (if negb (Z.land option DRAW_LOWER_RIGHT =? 0) then DrawVLine c (u8 (x0 + x)) y0 (u8 (y + 1)) ++ DrawVLine c (u8 (x0 + y)) y0 (u8 (x + 1)) else [])
  ++ (if negb (Z.land option DRAW_LOWER_LEFT =? 0) then DrawVLine c (u8 (x0 - x)) y0 (u8 (y + 1)) ++ DrawVLine c (u8 (x0 - y)) y0 (u8 (x + 1)) else []).
(** u8g_circle.c:326-359 *)
Definition draw_disc (c : box) (x0 y0 rad option : Z) : list msg := circleWith (fun x y => disc_section c x y x0 y0 option) rad.
(** u8g_circle.c:361-378 *)
Definition DrawDisc (c : box) (x0 y0 rad option : Z) : list msg :=
  let radp := u8 (rad + 1) in
  let radp2 := u8 (radp * 2) in
  if negb (IsBBXIntersection c (u8 (x0 - radp)) (u8 (y0 - radp)) radp2 radp2) then [] else draw_disc c x0 y0 rad option.

(** u8g_rect.c:129-181 *)
Definition DrawRFrame (c : box) (x y w h r : Z) : list msg :=
  if negb (IsBBXIntersection c x y w h) then [] else
  let xl := u8 (x + r) in
  let yu := u8 (y + r) in
  let xr := u8 (u8 (u8 (x + w) - r) - 1) in
  let yl := u8 (u8 (u8 (y + h) - r) - 1) in
  let arcs := draw_circle xl yu r DRAW_UPPER_LEFT ++ draw_circle xr yu r DRAW_UPPER_RIGHT ++ draw_circle xl yl r DRAW_LOWER_LEFT ++ draw_circle xr yl r DRAW_LOWER_RIGHT in
  let ww := u8 (u8 (u8 (w - r) - r) - 2) in
  let hh := u8 (u8 (u8 (h - r) - r) - 2) in
  let xl := u8 (xl + 1) in
  let yu := u8 (yu + 1) in
  let h := u8 (h - 1) in
  let w := u8 (w - 1) in
  arcs ++ draw_hline xl y ww ++ draw_hline xl (u8 (y + h)) ww ++ draw_vline x yu hh ++ draw_vline (u8 (x + w)) yu hh.
(** u8g_rect.c:183-232 *)
Definition DrawRBox (c : box) (x y w h r : Z) : list msg :=
  if negb (IsBBXIntersection c x y w h) then [] else
  let xl := u8 (x + r) in
  let yu := u8 (y + r) in
  let xr := u8 (u8 (u8 (x + w) - r) - 1) in
  let yl := u8 (u8 (u8 (y + h) - r) - 1) in
  let discs := draw_disc c xl yu r DRAW_UPPER_LEFT ++ draw_disc c xr yu r DRAW_UPPER_RIGHT ++ draw_disc c xl yl r DRAW_LOWER_LEFT ++ draw_disc c xr yl r DRAW_LOWER_RIGHT in
  let ww := u8 (u8 (u8 (w - r) - r) - 2) in
  let hh := u8 (u8 (u8 (h - r) - r) - 2) in
  let xl := u8 (xl + 1) in
  let yu := u8 (yu + 1) in
  discs ++ draw_box xl y ww (u8 (r + 1)) ++ draw_box xl yl ww (u8 (r + 1)) ++ draw_box x yu w hh.
