(** u8glib: page buffer for displays with four grey levels: bytes of four rows, two bits each (u8glib/src/u8g_pb8v2.c) *)
From Verif Require Export U8g_Model.

(** u8g_pb8v2.c:50-65 *)
Definition pb8v2_set_pixel (b : pb) (x y color_index : Z) : pb :=
  let y := u8 (y - page_y0 (p b)) in
  let mask := 0x03 in
  let y := Z.land y 0x03 in
  let y := u8 (Z.shiftl y 1) in
  let mask := u8 (Z.shiftl mask y) in
  let mask := Z.lxor mask 0xff in
  let color_index := Z.land color_index 3 in
  let color_index := u8 (Z.shiftl color_index y) in
  mkPb (p b) (width b) (wr (buf b) (Z.to_nat x) (Z.lor (Z.land (rd (buf b) (Z.to_nat x)) mask) color_index)).
(** u8g_pb8v2.c:68-77 *)
Definition pb8v2_SetPixel (b : pb) (x y color : Z) : pb :=
  if y <? page_y0 (p b) then b else if page_y1 (p b) <? y then b else if width b <=? x then b else pb8v2_set_pixel b x y color.
(** u8g_pb8v2.c:89-95 *)
Definition step (dir x y : Z) : Z * Z :=
  if dir =? 0 then (u8 (x + 1), y) else if dir =? 1 then (x, u8 (y + 1)) else if dir =? 2 then (u8 (x - 1), y) else if dir =? 3 then (x, u8 (y - 1)) else (x, y).
(** u8g_pb8v2.c:83-97: the loop; eight passes are enough, as [pixel] is shifted out *)
Fixpoint stdLoop (n : nat) (b : pb) (x y dir pixel color : Z) : pb :=
  match n with
  | O => b
  | S n =>
      let b := if negb (Z.land pixel 128 =? 0) then pb8v2_SetPixel b x y color else b in
      let '(x, y) := step dir x y in
      let pixel := u8 (Z.shiftl pixel 1) in
      if negb (pixel =? 0) then stdLoop n b x y dir pixel color else b
  end.
(** u8g_pb8v2.c:80-99 *)
Definition pb8v2_Set8PixelStd (b : pb) (x y dir pixel color : Z) : pb := stdLoop 8 b x y dir pixel color.
(** u8g_pb8v2.c:108-116, U8G_DEV_MSG_SET_8PIXEL and U8G_DEV_MSG_SET_PIXEL *)
Definition pb8v2_draw (b : pb) (color : Z) (m : msg) : pb :=
  match m with
  | Pixel x y => pb8v2_SetPixel b x y color
  | Eight x y dir pixel => if pb_Is8PixelVisible b y dir then pb8v2_Set8PixelStd b x y dir pixel color else b
  end.
(** u8g_pb8v2.c:43-48; the page is set by U8G_DEV_MSG_PAGE_FIRST *)
Definition pb8v2_Init (q : page) (buf : list Z) (w : Z) : pb := pb_Clear (mkPb q (u8 w) buf).
(** u8g_pb8v2.c:121-124, U8G_DEV_MSG_PAGE_FIRST *)
Definition pb8v2_first (b : pb) : pb := let b := pb_Clear b in mkPb (page_First (p b)) (width b) (buf b).
(** u8g_pb8v2.c:125-129, U8G_DEV_MSG_PAGE_NEXT: false: 0 is returned, no page is left *)
Definition pb8v2_next (b : pb) : pb * bool :=
  let '(q, more) := page_Next (p b) in
  let b := mkPb q (width b) (buf b) in
  if more then (pb_Clear b, true) else (b, false).
