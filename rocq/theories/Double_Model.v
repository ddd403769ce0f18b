(** u8glib: page buffer of sixteen rows: two rows of bytes of eight rows each (u8glib/src/u8g_pb16v1.c) *)
From Verif Require Export U8g_Model.

(** u8g_pb16v1.c:50-59; for a width of 0 the loop would not end, that is left out *)
Definition pb16v1_Clear (b : pb) : pb := mkPb (p b) (width b) (repeat 0 (Z.to_nat (width b * 2)) ++ skipn (Z.to_nat (width b * 2)) (buf b)).
(** u8g_pb16v1.c:69-92 *)
Definition pb16v1_set_pixel (b : pb) (x y color_index : Z) : pb :=
  let y := u8 (y - page_y0 (p b)) in
  let '(ptr, y) := if 8 <=? y then (width b, Z.land y 0x07) else (0, y) in
  let mask := u8 (Z.shiftl 1 y) in
  let ptr := Z.to_nat (ptr + x) in
  let v := rd (buf b) ptr in
  mkPb (p b) (width b) (wr (buf b) ptr (if negb (color_index =? 0) then Z.lor v mask else Z.land v (Z.lxor mask 0xff))).
(** u8g_pb16v1.c:95-104 *)
Definition pb16v1_SetPixel (b : pb) (x y color : Z) : pb :=
  if y <? page_y0 (p b) then b else if page_y1 (p b) <? y then b else if width b <=? x then b else pb16v1_set_pixel b x y color.
(** u8g_pb16v1.c:141-148: the loop; eight passes are enough, as [pixel] is shifted out *)
Fixpoint dLoop (n : nat) (b : pb) (x y dx dy pixel color : Z) : pb :=
  match n with
  | O => b
  | S n =>
      let b := if negb (Z.land pixel 128 =? 0) then pb16v1_SetPixel b x y color else b in
      let x := u8 (x + dx) in
      let y := u8 (y + dy) in
      let pixel := u8 (Z.shiftl pixel 1) in
      if negb (pixel =? 0) then dLoop n b x y dx dy pixel color else b
  end.
(** u8g_pb16v1.c:127-150 *)
Definition pb16v1_Set8PixelOpt2 (b : pb) (x y dir pixel color : Z) : pb :=
  let '(dx, dy) := if dir =? 0 then (1, 0) else if dir =? 1 then (0, 1) else if dir =? 2 then (u8 (0 - 1), 0) else if dir =? 3 then (0, u8 (0 - 1)) else (0, 0) in
  dLoop 8 b x y dx dy pixel color.
(** u8g_pb16v1.c:157-163, U8G_DEV_MSG_SET_8PIXEL and U8G_DEV_MSG_SET_PIXEL *)
Definition pb16v1_draw (b : pb) (color : Z) (m : msg) : pb :=
  match m with
  | Pixel x y => pb16v1_SetPixel b x y color
  | Eight x y dir pixel => if pb_Is8PixelVisible b y dir then pb16v1_Set8PixelOpt2 b x y dir pixel color else b
  end.
(** u8g_pb16v1.c:168-171, U8G_DEV_MSG_PAGE_FIRST *)
Definition pb16v1_first (b : pb) : pb := let b := pb16v1_Clear b in mkPb (page_First (p b)) (width b) (buf b).
(** u8g_pb16v1.c:172-176, U8G_DEV_MSG_PAGE_NEXT: false: 0 is returned, no page is left *)
Definition pb16v1_next (b : pb) : pb * bool :=
  let '(q, more) := page_Next (p b) in
  let b := mkPb q (width b) (buf b) in
  if more then (pb16v1_Clear b, true) else (b, false).
