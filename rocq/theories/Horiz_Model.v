(** u8glib: page buffer with eight dots of a row in each byte (u8glib/src/u8g_pb8h1.c; NEW_CODE and __unix__ are not defined) *)
From Verif Require Export U8g_Model.

(** u8g_pb8h1.c:193-216 *)
Definition pb8h1_set_pixel (b : pb) (x y color_index : Z) : pb :=
  let y := u8 (y - page_y0 (p b)) in
  let tmp := width b in
  let tmp := Z.shiftr tmp 3 in
  let tmp := u8 (tmp * y) in
  let mask := Z.shiftr 0x80 (Z.land x 7) in
  let x := Z.shiftr x 3 in
  let ptr := Z.to_nat (tmp + x) in
  let v := rd (buf b) ptr in
  mkPb (p b) (width b) (wr (buf b) ptr (if negb (color_index =? 0) then Z.lor v mask else Z.land v (Z.lxor mask 0xff))).
(** u8g_pb8h1.c:221-230 *)
Definition pb8h1_SetPixel (b : pb) (x y color : Z) : pb :=
  if y <? page_y0 (p b) then b else if page_y1 (p b) <? y then b else if width b <=? x then b else pb8h1_set_pixel b x y color.
(** u8g_pb8h1.c:266-273: the loop; eight passes are enough, as [pixel] is shifted out *)
Fixpoint hLoop (n : nat) (b : pb) (x y dx dy pixel color : Z) : pb :=
  match n with
  | O => b
  | S n =>
      let b := if negb (Z.land pixel 128 =? 0) then pb8h1_SetPixel b x y color else b in
      let x := u8 (x + dx) in
      let y := u8 (y + dy) in
      let pixel := u8 (Z.shiftl pixel 1) in
      if negb (pixel =? 0) then hLoop n b x y dx dy pixel color else b
  end.
(** u8g_pb8h1.c:252-274 *)
Definition pb8h1_Set8PixelOpt2 (b : pb) (x y dir pixel color : Z) : pb :=
  let '(dx, dy) := if dir =? 0 then (1, 0) else if dir =? 1 then (0, 1) else if dir =? 2 then (u8 (0 - 1), 0) else if dir =? 3 then (0, u8 (0 - 1)) else (0, 0) in
  hLoop 8 b x y dx dy pixel color.
(** u8g_pb8h1.c:341-352, U8G_DEV_MSG_SET_8PIXEL and U8G_DEV_MSG_SET_PIXEL *)
Definition pb8h1_draw (b : pb) (color : Z) (m : msg) : pb :=
  match m with
  | Pixel x y => pb8h1_SetPixel b x y color
  | Eight x y dir pixel => if pb_Is8PixelVisible b y dir then pb8h1_Set8PixelOpt2 b x y dir pixel color else b
  end.
