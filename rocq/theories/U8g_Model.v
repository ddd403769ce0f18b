(** u8glib: pages, the page buffer of 8 rows, a display with it, clipping, horizontal and vertical lines, frames, boxes, bitmaps (u8glib/src/u8g_*.c).
    U8G_16BIT is not defined (inc/u8g.h:40, 159-165): u8g_uint_t is uint8_t, u8g_int_t is int8_t. *)
From Verif Require Export Base.

(** inc/u8g.h:878-885 *)
Record page := mkPage { page_height : Z; total_height : Z; page_y0 : Z; page_y1 : Z; pageNo : Z }.
(** u8g_page.c:53-59 *)
Definition page_First (p : page) : page := mkPage (page_height p) (total_height p) 0 (u8 (page_height p - 1)) 0.
(** u8g_page.c:61-78 *)
Definition page_Next (p : page) : page * bool :=
  let y0 := u8 (page_y0 p + page_height p) in
  if total_height p <=? y0 then (mkPage (page_height p) (total_height p) y0 (page_y1 p) (pageNo p), false) else
  let y1 := u8 (page_y1 p + page_height p) in
  let y1 := if total_height p <=? y1 then u8 (total_height p - 1) else y1 in
  (mkPage (page_height p) (total_height p) y0 y1 (u8 (pageNo p + 1)), true).

(** inc/u8g.h: u8g_pb_t, u8g_box_t *)
Record pb := mkPb { p : page; width : Z; buf : list Z }.
Record box := mkBox { x0 : Z; y0 : Z; x1 : Z; y1 : Z }.
(** u8g_pb.c:41-50; for a width of 0 the loop would not end, that is left out *)
Definition pb_Clear (b : pb) : pb := mkPb (p b) (width b) (repeat 0 (Z.to_nat (width b)) ++ skipn (Z.to_nat (width b)) (buf b)).
(** u8g_pb.c:90-113 *)
Definition pb_IsYIntersection (b : pb) (v0 v1 : Z) : bool :=
  let c1 := v0 <=? page_y1 (p b) in
  let c2 := page_y0 (p b) <=? v1 in
  let c3 := v1 <? v0 in
  let tmp := c1 in
  let c1 := c1 && c2 in
  let c2 := c2 && c3 in
  let c3 := c3 && tmp in
  (c1 || c2) || c3.
(** u8g_pb.c:154-161 *)
Definition pb_GetPageBox (b : pb) : box := mkBox 0 (page_y0 (p b)) (u8 (width b - 1)) (page_y1 (p b)).
(** u8g_pb.c:164-183 *)
Definition pb_Is8PixelVisible (b : pb) (y dir : Z) : bool :=
  let v0 := y in
  let v1 := v0 in
  let '(v0, v1) := if dir =? 1 then (v0, u8 (v1 + 8)) else if dir =? 3 then (u8 (v0 - 8), v1) else (v0, v1) in
  pb_IsYIntersection b v0 v1.

(** ** u8g_pb8v1.c: bytes of 8 rows *)
(** u8g_pb8v1.c:57-76 *)
Definition pb8v1_set_pixel (b : pb) (x y color_index : Z) : pb :=
  let y := u8 (y - page_y0 (p b)) in
  let mask := u8 (Z.shiftl 1 (Z.land y 7)) in
  let v := rd (buf b) (Z.to_nat x) in
  mkPb (p b) (width b) (wr (buf b) (Z.to_nat x) (if negb (color_index =? 0) then Z.lor v mask else Z.land v (Z.lxor mask 0xff))).
(** u8g_pb8v1.c:79-88 *)
Definition pb8v1_SetPixel (b : pb) (x y color : Z) : pb :=
  if y <? page_y0 (p b) then b else if page_y1 (p b) <? y then b else if width b <=? x then b else pb8v1_set_pixel b x y color.
(** u8g_pb8v1.c:125-133: the loop; eight passes are enough, as [pixel] is shifted out *)
Fixpoint opt2Loop (n : nat) (b : pb) (x y dx dy pixel color : Z) : pb :=
  match n with
  | O => b
  | S n =>
      let b := if negb (Z.land pixel 128 =? 0) then pb8v1_SetPixel b x y color else b in
      let x := u8 (x + dx) in
      let y := u8 (y + dy) in
      let pixel := u8 (Z.shiftl pixel 1) in
      if negb (pixel =? 0) then opt2Loop n b x y dx dy pixel color else b
  end.
(** u8g_pb8v1.c:111-134 *)
Definition pb8v1_Set8PixelOpt2 (b : pb) (x y dir pixel color : Z) : pb :=
  let '(dx, dy) := if dir =? 0 then (1, 0) else if dir =? 1 then (0, 1) else if dir =? 2 then (u8 (0 - 1), 0) else if dir =? 3 then (0, u8 (0 - 1)) else (0, 0) in
  opt2Loop 8 b x y dx dy pixel color.
(** What is drawn: U8G_DEV_MSG_SET_PIXEL and U8G_DEV_MSG_SET_8PIXEL with their arguments (u8g_ll_api.c:87-103, 413-421); the colour (u8g_ll_api.c:462-466) is given where they are carried out *)
Inductive msg := Pixel (x y : Z) | Eight (x y dir pixel : Z).
(** u8g_pb8v1.c:136-147 *)
Definition pb8v1_draw (b : pb) (color : Z) (m : msg) : pb :=
  match m with
  | Pixel x y => pb8v1_SetPixel b x y color
  | Eight x y dir pixel => if pb_Is8PixelVisible b y dir then pb8v1_Set8PixelOpt2 b x y dir pixel color else b
  end.
(** u8g_pb8v1.c:152-155 *)
Definition pb8v1_first (b : pb) : pb := let b := pb_Clear b in mkPb (page_First (p b)) (width b) (buf b).
(** u8g_pb8v1.c:156-160 *)
Definition pb8v1_next (b : pb) : pb * bool :=
  let '(q, more) := page_Next (p b) in
  let b := mkPb q (width b) (buf b) in
  if more then (pb_Clear b, true) else (b, false).
(** u8g_dev_uc1701_dogs102.c:90-100 and 109, U8G_DEV_MSG_PAGE_NEXT: the byte that selects the page and the bytes sent, then the page buffer's part. Writing always succeeds; the
    other commands (column 0, data mode) are not modelled *)
Definition dogs102_next (b : pb) (log : list (Z * list Z)) : pb * list (Z * list Z) * bool :=
  let log := log ++ [(Z.lor 0xb0 (pageNo (p b)), firstn (Z.to_nat (width b)) (buf b))] in
  let '(b, more) := pb8v1_next b in (b, log, more).

(** ** u8g_clip.c *)
(** u8g_clip.c:98-138 *)
Definition is_intersection_decision_tree (a0 a1 v0 v1 : Z) : bool :=
  if v0 <=? a1 then (if a0 <=? v1 then true else if v1 <? v0 then true else false)
  else if a0 <=? v1 then (if v1 <? v0 then true else false) else false.
(** u8g_clip.c:141-154; [c]: u8g->current_page *)
Definition IsBBXIntersection (c : box) (x y w h : Z) : bool :=
  let tmp := u8 (u8 (y + h) - 1) in
  if negb (is_intersection_decision_tree (y0 c) (y1 c) y tmp) then false else
  let tmp := u8 (u8 (x + w) - 1) in
  is_intersection_decision_tree (x0 c) (x1 c) x tmp.

(** ** u8g_rect.c: what is drawn, in order *)
(** u8g_rect.c:41-57; [n] = w / 8 passes of the loop *)
Fixpoint hlineLoop (n : nat) (x y w : Z) : list msg :=
  match n with
  | S n => Eight x y 0 0xff :: hlineLoop n (u8 (x + 8)) y (u8 (w - 8))
  | O => if negb (w =? 0) then [Eight x y 0 (u8 (Z.shiftl 0xff (Z.land (u8 (Z.lxor w 7 + 1)) 7)))] else []
  end.
Definition draw_hline (x y w : Z) : list msg := hlineLoop (Z.to_nat (w / 8)) x y w.
(** u8g_rect.c:59-75; [n] = h / 8 passes of the loop *)
Fixpoint vlineLoop (n : nat) (x y h : Z) : list msg :=
  match n with
  | S n => Eight x y 1 0xff :: vlineLoop n x (u8 (y + 8)) (u8 (h - 8))
  | O => if negb (h =? 0) then [Eight x y 1 (u8 (Z.shiftl 0xff (Z.land (u8 (Z.lxor h 7 + 1)) 7)))] else []
  end.
Definition draw_vline (x y h : Z) : list msg := vlineLoop (Z.to_nat (h / 8)) x y h.
(** u8g_rect.c:77-82 *)
Definition DrawHLine (c : box) (x y w : Z) : list msg := if negb (IsBBXIntersection c x y w 1) then [] else draw_hline x y w.
(** u8g_rect.c:84-89 *)
Definition DrawVLine (c : box) (x y w : Z) : list msg := if negb (IsBBXIntersection c x y 1 w) then [] else draw_vline x y w.
(** u8g_rect.c:92-108 *)
Definition DrawFrame (c : box) (x y w h : Z) : list msg :=
  let xtmp := x in
  if negb (IsBBXIntersection c x y w h) then [] else
  let a := draw_hline x y w in
  let b := draw_vline x y h in
  let x := u8 (u8 (x + w) - 1) in
  let d := draw_vline x y h in
  let y := u8 (u8 (y + h) - 1) in
  a ++ b ++ d ++ draw_hline xtmp y w.
(** u8g_rect.c:110-118; the loop runs h times, 256 times if h is 0: [n] passes after the first *)
Fixpoint boxLoop (n : nat) (x y w : Z) : list msg := draw_hline x y w ++ match n with O => [] | S n => boxLoop n x (u8 (y + 1)) w end.
Definition draw_box (x y w h : Z) : list msg := boxLoop (Z.to_nat (u8 (h - 1))) x y w.
(** u8g_rect.c:121-126 *)
Definition DrawBox (c : box) (x y w h : Z) : list msg := if negb (IsBBXIntersection c x y w h) then [] else draw_box x y w h.

(** ** u8g_bitmap.c; the bitmap is a list, reading behind its end gives 0 here and is undefined in C *)
(** u8g_bitmap.c:39-48 *)
Fixpoint DrawHBitmap (cnt : nat) (x y : Z) (bitmap : list Z) : list msg :=
  match cnt with O => [] | S n => Eight x y 0 (rd bitmap 0) :: DrawHBitmap n (u8 (x + 8)) y (skipn 1 bitmap) end.
(** u8g_bitmap.c:54-60: the loop *)
Fixpoint bitmapLoop (h : nat) (x y : Z) (cnt : nat) (bitmap : list Z) : list msg :=
  match h with O => [] | S h => DrawHBitmap cnt x y bitmap ++ bitmapLoop h x (u8 (y + 1)) cnt (skipn cnt bitmap) end.
(** u8g_bitmap.c:50-61; u8g_DrawBitmapP (75-86) is the same for flash *)
Definition DrawBitmap (c : box) (x y cnt h : Z) (bitmap : list Z) : list msg :=
  if negb (IsBBXIntersection c x y (u8 (cnt * 8)) h) then [] else bitmapLoop (Z.to_nat h) x y (Z.to_nat cnt) bitmap.
(** u8g_bitmap.c:105-112: the loop for the last bits *)
Fixpoint xbmBits (w : nat) (x y d : Z) : list msg :=
  match w with O => [] | S w => (if negb (Z.land d 1 =? 0) then [Pixel x y] else []) ++ xbmBits w (u8 (x + 1)) y (Z.shiftr d 1) end.
(** u8g_bitmap.c:94-113; [n] = w / 8 passes of the first loop *)
Fixpoint xbmLoop (n : nat) (x y w : Z) (bitmap : list Z) : list msg :=
  match n with
  | S n => Eight x y 2 (rd bitmap 0) :: xbmLoop n (u8 (x + 8)) y (u8 (w - 8)) (skipn 1 bitmap)
  | O => if 0 <? w then xbmBits (Z.to_nat w) (u8 (x - 7)) y (rd bitmap 0) else []
  end.
(** u8g_bitmap.c:90-114 *)
Definition DrawHXBM (x y w : Z) (bitmap : list Z) : list msg := xbmLoop (Z.to_nat (w / 8)) (u8 (x + 7)) y w bitmap.
(** u8g_bitmap.c:126-132: the loop *)
Fixpoint xbmRows (h : nat) (x y w : Z) (b : nat) (bitmap : list Z) : list msg :=
  match h with O => [] | S h => DrawHXBM x y w bitmap ++ xbmRows h x (u8 (y + 1)) w b (skipn b bitmap) end.
(** u8g_bitmap.c:116-133; u8g_DrawXBMP (161-177) is the same for flash *)
Definition DrawXBM (c : box) (x y w h : Z) (bitmap : list Z) : list msg :=
  let b := Z.shiftr (u8 (w + 7)) 3 in
  if negb (IsBBXIntersection c x y w h) then [] else xbmRows (Z.to_nat h) x y w (Z.to_nat b) bitmap.

(** ** The picture loop: u8g_FirstPage(); do draw(); while ( u8g_NextPage() ); as all of u8glib's users write it (u8g_ll_api.c:59-80, 383-395; no cursor). [draw]: the coloured messages
    drawn for a page, as the application may look at the page. None: more than [fuel] pages *)
Fixpoint pictureLoop (fuel : nat) (draw : box -> list (Z * msg)) (b : pb) (log : list (Z * list Z)) : option (pb * list (Z * list Z)) :=
  match fuel with
  | O => None
  | S n =>
      let b := fold_left (fun b e => pb8v1_draw b (fst e) (snd e)) (draw (pb_GetPageBox b)) b in
      let '(b, log, more) := dogs102_next b log in
      if more then pictureLoop n draw b log else Some (b, log)
  end.
Definition picture (fuel : nat) (draw : box -> list (Z * msg)) (b : pb) : option (pb * list (Z * list Z)) := pictureLoop fuel draw (pb8v1_first b) [].
