(** u8glib: turned and doubled pictures, devices in front of the display's device (u8glib/src/u8g_rot.c, u8g_scale.c). *)
From Verif Require Export U8g_Model.

(** The devices: that of the display, u8g_dev_rot (u8g_rot.c:51), u8g_dev_scale (u8g_scale.c:43); [Null]: what the dev_mem of the last two holds at first *)
Inductive dev := Null | Base | RotDev | ScaleDev.
(** The functions u8g_dev_rot.dev_fn may be: u8g_rot.c:46-49 (the one at first), 94-191, 193-299, 301-410 *)
Inductive rotFn := Dummy | R90 | R180 | R270.
(** u8g->dev, u8g_dev_rot.dev_fn, the dev_mem of both devices, and the size of the display *)
Record chain := mkChain { top : dev; rot_fn : rotFn; rot_mem : dev; scale_mem : dev; baseW : Z; baseH : Z }.
(** As at the start *)
Definition plainChain (w h : Z) : chain := mkChain Base Dummy Null Null w h.

(** In the following functions None is a call through a null pointer, of the dummy function (which leaves the result undefined), or a chain of more than [fuel] devices; a chain that leads
    back to itself never ends and so gives None for every [fuel] *)
(** u8g_GetWidthLL and u8g_GetHeightLL (u8g_ll_api.c:125-137): u8g_rot.c:154-159, 253-258, 360-365; u8g_scale.c:79-84; u8g_pb8v1.c:168-173 for the display *)
Fixpoint GetDim (fuel : nat) (s : chain) (d : dev) (isWidth : bool) : option Z :=
  match fuel with
  | O => None
  | S n =>
      match d with
      | Null => None
      | Base => Some (if isWidth then baseW s else baseH s)
      | RotDev => match rot_fn s with Dummy => None | R180 => GetDim n s (rot_mem s) isWidth | _ => GetDim n s (rot_mem s) (negb isWidth) end
      | ScaleDev => option_map (fun v => v / 2) (GetDim n s (scale_mem s) isWidth)
      end
  end.
Definition GetWidthLL (fuel : nat) (s : chain) (d : dev) : option Z := GetDim fuel s d true.
Definition GetHeightLL (fuel : nat) (s : chain) (d : dev) : option Z := GetDim fuel s d false.
(** u8g_rot.c:137-153: U8G_DEV_MSG_GET_PAGE_BOX turned by 90 degrees *)
Definition rot90_box (c : box) : box := mkBox (y0 c) (x0 c) (y1 c) (x1 c).
(** u8g_rot.c:238-252 *)
Definition rot180_box (w h : Z) (c : box) : box := mkBox (u8 (w - x1 c - 1)) (u8 (h - y1 c - 1)) (u8 (w - x0 c - 1)) (u8 (h - y0 c - 1)).
(** u8g_rot.c:345-359 *)
Definition rot270_box (w h : Z) (c : box) : box := mkBox (u8 (h - y1 c - 1)) (u8 (w - x1 c - 1)) (u8 (h - y0 c - 1)) (u8 (w - x0 c - 1)).
(** u8g_scale.c:85-92 *)
Definition scale_box (c : box) : box := mkBox (x0 c / 2) (y0 c / 2) (x1 c / 2) (y1 c / 2).
(** U8G_DEV_MSG_GET_PAGE_BOX; [c] is what the display's device answers *)
Fixpoint GetPageBox (fuel : nat) (s : chain) (d : dev) (c : box) : option box :=
  match fuel with
  | O => None
  | S n =>
      match d with
      | Null => None
      | Base => Some c
      | RotDev =>
          match GetPageBox n s (rot_mem s) c with
          | None => None
          | Some b =>
              match rot_fn s with
              | Dummy => None
              | R90 => Some (rot90_box b)
              | R180 => match GetWidthLL n s (rot_mem s), GetHeightLL n s (rot_mem s) with Some w, Some h => Some (rot180_box w h b) | _, _ => None end
              | R270 => match GetWidthLL n s (rot_mem s), GetHeightLL n s (rot_mem s) with Some w, Some h => Some (rot270_box w h b) | _, _ => None end
              end
          end
      | ScaleDev => option_map scale_box (GetPageBox n s (scale_mem s) c)
      end
  end.

(** u8g_rot.c:160-188: U8G_DEV_MSG_SET_PIXEL and U8G_DEV_MSG_SET_8PIXEL; [w]: width of the next device *)
Definition rot90_msg (w : Z) (m : msg) : msg :=
  match m with
  | Pixel a b => Pixel (u8 (u8 (w - b) - 1)) a
  | Eight a b dir pixel => Eight (u8 (u8 (w - b) - 1)) a (Z.land (u8 (dir + 1)) 3) pixel
  end.
(** u8g_rot.c:259-296 *)
Definition rot180_msg (w h : Z) (m : msg) : msg :=
  match m with
  | Pixel a b => Pixel (u8 (u8 (w - a) - 1)) (u8 (u8 (h - b) - 1))
  | Eight a b dir pixel => Eight (u8 (u8 (w - a) - 1)) (u8 (u8 (h - b) - 1)) (Z.land (u8 (dir + 2)) 3) pixel
  end.
(** u8g_rot.c:366-407 *)
Definition rot270_msg (h : Z) (m : msg) : msg :=
  match m with
  | Pixel a b => Pixel b (u8 (u8 (h - a) - 1))
  | Eight a b dir pixel => Eight b (u8 (u8 (h - a) - 1)) (Z.land (u8 (dir + 3)) 3) pixel
  end.
(** u8g_scale.c:117-126: [scaled_pixel], 16 bits *)
Fixpoint scaledLoop (n : nat) (scaled pixel : Z) : Z :=
  match n with
  | O => scaled
  | S n =>
      let scaled := u16 (Z.shiftl scaled 2) in
      let scaled := if negb (Z.land pixel 128 =? 0) then Z.lor scaled 3 else scaled in
      scaledLoop n scaled (u8 (Z.shiftl pixel 1))
  end.
(** u8g_scale.c:93-113 and 114-184: the four messages, in order *)
Definition scale_msg (m : msg) : list msg :=
  match m with
  | Pixel a b =>
      let x := u8 (a * 2) in
      let y := u8 (b * 2) in
      let x' := u8 (x + 1) in
      let y' := u8 (y + 1) in
      [Pixel x y; Pixel x' y; Pixel x' y'; Pixel (u8 (x' - 1)) y']
  | Eight a b dir pixel =>
      let scaled := scaledLoop 8 0 pixel in
      let x := u8 (a * 2) in
      let y := u8 (b * 2) in
      let '(xx, yy) := if negb (Z.land dir 1 =? 0) then (u8 (x + 1), y) else (x, u8 (y + 1)) in
      let '(x2, xx2, y2, yy2) :=
        if dir =? 0 then (u8 (x + 8), u8 (xx + 8), y, yy)
        else if dir =? 1 then (x, xx, u8 (y + 8), u8 (yy + 8))
        else if dir =? 2 then (u8 (x - 8), u8 (xx - 8), y, yy)
        else if dir =? 3 then (x, xx, u8 (y - 8), u8 (yy - 8)) else (x, xx, y, yy) in
      [Eight x y dir (u8 (Z.shiftr scaled 8)); Eight xx yy dir (u8 (Z.shiftr scaled 8)); Eight x2 y2 dir (Z.land scaled 255); Eight xx2 yy2 dir (Z.land scaled 255)]
  end.
(** One after the other, each to the next device *)
Fixpoint sendAll (send : msg -> option (list msg)) (l : list msg) : option (list msg) :=
  match l with
  | [] => Some []
  | m :: l => match send m, sendAll send l with Some a, Some b => Some (a ++ b) | _, _ => None end
  end.
(** U8G_DEV_MSG_SET_PIXEL, U8G_DEV_MSG_SET_8PIXEL: what the display's device gets. The messages carry all of the argument; what a device leaves changed in it (u8g_pb8v1.c:128-129) is set
    anew before each call *)
Fixpoint send (fuel : nat) (s : chain) (d : dev) (m : msg) : option (list msg) :=
  match fuel with
  | O => None
  | S n =>
      match d with
      | Null => None
      | Base => Some [m]
      | RotDev =>
          match rot_fn s with
          | Dummy => None
          | R90 => match GetWidthLL n s (rot_mem s) with Some w => send n s (rot_mem s) (rot90_msg w m) | None => None end
          | R180 => match GetWidthLL n s (rot_mem s), GetHeightLL n s (rot_mem s) with Some w, Some h => send n s (rot_mem s) (rot180_msg w h m) | _, _ => None end
          | R270 => match GetHeightLL n s (rot_mem s) with Some h => send n s (rot_mem s) (rot270_msg h m) | None => None end
          end
      | ScaleDev => sendAll (send n s (scale_mem s)) (scale_msg m)
      end
  end.

(** u8g_ll_api.c:148-155; the mode is left out. [c]: the page of the display *)
Definition UpdateDimension (fuel : nat) (s : chain) (c : box) : option (Z * Z * box) :=
  match GetWidthLL fuel s (top s), GetHeightLL fuel s (top s), GetPageBox fuel s (top s) c with Some w, Some h, Some b => Some (w, h, b) | _, _, _ => None end.
Definition isRot (d : dev) : bool := match d with RotDev => true | _ => false end.
Definition isScale (d : dev) : bool := match d with ScaleDev => true | _ => false end.
(** u8g_rot.c:61-70, 72-81, 83-92 without u8g_UpdateDimension at the end *)
Definition SetRot (r : rotFn) (s : chain) : chain :=
  let s := if negb (isRot (top s)) then mkChain RotDev (rot_fn s) (top s) (scale_mem s) (baseW s) (baseH s) else s in
  mkChain (top s) r (rot_mem s) (scale_mem s) (baseW s) (baseH s).
(** u8g_rot.c:53-59; scale: u8g_scale.c:46-52; both without u8g_UpdateDimension at the end *)
Definition UndoRotation (s : chain) : chain := if negb (isRot (top s)) then s else mkChain (rot_mem s) (rot_fn s) (rot_mem s) (scale_mem s) (baseW s) (baseH s).
Definition UndoScale (s : chain) : chain := if negb (isScale (top s)) then s else mkChain (scale_mem s) (rot_fn s) (rot_mem s) (scale_mem s) (baseW s) (baseH s).
(** u8g_scale.c:54-63 *)
Definition SetScale2x2 (s : chain) : chain :=
  if negb (isScale (top s)) then mkChain ScaleDev (rot_fn s) (rot_mem s) (top s) (baseW s) (baseH s) else s.

(** The picture loop with such a chain: u8g->current_page is the page of the first device (u8g_ll_api.c:59-80), the application's coloured messages go through it. What does not get
    through is left out here; that there is none is part of C116_picture *)
Definition through (fuel : nat) (s : chain) (draw : box -> list (Z * msg)) (c : box) : list (Z * msg) :=
  match GetPageBox fuel s (top s) c with
  | None => []
  | Some b => flat_map (fun e => match send fuel s (top s) (snd e) with Some l => map (pair (fst e)) l | None => [] end) (draw b)
  end.
