(** u8glib: several displays that show one picture (u8glib/src/u8g_virtual_screen.c). The children are displays as in U8g_Model (u8g_dev_uc1701_dogs102.c over u8g_pb8v1.c) *)
From Verif Require Export U8g_Model.

(** u8g_virtual_screen.c:38-44: place and display of a child: its page buffer, and what it was sent *)
Record child := mkChild { cx : Z; cy : Z; cb : pb; clog : list (Z * list Z) }.
(** u8g_virtual_screen.c:46-51; [children]: the first u8g_vs_cnt entries of u8g_vs_list. [is_vs]: the u8g_t of the virtual screen has u8g_dev_vs as its device *)
Record vs := mkVs { is_vs : bool; children : list child; current : Z; vs_width : Z; vs_height : Z }.

(** u8g_virtual_screen.c:125-131 *)
Definition SetVirtualScreenDimension (v : vs) (w h : Z) : vs := if is_vs v then mkVs (is_vs v) (children v) (current v) (u8 w) (u8 h) else v.
(** u8g_virtual_screen.c:133-144; 46: U8g_VS_MAX *)
Definition AddToVirtualScreen (v : vs) (x y : Z) (b : pb) : vs * Z :=
  if negb (is_vs v) then (v, 0) else
  if 4 <=? Z.of_nat (length (children v)) then (v, 0) else
  (mkVs (is_vs v) (children v ++ [mkChild (u8 x) (u8 y) b []]) (current v) (vs_width v) (vs_height v), 1).

(** U8G_DEV_MSG_PAGE_FIRST of a child: u8g_pb8v1.c:152-155; the value returned is 1 *)
Definition child_first (k : child) : child := mkChild (cx k) (cy k) (pb8v1_first (cb k)) (clog k).
(** u8g_virtual_screen.c:67-71, U8G_DEV_MSG_PAGE_FIRST *)
Definition vs_first (v : vs) : vs * bool :=
  match children v with
  | [] => (mkVs (is_vs v) (children v) 0 (vs_width v) (vs_height v), false)
  | k :: rest => (mkVs (is_vs v) (child_first k :: rest) 0 (vs_width v) (vs_height v), true)
  end.
(** u8g_virtual_screen.c:72-84, U8G_DEV_MSG_PAGE_NEXT. None: an entry of the list that was never added is used as a display *)
Definition vs_next (v : vs) : option (vs * bool) :=
  let advance ch :=
    let cur := u8 (current v + 1) in
    if Z.of_nat (length ch) <=? cur then Some (mkVs (is_vs v) ch cur (vs_width v) (vs_height v), false) else
    match nth_error ch (Z.to_nat cur) with
    | Some k => Some (mkVs (is_vs v) (wr ch (Z.to_nat cur) (child_first k)) cur (vs_width v) (vs_height v), true)
    | None => None
    end in
  match children v with
  | [] => advance []
  | ch =>
      match nth_error ch (Z.to_nat (current v)) with
      | None => None
      | Some k =>
          let '(b, log, more) := dogs102_next (cb k) (clog k) in
          let ch := wr ch (Z.to_nat (current v)) (mkChild (cx k) (cy k) b log) in
          if more then Some (mkVs (is_vs v) ch (current v) (vs_width v) (vs_height v), true) else advance ch
      end
  end.
(** u8g_virtual_screen.c:91-107, U8G_DEV_MSG_GET_PAGE_BOX *)
Definition vs_page_box (v : vs) : box :=
  match nth_error (children v) (Z.to_nat (current v)) with
  | Some k => let c := pb_GetPageBox (cb k) in mkBox (u8 (x0 c + cx k)) (u8 (y0 c + cy k)) (u8 (x1 c + cx k)) (u8 (y1 c + cy k))
  | None => mkBox 0 0 0 0
  end.
(** u8g_virtual_screen.c:112-113. Simplified: the argument is changed in place there; every call of the library sets its x and y again (u8g_ll_api.c:87-103, 413-421) *)
Definition to_child (k : child) (m : msg) : msg :=
  match m with Pixel x y => Pixel (u8 (x - cx k)) (u8 (y - cy k)) | Eight x y dir pixel => Eight (u8 (x - cx k)) (u8 (y - cy k)) dir pixel end.
(** u8g_virtual_screen.c:108-117, U8G_DEV_MSG_SET_PIXEL and U8G_DEV_MSG_SET_8PIXEL *)
Definition vs_draw (v : vs) (color : Z) (m : msg) : vs :=
  match nth_error (children v) (Z.to_nat (current v)) with
  | Some k => mkVs (is_vs v) (wr (children v) (Z.to_nat (current v)) (mkChild (cx k) (cy k) (pb8v1_draw (cb k) color (to_child k m)) (clog k))) (current v) (vs_width v) (vs_height v)
  | None => v
  end.
(** The picture loop u8g_FirstPage(); do draw(); while ( u8g_NextPage() ) (u8g_ll_api.c:59-80, 383-395; no cursor) on a virtual screen; [draw]: as for U8g_Model.picture. None: more than
    [fuel] pages, or [vs_next] is None *)
Fixpoint vsLoop (fuel : nat) (draw : box -> list (Z * msg)) (v : vs) : option vs :=
  match fuel with
  | O => None
  | S n =>
      let v := fold_left (fun v e => vs_draw v (fst e) (snd e)) (draw (vs_page_box v)) v in
      match vs_next v with
      | None => None
      | Some (v, more) => if more then vsLoop n draw v else Some v
      end
  end.
Definition vs_picture (fuel : nat) (draw : box -> list (Z * msg)) (v : vs) : option vs := vsLoop fuel draw (fst (vs_first v)).
