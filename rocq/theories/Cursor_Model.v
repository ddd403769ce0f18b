(** u8glib: the cursor that u8g_NextPage draws over the picture of the application (u8glib/src/u8g_cursor.c) *)
From Verif Require Export Font_Model.

(** inc/u8g.h:1058-1065, 1080: the fields of u8g_t that the cursor needs: font and colour of the application, and those of the cursor. A font is None before it is set (NULL).
    Simplified: cursor_fn is null or u8g_DrawCursor, the only values that the library stores *)
Record ctx := mkCtx { font : option (list Z); color : Z; cursor_font : option (list Z); cursor_encoding : Z; cursor_fg : Z; cursor_bg : Z; cursor_x : Z; cursor_y : Z; cursor_fn : bool }.

(** u8g_ll_api.c:157-174: the fields as u8g_init_data leaves them; [u]: before. The rest of the function does not change them *)
Definition init_data (u : ctx) : ctx := mkCtx None 1 None 34 1 0 (cursor_x u) (cursor_y u) false.
(** u8g_cursor.c:39-42 *)
Definition SetCursorFont (u : ctx) (f : list Z) : ctx := mkCtx (font u) (color u) (Some f) (cursor_encoding u) (cursor_fg u) (cursor_bg u) (cursor_x u) (cursor_y u) (cursor_fn u).
(** u8g_cursor.c:44-47 *)
Definition SetCursorStyle (u : ctx) (e : Z) : ctx := mkCtx (font u) (color u) (cursor_font u) (u8 e) (cursor_fg u) (cursor_bg u) (cursor_x u) (cursor_y u) (cursor_fn u).
(** u8g_cursor.c:49-53 *)
Definition SetCursorColor (u : ctx) (fg bg : Z) : ctx := mkCtx (font u) (color u) (cursor_font u) (cursor_encoding u) (u8 fg) (u8 bg) (cursor_x u) (cursor_y u) (cursor_fn u).
(** u8g_cursor.c:55-59 *)
Definition SetCursorPos (u : ctx) (x y : Z) : ctx := mkCtx (font u) (color u) (cursor_font u) (cursor_encoding u) (cursor_fg u) (cursor_bg u) (u8 x) (u8 y) (cursor_fn u).
(** u8g_cursor.c:61-64 *)
Definition EnableCursor (u : ctx) : ctx := mkCtx (font u) (color u) (cursor_font u) (cursor_encoding u) (cursor_fg u) (cursor_bg u) (cursor_x u) (cursor_y u) true.
(** u8g_cursor.c:66-69 *)
Definition DisableCursor (u : ctx) : ctx := mkCtx (font u) (color u) (cursor_font u) (cursor_encoding u) (cursor_fg u) (cursor_bg u) (cursor_x u) (cursor_y u) false.
(** u8g_ll_api.c:462-466; 512-515 reads [color] *)
Definition SetColorIndex (u : ctx) (i : Z) : ctx := mkCtx (font u) (u8 i) (cursor_font u) (cursor_encoding u) (cursor_fg u) (cursor_bg u) (cursor_x u) (cursor_y u) (cursor_fn u).
(** u8g->font = f, as u8g_cursor.c:82 and 96 *)
Definition put_font (u : ctx) (f : option (list Z)) : ctx := mkCtx f (color u) (cursor_font u) (cursor_encoding u) (cursor_fg u) (cursor_bg u) (cursor_x u) (cursor_y u) (cursor_fn u).
(** u8g_draw_glyph (u8g_font.c:564-606, [draw_glyph]) with the font and colour of [u]; no font: reads at address 0, None *)
Definition glyph_msgs (c : box) (u : ctx) (x y encoding : Z) : option (list (Z * msg)) :=
  match font u with
  | Some f => match draw_glyph c f x y encoding with Some (l, _) => Some (map (pair (color u)) l) | None => None end
  | None => None
  end.
(** u8g_cursor.c:71-98: what is drawn in the page [c], in this order, and the fields afterwards *)
Definition DrawCursor (c : box) (u : ctx) : option (list (Z * msg) * ctx) :=
  let encoding := cursor_encoding u in
  let old_color := color u in
  let old_font := font u in
  let u := put_font u (cursor_font u) in
  let encoding := u8 (encoding + 1) in
  let u := SetColorIndex u (cursor_bg u) in
  match glyph_msgs c u (cursor_x u) (cursor_y u) encoding with
  | None => None
  | Some back =>
      let encoding := u8 (encoding - 1) in
      let u := SetColorIndex u (cursor_fg u) in
      match glyph_msgs c u (cursor_x u) (cursor_y u) encoding with
      | None => None
      | Some fore =>
          let u := put_font u old_font in
          let u := SetColorIndex u old_color in
          Some (back ++ fore, u)
      end
  end.
(** u8g_ll_api.c:390-393: what u8g_NextPage draws before the page is sent *)
Definition cursor_call (c : box) (u : ctx) : option (list (Z * msg) * ctx) := if cursor_fn u then DrawCursor c u else Some ([], u).
(** All that is drawn in a page: the application's [app], then the cursor's. For [picture] (U8g_Model), that sends the page next (u8g_ll_api.c:394). Where [cursor_call] is None nothing is said: excluded by the theorems *)
Definition with_cursor (u : ctx) (app : box -> list (Z * msg)) (c : box) : list (Z * msg) := app c ++ match cursor_call c u with Some (l, _) => l | None => [] end.
