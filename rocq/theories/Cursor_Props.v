(** C136: the cursor of the graphical display *)
From Verif Require Import Cursor_Proofs.

(** In every page the cursor lies over what the application has drawn there, its shape over its mask; font, colour and all other fields are afterwards as the application has set them *)
Theorem C136_page fmt F f c u : cursor_font u = Some f -> is_font fmt F f -> box_ok c -> ctx_ok u ->
  exists l, DrawCursor c u = Some (l, u) /\ Forall (fun e => msg_ok (snd e)) l
  /\ forall app x y v0, inside c x y -> dot x y app v0 ->
     exists v, dot x y (app ++ l) v /\ overlaid F (cursor_encoding u) (cursor_fg u) (cursor_bg u) (cursor_x u) (cursor_y u) x y v0 v.
Proof.
  intros CF IF C K. destruct (DrawCursor_spec fmt F f c u CF IF C K) as (back & fore & E & D1 & D2). eexists. split; [exact E|]. split.
  - apply Forall_app. split; apply Forall_forall; intros e I; apply in_map_iff in I as (m & <- & I); cbn [snd]; [destruct D1 as [M _]|destruct D2 as [M _]]; rewrite Forall_forall in M; auto.
  - intros app x y v0 I H. apply (cursor_dot F c); assumption.
Qed.
Print Assumptions C136_page.

(** The whole display: an application that draws the same picture [l] in all pages sees it with the cursor on it *)
Theorem C136_shown fmt F f u w h b app l : cursor_font u = Some f -> is_font fmt F f -> ctx_ok u -> cursor_fn u = true -> display_ok w h b ->
  (forall c, page_of w h c -> Forall (fun e => msg_ok (snd e)) (app c)) -> (forall c, page_of w h c -> same_dots c (app c) l) ->
  forall n, (pages h <= n)%nat -> exists b' log, picture n (with_cursor u app) b = Some (b', log)
  /\ forall x y, 0 <= x < w -> 0 <= y < h -> exists v0 v, dot x y l v0 /\ shown log x y = Some v
     /\ overlaid F (cursor_encoding u) (cursor_fg u) (cursor_bg u) (cursor_x u) (cursor_y u) x y v0 v.
Proof.
  intros CF IF K ON D OK SAME n Hn. pose proof D as (W & H & _).
  set (full := mkBox 0 0 255 255). assert (FO : box_ok full) by (unfold box_ok, full; cbn; lia).
  assert (PO : forall c, page_of w h c -> box_ok c) by (intros c (k & K1 & K2 & K3 & K4 & K5 & K6); unfold box_ok; lia).
  destruct (C136_page fmt F f full u CF IF FO K) as (lf & Ef & Mf & Df).
  assert (ONE : forall c, page_of w h c -> exists lc, with_cursor u app c = app c ++ lc /\ Forall (fun e => msg_ok (snd e)) lc /\ forall a x y v0, inside c x y -> dot x y a v0 ->
     exists v, dot x y (a ++ lc) v /\ overlaid F (cursor_encoding u) (cursor_fg u) (cursor_bg u) (cursor_x u) (cursor_y u) x y v0 v).
  { intros c P. destruct (C136_page fmt F f c u CF IF (PO c P) K) as (lc & E & M & Q). exists lc. unfold with_cursor, cursor_call. rewrite ON, E. auto. }
  assert (FI : forall c x y, box_ok c -> inside c x y -> inside full x y) by (intros c x y C I; unfold inside, full, box_ok in *; cbn; lia).
  destruct (C112_picture w h b (with_cursor u app) (l ++ lf) D) with (fuel := n) as (b' & log & E & _ & _ & S & _); auto.
  - intros c P. destruct (ONE c P) as (lc & E & M & _). rewrite E. apply Forall_app. split; [apply OK, P|exact M].
  - intros c P x y v I. destruct (ONE c P) as (lc & E & _ & Q). rewrite E. destruct (dot_total x y l) as (v0 & D0). pose proof (proj2 (SAME c P x y v0 I) D0) as D0'.
    destruct (Q (app c) x y v0 I D0') as (v1 & D1 & O1). destruct (Df l x y v0 (FI c x y (PO c P) I) D0) as (v2 & D2 & O2).
    assert (v1 = v2) by (eapply overlaid_unique; eassumption). subst v2.
    split; intros Dv; [rewrite (dot_unique _ _ _ _ Dv _ D1); exact D2|rewrite (dot_unique _ _ _ _ Dv _ D2); exact D1].
  - exists b', log. split; [exact E|]. intros x y X Y. destruct (S x y X Y) as (v & Sh & Dv). destruct (dot_total x y l) as (v0 & D0).
    destruct (Df l x y v0) as (v2 & D2 & O2); [unfold inside, full; cbn; lia|exact D0|]. exists v0, v. split; [exact D0|]. split; [exact Sh|].
    rewrite (dot_unique _ _ _ _ Dv _ D2). exact O2.
Qed.
Print Assumptions C136_shown.

(** Without a cursor, as after the start and after DisableCursor, the application's messages are all that is drawn, whatever the other settings, and no font is needed *)
Theorem C136_off u app c x y e fg bg f :
  with_cursor (DisableCursor u) app c = app c /\ with_cursor (init_data u) app c = app c
  /\ with_cursor (SetCursorPos (SetCursorColor (SetCursorStyle (SetCursorFont (DisableCursor u) f) e) fg bg) x y) app c = app c
  /\ cursor_call c (DisableCursor u) = Some ([], DisableCursor u) /\ cursor_call c (init_data u) = Some ([], init_data u).
Proof. unfold with_cursor, cursor_call. cbn. rewrite app_nil_r. auto. Qed.
Print Assumptions C136_off.

(** From the start: with font, shape, colours and place set, in whatever order with EnableCursor, the display shows this cursor *)
Theorem C136_set u fmt F f e fg bg px py c : is_font fmt F f -> is_byte e -> is_byte fg -> is_byte bg -> is_byte px -> is_byte py -> box_ok c ->
  let u1 := SetCursorPos (SetCursorColor (SetCursorStyle (SetCursorFont (EnableCursor (init_data u)) f) e) fg bg) px py in
  let u2 := EnableCursor (SetCursorFont (SetCursorStyle (SetCursorColor (SetCursorPos (init_data u) px py) fg bg) e) f) in
  u1 = u2 /\ forall a x y v0, inside c x y -> dot x y (a c) v0 -> exists v, dot x y (with_cursor u1 a c) v /\ overlaid F e fg bg px py x y v0 v.
Proof.
  intros IF E FG BG PX PY C u1 u2. split; [reflexivity|]. intros a x y v0 I D0.
  assert (Q : u1 = mkCtx None 1 (Some f) e fg bg px py true) by (change u1 with (mkCtx None 1 (Some f) (u8 e) (u8 fg) (u8 bg) (u8 px) (u8 py) true); rewrite !u8_of by assumption; reflexivity). rewrite Q.
  destruct (C136_page fmt F f c (mkCtx None 1 (Some f) e fg bg px py true)) as (l & El & _ & K); auto.
  { unfold ctx_ok. cbn. unfold is_byte in *. lia. }
  unfold with_cursor, cursor_call. cbn [cursor_fn]. rewrite El. apply K; assumption.
Qed.
Print Assumptions C136_set.

(** Without SetCursorColor the cursor is the shape set, on its mask cleared, in the style 34 with mask 35 *)
Theorem C136_default u fmt F f px py c : is_font fmt F f -> is_byte px -> is_byte py -> box_ok c ->
  forall a x y v0, inside c x y -> dot x y (a c) v0 -> exists v, dot x y (with_cursor (EnableCursor (SetCursorPos (SetCursorFont (init_data u) f) px py)) a c) v
  /\ (glyph_has F 34 px py x y -> v = true) /\ (~ glyph_has F 34 px py x y -> glyph_has F 35 px py x y -> v = false) /\ (~ glyph_has F 34 px py x y -> ~ glyph_has F 35 px py x y -> v = v0).
Proof.
  intros IF PX PY C a x y v0 I D0. destruct (C136_set u fmt F f 34 1 0 px py c IF) as (EQ & K); try (unfold is_byte; lia); try assumption.
  destruct (K a x y v0 I D0) as (v & Dv & O). exists v. split; [exact Dv|]. change ((34 + 1) mod 256) with 35 in O.
  inversion O; subst; repeat split; intros; try reflexivity; contradiction.
Qed.
Print Assumptions C136_default.

(** EnableCursor without SetCursorFont: the next u8g_NextPage reads a font at address 0, though EnableCursor is all that switching on seems to need *)
Theorem C136_no_font_refuted : forall u c, cursor_call c (EnableCursor (init_data u)) = None.
Proof. reflexivity. Qed.
Print Assumptions C136_no_font_refuted.

(** ** Examples *)
(** A shape of one column (34) on a mask of three columns (35), two rows *)
Definition curshape := mkGlyph 3 1 2 1 0 [0x80; 0x80].
Definition curmask := mkGlyph 3 3 2 0 0 [0xE0; 0xE0].
Definition curface := mkFace 34 [Some curshape; Some curmask].
Definition curfile := [1; 9; 2; 0; 255; 2; 0; 0; 0; 0; 34; 35; 255; 2; 255; 2; 255; 0x12; 0x12; 0x32; 0x80; 0x80; 0x02; 0x32; 0x32; 0xE0; 0xE0].
Lemma curfile_ok : is_font 1 curface curfile.
Proof.
  exists (firstn 17 curfile), []. split; [reflexivity|]. split; [reflexivity|]. split; [unfold curfile; repeat (apply Forall_cons; [split; [discriminate|reflexivity]|]); apply Forall_nil|].
  split; [lia|]. split; [reflexivity|]. split; [reflexivity|]. split; [reflexivity|]. split; [discriminate|]. split; [left; reflexivity|]. split; [left; reflexivity|].
  intros g [G|[G|[]]]; injection G as <-.
  - split; [|change (1 =? 1) with true; cbn; lia]. split; [repeat constructor; lia|]. split; [reflexivity|]. cbn [curshape g_w g_h g_data]. change ((1 + 7) / 8) with 1. intros r k R K.
    assert (P : r = 0 \/ r = 1) by lia. assert (Q : k = 1 \/ k = 2 \/ k = 3 \/ k = 4 \/ k = 5 \/ k = 6 \/ k = 7) by lia. destruct P as [-> | ->]; repeat destruct Q as [-> |Q]; subst; reflexivity.
  - split; [|change (1 =? 1) with true; cbn; lia]. split; [repeat constructor; lia|]. split; [reflexivity|]. cbn [curmask g_w g_h g_data]. change ((3 + 7) / 8) with 1. intros r k R K.
    assert (P : r = 0 \/ r = 1) by lia. assert (Q : k = 3 \/ k = 4 \/ k = 5 \/ k = 6 \/ k = 7) by lia. destruct P as [-> | ->]; repeat destruct Q as [-> |Q]; subst; reflexivity.
Qed.
Definition curctx := mkCtx None 1 (Some curfile) 34 1 0 20 6 true.
Definition page0 := mkBox 0 0 101 7.
(** Shape and mask are drawn; the shape has the dot 21, 4, only the mask the dot 20, 4, none the dot 23, 4 *)
Example C136_page_example : cursor_font curctx = Some curfile /\ is_font 1 curface curfile /\ box_ok page0 /\ ctx_ok curctx /\ inside page0 21 4
  /\ DrawCursor page0 curctx = Some ([(0, Eight 20 4 0 0xE0); (0, Eight 20 5 0 0xE0); (1, Eight 21 4 0 0x80); (1, Eight 21 5 0 0x80)], curctx)
  /\ glyph_has curface 34 20 6 21 4 /\ glyph_has curface 35 20 6 20 4 /\ ~ glyph_has curface 34 20 6 20 4 /\ ~ glyph_has curface 35 20 6 23 4.
Proof.
  split; [reflexivity|]. split; [exact curfile_ok|]. split; [unfold box_ok; cbn; lia|]. split; [unfold ctx_ok, is_byte; cbn; lia|]. split; [unfold inside; cbn; lia|].
  split; [reflexivity|]. split; [exists curshape; repeat split; reflexivity|]. split; [exists curmask; repeat split; reflexivity|].
  split; intros (g & G & A & _); vm_compute in G; injection G as <-; vm_compute in A; discriminate.
Qed.
Example C136_shown_example : display_ok 102 64 (mkPb (mkPage 8 64 0 7 0) 102 (repeat 0 102)) /\ (pages 64 <= 8)%nat /\ cursor_fn curctx = true
  /\ (forall c, page_of 102 64 c -> Forall (fun e : Z * msg => msg_ok (snd e)) [(1, Eight 0 0 0 255)]) /\ forall c, page_of 102 64 c -> same_dots c [(1, Eight 0 0 0 255)] [(1, Eight 0 0 0 255)].
Proof.
  split; [unfold display_ok; cbn [p page_height total_height width buf]; rewrite repeat_length; repeat split; lia|]. split; [vm_compute; lia|]. split; [reflexivity|]. split.
  - intros c _. apply Forall_cons; [cbn; unfold is_byte; lia|constructor].
  - intros c _ x y v _. reflexivity.
Qed.
Example C136_set_example : forall u, SetCursorPos (SetCursorColor (SetCursorStyle (SetCursorFont (EnableCursor (init_data u)) curfile) 34) 1 0) 20 6 = curctx /\ is_byte 34.
Proof. intros u. split; [reflexivity|split; lia]. Qed.
Example C136_off_example : with_cursor (DisableCursor curctx) (fun _ => [(1, Eight 0 0 0 255)]) page0 = [(1, Eight 0 0 0 255)] /\ length (with_cursor curctx (fun _ => [(1, Eight 0 0 0 255)]) page0) = 5%nat.
Proof. split; reflexivity. Qed.
Example C136_default_example : forall u, EnableCursor (SetCursorPos (SetCursorFont (init_data u) curfile) 20 6) = curctx /\ is_byte 20 /\ is_byte 6.
Proof. intros u. split; [reflexivity|]. unfold is_byte. lia. Qed.
