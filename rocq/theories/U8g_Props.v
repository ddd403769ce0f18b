(** C112: a picture drawn page by page *)
From Verif Require Import U8g_Proofs.

(** What is on the display after the picture loop. [l] is the picture; for a page, the application may draw anything that gives the same dots in that page. The loop ends after the display's pages,
    each page is written once, in order, with a byte for each column; every dot of the display is that of the picture, whatever the buffer and the page were before; nothing is written behind the buffer *)
Theorem C112_picture w h b draw l : display_ok w h b ->
  (forall c, page_of w h c -> Forall (fun e => msg_ok (snd e)) (draw c)) -> (forall c, page_of w h c -> same_dots c (draw c) l) ->
  forall fuel, (pages h <= fuel)%nat -> exists b' log, picture fuel draw b = Some (b', log)
  /\ map fst log = map (fun k => 0xb0 + Z.of_nat k) (seq 0 (pages h)) /\ Forall (fun e => length (snd e) = Z.to_nat w) log
  /\ (forall x y, 0 <= x < w -> 0 <= y < h -> exists v, shown log x y = Some v /\ dot x y l v)
  /\ skipn (Z.to_nat w) (buf b') = skipn (Z.to_nat w) (buf b).
Proof.
  intros D OK SAME fuel Hf. pose proof D as (W & H & _). destruct (first_at w h b D) as [A Dr].
  assert (SAME' : forall k x y v, 0 <= k -> 8 * k < h -> 0 <= x < w -> 8 * k <= y <= Z.min (8 * k + 7) (h - 1) ->
    forall c, x0 c = 0 -> x1 c = w - 1 -> y0 c = 8 * k -> Z.min (8 * k + 7) (h - 1) <= y1 c <= Z.min (8 * k + 7) (Z.max 7 (h - 1)) -> dot x y (draw c) v -> dot x y l v).
  { intros k x y v K L X Y c C1 C2 C3 C4 Dv. apply (SAME c); [exists k; auto 10|unfold inside; lia|exact Dv]. }
  destruct (loop_done w h draw l W H OK SAME' fuel 0 (pb8v1_first b) [] ltac:(lia) ltac:(lia) A Dr) as (b' & log & E & (L1 & L2 & L3) & L4).
  - unfold done. repeat split; [constructor|]. intros; lia.
  - cbn. exact Hf.
  - exists b', log. split; [exact E|]. rewrite Nat2Z.id in L1. repeat split; auto.
    + intros x y X Y. apply L3; auto. unfold pages. Z.div_mod_to_equations. lia.
    + rewrite L4. destruct D as (_ & _ & _ & _ & D1 & D2). destruct (Clear_frame b ltac:(rewrite D1; exact D2)) as (_ & _ & _ & Ef). rewrite D1 in Ef. exact Ef.
Qed.
Print Assumptions C112_picture.

(** A dot has one value *)
Theorem C112_dot x y l : exists v, dot x y l v /\ forall v', dot x y l v' -> v' = v.
Proof. destruct (dot_total x y l) as (v & H). exists v. split; [exact H|]. intros v' H'. symmetry. eapply dot_unique; eauto. Qed.
Print Assumptions C112_dot.

(** One message on a page changes only its own dots *)
Theorem C112_message b color m x y : page_ok b -> msg_ok m -> vis b x y ->
  (on m x y -> bit (pb8v1_draw b color m) x y = negb (color =? 0)) /\ (~ on m x y -> bit (pb8v1_draw b color m) x y = bit b x y).
Proof. apply draw_bit. Qed.
Print Assumptions C112_message.

(** A display of more than 248 rows: the row number wraps round and the loop never ends *)
Lemma endless_next b : page_height (p b) = 8 -> 249 <= total_height (p b) <= 255 -> page_y0 (p b) mod 8 = 0 ->
  let '(b', more) := pb8v1_next b in more = true /\ page_height (p b') = 8 /\ total_height (p b') = total_height (p b) /\ page_y0 (p b') mod 8 = 0.
Proof.
  intros A B C. unfold pb8v1_next, page_Next. rewrite A. assert (E : u8 (page_y0 (p b) + 8) <= 248 /\ u8 (page_y0 (p b) + 8) mod 8 = 0) by (unfold u8; Z.div_mod_to_equations; lia).
  destruct (Z.leb_spec (total_height (p b)) (u8 (page_y0 (p b) + 8))); [lia|]. cbn [pb_Clear p page_height total_height page_y0]. tauto.
Qed.
Lemma draw_p l : forall b, p (fold_left (fun b e => pb8v1_draw b (fst e) (snd e)) l b) = p b.
Proof.
  assert (SP : forall b x y c, p (pb8v1_SetPixel b x y c) = p b) by (intros; unfold pb8v1_SetPixel; repeat (destruct (_ <? _) || destruct (_ <=? _)); reflexivity).
  assert (OL : forall n b x y dx dy q c, p (opt2Loop n b x y dx dy q c) = p b).
  { induction n; intros; cbn [opt2Loop]; [reflexivity|]. destruct (negb (u8 (Z.shiftl q 1) =? 0)); [rewrite IHn|]; destruct (negb (Z.land q 128 =? 0)); auto. }
  induction l as [|[c m] l IH]; intros b; cbn [fold_left]; [reflexivity|]. rewrite IH. cbn [fst snd]. destruct m as [x y|x y dir pat]; cbn [pb8v1_draw]; [apply SP|].
  destruct (pb_Is8PixelVisible b y dir); [|reflexivity]. unfold pb8v1_Set8PixelOpt2. destruct (if dir =? 0 then _ else _). apply OL.
Qed.
Theorem C112_height_refuted b draw fuel : page_height (p b) = 8 -> 249 <= total_height (p b) <= 255 -> picture fuel draw b = None.
Proof.
  intros A B. unfold picture. assert (P1 : page_height (p (pb8v1_first b)) = 8) by exact A. assert (P2 : 249 <= total_height (p (pb8v1_first b)) <= 255) by exact B.
  assert (P3 : page_y0 (p (pb8v1_first b)) mod 8 = 0) by reflexivity. revert P1 P2 P3. generalize (pb8v1_first b) as q. generalize (@nil (Z * list Z)) as log. clear.
  induction fuel as [|n IH]; intros log q P1 P2 P3; cbn [pictureLoop]; [reflexivity|]. set (q' := fold_left _ _ q). unfold dogs102_next.
  pose proof (draw_p (draw (pb_GetPageBox q)) q) as E. fold q' in E. clearbody q'. rewrite <- E in P1, P2, P3. pose proof (endless_next q' P1 P2 P3) as N.
  destruct (pb8v1_next q') as [q'' more]. destruct N as (-> & N1 & N2 & N3). apply IH; auto; rewrite ?N2; auto.
Qed.
Print Assumptions C112_height_refuted.

(** The DOGS102 display: a pixel, eight pixels downwards over a page border, white over black, with something left in the buffer *)
Example C112_picture_example :
  let b := mkPb (mkPage 8 64 40 47 5) 102 (repeat 0x55 102) in
  let l := [(1, Eight 10 4 1 0xff); (0, Pixel 10 6); (1, Eight 254 20 0 0xf0)] in
  display_ok 102 64 b /\ (forall c : box, page_of 102 64 c -> Forall (fun e => msg_ok (snd e)) l) /\ (forall c, page_of 102 64 c -> same_dots c l l)
  /\ pages 64 = 8%nat
  /\ (exists log, option_map snd (picture 8 (fun _ => l) b) = Some log
      /\ map (fun y => shown log 10 y) [3; 4; 5; 6; 7; 8; 11; 12] = map Some [false; true; true; false; true; true; true; false]
      /\ map (fun x => shown log x 20) [0; 1; 2; 101] = map Some [true; true; false; false]).
Proof.
  split; [unfold display_ok; cbn [p page_height total_height width buf]; rewrite repeat_length; lia|].
  split; [intros _ _; repeat constructor; unfold is_byte; cbn; lia|]. split; [unfold same_dots; tauto|]. split; [reflexivity|].
  eexists. split; [vm_compute; reflexivity|]. split; vm_compute; reflexivity.
Qed.
(** Pages may be drawn differently: here nothing is drawn where nothing is to be seen *)
Example C112_page_example : let l := [(1, Pixel 3 9)] in let draw c := if (y0 c <=? 9) && (9 <=? y1 c) then l else [] in
  (forall c, page_of 102 64 c -> same_dots c (draw c) l) /\ draw (mkBox 0 0 101 7) = [].
Proof.
  split; [|reflexivity]. cbn zeta. intros c _ x y v I. unfold inside in I. destruct (Z.leb_spec (y0 c) 9), (Z.leb_spec 9 (y1 c)); cbn [andb]; try tauto.
  all: assert (N : ~ on (Pixel 3 9) x y) by (cbn [on]; lia).
  all: split; intros D.
  all: try (apply (dot_off x y [] 1 (Pixel 3 9)); auto).
  all: destruct (dot_total x y []) as (v0 & D0); pose proof (dot_off x y [] 1 (Pixel 3 9) v0 D0 N) as D1; cbn [app] in D1; pose proof (dot_unique _ _ _ _ D _ D1); subst; exact D0.
Qed.
Example C112_message_example : let b := mkPb (mkPage 8 64 8 15 1) 102 (repeat 0 102) in
  page_ok b /\ msg_ok (Eight 5 4 1 0xff) /\ vis b 5 11 /\ on (Eight 5 4 1 0xff) 5 11 /\ ~ on (Eight 5 4 1 0xff) 5 12 /\ vis b 5 12.
Proof.
  unfold page_ok, vis, is_byte. cbn [p page_y0 page_y1 width buf msg_ok on]. rewrite repeat_length. unfold is_byte. repeat split; try lia.
  - exists 7. repeat split; lia.
  - intros (k & K & _ & _ & E). cbn [stepY] in E. rewrite Z.mod_small in E by lia. lia.
Qed.
Example C112_height_example : let b := mkPb (mkPage 8 250 0 7 0) 100 (repeat 0 100) in page_height (p b) = 8 /\ 249 <= total_height (p b) <= 255.
Proof. cbn. lia. Qed.
