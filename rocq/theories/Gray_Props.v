(** C138: pages of grey levels *)
From Verif Require Import Gray_Proofs.

Lemma Clear_gray b : gray_page_ok b -> same_page b (pb_Clear b) /\ forall X Y, in_page b X Y -> gray (pb_Clear b) X Y = 0.
Proof.
  intros (P1 & P2 & P3 & P4 & P5 & P6). destruct (Clear_frame b P5) as (A & B & C & D). split.
  - repeat split; auto. intros F. unfold pb_Clear. cbn [buf]. apply Forall_app. split; [apply Forall_forall; intros z I; apply repeat_spec in I; subst; unfold is_byte; lia|].
    rewrite <- (firstn_skipn (Z.to_nat (width b)) (buf b)) in F. apply Forall_app in F. tauto.
  - intros X Y [VX VY]. unfold gray, pb_Clear. cbn [p buf]. unfold rd. rewrite app_nth1 by (rewrite repeat_length; lia). rewrite nth_repeat. rewrite Z.div_0_l by (apply Z.pow_nonzero; lia). reflexivity.
Qed.

(** Every dot of a page has the colour, modulo 4, of the last shape drawn over it, and 0 where none was; neither the other rows of the byte nor the memory behind the page are changed *)
Theorem C138_page b l : gray_page_ok b -> Forall (fun e => msg_ok (snd e)) l ->
  let b' := fold_left (fun b e => pb8v2_draw b (fst e) (snd e)) l (pb_Clear b) in
  (forall x y, in_page b x y -> level x y l (gray b' x y)) /\ p b' = p b /\ width b' = width b /\ length (buf b') = length (buf b) /\ Forall is_byte (buf b')
  /\ skipn (Z.to_nat (width b)) (buf b') = skipn (Z.to_nat (width b)) (buf b).
Proof.
  intros P F b'. destruct (Clear_gray b P) as [S Z0]. pose proof (gray_ok_same _ _ S P) as P'. destruct (gray_all l (pb_Clear b) [] P' F) as [S2 K].
  - intros X Y V. rewrite Z0; [constructor|]. destruct S as (A & B & _). unfold in_page in *. rewrite A, B in V. exact V.
  - fold b' in S2, K. destruct (same_page_trans _ _ _ S S2) as (A & B & C & D & E). split; [intros x y V; apply K; eapply in_page_same; eassumption|]. destruct P as (_ & _ & _ & _ & _ & P6). auto 10.
Qed.
Print Assumptions C138_page.

(** Drawing on: what is there is kept but for the dots drawn *)
Theorem C138_draw b c m : gray_page_ok b -> msg_ok m -> forall x y, in_page b x y ->
  (on m x y -> gray (pb8v2_draw b c m) x y = c mod 4) /\ (~ on m x y -> gray (pb8v2_draw b c m) x y = gray b x y).
Proof. intros P M x y V. apply gray_draw; assumption. Qed.
Print Assumptions C138_draw.

(** The first page is empty and has the rows 0 to 3, whatever page was there before *)
Theorem C138_first b h : page_height (p b) = 4 -> total_height (p b) = h -> 1 <= width b <= 255 -> (Z.to_nat (width b) <= length (buf b))%nat -> Forall is_byte (buf b) ->
  let b' := pb8v2_first b in gray_page_ok b' /\ page_y0 (p b') = 0 /\ page_y1 (p b') = 3 /\ page_height (p b') = 4 /\ total_height (p b') = h /\ width b' = width b /\ forall x y, in_page b' x y -> gray b' x y = 0.
Proof.
  intros H4 HT W L F b'. set (b0 := mkPb (page_First (p b)) (width b) (buf b)). assert (P : gray_page_ok b0) by (unfold gray_page_ok, b0, page_First; cbn [p width buf page_y0 page_y1]; rewrite H4; change (u8 (4 - 1)) with 3; repeat split; auto; lia).
  assert (E : b' = pb_Clear b0) by reflexivity. destruct (Clear_gray b0 P) as [S Z0]. pose proof (gray_ok_same _ _ S P) as P'. rewrite E. destruct S as (A & B & _). rewrite A, B. change (p b0) with (page_First (p b)). change (width b0) with (width b). cbn [p width page_First page_y0 page_y1 page_height total_height]. rewrite H4.
  split; [exact P'|]. do 5 (split; [first [reflexivity|exact HT]|]). intros x y V. apply Z0. unfold in_page in *. rewrite A, B in V. exact V.
Qed.
Print Assumptions C138_first.

(** Each next page is empty and has the four rows that follow, the last one no more than the display has; after the last row no page is left *)
Theorem C138_next b h : gray_page_ok b -> page_height (p b) = 4 -> total_height (p b) = h -> h <= 252 -> page_y1 (p b) = page_y0 (p b) + 3 -> page_y0 (p b) < h ->
  let '(b', more) := pb8v2_next b in more = (page_y0 (p b) + 4 <? h)
  /\ (more = true -> gray_page_ok b' /\ page_y0 (p b') = page_y0 (p b) + 4 /\ page_y1 (p b') = Z.min (page_y0 (p b) + 7) (h - 1) /\ page_height (p b') = 4 /\ total_height (p b') = h
                     /\ width b' = width b /\ forall x y, in_page b' x y -> gray b' x y = 0).
Proof.
  intros P H4 HT H252 Y1 Y0. unfold pb8v2_next, page_Next. pose proof P as (P1 & P2 & P3 & P4 & P5 & P6). rewrite H4, HT, Y1. rewrite (u8_small (page_y0 (p b) + 4)) by lia.
  destruct (Z.leb_spec h (page_y0 (p b) + 4)) as [L|L]; [split; [symmetry; apply Z.ltb_ge; lia|discriminate]|]. rewrite (u8_small (page_y0 (p b) + 3 + 4)) by lia.
  match goal with |- context [mkPb ?q (width b) (buf b)] => set (b0 := mkPb q (width b) (buf b)) end.
  assert (Q : page_y0 (p b0) = page_y0 (p b) + 4 /\ page_y1 (p b0) = Z.min (page_y0 (p b) + 7) (h - 1) /\ page_height (p b0) = 4 /\ total_height (p b0) = h /\ width b0 = width b /\ buf b0 = buf b).
  { unfold b0. cbn [p width buf page_y0 page_y1 page_height total_height]. repeat split. rewrite ?(u8_small (h - 1)) by lia. match goal with |- context [Z.leb ?a ?c] => destruct (Z.leb_spec a c); lia | |- context [Z.ltb ?a ?c] => destruct (Z.ltb_spec a c); lia end. }
  destruct Q as (Q1 & Q2 & Q3 & Q4 & Q5 & Q6). assert (P0 : gray_page_ok b0) by (unfold gray_page_ok; rewrite Q1, Q2, Q5, Q6; repeat split; auto; lia).
  destruct (Clear_gray b0 P0) as [S Z0]. pose proof (gray_ok_same _ _ S P0) as P'. destruct S as (A & B & _). split; [symmetry; apply Z.ltb_lt; lia|]. intros _. rewrite A, B.
  split; [exact P'|]. do 5 (split; [assumption|]). intros x y V. apply Z0. unfold in_page in *. rewrite A, B in V. exact V.
Qed.
Print Assumptions C138_next.

(** ** Examples *)
(** Rows 4 to 7 of a display of ten columns; two shapes that cross *)
Definition gpage := mkPb (mkPage 4 10 4 7 1) 10 (repeat 0xAB 12).
Definition shapes := [(3, Eight 2 5 0 0xF0); (6, Eight 4 3 1 0xFC); (1, Pixel 9 7); (2, Pixel 9 8)].
Example C138_page_example : gray_page_ok gpage /\ Forall (fun e => msg_ok (snd e)) shapes
  /\ (let b' := fold_left (fun b e => pb8v2_draw b (fst e) (snd e)) shapes (pb_Clear gpage) in buf b' = [0; 0; 12; 12; 0xAA; 12; 0; 0; 0; 64; 0xAB; 0xAB] /\ gray b' 4 5 = 2 /\ gray b' 3 5 = 3 /\ gray b' 9 7 = 1 /\ gray b' 3 4 = 0).
Proof.
  split; [unfold gray_page_ok, gpage; cbn [p width buf page_y0 page_y1]; repeat split; try lia; [rewrite repeat_length; vm_compute; lia|apply Forall_forall; intros z I; apply repeat_spec in I; subst; unfold is_byte; lia]|].
  split; [unfold shapes; repeat (apply Forall_cons; [cbn; unfold is_byte; lia|]); constructor|]. vm_compute. repeat split.
Qed.
Example C138_first_example : page_height (p gpage) = 4 /\ total_height (p gpage) = 10 /\ page_y0 (p (pb8v2_first gpage)) = 0 /\ Forall is_byte (buf gpage).
Proof. repeat split. apply Forall_forall. intros z I. apply repeat_spec in I. subst. unfold is_byte. lia. Qed.
Example C138_next_example : page_y1 (p gpage) = page_y0 (p gpage) + 3 /\ page_y0 (p gpage) < 10 /\ snd (pb8v2_next gpage) = true /\ page_y1 (p (fst (pb8v2_next gpage))) = 9.
Proof. repeat split. Qed.
Example C138_draw_example : on (Eight 2 5 0 0xF0) 3 5 /\ ~ on (Eight 2 5 0 0xF0) 6 5 /\ in_page gpage 3 5.
Proof.
  split; [exists 1; repeat split; try lia|]. split; [|unfold in_page, gpage; cbn; lia]. intros (k & K & T & E & _). cbn [stepX] in E. rewrite Z.mod_small in E by lia. assert (k = 4) by lia. subst k. discriminate T.
Qed.
