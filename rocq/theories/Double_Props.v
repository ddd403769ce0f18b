(** C140: pages of sixteen rows *)
From Verif Require Import Double_Proofs.

Lemma DClear b : dpage_ok b -> same_double b (pb16v1_Clear b) /\ forall X Y, in_double b X Y -> dbit (pb16v1_Clear b) X Y = false.
Proof.
  intros (P1 & P2 & P3 & P4 & P5 & P6). unfold pb16v1_Clear. replace (Z.to_nat (width b * 2)) with (2 * Z.to_nat (width b))%nat by lia. set (n := (2 * Z.to_nat (width b))%nat) in *. split.
  - unfold same_double. cbn [p width buf]. fold n. repeat split; [rewrite app_length, repeat_length, skipn_length; lia|].
    rewrite skipn_app, repeat_length, Nat.sub_diag, skipn_all2 by (rewrite repeat_length; lia). reflexivity.
  - intros X Y [V1 V2]. unfold dbit. cbn [p width buf]. cbn zeta. set (r := Y - page_y0 (p b)). unfold rd. rewrite app_nth1; [rewrite nth_repeat; apply Z.testbit_0_l|]. rewrite repeat_length. unfold n. destruct (half r) as [(A & B & C)|(A & B & C)]; [unfold r; lia| |]; rewrite B; lia.
Qed.

(** Every dot of a page is as the last shape drawn over it says, and off where none was; neither other dots nor the memory behind the page are changed *)
Theorem C140_page b l : dpage_ok b -> Forall (fun e => msg_ok (snd e)) l ->
  let b' := fold_left (fun b e => pb16v1_draw b (fst e) (snd e)) l (pb16v1_Clear b) in
  (forall x y, in_double b x y -> dot x y l (dbit b' x y)) /\ p b' = p b /\ width b' = width b /\ length (buf b') = length (buf b)
  /\ skipn (2 * Z.to_nat (width b)) (buf b') = skipn (2 * Z.to_nat (width b)) (buf b).
Proof.
  intros P F b'. destruct (DClear b P) as [S Z0]. destruct (ddraw_all l (pb16v1_Clear b) []) as [S2 K]; [eapply dpage_ok_frame; eassumption|exact F| |].
  - intros X Y V. rewrite Z0; [constructor|]. destruct S as (A & B & _). unfold in_double in *. rewrite A, B in V. exact V.
  - destruct (same_double_trans _ _ _ S S2) as (A & B & C & D). split; [intros x y V; apply K; eapply in_double_frame; eassumption|]. auto.
Qed.
Print Assumptions C140_page.

(** Drawing on: what is there is kept but for the dots drawn *)
Theorem C140_draw b c m : dpage_ok b -> msg_ok m -> forall x y, in_double b x y ->
  (on m x y -> dbit (pb16v1_draw b c m) x y = negb (c =? 0)) /\ (~ on m x y -> dbit (pb16v1_draw b c m) x y = dbit b x y).
Proof. intros P M x y V. apply ddraw_bit; assumption. Qed.
Print Assumptions C140_draw.

(** The first page is empty and has the rows 0 to 15, whatever page was there before *)
Theorem C140_first b h : page_height (p b) = 16 -> total_height (p b) = h -> 1 <= width b <= 255 -> (2 * Z.to_nat (width b) <= length (buf b))%nat ->
  let b' := pb16v1_first b in dpage_ok b' /\ page_y0 (p b') = 0 /\ page_y1 (p b') = 15 /\ page_height (p b') = 16 /\ total_height (p b') = h /\ width b' = width b /\ forall x y, in_double b' x y -> dbit b' x y = false.
Proof.
  intros H4 HT W L b'. set (b0 := mkPb (page_First (p b)) (width b) (buf b)). assert (P : dpage_ok b0) by (unfold dpage_ok, b0, page_First; cbn [p width buf page_y0 page_y1]; rewrite H4; change (u8 (16 - 1)) with 15; repeat split; auto; lia).
  assert (E : b' = pb16v1_Clear b0) by reflexivity. destruct (DClear b0 P) as [S Z0]. pose proof (dpage_ok_frame _ _ S P) as P'. rewrite E. destruct S as (A & B & _). rewrite A, B. change (p b0) with (page_First (p b)). change (width b0) with (width b).
  cbn [p width page_First page_y0 page_y1 page_height total_height]. rewrite H4. split; [exact P'|]. do 5 (split; [first [reflexivity|exact HT]|]). intros x y V. apply Z0. unfold in_double in *. rewrite A, B in V. exact V.
Qed.
Print Assumptions C140_first.

(** Each next page is empty and has the sixteen rows that follow, the last one no more than the display has; after the last row no page is left *)
Theorem C140_next b h : dpage_ok b -> page_height (p b) = 16 -> total_height (p b) = h -> h <= 240 -> page_y1 (p b) = page_y0 (p b) + 15 -> page_y0 (p b) < h ->
  let '(b', more) := pb16v1_next b in more = (page_y0 (p b) + 16 <? h)
  /\ (more = true -> dpage_ok b' /\ page_y0 (p b') = page_y0 (p b) + 16 /\ page_y1 (p b') = Z.min (page_y0 (p b) + 31) (h - 1) /\ page_height (p b') = 16 /\ total_height (p b') = h
                     /\ width b' = width b /\ forall x y, in_double b' x y -> dbit b' x y = false).
Proof.
  intros P H4 HT H240 Y1 Y0. unfold pb16v1_next, page_Next. pose proof P as (P1 & P2 & P3 & P4 & P5 & P6). rewrite H4, HT, Y1. rewrite (u8_small (page_y0 (p b) + 16)) by lia.
  destruct (Z.leb_spec h (page_y0 (p b) + 16)) as [L|L]; [split; [symmetry; apply Z.ltb_ge; lia|discriminate]|]. rewrite (u8_small (page_y0 (p b) + 15 + 16)) by lia.
  match goal with |- context [mkPb ?q (width b) (buf b)] => set (b0 := mkPb q (width b) (buf b)) end.
  assert (Q : page_y0 (p b0) = page_y0 (p b) + 16 /\ page_y1 (p b0) = Z.min (page_y0 (p b) + 31) (h - 1) /\ page_height (p b0) = 16 /\ total_height (p b0) = h /\ width b0 = width b /\ buf b0 = buf b).
  { unfold b0. cbn [p width buf page_y0 page_y1 page_height total_height]. repeat split. rewrite ?(u8_small (h - 1)) by lia. match goal with |- context [Z.leb ?a ?c] => destruct (Z.leb_spec a c); lia end. }
  destruct Q as (Q1 & Q2 & Q3 & Q4 & Q5 & Q6). assert (P0 : dpage_ok b0) by (unfold dpage_ok; rewrite Q1, Q2, Q5, Q6; repeat split; auto; lia).
  destruct (DClear b0 P0) as [S Z0]. pose proof (dpage_ok_frame _ _ S P0) as P'. destruct S as (A & B & _). split; [symmetry; apply Z.ltb_lt; lia|]. intros _. rewrite A, B.
  split; [exact P'|]. do 5 (split; [assumption|]). intros x y V. apply Z0. unfold in_double in *. rewrite A, B in V. exact V.
Qed.
Print Assumptions C140_next.

(** ** Examples *)
(** Rows 16 to 31 of a display of five columns; a line down across the middle of the page *)
Definition dpage := mkPb (mkPage 16 40 16 31 1) 5 (repeat 0x5A 11).
Definition shapes := [(1, Eight 2 21 1 0xFF); (0, Pixel 2 25); (1, Pixel 4 31); (1, Pixel 4 32)].
Example C140_page_example : dpage_ok dpage /\ Forall (fun e => msg_ok (snd e)) shapes
  /\ (let b' := fold_left (fun b e => pb16v1_draw b (fst e) (snd e)) shapes (pb16v1_Clear dpage) in buf b' = [0; 0; 0xE0; 0; 0; 0; 0; 0x1D; 0; 0x80; 0x5A] /\ dbit b' 2 21 = true /\ dbit b' 2 25 = false /\ dbit b' 2 28 = true).
Proof.
  split; [unfold dpage_ok, dpage; cbn [p width buf page_y0 page_y1]; rewrite repeat_length; repeat split; try lia; vm_compute; lia|].
  split; [unfold shapes; repeat (apply Forall_cons; [cbn; unfold is_byte; lia|]); constructor|]. vm_compute. repeat split.
Qed.
Example C140_draw_example : on (Eight 2 21 1 0xFF) 2 28 /\ in_double dpage 2 28.
Proof. split; [exists 7; repeat split; lia|unfold in_double, dpage; cbn; lia]. Qed.
Example C140_first_example : page_height (p dpage) = 16 /\ total_height (p dpage) = 40 /\ page_y0 (p (pb16v1_first dpage)) = 0.
Proof. repeat split. Qed.
Example C140_next_example : page_y1 (p dpage) = page_y0 (p dpage) + 15 /\ page_y0 (p dpage) < 40 /\ snd (pb16v1_next dpage) = true /\ page_y1 (p (fst (pb16v1_next dpage))) = 39.
Proof. repeat split. Qed.
