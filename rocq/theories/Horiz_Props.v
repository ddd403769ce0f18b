(** C139: pages with eight dots of a row in each byte *)
From Verif Require Import Horiz_Proofs.

(** Every dot of a page is as the last shape drawn over it says, and off where none was; neither other dots nor the memory behind the page are changed. For widths of whole bytes *)
Theorem C139_page_partial b l : hpage_ok b -> Forall (fun e => msg_ok (snd e)) l ->
  let b' := fold_left (fun b e => pb8h1_draw b (fst e) (snd e)) l (pb_Clear b) in
  (forall x y, in_rows b x y -> dot x y l (hbit b' x y)) /\ p b' = p b /\ width b' = width b /\ length (buf b') = length (buf b)
  /\ skipn (Z.to_nat (width b)) (buf b') = skipn (Z.to_nat (width b)) (buf b).
Proof.
  intros P F b'. pose proof P as [(P1 & P2 & P3 & P4 & P5 & P6) W]. pose proof (Clear_frame b P6) as S. destruct (hdraw_all l (pb_Clear b) []) as [S2 K]; [eapply hpage_ok_frame; eassumption|exact F| |].
  - intros X Y V. assert (V0 : in_rows b X Y) by (destruct S as (A & B & _); unfold in_rows in *; rewrite A, B in V; exact V). destruct V0 as [V1 V2].
    assert (W8 : width b = 8 * (width b / 8)) by (apply Z.div_exact; lia). pose proof (addr (width b / 8) (Y - page_y0 (p b)) X ltac:(lia) ltac:(lia)) as A.
    unfold hbit, pb_Clear. cbn [p width buf]. unfold rd. rewrite app_nth1 by (rewrite repeat_length; lia). rewrite nth_repeat, Z.testbit_0_l. constructor.
  - destruct (same_frame_trans _ _ _ S S2) as (A & B & C & D). split; [intros x y V; apply K; eapply in_rows_frame; eassumption|]. auto.
Qed.
Print Assumptions C139_page_partial.

(** Drawing on: what is there is kept but for the dots drawn. For widths of whole bytes *)
Theorem C139_draw_partial b c m : hpage_ok b -> msg_ok m -> forall x y, in_rows b x y ->
  (on m x y -> hbit (pb8h1_draw b c m) x y = negb (c =? 0)) /\ (~ on m x y -> hbit (pb8h1_draw b c m) x y = hbit b x y).
Proof. intros P M x y V. apply hdraw_bit; assumption. Qed.
Print Assumptions C139_draw_partial.

(** Any width, also one that is not of whole bytes: no shape changes the memory behind the buffer *)
Theorem C139_behind b l : page_ok b -> Forall (fun e => msg_ok (snd e)) l ->
  let b' := fold_left (fun b e => pb8h1_draw b (fst e) (snd e)) l b in p b' = p b /\ width b' = width b /\ length (buf b') = length (buf b) /\ skipn (Z.to_nat (width b)) (buf b') = skipn (Z.to_nat (width b)) (buf b).
Proof.
  intros P0 F0. change (same_frame b (fold_left (fun b e => pb8h1_draw b (fst e) (snd e)) l b)). assert (R : forall b, same_frame b b) by (unfold same_frame; auto).
  assert (SP : forall b x y c, page_ok b -> is_byte x -> same_frame b (pb8h1_SetPixel b x y c)).
  { clear. intros b x y c (P1 & P2 & P3 & P4 & P5 & P6) X. unfold is_byte in X. unfold pb8h1_SetPixel. destruct (Z.ltb_spec y (page_y0 (p b))); [unfold same_frame; auto|]. destruct (Z.ltb_spec (page_y1 (p b)) y); [unfold same_frame; auto|].
    destruct (Z.leb_spec (width b) x); [unfold same_frame; auto|]. unfold pb8h1_set_pixel, same_frame. cbn [p width buf]. rewrite wr_length. rewrite (u8_small (y - _)) by lia. rewrite !Z.shiftr_div_pow2 with (n := 3) by lia. change (2 ^ 3) with 8.
    assert (A : 0 <= width b / 8 * (y - page_y0 (p b)) <= width b / 8 * 7) by (assert (0 <= width b / 8) by (apply Z.div_pos; lia); nia). assert (W : width b / 8 <= 31) by (Z.div_mod_to_equations; lia). rewrite u8_small by lia.
    rewrite skipn_wr; [auto|]. assert (Q : width b / 8 * 7 + x / 8 < width b) by (clear - H1 X P5; Z.div_mod_to_equations; lia). assert (0 <= x / 8) by (apply Z.div_pos; lia). lia. }
  assert (HL : forall n b x y dx dy pat c, page_ok b -> is_byte x -> same_frame b (hLoop n b x y dx dy pat c)).
  { induction n as [|n IHn]; intros b0 x y dx dy pat c0 P X; cbn [hLoop]; [apply R|]. assert (Q : same_frame b0 (if negb (Z.land pat 128 =? 0) then pb8h1_SetPixel b0 x y c0 else b0)) by (destruct (negb _); auto).
    destruct (negb (u8 _ =? 0)); [|exact Q]. eapply same_frame_trans; [exact Q|]. apply IHn; [eapply page_ok_frame; eassumption|apply u8_range]. }
  revert b P0. induction l as [|[c m] l IH]; intros b P; cbn [fold_left fst snd]; [apply R|]. inversion F0 as [|? ? M F']; subst. cbn [snd] in M.
  assert (Q : same_frame b (pb8h1_draw b c m)).
  { destruct m as [x y|x y dir pat]; cbn [pb8h1_draw msg_ok] in *; [apply SP; tauto|]. destruct (pb_Is8PixelVisible b y dir); [|apply R]. unfold pb8h1_Set8PixelOpt2. destruct (if dir =? 0 then _ else _) as [dx dy]. apply HL; tauto. }
  eapply same_frame_trans; [exact Q|]. apply IH; [exact F'|eapply page_ok_frame; eassumption].
Qed.
Print Assumptions C139_behind.

(** ** Examples *)
(** Rows 8 to 15 of a display of 16 columns *)
Definition hpage := mkPb (mkPage 8 20 8 15 1) 16 (repeat 0x5A 17).
Definition shapes := [(1, Eight 5 9 0 0xF1); (1, Eight 7 8 1 0xC0); (0, Pixel 6 9); (1, Pixel 16 9)].
Example C139_page_example : hpage_ok hpage /\ Forall (fun e => msg_ok (snd e)) shapes
  /\ (let b' := fold_left (fun b e => pb8h1_draw b (fst e) (snd e)) shapes (pb_Clear hpage) in buf b' = [1; 0; 5; 0x88] ++ repeat 0 12 ++ [0x5A] /\ hbit b' 5 9 = true /\ hbit b' 6 9 = false /\ hbit b' 12 9 = true).
Proof.
  split; [split; [|reflexivity]; unfold page_ok, hpage; cbn [p width buf page_y0 page_y1]; rewrite repeat_length; repeat split; try lia; vm_compute; lia|].
  split; [unfold shapes; repeat (apply Forall_cons; [cbn; unfold is_byte; lia|]); constructor|]. vm_compute. repeat split.
Qed.
Example C139_draw_example : on (Eight 5 9 0 0xF1) 12 9 /\ in_rows hpage 12 9.
Proof. split; [exists 7; repeat split; lia|unfold in_rows, hpage; cbn; lia]. Qed.
Example C139_behind_example : let b := mkPb (mkPage 8 16 0 7 0) 12 (repeat 0 13) in page_ok b /\ buf (pb8h1_draw b 1 (Pixel 11 7)) = repeat 0 8 ++ [0x10] ++ repeat 0 4.
Proof. cbn zeta. split; [vm_compute; repeat split; try discriminate; lia|reflexivity]. Qed.

(** A width that is not a multiple of 8: the columns behind the last whole byte are those of the next row. A display of 12 columns: the dots 8, 0 and 0, 1 are one *)
Theorem C139_width_refuted : let b := pb_Clear (mkPb (mkPage 8 16 0 7 0) 12 (repeat 0 12)) in
  page_ok b /\ pb8h1_draw b 1 (Pixel 8 0) = pb8h1_draw b 1 (Pixel 0 1) /\ in_rows b 8 0 /\ in_rows b 0 1 /\ buf (pb8h1_draw b 1 (Pixel 8 0)) <> buf b.
Proof.
  cbn zeta. split; [vm_compute; repeat split; try discriminate; lia|]. split; [reflexivity|]. split; [unfold in_rows; cbn; lia|]. split; [unfold in_rows; cbn; lia|]. vm_compute. discriminate.
Qed.
Print Assumptions C139_width_refuted.
