(** C132: text in four directions *)
From Verif Require Import FontDir_Proofs U8gPaint_Proofs U8g_Props Font_Props.

(** In every page exactly the dots of the text turned round its pen are drawn, in all four directions; the value returned is the width of the text. Other directions draw nothing *)
Theorem C132_turned fmt F font c vref px py dir s : is_font fmt F font -> box_ok c -> Forall is_byte s ->
  (0 <= dir <= 3 -> exists l, DrawStrDir c font vref px py dir s = Some (l, advance F s mod 256) /\ draws c l (turned_text F s dir vref px py) /\ GetStrWidth font s = Some (advance F s mod 256))
  /\ (dir < 0 \/ 3 < dir -> DrawStrDir c font vref px py dir s = Some ([], 0)).
Proof.
  intros IF C FS. unfold DrawStrDir. split.
  2:{ intros N. destruct (Z.eqb_spec dir 0), (Z.eqb_spec dir 1), (Z.eqb_spec dir 2), (Z.eqb_spec dir 3); try lia. reflexivity. }
  intros D. assert (T : match s with [] => 0 | _ => u8 (0 + advance F s) end = advance F s mod 256) by (destruct s; reflexivity).
  assert (GW : GetStrWidth font s = Some (advance F s mod 256)) by (unfold GetStrWidth; rewrite (widthLoop_spec fmt F font IF s 0 FS), T; reflexivity).
  assert (Q : dir = 0 \/ dir = 1 \/ dir = 2 \/ dir = 3) by lia. destruct Q as [-> |[-> |[-> | ->]]].
  - change (0 =? 0) with true. cbv match. destruct (C131_text fmt F font c vref px py s IF C FS) as (l & E & D1 & _). exists l. split; [exact E|]. split; [|exact GW]. eapply draws_ext; [|exact D1].
    intros x y. unfold turned_text. cbn [unturned]. apply text_dots_eq; f_equal; lia.
  - change (1 =? 0) with false. change (1 =? 1) with true. cbv match. unfold DrawStr90. destruct (str90_spec fmt F font c IF C s (u8 (px - vref)) py 0 FS) as (l & E & D1). rewrite E, T. exists l. split; [reflexivity|]. split; [|exact GW].
    eapply draws_ext; [|exact D1]. intros x y. unfold turned_text. cbn [unturned]. apply text_dots_eq; unfold u8; Z.div_mod_to_equations; lia.
  - change (2 =? 0) with false. change (2 =? 1) with false. change (2 =? 2) with true. cbv match. unfold DrawStr180. destruct (str180_spec fmt F font c IF C s px (u8 (py - vref)) 0 FS) as (l & E & D1). rewrite E, T. exists l. split; [reflexivity|]. split; [|exact GW].
    eapply draws_ext; [|exact D1]. intros x y. unfold turned_text. cbn [unturned]. apply text_dots_eq; unfold u8; Z.div_mod_to_equations; lia.
  - change (3 =? 0) with false. change (3 =? 1) with false. change (3 =? 2) with false. change (3 =? 3) with true. cbv match. unfold DrawStr270. destruct (str270_spec fmt F font c IF C s (u8 (px + vref)) py 0 FS) as (l & E & D1). rewrite E, T. exists l. split; [reflexivity|]. split; [|exact GW].
    eapply draws_ext; [|exact D1]. intros x y. unfold turned_text. cbn [unturned]. apply text_dots_eq; unfold u8; Z.div_mod_to_equations; lia.
Qed.
Print Assumptions C132_turned.

(** Drawn in the picture loop, the display shows the turned text and no other dots *)
Theorem C132_shown fmt F font w h b vref px py dir s : is_font fmt F font -> Forall is_byte s -> display_ok w h b -> 0 <= dir <= 3 ->
  forall n, (pages h <= n)%nat -> exists b' log,
    picture n (fun c => match DrawStrDir c font vref px py dir s with Some (l, _) => map (pair 1) l | None => [] end) b = Some (b', log)
    /\ forall x y, 0 <= x < w -> 0 <= y < h -> exists v, shown log x y = Some v /\ (v = true <-> turned_text F s dir vref px py x y).
Proof.
  intros IF FS D DI n Hn. pose proof D as (W & H & _). set (draw := fun c => match DrawStrDir c font vref px py dir s with Some (l, _) => map (pair 1) l | None => [] end).
  set (full := mkBox 0 0 255 255). assert (FO : box_ok full) by (unfold box_ok, full; cbn; lia).
  assert (PO : forall c, page_of w h c -> box_ok c) by (intros c (k & K1 & K2 & K3 & K4 & K5 & K6); unfold box_ok; lia).
  assert (TX : forall c, box_ok c -> exists l, DrawStrDir c font vref px py dir s = Some (l, advance F s mod 256) /\ draws c l (turned_text F s dir vref px py)).
  { intros c C. destruct (C132_turned fmt F font c vref px py dir s IF C FS) as [Q _]. destruct (Q DI) as (l & E & K & _). exists l. auto. }
  assert (ONE : forall c x y, box_ok c -> inside c x y -> exists v, dot x y (draw c) v /\ (v = true <-> turned_text F s dir vref px py x y)).
  { intros c x y C I. destruct (TX c C) as (l & E & [M K]). unfold draw. rewrite E. specialize (K x y I).
    destruct (dot_block x y 1 l [] false (dot_none x y)) as [A B]. cbn [app] in A, B. destruct (covers_dec l x y) as [Y|N].
    - exists true. split; [apply A; exact Y|]. tauto.
    - exists false. split; [apply B; exact N|]. split; [discriminate|]. intros Q. exfalso. apply N, K, Q. }
  assert (FI : forall c x y, box_ok c -> inside c x y -> inside full x y) by (intros c x y C I; unfold inside, full, box_ok in *; cbn; lia).
  destruct (C112_picture w h b draw (draw full) D) with (fuel := n) as (b' & log & E & _ & _ & K & _); auto.
  - intros c P. destruct (TX c (PO c P)) as (l & E & [M K]). unfold draw. rewrite E. apply Forall_forall. intros e I. apply in_map_iff in I as (m & <- & I).
    cbn [snd]. rewrite Forall_forall in M. auto.
  - intros c P x y v I. pose proof (PO c P) as C. destruct (ONE c x y C I) as (v1 & D1 & T1). destruct (ONE full x y FO (FI c x y C I)) as (v2 & D2 & T2).
    assert (EQ : v1 = v2) by (destruct v1, v2; try reflexivity; [symmetry; apply T2, T1; reflexivity|apply T1, T2; reflexivity]). subst v2.
    split; intros Dv; [rewrite (dot_unique _ _ _ _ Dv _ D1); exact D2|rewrite (dot_unique _ _ _ _ Dv _ D2); exact D1].
  - exists b', log. split; [exact E|]. intros x y X Y. destruct (K x y X Y) as (v & S & Dv). exists v. split; [exact S|].
    destruct (ONE full x y FO) as (v1 & D1 & T1); [unfold inside, full; cbn; lia|]. rewrite (dot_unique _ _ _ _ Dv _ D1). exact T1.
Qed.
Print Assumptions C132_shown.

(** "AB" downwards, on the head, upwards *)
Example C132_turned_example : is_font 1 face1 file1 /\ box_ok (mkBox 0 0 101 63) /\ Forall is_byte [65; 66]
  /\ DrawStrDir (mkBox 0 0 101 63) file1 0 50 30 1 [65; 66] = Some ([Eight 52 30 1 0x88; Eight 51 30 1 0xF8; Eight 50 37 1 0x80; Eight 50 45 1 0x80], 16)
  /\ DrawStrDir (mkBox 0 0 101 63) file1 0 50 30 2 [65; 66] = Some ([Eight 50 32 2 0x88; Eight 50 31 2 0xF8; Eight 43 30 2 0x80; Eight 35 30 2 0x80], 16)
  /\ DrawStrDir (mkBox 0 0 101 63) file1 0 50 30 3 [65; 66] = Some ([Eight 48 30 3 0x88; Eight 49 30 3 0xF8; Eight 50 23 3 0x80; Eight 50 15 3 0x80], 16)
  /\ turned_text face1 [65; 66] 1 0 50 30 50 45 /\ turned_text face1 [65; 66] 3 0 50 30 50 15.
Proof.
  split; [exact file1_ok|]. split; [unfold box_ok; cbn; lia|]. split; [repeat constructor; lia|]. split; [reflexivity|]. split; [reflexivity|]. split; [reflexivity|].
  split; unfold turned_text; cbn [unturned]; exists [65], 66, [], glyphB; (split; [reflexivity|]); (split; [reflexivity|]); vm_compute; repeat split.
Qed.
Example C132_shown_example : display_ok 102 64 (mkPb (mkPage 8 64 0 7 0) 102 (repeat 0 102)) /\ is_font 0 face0 file0 /\ turned_text face0 [65] 2 3 20 20 21 18.
Proof.
  split; [apply C131_shown_example|]. split; [exact file0_ok|]. unfold turned_text. cbn [unturned]. exists [], 65, [], (mkGlyph 8 5 2 (-1) 0 [0x88; 0xF8]). split; [reflexivity|]. split; [reflexivity|]. vm_compute. repeat split.
Qed.
