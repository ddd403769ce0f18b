(** C122: the graphical display EA-DOGS *)
From Verif Require Export Dogs_Proofs.

(** A display with something in row 1, which is on; [past]: what the controller does behind its last column *)
Definition some_ctrl : ctrl := mkCtrl (fun p c => if p =? 1 then c else 0) 77 3 false true false 7 0x10 0 None.
Definition some_lcd : lcd ctrl := mkLcd true true some_ctrl.

(** pos: the next byte goes to (x, y); nothing shown changes *)
Theorem C122_pos past l x y : enabled l = true -> operand (world l) = None -> 0 <= x < 132 -> 0 <= y < 8 ->
  exists l', pos (uc1701 past) l x y = Some l' /\ enabled l' = true /\ at_place (world l') x y /\ pixels (world l') = pixels (world l) /\ settings (world l) (world l').
Proof.
  intros En O X Y. destruct (pos_run past l x y En O) as (k & E & P & S & C). rewrite !Z.mod_small in C by lia. exists (mkLcd false true k). split; [exact E|]. split; [reflexivity|]. split; [exact C|]. split; [exact P|exact S].
Qed.
Print Assumptions C122_pos.
Example C122_pos_example : enabled some_lcd = true /\ operand (world some_lcd) = None /\ match pos (uc1701 131) some_lcd 101 7 with Some l => column (world l) = 101 /\ page (world l) = 7 | None => False end.
Proof. vm_compute. repeat split. Qed.

(** A text that ends before the last column of the controller: its pictures stand side by side from the place on, the rest of the display is as before, the place is behind it;
    characters the font does not have are left out and not counted *)
Theorem C122_text past f l x y chars : good_font f -> enabled l = true -> at_place (world l) x y -> 0 <= x -> 0 <= y < 8 -> x + Z.of_nat (length (shows f chars)) <= 131 ->
  exists l', writeAll (uc1701 past) f l chars = Some (l', Z.of_nat (length (filter (has f) chars))) /\ enabled l' = true /\ painted (pixels (world l)) (pixels (world l')) y x (shows f chars) /\
    settings (world l) (world l') /\ at_place (world l') (x + Z.of_nat (length (shows f chars))) y.
Proof. intros G En Pl X Y L. exact (write_text past f y G Y chars l x En Pl X L). Qed.
Print Assumptions C122_text.
Lemma font_good : good_font font_5x7.
Proof. split; [vm_compute; discriminate|]. split; [vm_compute; reflexivity|]. apply Forall_forall. intros v V. assert (A : forallb (fun v => (0 <=? v) && (v <? 256)) (data font_5x7) = true) by (vm_compute; reflexivity).
  rewrite forallb_forall in A. specialize (A v V). apply andb_true_iff in A. destruct A as [A B]. apply Z.leb_le in A. apply Z.ltb_lt in B. unfold is_byte. lia. Qed.
Example C122_text_example : good_font font_5x7 /\ shows font_5x7 [72; 10; 105] = [0x7F; 0x08; 0x08; 0x08; 0x7F; 0x00; 0x44; 0x7D; 0x40; 0x00] /\
  match writeAll (uc1701 131) font_5x7 some_lcd [72; 10; 105] with Some (l, n) => n = 2 /\ pixels (world l) 3 77 = 0x7F /\ pixels (world l) 3 84 = 0x7D /\ pixels (world l) 1 84 = 84 /\ column (world l) = 87 | None => False end.
Proof. split; [exact font_good|]. vm_compute. repeat split. Qed.

(** One character that also may fill the last column *)
Theorem C122_write past f l x y c : good_font f -> has f c = true -> enabled l = true -> at_place (world l) x y -> 0 <= x <= 131 -> 0 <= y < 8 -> x + Z.of_nat (charWidth f) <= 132 ->
  exists l', write (uc1701 past) f l c = Some (l', 1) /\ enabled l' = true /\ painted (pixels (world l)) (pixels (world l')) y x (picture f c) /\ settings (world l) (world l').
Proof.
  intros G H En [Pc Pp] X Y L. rewrite (write_known _ f l c G H). unfold level. rewrite En.
  destruct (data_run past (picture f c) (picture_bytes f c G) (world l) x y Pc Pp X Y ltac:(rewrite picture_length by auto; lia)) as (k & E & P & St & _ & _). rewrite E.
  exists (mkLcd true true k). split; [reflexivity|]. split; [reflexivity|]. split; [exact P|exact St].
Qed.
Print Assumptions C122_write.
Example C122_write_example : has font_5x7 65 = true /\ charWidth font_5x7 = 5%nat /\ picture font_5x7 65 = [0x7E; 0x11; 0x11; 0x11; 0x7E].
Proof. vm_compute. repeat split. Qed.
(** A character the font does not have: nothing is sent *)
Theorem C122_unknown past f l c : has f c = false -> write (uc1701 past) f l c = Some (l, 0).
Proof. apply write_unknown. Qed.
Print Assumptions C122_unknown.
Example C122_unknown_example : has font_5x7 31 = false /\ has font_5x7 128 = false /\ has font_5x7 127 = true.
Proof. vm_compute. repeat split. Qed.

(** The font: one picture for each character from blank to 127, all different, the lowest row of pixels free *)
Theorem C122_font : good_font font_5x7 /\ (forall c, has font_5x7 c = true <-> 32 <= c <= 127) /\ (forall c d, 32 <= c <= 127 -> 32 <= d <= 127 -> picture font_5x7 c = picture font_5x7 d -> c = d) /\
  (forall c b, In b (picture font_5x7 c) -> 0 <= b < 128) /\ picture font_5x7 32 = [0; 0; 0; 0; 0].
Proof.
  split; [exact font_good|]. split.
  - intros c. unfold has. change (firstChar font_5x7) with 32. change (numChars font_5x7) with 96. rewrite andb_true_iff, Z.leb_le, Z.ltb_lt. lia.
  - split; [|split; [|reflexivity]].
    + set (same := fix same (a b : list Z) := match a, b with [], [] => true | x :: a, y :: b => (x =? y) && same a b | _, _ => false end).
      assert (Same : forall a, same a a = true) by (induction a as [|x a IH]; cbn; [reflexivity|rewrite Z.eqb_refl; exact IH]).
      assert (A : forallb (fun i => forallb (fun j => implb (same (picture font_5x7 (32 + Z.of_nat i)) (picture font_5x7 (32 + Z.of_nat j))) (Nat.eqb i j)) (seq 0 96)) (seq 0 96) = true) by (vm_compute; reflexivity).
      intros c d C D E. rewrite forallb_forall in A. specialize (A (Z.to_nat (c - 32)) ltac:(apply in_seq; lia)). rewrite forallb_forall in A. specialize (A (Z.to_nat (d - 32)) ltac:(apply in_seq; lia)).
      rewrite !Z2Nat.id in A by lia. replace (32 + (c - 32)) with c in A by lia. replace (32 + (d - 32)) with d in A by lia. rewrite E, Same in A. cbn [implb] in A. apply Nat.eqb_eq in A. lia.
    + intros c b B. assert (A : forallb (fun v => (0 <=? v) && (v <? 128)) (data font_5x7) = true) by (vm_compute; reflexivity). rewrite forallb_forall in A.
      assert (I : In b (data font_5x7)). { unfold picture in B. assert (F : forall n (l : list Z) v, In v (firstn n l) -> In v l) by (induction n as [|n IH]; intros [|h t] v; cbn; intuition). assert (K : forall n (l : list Z) v, In v (skipn n l) -> In v l) by (induction n as [|n IH]; intros [|h t] v; cbn; auto). eapply K, F, B. }
      specialize (A b I). apply andb_true_iff in A. destruct A as [A1 A2]. apply Z.leb_le in A1. apply Z.ltb_lt in A2. lia.
Qed.
Print Assumptions C122_font.

(** clear: the 102 columns of all 8 rows are blank, the others are as before, the place is (0, 0) *)
Theorem C122_clear past l : enabled l = true -> operand (world l) = None ->
  exists l', clear (uc1701 past) l = Some l' /\ enabled l' = true /\ settings (world l) (world l') /\ at_place (world l') 0 0 /\
    (forall p c, 0 <= p < 8 -> 0 <= c < 102 -> pixels (world l') p c = 0) /\ (forall p c, ~ (0 <= p < 8 /\ 0 <= c < 102) -> pixels (world l') p c = pixels (world l) p c).
Proof.
  intros En O. unfold clear. destruct (rows_run past DISPLAY_HEIGHT 0 l En O ltac:(unfold DISPLAY_HEIGHT; lia)) as (l1 & E1 & En1 & S1 & P1). rewrite E1.
  assert (O1 : operand (world l1) = None) by (destruct S1 as (_ & _ & _ & _ & _ & _ & A); congruence).
  destruct (pos_run past l1 0 0 En1 O1) as (k & E2 & P2 & S2 & C2). exists (mkLcd false true k). split; [exact E2|]. split; [reflexivity|]. split; [exact (settings_trans _ _ _ S1 S2)|]. split; [exact C2|].
  cbn [world]. rewrite P2. change (Z.of_nat DISPLAY_HEIGHT) with 8 in P1. change (Z.of_nat 0) with 0 in P1. split; intros p c H; rewrite P1.
  - destruct (Z.leb_spec 0 p), (Z.ltb_spec p (0 + 8)), (Z.leb_spec 0 c), (Z.ltb_spec c 102); try lia; reflexivity.
  - destruct (Z.leb_spec 0 p), (Z.ltb_spec p (0 + 8)), (Z.leb_spec 0 c), (Z.ltb_spec c 102); try lia; reflexivity.
Qed.
Print Assumptions C122_clear.
Example C122_clear_example : enabled some_lcd = true /\ operand (world some_lcd) = None /\ pixels (world some_lcd) 1 101 = 101 /\
  match clear (uc1701 131) some_lcd with Some l => pixels (world l) 1 101 = 0 /\ pixels (world l) 1 102 = 102 | None => False end.
Proof. vm_compute. repeat split. Qed.

(** inverse: the display is inverted or not as asked for, and nothing else changes *)
Theorem C122_inverse past l enable : enabled l = true -> operand (world l) = None ->
  exists l', inverse (uc1701 past) l enable = Some l' /\ enabled l' = true /\ world l' = mkCtrl (pixels (world l)) (column (world l)) (page (world l)) enable (shown (world l)) (allOn (world l)) (power (world l)) (contrast (world l)) (firstLine (world l)) None.
Proof. intros En O. unfold inverse, transfer, level. cbn [enabled cd world]. rewrite En. exists (mkLcd false true (command (world l) (if enable then 0xa7 else 0xa6))). split; [destruct enable; reflexivity|]. split; [reflexivity|]. cbn [world]. unfold command. rewrite O. destruct enable; reflexivity. Qed.
Print Assumptions C122_inverse.
Example C122_inverse_example : inverted (world some_lcd) = false /\ match inverse (uc1701 131) some_lcd true with Some l => inverted (world l) = true | None => False end.
Proof. vm_compute. repeat split. Qed.

(** begin, in whatever state the controller is, even in the middle of a command of two bytes: the display is on, not inverted, shows its memory from the first line on, with the power supplies and the contrast set;
    the rows behind the first are as before (not provable: also the first, and the place (0, 0), see below) *)
Theorem C122_begin_partial past l : exists l', begin (uc1701 past) l = Some l' /\ enabled l' = true /\ inverted (world l') = false /\ shown (world l') = true /\ allOn (world l') = false /\
  power (world l') = 7 /\ contrast (world l') = 0x10 /\ firstLine (world l') = 0 /\ operand (world l') = None /\ forall p c, p <> 0 -> pixels (world l') p c = pixels (world l) p c.
Proof.
  destruct l as [d e [px co pg iv sh al pw ct fl op]].
  assert (A : exists c0, transfers (uc1701 past) (level (mkLcd d true (mkCtrl px co pg iv sh al pw ct fl op)) false)
      [CMD_RESET; CMD_SCROLL_LINE; CMD_SEG_DIR_MIRROR; CMD_COM_DIR_NORMAL; CMD_PIXELS_NORMAL; CMD_DISP_NORMAL; CMD_BIAS_RATIO_1_9; Z.lor CMD_POWER_CTRL 7; Z.lor CMD_RESISTOR_RATIO 7;
       CMD_CONTRAST; 0x10; CMD_ADV_CONTROL; 0x90; CMD_ENABLE] = Some (mkLcd false true c0) /\ pixels c0 = px /\ settings (mkCtrl px 0 0 false true false 7 0x10 0 None) c0).
  { destruct op as [o|]; match goal with |- exists c0, ?t = _ /\ _ => let r := eval vm_compute in t in match r with Some (mkLcd _ _ ?k) => exists k end end; (split; [vm_compute; reflexivity|]); split; try reflexivity; repeat split. }
  destruct A as (c0 & A & Px & St). unfold begin. cbn [cd world]. rewrite A. unfold level at 1. cbn [enabled world].
  assert (O : operand c0 = None) by (destruct St as (_ & _ & _ & _ & _ & _ & A7); exact A7).
  destruct (pos_run past (mkLcd false true c0) 0 0 eq_refl O) as (k1 & E1 & P1 & S1 & _ & G1). unfold pos in E1. change (transfers (uc1701 past) (mkLcd false true c0) [Z.lor CMD_COL_ADDR_LSB 0; Z.lor CMD_COL_ADDR_MSB 0; Z.lor CMD_PAGE_ADDR 0] = Some (mkLcd false true k1)) in E1.
  rewrite E1. unfold level. cbn [enabled world].
  destruct (data_page past (map Z.of_nat (seq 0 255)) k1 0 G1) as (k2 & E2 & S2 & G2 & P2). exists (mkLcd true true k2). split; [exact E2|]. cbn [world enabled] in *.
  destruct St as (A1 & A2 & A3 & A4 & A5 & A6 & A7), S1 as (B1 & B2 & B3 & B4 & B5 & B6 & B7), S2 as (D1 & D2 & D3 & D4 & D5 & D6 & D7). cbn in A1, A2, A3, A4, A5, A6, A7.
  repeat split; try congruence. intros p c N. rewrite (P2 p c N), P1, Px. reflexivity.
Qed.
Print Assumptions C122_begin_partial.
Example C122_begin_example : match begin (uc1701 131) (mkLcd true false (mkCtrl (fun p c => c) 77 3 true false true 0 0 5 (Some 0x81))) with Some l => shown (world l) = true /\ pixels (world l) 1 5 = 5 | None => False end.
Proof. vm_compute. repeat split. Qed.
(** The bytes begin() sends, whatever display is connected and whatever it does: the commands of the data sheet of the EA DOGS102 (bottom view, normal common direction, bias 1/9), the place (0, 0), then 255 bytes of data. *)
Theorem C122_begin_bytes {W : Type} (panel : W -> bool -> Z -> W) l :
  let sent := map (fun v => (false, v)) [0xe2; 0x40; 0xa1; 0xc0; 0xa4; 0xa6; 0xa2; 0x2f; 0x27; 0x81; 0x10; 0xfa; 0x90; 0xaf; 0x00; 0x10; 0xb0] ++ map (fun k => (true, Z.of_nat k)) (seq 0 255) in
  begin panel l = Some (mkLcd true true (fold_left (fun w b => panel w (fst b) (snd b)) sent (world l))).
Proof. intros sent. reflexivity. Qed.
Print Assumptions C122_begin_bytes.
Example C122_begin_bytes_example : option_map (fun l => firstn 4 (world l)) (begin (fun w b v => w ++ [v]) (mkLcd true false [])) = Some [0xe2; 0x40; 0xa1; 0xc0].
Proof. reflexivity. Qed.
(** Wanted: a display whose memory is blank is blank after begin, and a text then stands at (0, 0). Refuted: a test pattern is written to the first row, and the place is behind it, where nothing of a text can be seen
    (whether the controller stays at the last column, or begins again with the first one, which it then overwrites) *)
Theorem C122_begin_refuted : exists k, (forall p c, pixels k p c = 0) /\ operand k = None /\ forall past, past = 131 \/ past = 0 ->
  exists l, begin (uc1701 past) (mkLcd false false k) = Some l /\ pixels (world l) 0 1 <> 0 /\ ~ at_place (world l) 0 0.
Proof.
  exists (mkCtrl (fun _ _ => 0) 0 0 false false false 0 0 0 None). split; [reflexivity|]. split; [reflexivity|].
  assert (A : forall r : option (lcd ctrl), match r with Some l => (pixels (world l) 0 1 =? 0) = false /\ (column (world l) =? 0) = false | None => False end -> exists l, r = Some l /\ pixels (world l) 0 1 <> 0 /\ ~ at_place (world l) 0 0).
  { intros [l|] H; [|destruct H]. exists l. split; [reflexivity|]. destruct H as [H1 H2]. apply Z.eqb_neq in H1. apply Z.eqb_neq in H2. split; [exact H1|]. intros [C _]. contradiction. }
  intros past [-> | ->]; apply A; vm_compute; split; reflexivity.
Qed.
Print Assumptions C122_begin_refuted.

(** Wanted: println ends the line. Refuted: nothing is sent to the display, the next text stands in the same row *)
Theorem C122_println_refuted past l : println (uc1701 past) font_5x7 l = Some (l, 0).
Proof. reflexivity. Qed.
Print Assumptions C122_println_refuted.

(** Before begin and after end every call that sends something waits forever *)
Theorem C122_early past f l c x y : good_font f -> has f c = true -> (0 < charWidth f)%nat -> let l := endSpi l in
  write (uc1701 past) f l c = None /\ pos (uc1701 past) l x y = None /\ clear (uc1701 past) l = None /\ inverse (uc1701 past) l true = None /\ inverse (uc1701 past) l false = None.
Proof.
  intros G H W. cbv zeta. split; [|repeat split]. rewrite (write_known _ f _ c G H). pose proof (picture_length f c G H) as L. destruct (picture f c); [cbn in L; lia|]. reflexivity.
Qed.
Print Assumptions C122_early.
Example C122_early_example : good_font font_5x7 /\ has font_5x7 65 = true /\ (0 < charWidth font_5x7)%nat /\ clear (uc1701 131) some_lcd <> None.
Proof. split; [exact font_good|]. split; [reflexivity|]. split; [cbn; lia|]. vm_compute. discriminate. Qed.
