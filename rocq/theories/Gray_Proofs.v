From Verif Require Export Gray_Spec U8g_Proofs.

(** Changing the two bits of a row *)
Definition put2 (v k c : Z) : Z := Z.lor (Z.land v (Z.lxor (u8 (Z.shiftl 0x03 (u8 (Z.shiftl k 1)))) 0xff)) (u8 (Z.shiftl c (u8 (Z.shiftl k 1)))).
Definition four := [0; 1; 2; 3].
Lemma in_four k : 0 <= k <= 3 -> In k four.
Proof. intros H. unfold four. cbn. lia. Qed.
Lemma put2_ok v k j c : is_byte v -> 0 <= k <= 3 -> 0 <= j <= 3 -> 0 <= c <= 3 -> (put2 v k c / 4 ^ j) mod 4 = (if k =? j then c else (v / 4 ^ j) mod 4) /\ is_byte (put2 v k c).
Proof.
  intros V K J C.
  pose proof (byte_forall (fun v => forallb (fun k => forallb (fun j => forallb (fun c => ((put2 v k c / 4 ^ j) mod 4 =? (if k =? j then c else (v / 4 ^ j) mod 4)) && (0 <=? put2 v k c) && (put2 v k c <? 256)) four) four) four)
    ltac:(vm_compute; reflexivity) v V) as H. cbv beta in H.
  rewrite forallb_forall in H. specialize (H k (in_four k K)). rewrite forallb_forall in H. specialize (H j (in_four j J)). rewrite forallb_forall in H. specialize (H c (in_four c C)).
  apply andb_prop in H as [H H3]. apply andb_prop in H as [H1 H2]. apply Z.eqb_eq in H1. apply Z.leb_le in H2. apply Z.ltb_lt in H3. split; [exact H1|split; assumption].
Qed.
Lemma rd_byte l i : Forall is_byte l -> is_byte (rd l i).
Proof. intros F. unfold rd. destruct (Nat.lt_ge_cases i (length l)) as [H|H]; [rewrite Forall_forall in F; apply F, nth_In, H|rewrite nth_overflow by lia; unfold is_byte; lia]. Qed.
Lemma wr_bytes l : forall i v, Forall is_byte l -> is_byte v -> Forall is_byte (wr l i v).
Proof. induction l as [|a l IH]; intros [|i] v F V; cbn [wr]; auto; inversion F; subst; constructor; auto. Qed.

Definition same_page (b b' : pb) : Prop := p b' = p b /\ width b' = width b /\ length (buf b') = length (buf b) /\ skipn (Z.to_nat (width b)) (buf b') = skipn (Z.to_nat (width b)) (buf b) /\ (Forall is_byte (buf b) -> Forall is_byte (buf b')).
Lemma same_page_refl b : same_page b b.
Proof. unfold same_page. auto. Qed.
Lemma same_page_trans b b' b'' : same_page b b' -> same_page b' b'' -> same_page b b''.
Proof. unfold same_page. intros (A & B & C & D & E) (A' & B' & C' & D' & E'). rewrite B in *. repeat split; try congruence; auto. Qed.
Lemma gray_ok_same b b' : same_page b b' -> gray_page_ok b -> gray_page_ok b'.
Proof. unfold same_page, gray_page_ok. intros (A & B & C & _ & E) H. rewrite A, B, C. tauto. Qed.
Lemma in_page_same b b' x y : same_page b b' -> in_page b x y -> in_page b' x y.
Proof. unfold same_page, in_page. intros (A & B & _) H. rewrite A, B. exact H. Qed.

Lemma set_pixel_put2 b x y c : 0 <= y - page_y0 (p b) <= 3 ->
  pb8v2_set_pixel b x y c = mkPb (p b) (width b) (wr (buf b) (Z.to_nat x) (put2 (rd (buf b) (Z.to_nat x)) (y - page_y0 (p b)) (c mod 4))).
Proof.
  intros H. unfold pb8v2_set_pixel, put2. rewrite (u8_small (y - _)) by lia. set (k := y - page_y0 (p b)) in *.
  replace (Z.land k 3) with k by (change 3 with (Z.ones 2); rewrite Z.land_ones by lia; symmetry; apply Z.mod_small; change (2 ^ 2) with 4; lia).
  replace (Z.land c 3) with (c mod 4) by (change 3 with (Z.ones 2); rewrite Z.land_ones by lia; reflexivity). reflexivity.
Qed.
Lemma c4 c : 0 <= c mod 4 <= 3.
Proof. pose proof (Z.mod_pos_bound c 4). lia. Qed.
Lemma SetPixel_same b x y c : gray_page_ok b -> 0 <= x -> same_page b (pb8v2_SetPixel b x y c).
Proof.
  intros (P1 & P2 & P3 & P4 & P5 & P6) Hx. unfold pb8v2_SetPixel. destruct (Z.ltb_spec y (page_y0 (p b))); [apply same_page_refl|]. destruct (Z.ltb_spec (page_y1 (p b)) y); [apply same_page_refl|].
  destruct (Z.leb_spec (width b) x); [apply same_page_refl|]. rewrite set_pixel_put2 by lia. unfold same_page. cbn [p width buf]. rewrite wr_length, skipn_wr by lia. repeat split; auto.
  intros F. apply wr_bytes; [exact F|]. apply (put2_ok _ _ 0); [apply rd_byte, F|lia|lia|apply c4].
Qed.
Lemma SetPixel_gray b x y c X Y : gray_page_ok b -> is_byte x -> is_byte y -> in_page b X Y ->
  gray (pb8v2_SetPixel b x y c) X Y = if (X =? x) && (Y =? y) then c mod 4 else gray b X Y.
Proof.
  intros (P1 & P2 & P3 & P4 & P5 & P6) Hx Hy [V1 V2]. unfold is_byte in Hx, Hy. unfold pb8v2_SetPixel.
  destruct (y <? page_y0 (p b)) eqn:E1; [apply Z.ltb_lt in E1; destruct (Z.eqb_spec X x), (Z.eqb_spec Y y); cbn [andb]; auto; lia|].
  destruct (page_y1 (p b) <? y) eqn:E2; [apply Z.ltb_lt in E2; destruct (Z.eqb_spec X x), (Z.eqb_spec Y y); cbn [andb]; auto; lia|].
  destruct (width b <=? x) eqn:E3; [apply Z.leb_le in E3; destruct (Z.eqb_spec X x), (Z.eqb_spec Y y); cbn [andb]; auto; lia|].
  apply Z.ltb_ge in E1, E2. apply Z.leb_gt in E3. rewrite set_pixel_put2 by lia. unfold gray. cbn [p buf]. destruct (Z.eqb_spec X x) as [->|N]; cbn [andb].
  - rewrite rd_wr_same by lia. destruct (put2_ok (rd (buf b) (Z.to_nat x)) (y - page_y0 (p b)) (Y - page_y0 (p b)) (c mod 4) (rd_byte _ _ P6)) as [-> _]; [lia|lia|apply c4|].
    destruct (Z.eqb_spec (y - page_y0 (p b)) (Y - page_y0 (p b))), (Z.eqb_spec Y y); auto; lia.
  - rewrite rd_wr_other by lia. reflexivity.
Qed.

Lemma step_is dir x y : is_byte dir -> is_byte x -> is_byte y -> step dir x y = (u8 (x + stepX dir), u8 (y + stepY dir)).
Proof.
  intros Hd Hx Hy. unfold is_byte in *. unfold step. assert (X : u8 (x + 0) = x) by (rewrite u8_small; lia). assert (Y : u8 (y + 0) = y) by (rewrite u8_small; lia).
  destruct (Z.eqb_spec dir 0) as [->|N0]; [cbn [stepX stepY]; rewrite Y; reflexivity|]. destruct (Z.eqb_spec dir 1) as [->|N1]; [cbn [stepX stepY]; rewrite X; reflexivity|].
  destruct (Z.eqb_spec dir 2) as [->|N2]; [cbn [stepX stepY]; rewrite Y; reflexivity|]. destruct (Z.eqb_spec dir 3) as [->|N3]; [cbn [stepX stepY]; rewrite X; reflexivity|].
  assert (stepX dir = 0 /\ stepY dir = 0) as [-> ->] by (unfold stepX, stepY; destruct dir as [|[[]|[]|]|]; auto; lia). rewrite X, Y. reflexivity.
Qed.
Lemma std_same n : forall b x y dir pat c, gray_page_ok b -> is_byte x -> is_byte y -> is_byte dir -> same_page b (stdLoop n b x y dir pat c).
Proof.
  induction n as [|n IH]; intros b x y dir pat c P Hx Hy Hd; cbn [stdLoop]; [apply same_page_refl|]. rewrite (step_is dir x y Hd Hx Hy).
  assert (F : same_page b (if negb (Z.land pat 128 =? 0) then pb8v2_SetPixel b x y c else b)) by (destruct (negb _); [apply SetPixel_same; unfold is_byte in *; tauto|apply same_page_refl]).
  destruct (negb (u8 _ =? 0)); [|exact F]. eapply same_page_trans; [exact F|apply IH; [eapply gray_ok_same; eassumption|apply u8_range|apply u8_range|exact Hd]].
Qed.
Lemma std_gray X Y n : forall b x y dir pat c, (n <= 8)%nat -> gray_page_ok b -> is_byte x -> is_byte y -> is_byte pat -> is_byte dir -> in_page b X Y ->
  (onN (Z.of_nat n) x y (stepX dir) (stepY dir) pat X Y -> gray (stdLoop n b x y dir pat c) X Y = c mod 4)
  /\ (~ onN (Z.of_nat n) x y (stepX dir) (stepY dir) pat X Y -> gray (stdLoop n b x y dir pat c) X Y = gray b X Y).
Proof.
  induction n as [|n IH]; intros b x y dir pat c Hn P Hx Hy Hp Hd V; cbn [stdLoop].
  { split; [intros (k & Hk & _); lia|auto]. }
  rewrite (step_is dir x y Hd Hx Hy), (bit7 pat Hp). set (dx := stepX dir). set (dy := stepY dir). set (b1 := if Z.testbit pat 7 then pb8v2_SetPixel b x y c else b).
  assert (F : same_page b b1) by (unfold b1; destruct (Z.testbit pat 7); [apply SetPixel_same; unfold is_byte in Hx; tauto|apply same_page_refl]).
  assert (B1 : gray b1 X Y = if Z.testbit pat 7 && ((X =? x) && (Y =? y)) then c mod 4 else gray b X Y).
  { unfold b1. destruct (Z.testbit pat 7); cbn [andb]; [apply SetPixel_gray; auto|reflexivity]. }
  set (pat' := u8 (Z.shiftl pat 1)).
  assert (S1 : onN (Z.of_nat (S n)) x y dx dy pat X Y <-> (Z.testbit pat 7 && ((X =? x) && (Y =? y)) = true \/ onN (Z.of_nat n) (u8 (x + dx)) (u8 (y + dy)) dx dy pat' X Y)).
  { unfold is_byte in Hx, Hy. split.
    - intros (k & Hk & T & EX & EY). destruct (Z.eq_dec k 0) as [->|K].
      + left. rewrite !Z.mul_0_l, !Z.add_0_r, u8_small in EX, EY by lia. change (7 - 0) with 7 in T. rewrite T. subst. rewrite !Z.eqb_refl. reflexivity.
      + right. exists (k - 1). split; [lia|]. unfold pat'. rewrite shl_bit by lia. replace (7 - (k - 1 + 1)) with (7 - k) by lia. rewrite !u8_u8_add.
        repeat split; auto; [rewrite EX|rewrite EY]; f_equal; ring.
    - intros [E|(k & Hk & T & EX & EY)].
      + apply andb_prop in E as [T E]. apply andb_prop in E as [EX EY]. apply Z.eqb_eq in EX, EY. subst. exists 0. rewrite !Z.mul_0_l, !Z.add_0_r, !u8_small by lia. repeat split; auto; lia.
      + exists (k + 1). unfold pat' in T. rewrite shl_bit in T by lia. rewrite !u8_u8_add in EX, EY. repeat split; auto; try lia; [rewrite EX|rewrite EY]; f_equal; ring. }
  destruct (Z.eqb_spec pat' 0) as [Z0|NZ]; cbn [negb].
  - assert (NO : ~ onN (Z.of_nat n) (u8 (x + dx)) (u8 (y + dy)) dx dy pat' X Y) by (intros (k & _ & T & _); rewrite Z0, Z.testbit_0_l in T; discriminate).
    rewrite S1, B1. split; intros H.
    + destruct H as [->|H]; [reflexivity|contradiction].
    + destruct (Z.testbit pat 7 && _); [exfalso; apply H; auto|reflexivity].
  - specialize (IH b1 (u8 (x + dx)) (u8 (y + dy)) dir pat' c ltac:(lia) (gray_ok_same _ _ F P) (u8_range _) (u8_range _) (u8_range _) Hd (in_page_same _ _ _ _ F V)). fold dx dy in IH.
    destruct IH as [I1 I2].
    assert (D : onN (Z.of_nat n) (u8 (x + dx)) (u8 (y + dy)) dx dy pat' X Y \/ ~ onN (Z.of_nat n) (u8 (x + dx)) (u8 (y + dy)) dx dy pat' X Y).
    { set (f := fun k => Z.testbit pat' (7 - k) && (X =? u8 (u8 (x + dx) + k * dx)) && (Y =? u8 (u8 (y + dy) + k * dy))).
      destruct (existsb f (map Z.of_nat (seq 0 n))) eqn:E.
      + left. apply existsb_exists in E as (k & Hk & E). apply in_map_iff in Hk as (j & <- & Hj). apply in_seq in Hj.
        unfold f in E. apply andb_prop in E as [E E3]. apply andb_prop in E as [E1 E2]. apply Z.eqb_eq in E2, E3. exists (Z.of_nat j). repeat split; auto; lia.
      + right. intros (k & Hk & E1 & E2 & E3). apply not_true_iff_false in E. apply E. apply existsb_exists. exists k. split.
        * apply in_map_iff. exists (Z.to_nat k). split; [lia|]. apply in_seq. lia.
        * unfold f. rewrite E1, E2, E3, !Z.eqb_refl. reflexivity. }
    rewrite S1. split; intros H.
    + destruct D as [D|D]; [apply I1, D|]. rewrite (I2 D), B1. destruct H as [->|H]; [reflexivity|contradiction].
    + rewrite I2 by tauto. rewrite B1. destruct (Z.testbit pat 7 && _); [exfalso; apply H; auto|reflexivity].
Qed.
Lemma gray_same b c m : gray_page_ok b -> msg_ok m -> same_page b (pb8v2_draw b c m).
Proof.
  intros P M. destruct m as [x y|x y dir pat]; cbn [pb8v2_draw msg_ok] in *; [apply SetPixel_same; unfold is_byte in *; tauto|].
  destruct (pb_Is8PixelVisible b y dir); [apply std_same; tauto|apply same_page_refl].
Qed.
Lemma gray_draw b c m X Y : gray_page_ok b -> msg_ok m -> in_page b X Y ->
  (on m X Y -> gray (pb8v2_draw b c m) X Y = c mod 4) /\ (~ on m X Y -> gray (pb8v2_draw b c m) X Y = gray b X Y).
Proof.
  intros P M V. destruct m as [x y|x y dir pat]; cbn [pb8v2_draw].
  - destruct M as [Hx Hy]. rewrite SetPixel_gray by auto. cbn [on]. destruct (Z.eqb_spec X x), (Z.eqb_spec Y y); cbn [andb]; split; auto; tauto.
  - destruct M as (Hx & Hy & Hd & Hp). destruct (pb_Is8PixelVisible b y dir) eqn:E.
    + change (on (Eight x y dir pat) X Y) with (onN 8 x y (stepX dir) (stepY dir) pat X Y). apply (std_gray X Y 8 b x y dir pat c); auto.
    + assert (PO : page_ok b) by (destruct P as (P1 & P2 & P3 & P4 & P5 & P6); unfold page_ok; repeat split; try lia). pose proof (hidden b x y dir pat X Y PO Hy Hd V E). split; [contradiction|auto].
Qed.
Lemma on_dec m x y : on m x y \/ ~ on m x y.
Proof.
  destruct m as [a b|a b dir pat]; cbn [on]; [destruct (Z.eq_dec x a), (Z.eq_dec y b); tauto|].
  set (f := fun k => Z.testbit pat (7 - k) && (x =? (a + k * stepX dir) mod 256) && (y =? (b + k * stepY dir) mod 256)). destruct (existsb f [0; 1; 2; 3; 4; 5; 6; 7]) eqn:E.
  - left. apply existsb_exists in E as (k & I & E). unfold f in E. apply andb_prop in E as [E E3]. apply andb_prop in E as [E1 E2]. apply Z.eqb_eq in E2, E3. exists k. repeat split; auto; cbn in I; lia.
  - right. intros (k & K & E1 & E2 & E3). apply not_true_iff_false in E. apply E. apply existsb_exists. exists k. split; [cbn; lia|]. unfold f. rewrite E1, <- E2, <- E3, !Z.eqb_refl. reflexivity.
Qed.
Lemma gray_all l : forall b l0, gray_page_ok b -> Forall (fun e => msg_ok (snd e)) l -> (forall X Y, in_page b X Y -> level X Y l0 (gray b X Y)) ->
  let b' := fold_left (fun b e => pb8v2_draw b (fst e) (snd e)) l b in same_page b b' /\ forall X Y, in_page b X Y -> level X Y (l0 ++ l) (gray b' X Y).
Proof.
  induction l as [|[c m] l IH]; intros b l0 P F D; cbn [fold_left fst snd] in *; [rewrite app_nil_r; split; [apply same_page_refl|exact D]|].
  inversion F as [|? ? M F']; subst. cbn [snd] in M. pose proof (gray_same b c m P M) as S. destruct (IH (pb8v2_draw b c m) (l0 ++ [(c, m)])) as [S2 K]; [eapply gray_ok_same; eassumption|exact F'| |].
  - intros X Y V. assert (V0 : in_page b X Y) by (destruct S as (A & B & _); unfold in_page in *; rewrite A, B in V; exact V). destruct (gray_draw b c m X Y P M V0) as [G1 G2].
    destruct (on_dec m X Y) as [O|O]; [rewrite (G1 O); eapply level_on; [apply D, V0|exact O]|rewrite (G2 O); apply level_off; [apply D, V0|exact O]].
  - split; [eapply same_page_trans; eassumption|]. intros X Y V. rewrite <- app_assoc in K. apply K. eapply in_page_same; eassumption.
Qed.
