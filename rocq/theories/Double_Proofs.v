From Verif Require Export Double_Spec U8g_Proofs.

Definition same_double (b b' : pb) : Prop := p b' = p b /\ width b' = width b /\ length (buf b') = length (buf b) /\ skipn (2 * Z.to_nat (width b)) (buf b') = skipn (2 * Z.to_nat (width b)) (buf b).
Lemma same_double_trans a b c : same_double a b -> same_double b c -> same_double a c.
Proof. unfold same_double. intros (A & B & C & X) (D & E & F & Y). rewrite B in Y. repeat split; congruence. Qed.
Lemma dpage_ok_frame b b' : same_double b b' -> dpage_ok b -> dpage_ok b'.
Proof. unfold same_double, dpage_ok. intros (A & B & C & _) H. rewrite A, B, C. exact H. Qed.
Lemma in_double_frame b b' x y : same_double b b' -> in_double b x y -> in_double b' x y.
Proof. unfold same_double, in_double. intros (A & B & C & _) H. rewrite A, B. exact H. Qed.
Lemma half r : 0 <= r <= 15 -> (r < 8 /\ r / 8 = 0 /\ r mod 8 = r) \/ (8 <= r /\ r / 8 = 1 /\ r mod 8 = r - 8).
Proof. intros H. Z.div_mod_to_equations. lia. Qed.
Lemma set_pixel_d b x y c : dpage_ok b -> is_byte x -> page_y0 (p b) <= y <= page_y1 (p b) -> x < width b ->
  let r := y - page_y0 (p b) in let k := Z.to_nat (r / 8 * width b + x) in
  pb16v1_set_pixel b x y c = mkPb (p b) (width b) (wr (buf b) k (if negb (c =? 0) then Z.lor (rd (buf b) k) (2 ^ (r mod 8)) else Z.land (rd (buf b) k) (Z.lxor (2 ^ (r mod 8)) 0xff)))
  /\ (k < 2 * Z.to_nat (width b))%nat.
Proof.
  intros (P1 & P2 & P3 & P4 & P5 & P6) Hx Hy Hw r k. unfold is_byte in Hx. assert (R : 0 <= r <= 15) by (unfold r; lia). assert (M : 0 <= r mod 8 < 8) by (apply Z.mod_pos_bound; lia).
  unfold pb16v1_set_pixel. rewrite (u8_small (y - _)) by lia. fold r.
  assert (Q : (if 8 <=? r then (width b, Z.land r 7) else (0, r)) = (r / 8 * width b, r mod 8)).
  { destruct (half r R) as [(A & B & C)|(A & B & C)]; rewrite B, ?Z.mul_1_l, ?Z.mul_0_l; [rewrite C; destruct (Z.leb_spec 8 r); [lia|reflexivity]|]. destruct (Z.leb_spec 8 r); [|lia]. f_equal. change 7 with (Z.ones 3). apply Z.land_ones. lia. }
  rewrite Q. assert (MK : u8 (Z.shiftl 1 (r mod 8)) = 2 ^ (r mod 8)).
  { rewrite Z.shiftl_mul_pow2 by lia. rewrite Z.mul_1_l. apply u8_small. pose proof (Z.pow_pos_nonneg 2 (r mod 8)). pose proof (Z.pow_le_mono_r 2 (r mod 8) 7). change (2 ^ 7) with 128 in *. lia. }
  rewrite MK. split; [reflexivity|]. unfold k. destruct (half r R) as [(A & B & C)|(A & B & C)]; rewrite B; lia.
Qed.
Lemma SetPixel_dframe b x y c : dpage_ok b -> is_byte x -> same_double b (pb16v1_SetPixel b x y c).
Proof.
  intros P Hx. unfold pb16v1_SetPixel. destruct (Z.ltb_spec y (page_y0 (p b))); [unfold same_double; auto|]. destruct (Z.ltb_spec (page_y1 (p b)) y); [unfold same_double; auto|].
  destruct (Z.leb_spec (width b) x); [unfold same_double; auto|]. destruct (set_pixel_d b x y c P Hx) as [-> K]; [lia|lia|]. unfold same_double. cbn [p width buf]. rewrite wr_length, skipn_wr by exact K. auto.
Qed.
Lemma SetPixel_dbit b x y c X Y : dpage_ok b -> is_byte x -> is_byte y -> in_double b X Y ->
  dbit (pb16v1_SetPixel b x y c) X Y = if (X =? x) && (Y =? y) then negb (c =? 0) else dbit b X Y.
Proof.
  intros P Hx Hy [V1 V2]. pose proof P as (P1 & P2 & P3 & P4 & P5 & P6). unfold pb16v1_SetPixel.
  destruct (y <? page_y0 (p b)) eqn:E1; [apply Z.ltb_lt in E1; destruct (Z.eqb_spec X x), (Z.eqb_spec Y y); cbn [andb]; auto; lia|].
  destruct (page_y1 (p b) <? y) eqn:E2; [apply Z.ltb_lt in E2; destruct (Z.eqb_spec X x), (Z.eqb_spec Y y); cbn [andb]; auto; lia|].
  destruct (width b <=? x) eqn:E3; [apply Z.leb_le in E3; destruct (Z.eqb_spec X x), (Z.eqb_spec Y y); cbn [andb]; auto; lia|].
  apply Z.ltb_ge in E1, E2. apply Z.leb_gt in E3. destruct (set_pixel_d b x y c P Hx) as [-> K]; [lia|lia|]. unfold dbit. cbn [p buf width]. unfold is_byte in Hx.
  set (r := y - page_y0 (p b)) in *. set (R := Y - page_y0 (p b)). assert (Hr : 0 <= r <= 15) by (unfold r; lia). assert (HR : 0 <= R <= 15) by (unfold R; lia). assert (EQ : (Y =? y) = (R =? r)) by (unfold R, r; destruct (Z.eqb_spec Y y), (Z.eqb_spec (Y - page_y0 (p b)) (y - page_y0 (p b))); auto; lia).
  rewrite EQ. clear EQ. destruct (half r Hr) as [(a1 & a2 & a3)|(a1 & a2 & a3)]; destruct (half R HR) as [(c1 & c2 & c3)|(c1 & c2 & c3)]; rewrite ?a2, ?a3, ?c2, ?c3, ?Z.mul_0_l, ?Z.mul_1_l, ?Z.add_0_l in *.
  2,3: rewrite rd_wr_other by lia; replace (R =? r) with false by (symmetry; apply Z.eqb_neq; lia); rewrite andb_false_r; reflexivity.
  all: destruct (Z.eqb_spec X x) as [->|N]; cbn [andb]; [|rewrite rd_wr_other by lia; reflexivity]; rewrite rd_wr_same by lia; destruct (c =? 0); cbn [negb].
  - rewrite Z.land_spec, Z.lxor_spec, Z.pow2_bits_eqb by lia. change 0xff with (Z.ones 8). rewrite Z.ones_spec_low by lia. rewrite (Z.eqb_sym r R). destruct (R =? r); cbn [xorb]; [apply andb_false_r|apply andb_true_r].
  - rewrite Z.lor_spec, Z.pow2_bits_eqb by lia. rewrite (Z.eqb_sym r R). destruct (R =? r); [apply orb_true_r|apply orb_false_r].
  - rewrite Z.land_spec, Z.lxor_spec, Z.pow2_bits_eqb by lia. change 0xff with (Z.ones 8). rewrite Z.ones_spec_low by lia. replace (r - 8 =? R - 8) with (R =? r) by (destruct (Z.eqb_spec R r), (Z.eqb_spec (r - 8) (R - 8)); auto; lia). destruct (R =? r); cbn [xorb]; [apply andb_false_r|apply andb_true_r].
  - rewrite Z.lor_spec, Z.pow2_bits_eqb by lia. replace (r - 8 =? R - 8) with (R =? r) by (destruct (Z.eqb_spec R r), (Z.eqb_spec (r - 8) (R - 8)); auto; lia). destruct (R =? r); [apply orb_true_r|apply orb_false_r].
Qed.
Lemma d_frame n : forall b x y dx dy pat c, dpage_ok b -> is_byte x -> same_double b (dLoop n b x y dx dy pat c).
Proof.
  induction n; intros b x y dx dy pat c P Hx; cbn [dLoop]; [unfold same_double; auto|].
  assert (F : same_double b (if negb (Z.land pat 128 =? 0) then pb16v1_SetPixel b x y c else b)) by (destruct (negb _); [apply SetPixel_dframe; assumption|unfold same_double; auto]).
  destruct (negb (u8 _ =? 0)); [|exact F]. eapply same_double_trans; [exact F|apply IHn; [eapply dpage_ok_frame; eassumption|apply u8_range]].
Qed.
Lemma d_bit X Y n : forall b x y dx dy pat c, (n <= 8)%nat -> dpage_ok b -> is_byte x -> is_byte y -> is_byte pat -> in_double b X Y ->
  (onN (Z.of_nat n) x y dx dy pat X Y -> dbit (dLoop n b x y dx dy pat c) X Y = negb (c =? 0))
  /\ (~ onN (Z.of_nat n) x y dx dy pat X Y -> dbit (dLoop n b x y dx dy pat c) X Y = dbit b X Y).
Proof.
  induction n as [|n IH]; intros b x y dx dy pat c Hn P Hx Hy Hp V; cbn [dLoop].
  { split; [intros (k & Hk & _); lia|auto]. }
  rewrite (bit7 pat Hp). set (b1 := if Z.testbit pat 7 then pb16v1_SetPixel b x y c else b).
  assert (F : same_double b b1) by (unfold b1; destruct (Z.testbit pat 7); [apply SetPixel_dframe; assumption|unfold same_double; auto]).
  assert (B1 : dbit b1 X Y = if Z.testbit pat 7 && ((X =? x) && (Y =? y)) then negb (c =? 0) else dbit b X Y).
  { unfold b1. destruct (Z.testbit pat 7); cbn [andb]; [apply SetPixel_dbit; auto|reflexivity]. }
  set (pat' := u8 (Z.shiftl pat 1)).
  assert (S1 : onN (Z.of_nat (S n)) x y dx dy pat X Y <-> (Z.testbit pat 7 && ((X =? x) && (Y =? y)) = true \/ onN (Z.of_nat n) (u8 (x + dx)) (u8 (y + dy)) dx dy pat' X Y)).
  { unfold is_byte in Hx, Hy. split.
    - intros (k & Hk & T & EX & EY). destruct (Z.eq_dec k 0) as [->|K].
      + left. rewrite !Z.mul_0_l, !Z.add_0_r, u8_small in EX, EY by lia. change (7 - 0) with 7 in T. rewrite T. subst. rewrite !Z.eqb_refl. reflexivity.
      + right. exists (k - 1). split; [lia|]. unfold pat'. rewrite shl_bit by lia. replace (7 - (k - 1 + 1)) with (7 - k) by lia. rewrite !u8_u8_add.
        repeat split; auto; [rewrite EX|rewrite EY]; f_equal; ring.
    - intros [E|(k & Hk & T & EX & EY)].
      + apply andb_prop in E as [T E]. apply andb_prop in E as [EX EY]. apply Z.eqb_eq in EX, EY. subst. exists 0. rewrite !Z.mul_0_l, !Z.add_0_r, !u8_small by lia. repeat split; auto; lia.
      + exists (k + 1). unfold pat' in T. rewrite shl_bit in T by lia. rewrite !u8_u8_add in EX, EY. repeat split; auto; try lia; [rewrite EX|rewrite EY]; f_equal; ring. }
  destruct (Z.eqb_spec pat' 0) as [Z0|NZ]; cbn [negb].
  - assert (NO : ~ onN (Z.of_nat n) (u8 (x + dx)) (u8 (y + dy)) dx dy pat' X Y) by (intros (k & _ & T & _); rewrite Z0, Z.testbit_0_l in T; discriminate).
    rewrite S1, B1. split; intros H.
    + destruct H as [->|H]; [reflexivity|contradiction].
    + destruct (Z.testbit pat 7 && _); [exfalso; apply H; auto|reflexivity].
  - specialize (IH b1 (u8 (x + dx)) (u8 (y + dy)) dx dy pat' c ltac:(lia) (dpage_ok_frame _ _ F P) (u8_range _) (u8_range _) (u8_range _) (in_double_frame _ _ _ _ F V)).
    destruct IH as [I1 I2].
    assert (D : onN (Z.of_nat n) (u8 (x + dx)) (u8 (y + dy)) dx dy pat' X Y \/ ~ onN (Z.of_nat n) (u8 (x + dx)) (u8 (y + dy)) dx dy pat' X Y).
    { set (f := fun k => Z.testbit pat' (7 - k) && (X =? u8 (u8 (x + dx) + k * dx)) && (Y =? u8 (u8 (y + dy) + k * dy))).
      destruct (existsb f (map Z.of_nat (seq 0 n))) eqn:E.
      + left. apply existsb_exists in E as (k & Hk & E). apply in_map_iff in Hk as (j & <- & Hj). apply in_seq in Hj.
        unfold f in E. apply andb_prop in E as [E E3]. apply andb_prop in E as [E1 E2]. apply Z.eqb_eq in E2, E3. exists (Z.of_nat j). repeat split; auto; lia.
      + right. intros (k & Hk & E1 & E2 & E3). apply not_true_iff_false in E. apply E. apply existsb_exists. exists k. split.
        * apply in_map_iff. exists (Z.to_nat k). split; [lia|]. apply in_seq. lia.
        * unfold f. rewrite E1, E2, E3, !Z.eqb_refl. reflexivity. }
    rewrite S1. split; intros H.
    + destruct D as [D|D]; [apply I1, D|]. rewrite (I2 D), B1. destruct H as [->|H]; [reflexivity|contradiction].
    + rewrite I2 by tauto. rewrite B1. destruct (Z.testbit pat 7 && _); [exfalso; apply H; auto|reflexivity].
Qed.

Lemma dhidden b a y dir pat X Y : dpage_ok b -> is_byte y -> is_byte dir -> in_double b X Y -> pb_Is8PixelVisible b y dir = false -> ~ on (Eight a y dir pat) X Y.
Proof.
  intros (P1 & P2 & P3 & P4 & _) Hy Hd [_ V] E (k & Hk & _ & _ & EY). unfold is_byte in *. unfold pb_Is8PixelVisible, pb_IsYIntersection in E.
  destruct (Z.eqb_spec dir 1) as [->|N1]; [|destruct (Z.eqb_spec dir 3) as [->|N3]].
  - cbn [stepY] in EY. rewrite Z.mul_1_r in EY. rewrite u8_mod in E. destruct (Z.leb_spec y (page_y1 (p b))), (Z.leb_spec (page_y0 (p b)) ((y + 8) mod 256)), (Z.ltb_spec ((y + 8) mod 256) y);
      cbn in E; try discriminate; Z.div_mod_to_equations; lia.
  - cbn [stepY] in EY. rewrite u8_mod in E. destruct (Z.leb_spec ((y - 8) mod 256) (page_y1 (p b))), (Z.leb_spec (page_y0 (p b)) y), (Z.ltb_spec y ((y - 8) mod 256));
      cbn in E; try discriminate; Z.div_mod_to_equations; lia.
  - assert (Es : stepY dir = 0) by (unfold stepY; destruct dir as [|[[]|[]|]|]; auto; lia). rewrite Es, Z.mul_0_r, Z.add_0_r, Z.mod_small in EY by lia. subst Y.
    destruct (Z.leb_spec y (page_y1 (p b))), (Z.leb_spec (page_y0 (p b)) y), (Z.ltb_spec y y); cbn in E; try discriminate; lia.
Qed.

Lemma ddraw_frame b c m : dpage_ok b -> msg_ok m -> same_double b (pb16v1_draw b c m).
Proof.
  intros P M. destruct m as [x y|x y dir pat]; cbn [pb16v1_draw msg_ok] in *; [apply SetPixel_dframe; tauto|]. destruct (pb_Is8PixelVisible b y dir); [|unfold same_double; auto].
  unfold pb16v1_Set8PixelOpt2. destruct (if dir =? 0 then _ else _) as [dx dy]. apply d_frame; tauto.
Qed.
Lemma ddraw_bit b c m X Y : dpage_ok b -> msg_ok m -> in_double b X Y ->
  (on m X Y -> dbit (pb16v1_draw b c m) X Y = negb (c =? 0)) /\ (~ on m X Y -> dbit (pb16v1_draw b c m) X Y = dbit b X Y).
Proof.
  intros P M V. destruct m as [x y|x y dir pat]; cbn [pb16v1_draw].
  - destruct M as [Hx Hy]. rewrite SetPixel_dbit by auto. cbn [on]. destruct (Z.eqb_spec X x), (Z.eqb_spec Y y); cbn [andb]; split; auto; tauto.
  - destruct M as (Hx & Hy & Hd & Hp). destruct (pb_Is8PixelVisible b y dir) eqn:E.
    + unfold pb16v1_Set8PixelOpt2. destruct (dirs dir Hd) as (dx & dy & -> & DX & DY).
      assert (EQ : on (Eight x y dir pat) X Y <-> onN 8 x y dx dy pat X Y) by (cbn [on]; unfold onN; split; intros (k & Hk & T & EX & EY); exists k; rewrite ?DX, ?DY in *; auto).
      rewrite EQ. apply (d_bit X Y 8 b x y dx dy pat c); auto.
    + pose proof (dhidden b x y dir pat X Y P Hy Hd V E). split; [contradiction|auto].
Qed.

Lemma ddraw_all l : forall b l0, dpage_ok b -> Forall (fun e => msg_ok (snd e)) l -> (forall X Y, in_double b X Y -> dot X Y l0 (dbit b X Y)) ->
  let b' := fold_left (fun b e => pb16v1_draw b (fst e) (snd e)) l b in same_double b b' /\ forall X Y, in_double b X Y -> dot X Y (l0 ++ l) (dbit b' X Y).
Proof.
  induction l as [|[c m] l IH]; intros b l0 P F D; cbn [fold_left fst snd] in *; [rewrite app_nil_r; split; [unfold same_double; auto|exact D]|].
  inversion F as [|? ? M F']; subst. cbn [snd] in M. pose proof (ddraw_frame b c m P M) as S. destruct (IH (pb16v1_draw b c m) (l0 ++ [(c, m)])) as [S2 K]; [eapply dpage_ok_frame; eassumption|exact F'| |].
  - intros X Y V. assert (V0 : in_double b X Y) by (destruct S as (A & B & _); unfold in_double in *; rewrite A, B in V; exact V). destruct (ddraw_bit b c m X Y P M V0) as [G1 G2].
    destruct (on_dec m X Y) as [O|O]; [rewrite (G1 O); eapply dot_on; [apply D, V0|exact O]|rewrite (G2 O); apply dot_off; [apply D, V0|exact O]].
  - split; [eapply same_double_trans; eassumption|]. intros X Y V. rewrite <- app_assoc in K. apply K. eapply in_double_frame; eassumption.
Qed.
