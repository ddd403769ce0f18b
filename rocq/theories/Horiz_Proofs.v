From Verif Require Export Horiz_Spec U8g_Proofs.

Lemma hpage_ok_frame b b' : same_frame b b' -> hpage_ok b -> hpage_ok b'.
Proof. intros F [P W]. split; [eapply page_ok_frame; eassumption|]. destruct F as (_ & B & _). rewrite B. exact W. Qed.
Lemma in_rows_frame b b' x y : same_frame b b' -> in_rows b x y -> in_rows b' x y.
Proof. unfold same_frame, in_rows. intros (A & B & C & _) H. rewrite A, B. exact H. Qed.
(** Where the byte of a dot is *)
Lemma addr w y x : 0 <= y <= 7 -> 0 <= x < 8 * w -> 0 <= y * w + x / 8 < 8 * w.
Proof. intros Y X. assert (0 <= x / 8 < w) by (split; [apply Z.div_pos; lia|apply Z.div_lt_upper_bound; lia]). nia. Qed.
Lemma addr_inj w y x y' x' : 0 <= x < 8 * w -> 0 <= x' < 8 * w -> y * w + x / 8 = y' * w + x' / 8 -> y = y' /\ x / 8 = x' / 8.
Proof. intros X X' E. assert (0 <= x / 8 < w) by (split; [apply Z.div_pos; lia|apply Z.div_lt_upper_bound; lia]). assert (0 <= x' / 8 < w) by (split; [apply Z.div_pos; lia|apply Z.div_lt_upper_bound; lia]). assert (y = y') by nia. subst. lia. Qed.
Lemma set_pixel_h b x y c : hpage_ok b -> is_byte x -> page_y0 (p b) <= y <= page_y1 (p b) -> x < width b ->
  let k := Z.to_nat ((y - page_y0 (p b)) * (width b / 8) + x / 8) in
  pb8h1_set_pixel b x y c = mkPb (p b) (width b) (wr (buf b) k (if negb (c =? 0) then Z.lor (rd (buf b) k) (2 ^ (7 - x mod 8)) else Z.land (rd (buf b) k) (Z.lxor (2 ^ (7 - x mod 8)) 0xff)))
  /\ (k < Z.to_nat (width b))%nat.
Proof.
  intros [(P1 & P2 & P3 & P4 & P5 & P6) W] Hx Hy Hw k. unfold is_byte in Hx. assert (W8 : width b = 8 * (width b / 8)) by (apply Z.div_exact; lia).
  assert (A : 0 <= (y - page_y0 (p b)) * (width b / 8) + x / 8 < 8 * (width b / 8)) by (apply addr; lia). assert (A0 : 0 <= (y - page_y0 (p b)) * (width b / 8)) by (apply Z.mul_nonneg_nonneg; [lia|apply Z.div_pos; lia]).
  assert (X0 : 0 <= x / 8) by (apply Z.div_pos; lia). split; [|unfold k; lia]. unfold pb8h1_set_pixel. rewrite (u8_small (y - _)) by lia. rewrite !Z.shiftr_div_pow2 by (try apply Z.land_nonneg; lia). change (2 ^ 3) with 8.
  rewrite (u8_small (width b / 8 * _)) by lia. replace (width b / 8 * (y - page_y0 (p b))) with ((y - page_y0 (p b)) * (width b / 8)) by ring.
  assert (M : Z.land x 7 = x mod 8) by (change 7 with (Z.ones 3); apply Z.land_ones; lia). rewrite M. assert (MB : 0 <= x mod 8 < 8) by (apply Z.mod_pos_bound; lia).
  assert (D : 0x80 / 2 ^ (x mod 8) = 2 ^ (7 - x mod 8)) by (change 0x80 with (2 ^ 7); rewrite <- Z.pow_sub_r by lia; reflexivity). rewrite D. reflexivity.
Qed.
Lemma SetPixel_hframe b x y c : hpage_ok b -> is_byte x -> same_frame b (pb8h1_SetPixel b x y c).
Proof.
  intros P Hx. unfold pb8h1_SetPixel. destruct (Z.ltb_spec y (page_y0 (p b))); [unfold same_frame; auto|]. destruct (Z.ltb_spec (page_y1 (p b)) y); [unfold same_frame; auto|].
  destruct (Z.leb_spec (width b) x); [unfold same_frame; auto|]. destruct (set_pixel_h b x y c P Hx) as [-> K]; [lia|lia|]. unfold same_frame. cbn [p width buf]. rewrite wr_length, skipn_wr by exact K. auto.
Qed.
Lemma SetPixel_hbit b x y c X Y : hpage_ok b -> is_byte x -> is_byte y -> in_rows b X Y ->
  hbit (pb8h1_SetPixel b x y c) X Y = if (X =? x) && (Y =? y) then negb (c =? 0) else hbit b X Y.
Proof.
  intros P Hx Hy [V1 V2]. pose proof P as [(P1 & P2 & P3 & P4 & P5 & P6) W]. unfold pb8h1_SetPixel.
  destruct (y <? page_y0 (p b)) eqn:E1; [apply Z.ltb_lt in E1; destruct (Z.eqb_spec X x), (Z.eqb_spec Y y); cbn [andb]; auto; lia|].
  destruct (page_y1 (p b) <? y) eqn:E2; [apply Z.ltb_lt in E2; destruct (Z.eqb_spec X x), (Z.eqb_spec Y y); cbn [andb]; auto; lia|].
  destruct (width b <=? x) eqn:E3; [apply Z.leb_le in E3; destruct (Z.eqb_spec X x), (Z.eqb_spec Y y); cbn [andb]; auto; lia|].
  apply Z.ltb_ge in E1, E2. apply Z.leb_gt in E3. destruct (set_pixel_h b x y c P Hx) as [-> K]; [lia|lia|]. unfold hbit. cbn [p buf width]. unfold is_byte in Hx.
  assert (W8 : width b = 8 * (width b / 8)) by (apply Z.div_exact; lia). pose proof (addr (width b / 8) (y - page_y0 (p b)) x ltac:(lia) ltac:(lia)) as A1. pose proof (addr (width b / 8) (Y - page_y0 (p b)) X ltac:(lia) ltac:(lia)) as A2.
  destruct (Z.eq_dec ((Y - page_y0 (p b)) * (width b / 8) + X / 8) ((y - page_y0 (p b)) * (width b / 8) + x / 8)) as [E|N].
  - rewrite E. rewrite rd_wr_same by lia. apply addr_inj in E as [EY EX]; [|lia|lia]. assert (Y = y) by lia. subst Y. rewrite Z.eqb_refl, andb_true_r.
    pose proof (Z.mod_pos_bound x 8 ltac:(lia)) as M1. pose proof (Z.mod_pos_bound X 8 ltac:(lia)) as M2. pose proof (Z.div_mod x 8 ltac:(lia)) as D1. pose proof (Z.div_mod X 8 ltac:(lia)) as D2.
    assert (Ej : (7 - x mod 8 =? 7 - X mod 8) = (X =? x)) by (destruct (Z.eqb_spec X x), (Z.eqb_spec (7 - x mod 8) (7 - X mod 8)); auto; [subst; lia|lia]).
    destruct (c =? 0); cbn [negb].
    + rewrite Z.land_spec, Z.lxor_spec, Z.pow2_bits_eqb, Ej by lia. change 0xff with (Z.ones 8). rewrite Z.ones_spec_low by lia. destruct (X =? x); cbn [xorb]; [apply andb_false_r|apply andb_true_r].
    + rewrite Z.lor_spec, Z.pow2_bits_eqb, Ej by lia. destruct (X =? x); [apply orb_true_r|apply orb_false_r].
  - rewrite rd_wr_other by lia. destruct (Z.eqb_spec X x), (Z.eqb_spec Y y); cbn [andb]; auto. subst. congruence.
Qed.
Lemma h_frame n : forall b x y dx dy pat c, hpage_ok b -> is_byte x -> same_frame b (hLoop n b x y dx dy pat c).
Proof.
  induction n; intros b x y dx dy pat c P Hx; cbn [hLoop]; [unfold same_frame; auto|].
  assert (F : same_frame b (if negb (Z.land pat 128 =? 0) then pb8h1_SetPixel b x y c else b)) by (destruct (negb _); [apply SetPixel_hframe; assumption|unfold same_frame; auto]).
  destruct (negb (u8 _ =? 0)); [|exact F]. eapply same_frame_trans; [exact F|apply IHn; [eapply hpage_ok_frame; eassumption|apply u8_range]].
Qed.
Lemma h_bit X Y n : forall b x y dx dy pat c, (n <= 8)%nat -> hpage_ok b -> is_byte x -> is_byte y -> is_byte pat -> in_rows b X Y ->
  (onN (Z.of_nat n) x y dx dy pat X Y -> hbit (hLoop n b x y dx dy pat c) X Y = negb (c =? 0))
  /\ (~ onN (Z.of_nat n) x y dx dy pat X Y -> hbit (hLoop n b x y dx dy pat c) X Y = hbit b X Y).
Proof.
  induction n as [|n IH]; intros b x y dx dy pat c Hn P Hx Hy Hp V; cbn [hLoop].
  { split; [intros (k & Hk & _); lia|auto]. }
  rewrite (bit7 pat Hp). set (b1 := if Z.testbit pat 7 then pb8h1_SetPixel b x y c else b).
  assert (F : same_frame b b1) by (unfold b1; destruct (Z.testbit pat 7); [apply SetPixel_hframe; assumption|unfold same_frame; auto]).
  assert (B1 : hbit b1 X Y = if Z.testbit pat 7 && ((X =? x) && (Y =? y)) then negb (c =? 0) else hbit b X Y).
  { unfold b1. destruct (Z.testbit pat 7); cbn [andb]; [apply SetPixel_hbit; auto|reflexivity]. }
  set (pat' := u8 (Z.shiftl pat 1)).
  assert (S1 : onN (Z.of_nat (S n)) x y dx dy pat X Y <-> (Z.testbit pat 7 && ((X =? x) && (Y =? y)) = true \/ onN (Z.of_nat n) (u8 (x + dx)) (u8 (y + dy)) dx dy pat' X Y)).
  { unfold is_byte in Hx, Hy. split.
    - intros (k & Hk & T & EX & EY). destruct (Z.eq_dec k 0) as [->|K].
      + left. rewrite !Z.mul_0_l, !Z.add_0_r, u8_small in EX, EY by lia. change (7 - 0) with 7 in T. rewrite T. subst. rewrite !Z.eqb_refl. reflexivity.
      + right. exists (k - 1). split; [lia|]. unfold pat'. rewrite shl_bit by lia. replace (7 - (k - 1 + 1)) with (7 - k) by lia. rewrite !u8_u8_add.
        repeat split; auto; [rewrite EX|rewrite EY]; f_equal; ring.
    - intros [E|(k & Hk & T & EX & EY)].
      + apply andb_prop in E as [T E]. apply andb_prop in E as [EX EY]. apply Z.eqb_eq in EX, EY. subst. exists 0. rewrite !Z.mul_0_l, !Z.add_0_r, !u8_small by lia. repeat split; auto; lia.
      + exists (k + 1). unfold pat' in T. rewrite shl_bit in T by lia. rewrite !u8_u8_add in EX, EY. repeat split; auto; try lia; [rewrite EX|rewrite EY]; f_equal; ring. }
  destruct (Z.eqb_spec pat' 0) as [Z0|NZ]; cbn [negb].
  - assert (NO : ~ onN (Z.of_nat n) (u8 (x + dx)) (u8 (y + dy)) dx dy pat' X Y) by (intros (k & _ & T & _); rewrite Z0, Z.testbit_0_l in T; discriminate).
    rewrite S1, B1. split; intros H.
    + destruct H as [->|H]; [reflexivity|contradiction].
    + destruct (Z.testbit pat 7 && _); [exfalso; apply H; auto|reflexivity].
  - specialize (IH b1 (u8 (x + dx)) (u8 (y + dy)) dx dy pat' c ltac:(lia) (hpage_ok_frame _ _ F P) (u8_range _) (u8_range _) (u8_range _) (in_rows_frame _ _ _ _ F V)).
    destruct IH as [I1 I2].
    assert (D : onN (Z.of_nat n) (u8 (x + dx)) (u8 (y + dy)) dx dy pat' X Y \/ ~ onN (Z.of_nat n) (u8 (x + dx)) (u8 (y + dy)) dx dy pat' X Y).
    { set (f := fun k => Z.testbit pat' (7 - k) && (X =? u8 (u8 (x + dx) + k * dx)) && (Y =? u8 (u8 (y + dy) + k * dy))).
      destruct (existsb f (map Z.of_nat (seq 0 n))) eqn:E.
      + left. apply existsb_exists in E as (k & Hk & E). apply in_map_iff in Hk as (j & <- & Hj). apply in_seq in Hj.
        unfold f in E. apply andb_prop in E as [E E3]. apply andb_prop in E as [E1 E2]. apply Z.eqb_eq in E2, E3. exists (Z.of_nat j). repeat split; auto; lia.
      + right. intros (k & Hk & E1 & E2 & E3). apply not_true_iff_false in E. apply E. apply existsb_exists. exists k. split.
        * apply in_map_iff. exists (Z.to_nat k). split; [lia|]. apply in_seq. lia.
        * unfold f. rewrite E1, E2, E3, !Z.eqb_refl. reflexivity. }
    rewrite S1. split; intros H.
    + destruct D as [D|D]; [apply I1, D|]. rewrite (I2 D), B1. destruct H as [->|H]; [reflexivity|contradiction].
    + rewrite I2 by tauto. rewrite B1. destruct (Z.testbit pat 7 && _); [exfalso; apply H; auto|reflexivity].
Qed.

Lemma hdraw_frame b c m : hpage_ok b -> msg_ok m -> same_frame b (pb8h1_draw b c m).
Proof.
  intros P M. destruct m as [x y|x y dir pat]; cbn [pb8h1_draw msg_ok] in *; [apply SetPixel_hframe; tauto|]. destruct (pb_Is8PixelVisible b y dir); [|unfold same_frame; auto].
  unfold pb8h1_Set8PixelOpt2. destruct (if dir =? 0 then _ else _) as [dx dy]. apply h_frame; tauto.
Qed.
Lemma hdraw_bit b c m X Y : hpage_ok b -> msg_ok m -> in_rows b X Y ->
  (on m X Y -> hbit (pb8h1_draw b c m) X Y = negb (c =? 0)) /\ (~ on m X Y -> hbit (pb8h1_draw b c m) X Y = hbit b X Y).
Proof.
  intros P M V. destruct m as [x y|x y dir pat]; cbn [pb8h1_draw].
  - destruct M as [Hx Hy]. rewrite SetPixel_hbit by auto. cbn [on]. destruct (Z.eqb_spec X x), (Z.eqb_spec Y y); cbn [andb]; split; auto; tauto.
  - destruct M as (Hx & Hy & Hd & Hp). destruct (pb_Is8PixelVisible b y dir) eqn:E.
    + unfold pb8h1_Set8PixelOpt2. destruct (dirs dir Hd) as (dx & dy & -> & DX & DY).
      assert (EQ : on (Eight x y dir pat) X Y <-> onN 8 x y dx dy pat X Y) by (cbn [on]; unfold onN; split; intros (k & Hk & T & EX & EY); exists k; rewrite ?DX, ?DY in *; auto).
      rewrite EQ. apply (h_bit X Y 8 b x y dx dy pat c); auto.
    + pose proof (hidden b x y dir pat X Y (proj1 P) Hy Hd V E). split; [contradiction|auto].
Qed.

Lemma hdraw_all l : forall b l0, hpage_ok b -> Forall (fun e => msg_ok (snd e)) l -> (forall X Y, in_rows b X Y -> dot X Y l0 (hbit b X Y)) ->
  let b' := fold_left (fun b e => pb8h1_draw b (fst e) (snd e)) l b in same_frame b b' /\ forall X Y, in_rows b X Y -> dot X Y (l0 ++ l) (hbit b' X Y).
Proof.
  induction l as [|[c m] l IH]; intros b l0 P F D; cbn [fold_left fst snd] in *; [rewrite app_nil_r; split; [unfold same_frame; auto|exact D]|].
  inversion F as [|? ? M F']; subst. cbn [snd] in M. pose proof (hdraw_frame b c m P M) as S. destruct (IH (pb8h1_draw b c m) (l0 ++ [(c, m)])) as [S2 K]; [eapply hpage_ok_frame; eassumption|exact F'| |].
  - intros X Y V. assert (V0 : in_rows b X Y) by (destruct S as (A & B & _); unfold in_rows in *; rewrite A, B in V; exact V). destruct (hdraw_bit b c m X Y P M V0) as [G1 G2].
    destruct (on_dec m X Y) as [O|O]; [rewrite (G1 O); eapply dot_on; [apply D, V0|exact O]|rewrite (G2 O); apply dot_off; [apply D, V0|exact O]].
  - split; [eapply same_frame_trans; eassumption|]. intros X Y V. rewrite <- app_assoc in K. apply K. eapply in_rows_frame; eassumption.
Qed.
