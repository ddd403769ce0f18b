(** Lemmas for C122 *)
From Verif Require Export Dogs_Model Dogs_Spec Bits.
Open Scope Z_scope.

Lemma settings_refl k : settings k k.
Proof. repeat split. Qed.
Lemma settings_trans a b c : settings a b -> settings b c -> settings a c.
Proof. unfold settings. intuition congruence. Qed.
Lemma painted_nil m y x : painted m m y x [].
Proof. intros p c. cbn [length]. destruct (p =? y), (Z.leb_spec x c), (Z.ltb_spec c (x + Z.of_nat 0)); cbn; auto; lia. Qed.
Lemma painted_cons m m' y x b l : painted (upd m y x b) m' y (x + 1) l -> painted m m' y x (b :: l).
Proof.
  intros H p c. rewrite (H p c). cbn [length]. unfold upd. destruct (Z.eqb_spec p y) as [->|]; [|reflexivity]. cbn [andb].
  destruct (Z.eqb_spec c x) as [->|N].
  - destruct (Z.leb_spec (x + 1) x); [lia|]. destruct (Z.leb_spec x x); [|lia]. destruct (Z.ltb_spec x (x + Z.of_nat (Datatypes.S (length l)))); [|lia]. cbn [andb]. rewrite Z.sub_diag. reflexivity.
  - destruct (Z.leb_spec (x + 1) c), (Z.leb_spec x c); try lia; cbn [andb].
    destruct (Z.ltb_spec c (x + 1 + Z.of_nat (length l))), (Z.ltb_spec c (x + Z.of_nat (Datatypes.S (length l)))); try lia.
    all: try (replace (Z.to_nat (c - x)) with (Datatypes.S (Z.to_nat (c - (x + 1)))) by lia); reflexivity.
Qed.
Lemma painted_app m m1 m2 y x l1 l2 : painted m m1 y x l1 -> painted m1 m2 y (x + Z.of_nat (length l1)) l2 -> painted m m2 y x (l1 ++ l2).
Proof.
  intros H1 H2 p c. rewrite (H2 p c), (H1 p c). rewrite app_length. destruct (p =? y); cbn [andb]; [|reflexivity].
  destruct (Z.leb_spec (x + Z.of_nat (length l1)) c), (Z.leb_spec x c); try lia; cbn [andb].
  - destruct (Z.ltb_spec c (x + Z.of_nat (length l1) + Z.of_nat (length l2))), (Z.ltb_spec c (x + Z.of_nat (length l1 + length l2))); try lia.
    + rewrite app_nth2 by lia. f_equal. lia.
    + destruct (Z.ltb_spec c (x + Z.of_nat (length l1))); [lia|reflexivity].
  - destruct (Z.ltb_spec c (x + Z.of_nat (length l1))); [|lia]. destruct (Z.ltb_spec c (x + Z.of_nat (length l1 + length l2))); [|lia]. rewrite app_nth1 by lia. reflexivity.
  - reflexivity.
Qed.

(** Bytes of data that fit behind the place *)
Lemma data_run past l : Forall is_byte l -> forall k x y, column k = x -> page k = y -> 0 <= x <= 131 -> 0 <= y < 8 -> x + Z.of_nat (length l) <= 132 ->
  exists k', transfers (uc1701 past) (mkLcd true true k) l = Some (mkLcd true true k') /\ painted (pixels k) (pixels k') y x l /\ settings k k' /\ page k' = y /\
    column k' = if x + Z.of_nat (length l) <? 132 then x + Z.of_nat (length l) else past.
Proof.
  induction 1 as [|b l B F IH]; intros k x y Cx Py Bx By L.
  - exists k. split; [reflexivity|]. split; [apply painted_nil|]. split; [apply settings_refl|]. split; [exact Py|]. cbn [length]. destruct (Z.ltb_spec (x + Z.of_nat 0) 132); lia.
  - cbn [transfers]. unfold transfer. cbn [enabled cd world]. rewrite u8_id by exact B. change (uc1701 past k true b) with (datum past k b). set (k1 := datum past k b).
    assert (P1 : pixels k1 = upd (pixels k) y x b). { unfold k1, datum. cbn [pixels]. rewrite Cx, Py. destruct (Z.leb_spec x 131), (Z.leb_spec y 8); try lia. reflexivity. }
    assert (S1 : settings k k1) by (repeat split). assert (Q1 : page k1 = y) by (exact Py).
    assert (C1 : column k1 = if x <? 131 then x + 1 else past) by (unfold k1, datum; cbn [column]; rewrite Cx; reflexivity).
    cbn [length] in *. destruct l as [|b' l'].
    + exists k1. split; [reflexivity|]. split; [apply painted_cons; rewrite <- P1; apply painted_nil|]. split; [exact S1|]. split; [exact Q1|]. cbn [length]. rewrite C1. destruct (Z.ltb_spec x 131), (Z.ltb_spec (x + Z.of_nat 1) 132); lia.
    + assert (X : x < 131) by (cbn [length] in L; lia). destruct (Z.ltb_spec x 131); [|lia].
      destruct (IH k1 (x + 1) y C1 Q1 ltac:(lia) By ltac:(lia)) as (k' & E & P & St & Pg & Cl). exists k'. split; [exact E|]. split; [apply painted_cons; rewrite <- P1; exact P|].
      split; [exact (settings_trans _ _ _ S1 St)|]. split; [exact Pg|]. rewrite Cl. replace (x + 1 + Z.of_nat (length (b' :: l'))) with (x + Z.of_nat (Datatypes.S (length (b' :: l')))) by lia. reflexivity.
Qed.

Lemma low_bits x : u8 (Z.lor CMD_COL_ADDR_LSB (Z.land x 15)) = x mod 16.
Proof. change CMD_COL_ADDR_LSB with 0. rewrite Z.lor_0_l. change 15 with (Z.ones 4). rewrite Z.land_ones by lia. change (2 ^ 4) with 16. apply u8_id. unfold is_byte. pose proof (Z.mod_pos_bound x 16). lia. Qed.
Lemma high_bits x : u8 (Z.lor CMD_COL_ADDR_MSB (Z.land (Z.shiftr x 4) 15)) = 16 + (x / 16) mod 16.
Proof.
  rewrite Z.shiftr_div_pow2 by lia. change (2 ^ 4) with 16. change 15 with (Z.ones 4). rewrite Z.land_ones by lia. change (2 ^ 4) with 16.
  pose proof (Z.mod_pos_bound (x / 16) 16 ltac:(lia)) as B. revert B. generalize ((x / 16) mod 16). intros v V.
  assert (A : forall v, is_byte v -> implb (v <? 16) (u8 (Z.lor CMD_COL_ADDR_MSB v) =? 16 + v) = true) by (apply byte_forall; vm_compute; reflexivity).
  specialize (A v ltac:(unfold is_byte; lia)). destruct (Z.ltb_spec v 16); [|lia]. apply Z.eqb_eq. exact A.
Qed.
Lemma page_bits y : u8 (Z.lor CMD_PAGE_ADDR (Z.land y 7)) = 0xb0 + y mod 8.
Proof.
  change 7 with (Z.ones 3). rewrite Z.land_ones by lia. change (2 ^ 3) with 8. pose proof (Z.mod_pos_bound y 8 ltac:(lia)) as B. revert B. generalize (y mod 8). intros v V.
  assert (A : forall v, is_byte v -> implb (v <? 8) (u8 (Z.lor CMD_PAGE_ADDR v) =? 0xb0 + v) = true) by (apply byte_forall; vm_compute; reflexivity).
  specialize (A v ltac:(unfold is_byte; lia)). destruct (Z.ltb_spec v 8); [|lia]. apply Z.eqb_eq. exact A.
Qed.

Lemma cmd_low k b : operand k = None -> 0 <= b < 16 -> command k b = mkCtrl (pixels k) (column k / 16 * 16 + b) (page k) (inverted k) (shown k) (allOn k) (power k) (contrast k) (firstLine k) None.
Proof. intros O B. unfold command. rewrite O. destruct (Z.ltb_spec b 0x10); [reflexivity|lia]. Qed.
Lemma cmd_high k b : operand k = None -> 16 <= b < 32 -> command k b = mkCtrl (pixels k) ((b - 0x10) * 16 + column k mod 16) (page k) (inverted k) (shown k) (allOn k) (power k) (contrast k) (firstLine k) None.
Proof. intros O B. unfold command. rewrite O. destruct (Z.ltb_spec b 0x10); [lia|]. destruct (Z.ltb_spec b 0x20); [reflexivity|lia]. Qed.
Lemma cmd_page k b : operand k = None -> 0xb0 <= b < 0xc0 -> command k b = mkCtrl (pixels k) (column k) (b - 0xb0) (inverted k) (shown k) (allOn k) (power k) (contrast k) (firstLine k) None.
Proof.
  intros O B. unfold command. rewrite O.
  repeat match goal with |- context [Z.ltb ?a ?c] => destruct (Z.ltb_spec a c); try lia | |- context [Z.leb ?a ?c] => destruct (Z.leb_spec a c); try lia | |- context [Z.eqb ?a ?c] => destruct (Z.eqb_spec a c); try lia end.
  all: reflexivity.
Qed.
Lemma pos_run past l x y : enabled l = true -> operand (world l) = None ->
  exists k', pos (uc1701 past) l x y = Some (mkLcd false true k') /\ pixels k' = pixels (world l) /\ settings (world l) k' /\ at_place k' (x mod 256) (y mod 8).
Proof.
  intros En O. unfold pos. cbn [transfers]. unfold transfer, level. cbn [enabled cd world]. rewrite En, low_bits, high_bits, page_bits. unfold uc1701. set (k := world l) in *.
  pose proof (Z.mod_pos_bound x 16 ltac:(lia)). pose proof (Z.mod_pos_bound (x / 16) 16 ltac:(lia)). pose proof (Z.mod_pos_bound y 8 ltac:(lia)).
  cbn [enabled cd world]. cbv iota beta. rewrite (cmd_low k (x mod 16)) by (auto; lia). rewrite (cmd_high _ (16 + (x / 16) mod 16)) by (cbn [operand]; auto; lia). rewrite (cmd_page _ (0xb0 + y mod 8)) by (cbn [operand]; auto; lia). cbn [pixels column page inverted shown allOn power contrast firstLine operand].
  eexists. split; [reflexivity|]. cbn. split; [reflexivity|]. split; [unfold settings; cbn; rewrite O; repeat split|]. split; cbn; [|lia].
  clear. rewrite (Z.mul_comm (column k / 16)), <- (Z.add_comm (x mod 16)), (Z.mul_comm 16 (column k / 16)), Z.mod_add, Z.mod_mod by lia. Z.div_mod_to_equations. lia.
Qed.

(** A font whose table is complete; what it shows for the character c; the characters it has *)
Definition good_font (f : Font) : Prop := 0 <= numChars f /\ Z.of_nat (length (data f)) = numChars f * Z.of_nat (charWidth f) /\ Forall is_byte (data f).
Definition picture (f : Font) (c : Z) : list Z := firstn (charWidth f) (skipn (Z.to_nat (c - firstChar f) * charWidth f) (data f)).
Definition has (f : Font) (c : Z) : bool := (firstChar f <=? c) && (c <? firstChar f + numChars f).

Lemma glyph_transfers {S} (panel : S -> bool -> Z -> S) f i : forall idx l, (idx + i <= length (data f))%nat -> glyph panel f l idx i = transfers panel l (firstn i (skipn idx (data f))).
Proof.
  induction i as [|i IH]; intros idx l L; [reflexivity|]. cbn [glyph]. destruct (nth_error (data f) idx) as [b|] eqn:E; [|apply nth_error_None in E; lia].
  assert (K : skipn idx (data f) = b :: skipn (idx + 1) (data f)).
  { clear - E. revert idx E. induction (data f) as [|a d IHd]; intros [|n] E; cbn in *; try discriminate; [congruence|]. rewrite (IHd n E). reflexivity. }
  rewrite K. cbn [firstn transfers]. destruct (transfer panel l b); [|reflexivity]. apply IH. lia.
Qed.
Lemma picture_length f c : good_font f -> has f c = true -> length (picture f c) = charWidth f.
Proof.
  intros (N & L & _) H. unfold has in H. apply andb_true_iff in H. destruct H as [H1 H2]. apply Z.leb_le in H1. apply Z.ltb_lt in H2. unfold picture. rewrite firstn_length, skipn_length.
  assert (Z.of_nat (length (data f)) >= (c - firstChar f + 1) * Z.of_nat (charWidth f)) by nia. nia.
Qed.
Lemma firstn_Forall {A} (P : A -> Prop) n l : Forall P l -> Forall P (firstn n l).
Proof. intros H. revert n. induction H; intros [|n]; cbn; constructor; auto. Qed.
Lemma skipn_Forall {A} (P : A -> Prop) n l : Forall P l -> Forall P (skipn n l).
Proof. intros H. revert n. induction H; intros [|n]; cbn; auto. Qed.
Lemma picture_bytes f c : good_font f -> Forall is_byte (picture f c).
Proof. intros (_ & _ & B). apply firstn_Forall, skipn_Forall, B. Qed.
Lemma write_known {S} (panel : S -> bool -> Z -> S) f l c : good_font f -> has f c = true -> write panel f l c = match transfers panel (level l true) (picture f c) with Some l => Some (l, 1) | None => None end.
Proof.
  intros G H. pose proof H as H0. destruct G as (N & L & B). unfold has in H. apply andb_true_iff in H. destruct H as [H1 H2]. apply Z.leb_le in H1. apply Z.ltb_lt in H2.
  unfold write. destruct (Z.ltb_spec (c - firstChar f) 0); [lia|]. destruct (c - firstChar f >=? numChars f) eqn:E; [rewrite Z.geb_le in E; lia|]. cbn [orb]. rewrite glyph_transfers; [reflexivity|].
  assert (Z.of_nat (length (data f)) >= (c - firstChar f + 1) * Z.of_nat (charWidth f)) by nia. nia.
Qed.
Lemma write_unknown {S} (panel : S -> bool -> Z -> S) f l c : has f c = false -> write panel f l c = Some (l, 0).
Proof.
  intros H. unfold write. unfold has in H. destruct (Z.leb_spec (firstChar f) c), (Z.ltb_spec c (firstChar f + numChars f)); try discriminate H.
  - destruct (c - firstChar f >=? numChars f) eqn:E; [rewrite orb_true_r; reflexivity|]. exfalso. assert (~ numChars f <= c - firstChar f) by (intros C; apply Z.geb_le in C; congruence). lia.
  - destruct (Z.ltb_spec (c - firstChar f) 0); [reflexivity|lia].
  - destruct (Z.ltb_spec (c - firstChar f) 0); [reflexivity|lia].
Qed.
(** everything a text shows *)
Definition shows (f : Font) (chars : list Z) : list Z := flat_map (picture f) (filter (has f) chars).
Lemma write_text past f y : good_font f -> 0 <= y < 8 -> forall chars l x, enabled l = true -> at_place (world l) x y -> 0 <= x -> x + Z.of_nat (length (shows f chars)) <= 131 ->
  exists l', writeAll (uc1701 past) f l chars = Some (l', Z.of_nat (length (filter (has f) chars))) /\ enabled l' = true /\ painted (pixels (world l)) (pixels (world l')) y x (shows f chars) /\
    settings (world l) (world l') /\ at_place (world l') (x + Z.of_nat (length (shows f chars))) y.
Proof.
  intros G By chars. induction chars as [|c chars IH]; intros l x En Pl X L.
  - exists l. split; [reflexivity|]. split; [exact En|]. split; [apply painted_nil|]. split; [apply settings_refl|]. cbn. rewrite Z.add_0_r. exact Pl.
  - cbn [writeAll]. unfold shows in *. cbn [filter] in *. destruct (has f c) eqn:Hc.
    + cbn [flat_map] in *. rewrite app_length in L. rewrite (write_known _ f l c G Hc). unfold level. rewrite En. destruct Pl as [Pc Pp].
      destruct (data_run past (picture f c) (picture_bytes f c G) (world l) x y Pc Pp ltac:(lia) By ltac:(lia)) as (k & E & P & St & Pg & Cl). rewrite E.
      destruct (Z.ltb_spec (x + Z.of_nat (length (picture f c))) 132) as [_|]; [|lia].
      destruct (IH (mkLcd true true k) (x + Z.of_nat (length (picture f c))) eq_refl (conj Cl Pg) ltac:(lia) ltac:(lia)) as (l' & E' & En' & P' & St' & Pl'). rewrite E'.
      exists l'. split; [f_equal; f_equal; cbn [length]; lia|]. split; [exact En'|]. split; [exact (painted_app _ _ _ _ _ _ _ P P')|]. split; [exact (settings_trans _ _ _ St St')|].
      rewrite app_length. replace (x + Z.of_nat (length (picture f c) + length (flat_map (picture f) (filter (has f) chars)))) with (x + Z.of_nat (length (picture f c)) + Z.of_nat (length (flat_map (picture f) (filter (has f) chars)))) by lia. exact Pl'.
    + rewrite (write_unknown _ f l c Hc). destruct (IH l x En Pl X L) as (l' & E' & R). rewrite E'. exists l'. split; [reflexivity|]. exact R.
Qed.

Lemma rows_run past n : forall y l, enabled l = true -> operand (world l) = None -> (y + n <= 8)%nat ->
  exists l', rows (uc1701 past) l y n = Some l' /\ enabled l' = true /\ settings (world l) (world l') /\
    forall p c, pixels (world l') p c = if (Z.of_nat y <=? p) && (p <? Z.of_nat y + Z.of_nat n) && (0 <=? c) && (c <? 102) then 0 else pixels (world l) p c.
Proof.
  induction n as [|n IH]; intros y l En O L.
  - exists l. split; [reflexivity|]. split; [exact En|]. split; [apply settings_refl|]. intros p c. destruct (Z.leb_spec (Z.of_nat y) p), (Z.ltb_spec p (Z.of_nat y + Z.of_nat 0)); try lia; reflexivity.
  - cbn [rows]. destruct (pos_run past l 0 (Z.of_nat y) En O) as (k1 & E1 & P1 & S1 & C1 & G1). rewrite E1. unfold level. cbn [enabled world].
    rewrite Z.mod_small in G1 by lia. change (0 mod 256) with 0 in C1.
    destruct (data_run past (repeat 0 DISPLAY_WIDTH)) with (k := k1) (x := 0) (y := Z.of_nat y) as (k2 & E2 & P2 & S2 & G2 & C2); auto; try lia.
    { apply Forall_forall. intros v V. apply repeat_spec in V. subst v. unfold is_byte. lia. }
    { rewrite repeat_length. unfold DISPLAY_WIDTH. lia. }
    rewrite E2. assert (O2 : operand k2 = None) by (destruct S1 as (_ & _ & _ & _ & _ & _ & A), S2 as (_ & _ & _ & _ & _ & _ & B); congruence).
    destruct (IH (y + 1)%nat (mkLcd true true k2) eq_refl O2 ltac:(lia)) as (l' & E3 & En3 & S3 & P3). exists l'. split; [exact E3|]. split; [exact En3|].
    split; [exact (settings_trans _ _ _ (settings_trans _ _ _ S1 S2) S3)|]. intros p c. rewrite P3. cbn [world]. rewrite (P2 p c), P1. rewrite repeat_length. change (Z.of_nat DISPLAY_WIDTH) with 102.
    assert (R : forall m, nth m (repeat 0 DISPLAY_WIDTH) 0 = 0) by (intros m; apply nth_repeat). rewrite R.
    destruct (Z.leb_spec (Z.of_nat (y + 1)) p), (Z.leb_spec (Z.of_nat y) p), (Z.ltb_spec p (Z.of_nat (y + 1) + Z.of_nat n)), (Z.ltb_spec p (Z.of_nat y + Z.of_nat (Datatypes.S n))), (Z.eqb_spec p (Z.of_nat y)); try lia; cbn [andb]; try reflexivity.
    all: destruct (0 <=? c); cbn [andb]; try reflexivity; destruct (Z.ltb_spec c 102), (Z.ltb_spec c (0 + 102)); try lia; reflexivity.
Qed.
Lemma data_page past l : forall k y, page k = y -> exists k', transfers (uc1701 past) (mkLcd true true k) l = Some (mkLcd true true k') /\ settings k k' /\ page k' = y /\ forall p c, p <> y -> pixels k' p c = pixels k p c.
Proof.
  induction l as [|b l IH]; intros k y Py; [exists k; split; [reflexivity|]; split; [apply settings_refl|]; split; auto|]. cbn [transfers]. unfold transfer. cbn [enabled cd world]. change (uc1701 past k true (u8 b)) with (datum past k (u8 b)).
  destruct (IH (datum past k (u8 b)) y Py) as (k' & E & St & Pg & P). exists k'. split; [exact E|]. split; [exact (settings_trans k (datum past k (u8 b)) k' ltac:(repeat split) St)|]. split; [exact Pg|].
  intros p c N. rewrite (P p c N). unfold datum. cbn [pixels]. destruct (_ && _); [|reflexivity]. unfold upd. rewrite Py. destruct (Z.eqb_spec p y); [contradiction|reflexivity].
Qed.
