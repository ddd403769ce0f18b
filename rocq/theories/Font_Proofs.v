From Verif Require Export Font_Spec U8gRect_Proofs.

Lemma nth_error_at (pre e rest : list Z) k : (k < length e)%nat -> nth_error (pre ++ e ++ rest) (length pre + k) = nth_error e k.
Proof. intros H. rewrite nth_error_app2 by lia. replace (length pre + k - length pre)%nat with k by lia. apply nth_error_app1. exact H. Qed.

Definition size_of (fmt : Z) : nat := if fmt =? 1 then 3%nat else 6%nat.
Definition mask_of (fmt : Z) : Z := if fmt =? 1 then 15 else 255.
Lemma land_15 a b : 0 <= a -> 0 <= b <= 15 -> Z.land (16 * a + b) 15 = b.
Proof. intros A B. change 15 with (Z.ones 4). rewrite Z.land_ones by lia. change (2 ^ 4) with 16. rewrite Z.add_comm, Z.mul_comm, Z.mod_add by lia. apply Z.mod_small. lia. Qed.
Lemma shr_4 a b : 0 <= a -> 0 <= b <= 15 -> Z.shiftr (16 * a + b) 4 = a.
Proof. intros A B. rewrite Z.shiftr_div_pow2 by lia. change (2 ^ 4) with 16. symmetry. apply (Z.div_unique _ 16 a b); lia. Qed.
Lemma land_255 a : 0 <= a <= 255 -> Z.land a 255 = a.
Proof. intros A. change 255 with (Z.ones 8). rewrite Z.land_ones by lia. apply Z.mod_small. change (2 ^ 8) with 256. lia. Qed.

(** First byte, length byte and length of an entry *)
Lemma entry_some fmt g : 0 <= fmt <= 2 -> glyph_ok fmt g -> exists a b d tl, entry fmt (Some g) = a :: b :: d :: tl /\ a <> 255
  /\ length (entry fmt (Some g)) = (Z.to_nat (Z.land d (mask_of fmt)) + size_of fmt)%nat.
Proof.
  intros B [_ K]. unfold entry, mask_of, size_of. destruct (fmt =? 1).
  - destruct K as (W & H & D & X & Y & N & L). eexists _, _, _, _. split; [reflexivity|]. split; [lia|]. rewrite land_15 by lia. rewrite Nat2Z.id. cbn [app length]. lia.
  - destruct K as (W & H & D & X & Y & L). eexists _, _, _, _. split; [reflexivity|]. split; [lia|]. rewrite land_255 by lia. rewrite Nat2Z.id. cbn [app length]. lia.
Qed.

Definition found (fmt : Z) (gl : list (option glyph)) (req i : Z) (p : nat) : option nat :=
  if req <? i then None else match nth (Z.to_nat (req - i)) gl None with Some _ => Some (p + length (concat (map (entry fmt) (firstn (Z.to_nat (req - i)) gl))))%nat | None => None end.
Lemma found_next fmt e gl req i p : i <> req -> found fmt gl req (i + 1) (p + length (entry fmt e)) = found fmt (e :: gl) req i p.
Proof.
  intros N. unfold found. destruct (Z.ltb_spec req (i + 1)), (Z.ltb_spec req i); try lia; [reflexivity|].
  replace (Z.to_nat (req - i)) with (S (Z.to_nat (req - (i + 1)))) by lia. cbn [nth firstn map concat]. destruct (nth _ gl None); [|reflexivity]. f_equal. rewrite app_length. lia.
Qed.

Lemma glyphLoop_spec fmt req rest : 0 <= fmt <= 2 -> forall gl pre i font p, gl <> [] -> font = pre ++ concat (map (entry fmt) gl) ++ rest -> p = length pre ->
  (forall g, In (Some g) gl -> glyph_ok fmt g) -> 0 <= i -> i + Z.of_nat (length gl) <= 256 ->
  glyphLoop (length gl - 1) font (mask_of fmt) (size_of fmt) req p i = Some (found fmt gl req i p).
Proof.
  intros B. induction gl as [|e gl IH]; intros pre i font p NE EF EP OK I0 I1; [congruence|]. clear NE.
  replace (length (e :: gl) - 1)%nat with (length gl) by (cbn [length]; lia).
  assert (NX : forall j, j = (p + length (entry fmt e))%nat -> gl <> [] -> glyphLoop (length gl - 1) font (mask_of fmt) (size_of fmt) req j (u8 (i + 1)) = Some (found fmt gl req (i + 1) j)).
  { intros j -> NE. rewrite u8_small by (cbn [length] in I1; destruct gl; [congruence|cbn [length] in I1; lia]).
    apply (IH (pre ++ entry fmt e)); auto; try lia.
    - rewrite EF. cbn [map concat]. rewrite <- !app_assoc. reflexivity.
    - rewrite app_length. lia.
    - intros g G. apply OK. right. exact G.
    - cbn [length] in I1. lia. }
  assert (EF' : font = pre ++ entry fmt e ++ (concat (map (entry fmt) gl) ++ rest)) by (rewrite EF; cbn [map concat]; rewrite <- !app_assoc; reflexivity).
  assert (FIN : gl = [] -> i <> req -> found fmt (e :: gl) req i p = None).
  { intros -> N. unfold found. destruct (Z.ltb_spec req i); [reflexivity|]. replace (Z.to_nat (req - i)) with (S (Z.to_nat (req - i) - 1)) by lia. cbn [nth]. destruct (Z.to_nat (req - i) - 1)%nat; reflexivity. }
  destruct e as [g|].
  - destruct (entry_some fmt g B (OK g (or_introl eq_refl))) as (a & b & d & t & E & A & L).
    assert (G0 : get_byte font p = Some a).
    { unfold get_byte. rewrite EF', EP. replace (length pre) with (length pre + 0)%nat by lia. rewrite nth_error_at by (rewrite E; cbn [length]; lia). rewrite E. reflexivity. }
    assert (G2 : get_byte font (p + 2) = Some d).
    { unfold get_byte. rewrite EF', EP. rewrite nth_error_at by (rewrite E; cbn [length]; lia). rewrite E. reflexivity. }
    assert (STEP : forall n, glyphLoop n font (mask_of fmt) (size_of fmt) req p i = if i =? req then Some (Some p) else
      match n with O => Some None | S n => glyphLoop n font (mask_of fmt) (size_of fmt) req (p + Z.to_nat (Z.land d (mask_of fmt)) + size_of fmt)%nat (u8 (i + 1)) end).
    { intros [|n]; cbn [glyphLoop]; rewrite G0, G2; rewrite (proj2 (Z.eqb_neq a 255) A); reflexivity. }
    rewrite STEP. destruct (Z.eqb_spec i req) as [->|N].
    + unfold found. destruct (Z.ltb_spec req req); [lia|]. replace (Z.to_nat (req - req)) with 0%nat by lia. cbn [nth firstn map concat length]. f_equal. f_equal. lia.
    + destruct gl as [|e' gl']; [cbn [length]; rewrite FIN by auto; reflexivity|]. cbn [length]. specialize (NX (p + Z.to_nat (Z.land d (mask_of fmt)) + size_of fmt)%nat ltac:(lia) ltac:(discriminate)).
      cbn [length] in NX. replace (S (length gl') - 1)%nat with (length gl') in NX by lia. rewrite NX. f_equal. rewrite <- (found_next fmt (Some g)) by exact N. f_equal. lia.
  - assert (G0 : get_byte font p = Some 255).
    { unfold get_byte. rewrite EF', EP. replace (length pre) with (length pre + 0)%nat by lia. rewrite nth_error_at by (cbn; lia). reflexivity. }
    assert (STEP : forall n, glyphLoop n font (mask_of fmt) (size_of fmt) req p i = match n with O => Some None | S n => glyphLoop n font (mask_of fmt) (size_of fmt) req (p + 1)%nat (u8 (i + 1)) end).
    { intros [|n]; cbn [glyphLoop]; rewrite G0; reflexivity. }
    rewrite STEP. assert (EQ : i = req -> found fmt (None :: gl) req i p = None).
    { intros ->. unfold found. destruct (req <? req); [reflexivity|]. replace (Z.to_nat (req - req)) with 0%nat by lia. reflexivity. }
    destruct gl as [|e' gl']; [cbn [length]; destruct (Z.eq_dec i req); [rewrite EQ|rewrite FIN]; auto|]. cbn [length]. specialize (NX (p + 1)%nat ltac:(cbn [entry length]; lia) ltac:(discriminate)).
    cbn [length] in NX. replace (S (length gl') - 1)%nat with (length gl') in NX by lia. rewrite NX. f_equal. destruct (Z.eq_dec i req) as [E|N].
    + rewrite EQ by exact E. unfold found. destruct (Z.ltb_spec req (i + 1)); [reflexivity|lia].
    + rewrite <- (found_next fmt None) by exact N. reflexivity.
Qed.

Lemma nth_split_some {A} (l : list (option A)) k g : nth k l None = Some g -> l = firstn k l ++ Some g :: skipn (S k) l.
Proof. revert k. induction l as [|e l IH]; intros [|k] E; cbn in *; try discriminate; [congruence|]. f_equal. apply IH. exact E. Qed.
Lemma glyph_of_in F ch g : glyph_of F ch = Some g -> In (Some g) (f_glyphs F).
Proof. unfold glyph_of. destruct (ch <? f_start F); [discriminate|]. intros E. rewrite (nth_split_some _ _ _ E). apply in_or_app. right. left. reflexivity. Qed.

(** The entry of a glyph in the file *)
Lemma font_at fmt F font ch g : is_font fmt F font -> glyph_of F ch = Some g -> exists pre post, font = pre ++ entry fmt (Some g) ++ post /\ length pre = entry_pos fmt F ch.
Proof.
  intros (hd & rest & E & L & _) G. unfold glyph_of in G. destruct (ch <? f_start F); [discriminate|]. unfold entry_pos. set (k := Z.to_nat (ch - f_start F)) in *.
  exists (hd ++ concat (map (entry fmt) (firstn k (f_glyphs F)))), (concat (map (entry fmt) (skipn (S k) (f_glyphs F))) ++ rest). split; [|rewrite app_length; lia].
  rewrite E. rewrite (nth_split_some _ _ _ G) at 1. rewrite map_app, concat_app. cbn [map concat]. rewrite <- !app_assoc. reflexivity.
Qed.

Lemma s8_mod v : -128 <= v <= 127 -> s8 (v mod 256) = v.
Proof. intros V. unfold s8. rewrite u8_mod, Z.mod_mod by lia. destruct (Z.ltb_spec (v mod 256) 128); Z.div_mod_to_equations; lia. Qed.
Lemma s8_small v : -128 <= v <= 127 -> s8 v = v.
Proof. intros V. unfold s8. rewrite u8_mod. destruct (Z.ltb_spec (v mod 256) 128); Z.div_mod_to_equations; lia. Qed.
Definition cache_of (g : glyph) : cache := mkCache (g_dx g) (g_x g) (g_y g) (g_w g) (g_h g).
Lemma Copy_spec fmt g pre post : 0 <= fmt <= 2 -> glyph_ok fmt g -> CopyGlyphDataToCache (pre ++ entry fmt (Some g) ++ post) fmt (length pre) = Some (cache_of g).
Proof.
  intros B K. unfold CopyGlyphDataToCache, get_byte, cache_of.
  destruct (Z.eqb_spec fmt 1) as [E|E].
  - subst fmt. change ((1 =? 0) || (1 =? 2)) with false. cbv match. destruct K as [_ (W & H & D & X & Y & N & L)].
    assert (EN : entry 1 (Some g) = [16 * g_x g + (g_y g + 2); 16 * g_w g + g_h g; 16 * g_dx g + Z.of_nat (length (g_data g))] ++ g_data g) by reflexivity.
    rewrite EN. rewrite !nth_error_at by (cbn [app length]; lia). cbn [app nth_error].
    rewrite !shr_4, !land_15 by lia. rewrite !s8_small by lia. f_equal. f_equal; lia.
  - assert (T : (fmt =? 0) || (fmt =? 2) = true) by (destruct (Z.eqb_spec fmt 0), (Z.eqb_spec fmt 2); cbn; auto; lia). rewrite T.
    destruct K as [_ K]. rewrite (proj2 (Z.eqb_neq fmt 1) E) in K. destruct K as (W & H & D & X & Y & L).
    assert (EN : entry fmt (Some g) = [g_w g; g_h g; Z.of_nat (length (g_data g)); g_dx g mod 256; g_x g mod 256; g_y g mod 256] ++ g_data g) by (unfold entry; rewrite (proj2 (Z.eqb_neq fmt 1) E); reflexivity).
    rewrite EN. rewrite !nth_error_at by (cbn [app length]; lia). cbn [app nth_error]. rewrite !s8_mod by lia. reflexivity.
Qed.
Lemma size_eq fmt : 0 <= fmt <= 2 -> GlyphStructureSize fmt = size_of fmt.
Proof. intros B. unfold GlyphStructureSize, size_of. destruct (Z.eqb_spec fmt 0), (Z.eqb_spec fmt 1), (Z.eqb_spec fmt 2); subst; try reflexivity; lia. Qed.

Lemma get_hd hd rest i : (i < length hd)%nat -> get_byte (hd ++ rest) i = Some (rd hd i).
Proof. intros L. unfold get_byte, rd. rewrite nth_error_app1 by exact L. apply nth_error_nth'. exact L. Qed.
Lemma get_word_hd hd rest i : Forall is_byte hd -> (i + 1 < length hd)%nat -> get_word (hd ++ rest) i = Some (256 * rd hd i + rd hd (S i)).
Proof.
  intros F L. unfold get_word. rewrite !get_hd by lia. rewrite Nat.add_1_r. pose proof (rd_byte hd i F) as A. pose proof (rd_byte hd (S i) F) as B. unfold is_byte in *.
  f_equal. rewrite Z.shiftl_mul_pow2 by lia. change (2 ^ 8) with 256. unfold u16. rewrite !Z.mod_small; try lia; Z.div_mod_to_equations; lia.
Qed.

Lemma found_entry fmt F req : f_start F <= req -> found fmt (f_glyphs F) req (f_start F) 17 = match glyph_of F req with Some _ => Some (entry_pos fmt F req) | None => None end.
Proof. intros L. unfold found, glyph_of, entry_pos. destruct (Z.ltb_spec req (f_start F)); [lia|]. reflexivity. Qed.
Lemma skipn_found fmt F req s : f_start F <= s <= req -> found fmt (skipn (Z.to_nat (s - f_start F)) (f_glyphs F)) req s (entry_pos fmt F s) = found fmt (f_glyphs F) req (f_start F) 17.
Proof.
  intros L. unfold found, entry_pos. destruct (Z.ltb_spec req s), (Z.ltb_spec req (f_start F)); try lia.
  replace (Z.to_nat (req - f_start F)) with (Z.to_nat (s - f_start F) + Z.to_nat (req - s))%nat by lia. generalize (Z.to_nat (s - f_start F)) as n, (Z.to_nat (req - s)) as m. generalize (f_glyphs F) as l. clear.
  intros l n m. assert (E : nth m (skipn n l) None = nth (n + m) l None) by (revert l; induction n; intros [|e l]; cbn [skipn nth Nat.add]; auto; destruct m; reflexivity).
  rewrite E. destruct (nth (n + m) l None); [|reflexivity]. f_equal.
  assert (K : firstn (n + m) l = firstn n l ++ firstn m (skipn n l)) by (clear E; revert l; induction n; intros [|e l]; cbn [skipn firstn Nat.add app]; auto; [destruct m; reflexivity|f_equal; apply IHn]).
  rewrite K, map_app, concat_app, app_length. lia.
Qed.

Lemma GetGlyph_spec fmt F font req : is_font fmt F font -> is_byte req ->
  GetGlyph font req = Some (match glyph_of F req with Some g => (Some (entry_pos fmt F req), cache_of g) | None => (None, emptyCache) end).
Proof.
  intros IF R. pose proof IF as (hd & rest & E & L & FB0 & B & H0 & H10 & H11 & NE & S65 & S97 & OK). unfold is_byte in R.
  assert (FB : Forall is_byte hd) by (rewrite E in FB0; apply Forall_app in FB0; tauto).
  pose proof (rd_byte hd 10 FB) as B10. pose proof (rd_byte hd 11 FB) as B11. unfold is_byte in *. set (n := length (f_glyphs F)) in *.
  assert (N1 : (0 < n)%nat) by (unfold n; destruct (f_glyphs F); [congruence|cbn; lia]).
  assert (GB : forall i, (i < 17)%nat -> get_byte font i = Some (rd hd i)) by (intros i Hi; rewrite E; apply get_hd; lia).
  assert (GW : forall i, (i + 1 < 17)%nat -> get_word font i = Some (256 * rd hd i + rd hd (S i))) by (intros i Hi; rewrite E; apply get_word_hd; [exact FB|lia]).
  unfold GetGlyph. rewrite !GB, !GW by lia. rewrite H0, H10, H11.
  set (fin := f_start F + Z.of_nat n - 1) in *. rewrite size_eq by exact B. change (if fmt =? 1 then 15 else 255) with (mask_of fmt).
  assert (BIG : fin < req -> glyph_of F req = None).
  { intros K. unfold glyph_of. destruct (req <? f_start F); [reflexivity|]. apply nth_overflow. fold n. lia. }
  assert (MAIN : forall s p, (p = 17%nat /\ s = f_start F) \/ (f_start F <= s <= fin /\ s <= req /\ p = entry_pos fmt F s) ->
    (if fin <? req then Some (None, emptyCache) else if s <=? fin then
      match glyphLoop (Z.to_nat (fin - s)) font (mask_of fmt) (size_of fmt) req p s with
      | None => None | Some None => Some (None, emptyCache) | Some (Some p) => match CopyGlyphDataToCache font fmt p with None => None | Some c => Some (Some p, c) end end
     else Some (None, emptyCache)) = Some (match glyph_of F req with Some g => (Some (entry_pos fmt F req), cache_of g) | None => (None, emptyCache) end)).
  { intros s p SP. destruct (Z.ltb_spec fin req) as [K|K]; [rewrite BIG by exact K; reflexivity|].
    assert (SF : f_start F <= s <= fin) by (destruct SP as [[_ ->]|[? _]]; lia). destruct (Z.leb_spec s fin); [|lia].
    assert (LOOP : glyphLoop (Z.to_nat (fin - s)) font (mask_of fmt) (size_of fmt) req p s = Some (match glyph_of F req with Some _ => Some (entry_pos fmt F req) | None => None end)).
    { set (k := Z.to_nat (s - f_start F)). assert (SK : length (skipn k (f_glyphs F)) = (n - k)%nat) by (rewrite skipn_length; reflexivity).
      replace (Z.to_nat (fin - s)) with (length (skipn k (f_glyphs F)) - 1)%nat by (unfold k in *; lia).
      rewrite (glyphLoop_spec fmt req rest B (skipn k (f_glyphs F)) (hd ++ concat (map (entry fmt) (firstn k (f_glyphs F)))) s font p).
      - f_equal. destruct SP as [[-> ->]|(S1 & S2 & ->)].
        + unfold k. rewrite Z.sub_diag. cbn [Z.to_nat skipn]. destruct (Z.le_gt_cases (f_start F) req) as [Q|Q]; [apply found_entry; exact Q|].
          unfold found, glyph_of. destruct (Z.ltb_spec req (f_start F)); [reflexivity|lia].
        + unfold k. rewrite skipn_found by lia. apply found_entry. lia.
      - intros Z0. rewrite Z0 in SK. cbn [length] in SK. unfold k in SK. lia.
      - rewrite E. rewrite <- (firstn_skipn k (f_glyphs F)) at 1. rewrite map_app, concat_app, <- !app_assoc. reflexivity.
      - rewrite app_length, L. destruct SP as [[-> ->]|(S1 & S2 & ->)]; [|reflexivity]. unfold k. rewrite Z.sub_diag. reflexivity.
      - intros g G. apply OK. rewrite <- (firstn_skipn k (f_glyphs F)). apply in_or_app. right. exact G.
      - lia.
      - rewrite SK. unfold k. lia. }
    rewrite LOOP. destruct (glyph_of F req) as [g|] eqn:G; [|reflexivity].
    destruct (font_at fmt F font req g IF G) as (pre & post & E1 & E2). rewrite <- E2, E1, Copy_spec; auto. apply OK. apply (glyph_of_in F req). exact G. }
  assert (ZS : forall i ch, shortcut fmt F hd i ch -> 0 < 256 * rd hd i + rd hd (S i) -> ch <= req ->
    (f_start F <= ch <= fin /\ ch <= req /\ Z.to_nat (256 * rd hd i + rd hd (S i)) = entry_pos fmt F ch)).
  { intros i ch [Q|[Q1 Q2]] P C; [lia|]. fold n in Q1. rewrite Q2, Nat2Z.id. repeat split; lia. }
  destruct (Z.leb_spec 97 req) as [C97|C97]; cbn [andb].
  - destruct (Z.ltb_spec 0 (256 * rd hd 8 + rd hd 9)) as [P|P].
    + apply MAIN. right. apply (ZS 8%nat 97); auto.
    + destruct (Z.leb_spec 65 req) as [C65|C65]; [|lia]. cbn [andb]. destruct (Z.ltb_spec 0 (256 * rd hd 6 + rd hd 7)) as [P6|P6]; apply MAIN; [right; apply (ZS 6%nat 65); auto|left; auto].
  - destruct (Z.leb_spec 65 req) as [C65|C65]; cbn [andb]; [|apply MAIN; left; auto].
    destruct (Z.ltb_spec 0 (256 * rd hd 6 + rd hd 7)) as [P6|P6]; apply MAIN; [right; apply (ZS 6%nat 65); auto|left; auto].
Qed.

(** ** Drawing *)
Lemma bitmapLoop_draws c a b cnt h bm : box_ok c -> is_byte a -> is_byte b -> 0 <= cnt <= 31 -> is_byte h -> Forall is_byte bm ->
  draws c (bitmapLoop (Z.to_nat h) a b (Z.to_nat cnt) bm) (bitmap a b cnt h bm).
Proof.
  intros C A B N H F. unfold is_byte in H.
  pose proof (rows_spec (fun y bm => DrawHBitmap (Z.to_nat cnt) a y bm) (Z.to_nat cnt) (fun bm x => off x a < 8 * cnt /\ Z.testbit (rd bm (Z.to_nat (off x a / 8))) (7 - off x a mod 8) = true)
    (fun h y bm => bitmapLoop h a y (Z.to_nat cnt) bm) (fun _ _ => eq_refl) (fun _ _ _ => eq_refl)) as R.
  destruct (R) with (h := Z.to_nat h) (b := b) (bm := bm) as [G K]; auto; try lia.
  { intros b' bm' B' F'. destruct (hbitmap_spec (Z.to_nat cnt) a b' bm' ltac:(lia) A B' F') as [G K]. split; [exact G|]. intros x y X. rewrite K by auto. rewrite Z2Nat.id by lia. tauto. }
  split; [exact G|]. intros x y I. destruct (inside_bytes c x y C I) as [X Y]. rewrite K by auto. unfold bitmap, rect. rewrite rd_skipn.
  pose proof (off_range x a). pose proof (off_range y b). rewrite Z2Nat.id by lia.
  replace (Z.to_nat (off y b) * Z.to_nat cnt + Z.to_nat (off x a / 8))%nat with (Z.to_nat (off y b * cnt + off x a / 8)); [tauto|].
  rewrite Z2Nat.inj_add, Z2Nat.inj_mul; try lia; try apply Z.div_pos; nia.
Qed.
Lemma draws_ext c l (s s' : Z -> Z -> Prop) : (forall x y, s x y <-> s' x y) -> draws c l s -> draws c l s'.
Proof. intros E [F D]. split; [exact F|]. intros x y I. rewrite D by exact I. apply E. Qed.
Lemma draws_nil c (s : Z -> Z -> Prop) : (forall x y, ~ s x y) -> draws c [] s.
Proof. intros N. split; [constructor|]. intros x y _. rewrite covers_nil. split; [tauto|]. intros K. exact (N x y K). Qed.
Lemma draws_app c l l' (s s' : Z -> Z -> Prop) : draws c l s -> draws c l' s' -> draws c (l ++ l') (fun x y => s x y \/ s' x y).
Proof. intros [F D] [F' D']. split; [apply Forall_app; auto|]. intros x y I. rewrite covers_app, D, D' by exact I. tauto. Qed.
Lemma off_u8 x a : off x (u8 a) = (x - a) mod 256.
Proof. unfold off, u8. rewrite Zminus_mod_idemp_r. reflexivity. Qed.

Lemma glyph_bitmap fmt g post px py x y : glyph_ok fmt g -> 0 <= g_w g <= 248 -> 0 <= g_h g <= 255 ->
  bitmap (u8 (px + g_x g)) (u8 (py - g_y g - g_h g)) ((g_w g + 7) / 8) (g_h g) (g_data g ++ post) x y <-> glyph_dots g px py x y.
Proof.
  intros [(F & L & P) _] W H. unfold bitmap, rect, glyph_dots. rewrite !off_u8. set (col := (x - (px + g_x g)) mod 256). set (row := (y - (py - g_y g - g_h g)) mod 256).
  assert (C : 0 <= col < 256) by (apply Z.mod_pos_bound; lia). assert (R : 0 <= row < 256) by (apply Z.mod_pos_bound; lia). clearbody col row. set (cnt := (g_w g + 7) / 8) in *.
  assert (CN : g_w g <= 8 * cnt <= g_w g + 7) by (unfold cnt; Z.div_mod_to_equations; lia).
  assert (RD : col < 8 * cnt -> row < g_h g -> rd (g_data g ++ post) (Z.to_nat (row * cnt + col / 8)) = rd (g_data g) (Z.to_nat (row * cnt + col / 8))).
  { intros A B. unfold rd. rewrite app_nth1; [reflexivity|]. assert (col / 8 < cnt) by (apply Z.div_lt_upper_bound; lia). assert (0 <= col / 8) by (apply Z.div_pos; lia).
    assert (row * cnt + col / 8 < cnt * g_h g) by nia. lia. }
  split.
  - intros [[A B] T]. rewrite RD in T by auto. destruct (Z.lt_ge_cases col (g_w g)) as [Q|Q]; [tauto|]. rewrite P in T by lia. discriminate.
  - intros (A & B & T). rewrite RD by lia. repeat split; auto; lia.
Qed.
Lemma glyph_sizes fmt g : glyph_ok fmt g -> 0 <= g_w g <= 248 /\ 0 <= g_h g <= 255 /\ -128 <= g_dx g <= 127.
Proof. intros [_ K]. destruct (fmt =? 1); lia. Qed.

Lemma draw_glyph_spec fmt F font c px py ch : is_font fmt F font -> box_ok c -> is_byte ch ->
  exists l, draw_glyph c font px py ch = Some (l, match glyph_of F ch with Some g => g_dx g | None => 0 end)
  /\ draws c l (fun x y => exists g, glyph_of F ch = Some g /\ glyph_dots g px py x y).
Proof.
  intros IF C CH. unfold draw_glyph. rewrite (GetGlyph_spec fmt F font ch IF CH). pose proof IF as (hd & rest & E & L & FB & B & H0 & H10 & H11 & NE & S65 & S97 & OK).
  assert (G0 : get_byte font 0 = Some fmt) by (rewrite E, get_hd, H0 by lia; reflexivity). rewrite G0. destruct (glyph_of F ch) as [g|] eqn:G.
  2:{ exists []. split; [reflexivity|]. apply draws_nil. intros x y (g & K & _). discriminate. }
  assert (GO : glyph_ok fmt g) by (apply OK, (glyph_of_in F ch), G). destruct (glyph_sizes fmt g GO) as (W & H & _).
  cbn [cache_of glyph_x glyph_y glyph_dx glyph_width glyph_height].
  destruct (font_at fmt F font ch g IF G) as (pre & post & E1 & E2).
  assert (DT : skipn (entry_pos fmt F ch + GlyphStructureSize fmt) font = g_data g ++ post).
  { rewrite size_eq by exact B. rewrite E1, <- E2. rewrite skipn_app. replace (length pre + size_of fmt - length pre)%nat with (size_of fmt) by lia. rewrite skipn_all2 by lia. cbn [app].
    unfold entry, size_of. destruct (fmt =? 1); reflexivity. }
  rewrite DT. set (a := u8 (px + g_x g)).
  replace (u8 (u8 (u8 (u8 (py - g_y g) - 1) - g_h g) + 1)) with (u8 (py - g_y g - g_h g)) by (unfold u8; Z.div_mod_to_equations; lia).
  replace (u8 (u8 (u8 (py - g_y g) - 1) - g_h g + 1)) with (u8 (py - g_y g - g_h g)) by (unfold u8; Z.div_mod_to_equations; lia).
  rewrite (u8_small (g_w g + 7)) by lia. set (b := u8 (py - g_y g - g_h g)).
  set (l := bitmapLoop (Z.to_nat (g_h g)) a b (Z.to_nat ((g_w g + 7) / 8)) (g_data g ++ post)).
  assert (FD : Forall is_byte (g_data g ++ post)) by (rewrite <- DT; apply Forall_skipn_b; exact FB).
  assert (D : draws c l (fun x y => exists g', Some g = Some g' /\ glyph_dots g' px py x y)).
  { eapply draws_ext; [|apply bitmapLoop_draws; auto; try apply u8_byte; try (unfold is_byte; lia)].
    - intros x y. unfold a, b. rewrite (glyph_bitmap fmt g post px py x y GO W H). split; [intros K; exists g; auto|intros (g' & K & Q); congruence].
    - split; [apply Z.div_pos; lia|apply Z.lt_succ_r; apply Z.div_lt_upper_bound; lia]. }
  assert (IN : forall x y, (exists g', Some g = Some g' /\ glyph_dots g' px py x y) -> rect a b (g_w g) (g_h g) x y).
  { intros x y (g' & K & Q). injection K as <-. unfold glyph_dots in Q. unfold rect, a, b. rewrite !off_u8. tauto. }
  assert (DC : draws c (if negb (IsBBXIntersection c a b (g_w g) (g_h g)) then [] else l) (fun x y => exists g', Some g = Some g' /\ glyph_dots g' px py x y)).
  { destruct (Z.eq_dec (g_w g) 0) as [W0|W0]; [|destruct (Z.eq_dec (g_h g) 0) as [Hz|Hz]].
    - destruct (negb _); [|exact D]. apply draws_nil. intros x y K. apply IN in K. unfold rect in K. pose proof (off_range x a). lia.
    - destruct (negb _); [|exact D]. apply draws_nil. intros x y K. apply IN in K. unfold rect in K. pose proof (off_range y b). lia.
    - apply draws_clipped; auto; try apply u8_byte; lia. }
  destruct (negb (IsBBXIntersection c a b (g_w g) (g_h g))); eexists; (split; [reflexivity|exact DC]).
Qed.

Lemma glyph_dots_shift g px px' py py' x y : px mod 256 = px' mod 256 -> py mod 256 = py' mod 256 -> glyph_dots g px py x y <-> glyph_dots g px' py' x y.
Proof.
  intros E E'. unfold glyph_dots. replace ((x - (px' + g_x g)) mod 256) with ((x - (px + g_x g)) mod 256) by (Z.div_mod_to_equations; lia).
  replace ((y - (py' - g_y g - g_h g)) mod 256) with ((y - (py - g_y g - g_h g)) mod 256) by (Z.div_mod_to_equations; lia). tauto.
Qed.
Lemma mod_shift a b k : a mod 256 = b mod 256 -> (a + k) mod 256 = (b + k) mod 256.
Proof. intros E. rewrite (Z.add_mod a k), (Z.add_mod b k), E by lia. reflexivity. Qed.
Lemma text_dots_shift F s px px' py py' x y : px mod 256 = px' mod 256 -> py mod 256 = py' mod 256 -> text_dots F s px py x y <-> text_dots F s px' py' x y.
Proof.
  intros E E'. unfold text_dots. split; intros (a & ch & b & g & H1 & H2 & H3); exists a, ch, b, g; (split; [exact H1|]); (split; [exact H2|]); revert H3;
    apply glyph_dots_shift; auto; apply mod_shift; auto.
Qed.
Lemma text_dots_cons F ch s px py x y : text_dots F (ch :: s) px py x y <->
  (exists g, glyph_of F ch = Some g /\ glyph_dots g px py x y) \/ text_dots F s (px + match glyph_of F ch with Some g => g_dx g | None => 0 end) py x y.
Proof.
  unfold text_dots. split.
  - intros ([|e a] & ch' & b & g & H1 & H2 & H3); cbn [app] in H1; injection H1 as -> ->.
    + left. exists g. split; [exact H2|]. cbn [advance] in H3. rewrite Z.add_0_r in H3. exact H3.
    + right. exists a, ch', b, g. split; [reflexivity|]. split; [exact H2|]. cbn [advance] in H3. rewrite <- Z.add_assoc. exact H3.
  - intros [(g & H2 & H3)|(a & ch' & b & g & H1 & H2 & H3)].
    + exists [], ch, s, g. split; [reflexivity|]. split; [exact H2|]. cbn [advance]. rewrite Z.add_0_r. exact H3.
    + exists (ch :: a), ch', b, g. split; [rewrite H1; reflexivity|]. split; [exact H2|]. cbn [advance]. rewrite Z.add_assoc. exact H3.
Qed.

Lemma strLoop_spec fmt F font c py : is_font fmt F font -> box_ok c -> forall s px t, Forall is_byte s ->
  exists l, strLoop c font s px py t = Some (l, match s with [] => t | _ => u8 (t + advance F s) end) /\ draws c l (text_dots F s px py).
Proof.
  intros IF C. induction s as [|ch s IH]; intros px t FS; cbn [strLoop].
  - exists []. split; [reflexivity|]. apply draws_nil. intros x y (a & ch & b & g & K & _). destruct a; discriminate.
  - inversion FS as [|? ? CH FS']; subst. destruct (draw_glyph_spec fmt F font c px py ch IF C CH) as (l & E & D). rewrite E.
    set (d := match glyph_of F ch with Some g => g_dx g | None => 0 end) in *.
    destruct (IH (u8 (px + d)) (u8 (t + d)) FS') as (l' & E' & D'). rewrite E'. exists (l ++ l'). split.
    + f_equal. f_equal. cbn [advance]. fold d. destruct s; [cbn [advance]; f_equal; lia|]. rewrite u8_u8_add. f_equal. lia.
    + eapply draws_ext; [|apply draws_app; [exact D|exact D']]. intros x y. rewrite text_dots_cons. fold d.
      rewrite (text_dots_shift F s (u8 (px + d)) (px + d) py py x y); [tauto| |reflexivity]. unfold u8. apply Z.mod_mod. lia.
Qed.

(** ** Widths *)
Lemma GetGlyph_dx fmt F font ch : is_font fmt F font -> is_byte ch -> exists p k, GetGlyph font ch = Some (p, k) /\ glyph_dx k = match glyph_of F ch with Some g => g_dx g | None => 0 end
  /\ glyph_x k = match glyph_of F ch with Some g => g_x g | None => 0 end /\ glyph_width k = match glyph_of F ch with Some g => g_w g | None => 0 end.
Proof. intros IF CH. rewrite (GetGlyph_spec fmt F font ch IF CH). destruct (glyph_of F ch); eexists _, _; split; try reflexivity; auto. Qed.
Lemma widthLoop_spec fmt F font : is_font fmt F font -> forall s w, Forall is_byte s -> widthLoop font s w = Some (match s with [] => w | _ => u8 (w + advance F s) end).
Proof.
  intros IF. induction s as [|ch s IH]; intros w FS; cbn [widthLoop]; [reflexivity|]. inversion FS as [|? ? CH FS']; subst.
  destruct (GetGlyph_dx fmt F font ch IF CH) as (p & k & E & D & _). rewrite E, D. rewrite IH by exact FS'. f_equal. cbn [advance]. destruct s; [cbn [advance]; f_equal; lia|]. rewrite u8_u8_add. f_equal. lia.
Qed.
Lemma pixelLoop_spec fmt F font : is_font fmt F font -> forall s enc k w, is_byte enc -> Forall is_byte s ->
  (glyph_dx k = match glyph_of F enc with Some g => g_dx g | None => 0 end /\ glyph_x k = match glyph_of F enc with Some g => g_x g | None => 0 end
   /\ glyph_width k = match glyph_of F enc with Some g => g_w g | None => 0 end) ->
  pixelLoop font enc k s w = Some (u8 (w + right_edge F (enc :: s))).
Proof.
  intros IF. induction s as [|ch s IH]; intros enc k w EN FS (D & X & W); cbn [pixelLoop].
  - unfold right_edge. cbn [removelast last advance]. rewrite D, X, W. f_equal. destruct (glyph_of F enc); destruct (enc =? 32); cbn [negb]; rewrite ?u8_u8_add; f_equal; lia.
  - inversion FS as [|? ? CH FS']; subst. destruct (GetGlyph_dx fmt F font ch IF CH) as (p & k' & E & Q). rewrite E. rewrite IH by auto. f_equal. rewrite u8_u8_add. f_equal. rewrite D.
    unfold right_edge. cbn [removelast last advance]. destruct s; lia.
Qed.

(** ** One colour *)
Lemma covers_dec l x y : covers l x y \/ ~ covers l x y.
Proof.
  induction l as [|m l IH]; [right; rewrite covers_nil; tauto|]. rewrite covers_cons. destruct (on_dec m x y); [left; tauto|]. destruct IH; [left; tauto|right; tauto].
Qed.
