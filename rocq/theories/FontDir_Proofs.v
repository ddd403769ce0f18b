From Verif Require Export FontDir_Spec Font_Proofs.

Lemma glyph_dots_eq g px py x y px' py' x' y' : (x - px) mod 256 = (x' - px') mod 256 -> (y - py) mod 256 = (y' - py') mod 256 -> glyph_dots g px py x y <-> glyph_dots g px' py' x' y'.
Proof.
  intros E E'. unfold glyph_dots. replace (x - (px + g_x g)) with ((x - px) + - g_x g) by lia. replace (x' - (px' + g_x g)) with ((x' - px') + - g_x g) by lia.
  replace (y - (py - g_y g - g_h g)) with ((y - py) + (g_y g + g_h g)) by lia. replace (y' - (py' - g_y g - g_h g)) with ((y' - py') + (g_y g + g_h g)) by lia.
  rewrite (mod_shift _ _ (- g_x g) E), (mod_shift _ _ (g_y g + g_h g) E'). tauto.
Qed.
Lemma text_dots_eq F s px py x y px' py' x' y' : (x - px) mod 256 = (x' - px') mod 256 -> (y - py) mod 256 = (y' - py') mod 256 -> text_dots F s px py x y <-> text_dots F s px' py' x' y'.
Proof.
  intros E E'. unfold text_dots. split; intros (a & ch & b & g & H1 & H2 & H3); exists a, ch, b, g; (split; [exact H1|]); (split; [exact H2|]); revert H3; apply glyph_dots_eq; auto.
  - replace (x - (px + advance F a)) with ((x - px) + - advance F a) by lia. replace (x' - (px' + advance F a)) with ((x' - px') + - advance F a) by lia. symmetry. apply mod_shift, E.
  - replace (x - (px + advance F a)) with ((x - px) + - advance F a) by lia. replace (x' - (px' + advance F a)) with ((x' - px') + - advance F a) by lia. apply mod_shift, E.
Qed.

(** Turning a dot and turning it back *)
Definition T (d u v : Z) : Z * Z := match d with 1 => (u8 (- v), u8 u) | 2 => (u8 (- u), u8 (- v)) | _ => (u8 v, u8 (- u)) end.
Definition inv (d x y : Z) : Z * Z := match d with 1 => (u8 y, u8 (- x)) | 2 => (u8 (- x), u8 (- y)) | _ => (u8 (- y), u8 x) end.
Definition tmsg (d : Z) (m : msg) : msg := match m with Eight a b _ q => Eight (fst (T d a b)) (snd (T d a b)) d q | m => m end.
Definition right_only (m : msg) : Prop := match m with Eight _ _ 0 _ => True | _ => False end.
Definition AX (d : Z) : Z := match d with 2 => -8 | _ => 0 end.
Definition AY (d : Z) : Z := match d with 1 => 8 | 3 => -8 | _ => 0 end.
Definition BX (d : Z) : Z := match d with 1 => -1 | 3 => 1 | _ => 0 end.
Definition BY (d : Z) : Z := match d with 2 => -1 | _ => 0 end.
Definition dir_ok (d : Z) : Prop := d = 1 \/ d = 2 \/ d = 3.

Lemma u8_idem v : u8 (u8 v) = u8 v. Proof. unfold u8. apply Z.mod_mod. lia. Qed.
Lemma u8_neg v : u8 (- u8 v) = u8 (- v). Proof. unfold u8. Z.div_mod_to_equations. lia. Qed.
Lemma u8_neg_add v k : u8 (- u8 (v + k)) = u8 (u8 (- v) + - k). Proof. unfold u8. Z.div_mod_to_equations. lia. Qed.
Lemma T_u8 d u v : dir_ok d -> T d (u8 u) (u8 v) = T d u v.
Proof. intros [-> |[-> | ->]]; cbn [T]; rewrite ?u8_neg, ?u8_idem; reflexivity. Qed.
Lemma T_a d u v : dir_ok d -> T d (u + 8) v = (u8 (fst (T d u v) + AX d), u8 (snd (T d u v) + AY d)).
Proof. intros [-> |[-> | ->]]; cbn [T AX AY fst snd]; f_equal; unfold u8; Z.div_mod_to_equations; lia. Qed.
Lemma T_b d u v : dir_ok d -> T d u (v + 1) = (u8 (fst (T d u v) + BX d), u8 (snd (T d u v) + BY d)).
Proof. intros [-> |[-> | ->]]; cbn [T BX BY fst snd]; f_equal; unfold u8; Z.div_mod_to_equations; lia. Qed.
Lemma line_turn d : dir_ok d -> forall n u v data, dirLine n (fst (T d u v)) (snd (T d u v)) (AX d) (AY d) d data = map (tmsg d) (DrawHBitmap n (u8 u) (u8 v) data).
Proof.
  intros D. induction n as [|n IH]; intros u v data; cbn [dirLine DrawHBitmap map]; [reflexivity|]. cbn [tmsg]. rewrite T_u8 by exact D. f_equal.
  pose proof (T_a d u v D) as E. replace (u8 (fst (T d u v) + AX d)) with (fst (T d (u + 8) v)) by (rewrite E; reflexivity). replace (u8 (snd (T d u v) + AY d)) with (snd (T d (u + 8) v)) by (rewrite E; reflexivity).
  rewrite IH. rewrite u8_u8_add. reflexivity.
Qed.
Lemma loop_turn d : dir_ok d -> forall h u v n data, dirLoop h (fst (T d u v)) (snd (T d u v)) n (AX d) (AY d) (BX d) (BY d) d data = map (tmsg d) (bitmapLoop h (u8 u) (u8 v) n data).
Proof.
  intros D. induction h as [|h IH]; intros u v n data; cbn [dirLoop bitmapLoop map]; [reflexivity|]. rewrite map_app, line_turn by exact D. f_equal.
  pose proof (T_b d u v D) as E. replace (u8 (fst (T d u v) + BX d)) with (fst (T d u (v + 1))) by (rewrite E; reflexivity). replace (u8 (snd (T d u v) + BY d)) with (snd (T d u (v + 1))) by (rewrite E; reflexivity).
  rewrite IH. rewrite u8_u8_add. reflexivity.
Qed.
Lemma mod_neg x a : is_byte x -> x = u8 (- a) <-> u8 (- x) = u8 a.
Proof. unfold is_byte, u8. intros X. split; intros E; Z.div_mod_to_equations; lia. Qed.
Lemma on_turn d m x y : dir_ok d -> right_only m -> is_byte x -> is_byte y -> on (tmsg d m) x y <-> on m (fst (inv d x y)) (snd (inv d x y)).
Proof.
  intros D R X Y. destruct m as [a b|a b z q]; [contradiction|]. destruct z; cbn [right_only] in R; try contradiction. cbn [tmsg on stepX stepY]. unfold is_byte in *.
  destruct D as [-> |[-> | ->]]; cbn [T inv fst snd stepX stepY];
    (split; intros (k & K & B & E1 & E2); exists k; (split; [exact K|]); (split; [exact B|]); clear B; unfold u8 in *; split; Z.div_mod_to_equations; lia).
Qed.
Lemma covers_turn d l x y : dir_ok d -> Forall right_only l -> is_byte x -> is_byte y -> covers (map (tmsg d) l) x y <-> covers l (fst (inv d x y)) (snd (inv d x y)).
Proof.
  intros D F X Y. induction F as [|m l R F IH]; cbn [map]; [rewrite !covers_nil; tauto|]. rewrite !covers_cons, IH, on_turn by auto. tauto.
Qed.
Lemma bitmap_right h : forall x y n data, Forall right_only (bitmapLoop h x y n data).
Proof.
  induction h as [|h IH]; intros x y n data; cbn [bitmapLoop]; [constructor|]. apply Forall_app. split; [|apply IH]. clear. revert x data. induction n as [|n IH]; intros x data; cbn [DrawHBitmap]; [constructor|].
  constructor; [exact Logic.I|apply IH].
Qed.
Lemma inv_bytes d x y : dir_ok d -> is_byte (fst (inv d x y)) /\ is_byte (snd (inv d x y)).
Proof. intros [-> |[-> | ->]]; split; apply u8_byte. Qed.
Lemma turn_ok d m : dir_ok d -> msg_ok m -> msg_ok (tmsg d m).
Proof. intros D. destruct m as [a b|a b z q]; cbn [tmsg]; [auto|]. intros (A & B & Z0 & Q). destruct D as [-> |[-> | ->]]; cbn [T fst snd]; apply eight_ok; auto; try apply u8_byte; unfold is_byte; lia. Qed.

(** A glyph with the pen at [pu], [pv] before turning *)
Lemma turned_glyph d c fmt g post pu pv : dir_ok d -> box_ok c -> glyph_ok fmt g -> Forall is_byte (g_data g ++ post) ->
  let u := pu + g_x g in let v := pv - g_y g - g_h g in
  draws c (dirLoop (Z.to_nat (g_h g)) (fst (T d u v)) (snd (T d u v)) (Z.to_nat ((g_w g + 7) / 8)) (AX d) (AY d) (BX d) (BY d) d (g_data g ++ post))
    (fun x y => glyph_dots g pu pv (fst (inv d x y)) (snd (inv d x y))).
Proof.
  cbn zeta. intros D C GO FD. destruct (glyph_sizes fmt g GO) as (W & H & _). rewrite loop_turn by exact D. set (full := mkBox 0 0 255 255). assert (FO : box_ok full) by (unfold box_ok, full; cbn; lia).
  destruct (bitmapLoop_draws full (u8 (pu + g_x g)) (u8 (pv - g_y g - g_h g)) ((g_w g + 7) / 8) (g_h g) (g_data g ++ post)) as [M K]; auto; try apply u8_byte; try (unfold is_byte; lia).
  { split; [apply Z.div_pos; lia|apply Z.lt_succ_r; apply Z.div_lt_upper_bound; lia]. }
  split.
  - apply Forall_forall. intros m I. apply in_map_iff in I as (m' & <- & I). apply turn_ok; [exact D|]. rewrite Forall_forall in M. auto.
  - intros x y I. destruct (inside_bytes c x y C I) as [X Y]. rewrite covers_turn by (auto; apply bitmap_right). destruct (inv_bytes d x y D) as [IX IY].
    rewrite K by (unfold inside, full, is_byte in *; cbn [x0 x1 y0 y1]; lia). apply (glyph_bitmap fmt); auto.
Qed.

Lemma glyphFor_spec fmt F font ch : is_font fmt F font -> is_byte ch ->
  match glyph_of F ch with
  | Some g => glyph_ok fmt g /\ exists post, glyphFor font ch = Some (Some (g_data g ++ post, cache_of g)) /\ Forall is_byte (g_data g ++ post)
  | None => glyphFor font ch = Some None
  end.
Proof.
  intros IF CH. unfold glyphFor. rewrite (GetGlyph_spec fmt F font ch IF CH). pose proof IF as (hd & rest & E & L & FB & B & H0 & H10 & H11 & NE & S65 & S97 & OK).
  assert (G0 : get_byte font 0 = Some fmt) by (rewrite E, get_hd, H0 by lia; reflexivity). rewrite G0. destruct (glyph_of F ch) as [g|] eqn:G; [|reflexivity].
  split; [apply OK, (glyph_of_in F ch), G|]. destruct (font_at fmt F font ch g IF G) as (pre & post & E1 & E2). exists post.
  assert (DT : skipn (entry_pos fmt F ch + GlyphStructureSize fmt) font = g_data g ++ post).
  { rewrite size_eq by exact B. rewrite E1, <- E2. rewrite skipn_app. replace (length pre + size_of fmt - length pre)%nat with (size_of fmt) by lia. rewrite skipn_all2 by lia. cbn [app].
    unfold entry, size_of. destruct (fmt =? 1); reflexivity. }
  rewrite DT. split; [reflexivity|]. rewrite <- DT. apply Forall_skipn_b. exact FB.
Qed.
Lemma clip c a b w h l (s : Z -> Z -> Prop) : box_ok c -> is_byte a -> is_byte b -> 0 <= w <= 255 -> 0 <= h <= 255 ->
  (forall x y, is_byte x -> is_byte y -> s x y -> 1 <= w /\ 1 <= h /\ rect a b w h x y) -> draws c l s -> draws c (if negb (IsBBXIntersection c a b w h) then [] else l) s.
Proof.
  intros C A B W H S D. destruct (IsBBXIntersection c a b w h) eqn:E; cbn [negb]; [exact D|]. split; [constructor|]. intros x y I. rewrite covers_nil. split; [tauto|].
  intros K. destruct (inside_bytes c x y C I) as [X Y]. destruct (S x y X Y K) as (W1 & H1 & R). eapply (bbx_off c a b w h x y); eauto; lia.
Qed.
Definition dxo (F : face) (ch : Z) : Z := match glyph_of F ch with Some g => g_dx g | None => 0 end.
Definition head_dots (F : face) (ch d px py x y : Z) : Prop := let '(u, v) := unturned d px py x y in exists g, glyph_of F ch = Some g /\ glyph_dots g 0 0 u v.
Lemma if_some {A B} (b : bool) (l l' : A) (d : B) : (if b then Some (l, d) else Some (l', d)) = Some (if b then l else l', d). Proof. destruct b; reflexivity. Qed.

(** glyph_dots, with the set written out, lies in the box with which the function clips *)
Ltac sizes GO := let W := fresh "W" in let H := fresh "H" in destruct (glyph_sizes _ _ GO) as (W & H & _).
Lemma draw90_spec fmt F font c px py ch : is_font fmt F font -> box_ok c -> is_byte ch ->
  exists l, draw_glyph90 c font px py ch = Some (l, dxo F ch) /\ draws c l (head_dots F ch 1 px py).
Proof.
  intros IF C CH. pose proof (glyphFor_spec fmt F font ch IF CH) as GF. unfold draw_glyph90, dxo, head_dots. cbn [unturned]. destruct (glyph_of F ch) as [g|] eqn:G.
  2:{ rewrite GF. exists []. split; [reflexivity|]. apply draws_nil. intros x y (g & K & _). discriminate. }
  destruct GF as (GO & post & E & FD). rewrite E. sizes GO. cbn [cache_of glyph_x glyph_y glyph_dx glyph_width glyph_height]. rewrite if_some. eexists. split; [reflexivity|].
  rewrite (u8_small (g_w g + 7)) by lia. apply clip; auto; try apply u8_byte; try lia.
  - intros x y X Y (g' & K & (A & B & _)). injection K as <-. unfold rect, off. unfold is_byte in *. split; [Z.div_mod_to_equations; lia|]. split; [Z.div_mod_to_equations; lia|]. unfold u8.
    split; Z.div_mod_to_equations; lia.
  - assert (D : dir_ok 1) by (unfold dir_ok; tauto). pose proof (turned_glyph 1 c fmt g post (py) (- px) D C GO FD) as Q. cbn zeta in Q. cbn [T AX AY BX BY fst snd inv] in Q.
    match type of Q with draws _ (dirLoop _ ?X ?Y _ _ _ _ _ _ _) _ => match goal with |- draws _ (dirLoop _ ?X' ?Y' _ _ _ _ _ _ _) _ =>
      replace X' with X by (unfold u8; Z.div_mod_to_equations; lia); replace Y' with Y by (unfold u8; Z.div_mod_to_equations; lia) end end.
    eapply draws_ext; [|exact Q]. intros x y. transitivity (glyph_dots g 0 0 (fst (unturned 1 px py x y)) (snd (unturned 1 px py x y))).
    + cbn [unturned fst snd]. apply glyph_dots_eq; unfold u8; Z.div_mod_to_equations; lia.
    + cbn [unturned fst snd]. split; [intros K; exists g; auto|intros (g' & K & R); congruence].
Qed.
Lemma draw180_spec fmt F font c px py ch : is_font fmt F font -> box_ok c -> is_byte ch ->
  exists l, draw_glyph180 c font px py ch = Some (l, dxo F ch) /\ draws c l (head_dots F ch 2 px py).
Proof.
  intros IF C CH. pose proof (glyphFor_spec fmt F font ch IF CH) as GF. unfold draw_glyph180, dxo, head_dots. cbn [unturned]. destruct (glyph_of F ch) as [g|] eqn:G.
  2:{ rewrite GF. exists []. split; [reflexivity|]. apply draws_nil. intros x y (g & K & _). discriminate. }
  destruct GF as (GO & post & E & FD). rewrite E. sizes GO. cbn [cache_of glyph_x glyph_y glyph_dx glyph_width glyph_height]. rewrite if_some. eexists. split; [reflexivity|].
  rewrite (u8_small (g_w g + 7)) by lia. apply clip; auto; try apply u8_byte; try lia.
  - intros x y X Y (g' & K & (A & B & _)). injection K as <-. unfold rect, off. unfold is_byte in *. split; [Z.div_mod_to_equations; lia|]. split; [Z.div_mod_to_equations; lia|]. unfold u8.
    split; Z.div_mod_to_equations; lia.
  - assert (D : dir_ok 2) by (unfold dir_ok; tauto). pose proof (turned_glyph 2 c fmt g post (- px) (- py) D C GO FD) as Q. cbn zeta in Q. cbn [T AX AY BX BY fst snd inv] in Q.
    match type of Q with draws _ (dirLoop _ ?X ?Y _ _ _ _ _ _ _) _ => match goal with |- draws _ (dirLoop _ ?X' ?Y' _ _ _ _ _ _ _) _ =>
      replace X' with X by (unfold u8; Z.div_mod_to_equations; lia); replace Y' with Y by (unfold u8; Z.div_mod_to_equations; lia) end end.
    eapply draws_ext; [|exact Q]. intros x y. transitivity (glyph_dots g 0 0 (fst (unturned 2 px py x y)) (snd (unturned 2 px py x y))).
    + cbn [unturned fst snd]. apply glyph_dots_eq; unfold u8; Z.div_mod_to_equations; lia.
    + cbn [unturned fst snd]. split; [intros K; exists g; auto|intros (g' & K & R); congruence].
Qed.
Lemma draw270_spec fmt F font c px py ch : is_font fmt F font -> box_ok c -> is_byte ch ->
  exists l, draw_glyph270 c font px py ch = Some (l, dxo F ch) /\ draws c l (head_dots F ch 3 px py).
Proof.
  intros IF C CH. pose proof (glyphFor_spec fmt F font ch IF CH) as GF. unfold draw_glyph270, dxo, head_dots. cbn [unturned]. destruct (glyph_of F ch) as [g|] eqn:G.
  2:{ rewrite GF. exists []. split; [reflexivity|]. apply draws_nil. intros x y (g & K & _). discriminate. }
  destruct GF as (GO & post & E & FD). rewrite E. sizes GO. cbn [cache_of glyph_x glyph_y glyph_dx glyph_width glyph_height]. rewrite if_some. eexists. split; [reflexivity|].
  rewrite (u8_small (g_w g + 7)) by lia. apply clip; auto; try apply u8_byte; try lia.
  - intros x y X Y (g' & K & (A & B & _)). injection K as <-. unfold rect, off. unfold is_byte in *. split; [Z.div_mod_to_equations; lia|]. split; [Z.div_mod_to_equations; lia|]. unfold u8.
    split; Z.div_mod_to_equations; lia.
  - assert (D : dir_ok 3) by (unfold dir_ok; tauto). pose proof (turned_glyph 3 c fmt g post (- py) (px) D C GO FD) as Q. cbn zeta in Q. cbn [T AX AY BX BY fst snd inv] in Q.
    match type of Q with draws _ (dirLoop _ ?X ?Y _ _ _ _ _ _ _) _ => match goal with |- draws _ (dirLoop _ ?X' ?Y' _ _ _ _ _ _ _) _ =>
      replace X' with X by (unfold u8; Z.div_mod_to_equations; lia); replace Y' with Y by (unfold u8; Z.div_mod_to_equations; lia) end end.
    eapply draws_ext; [|exact Q]. intros x y. transitivity (glyph_dots g 0 0 (fst (unturned 3 px py x y)) (snd (unturned 3 px py x y))).
    + cbn [unturned fst snd]. apply glyph_dots_eq; unfold u8; Z.div_mod_to_equations; lia.
    + cbn [unturned fst snd]. split; [intros K; exists g; auto|intros (g' & K & R); congruence].
Qed.
Lemma str90_spec fmt F font c : is_font fmt F font -> box_ok c -> forall s px py t, Forall is_byte s ->
  exists l, strLoop90 c font s px py t = Some (l, match s with [] => t | _ => u8 (t + advance F s) end) /\ draws c l (turned_text F s 1 0 px py).
Proof.
  intros IF C. induction s as [|ch s IH]; intros px py t FS; cbn [strLoop90].
  - exists []. split; [reflexivity|]. apply draws_nil. intros x y. unfold turned_text. destruct (unturned 1 px py x y). intros (a & ch & b & g & K & _). destruct a; discriminate.
  - inversion FS as [|? ? CH FS']; subst. destruct (draw90_spec fmt F font c px py ch IF C CH) as (l & E & D). rewrite E. set (d := dxo F ch) in *.
    destruct (IH (px) (u8 (py + d)) (u8 (t + d)) FS') as (l' & E' & D'). rewrite E'. exists (l ++ l'). split.
    + f_equal. f_equal. cbn [advance]. change (match glyph_of F ch with Some g => g_dx g | None => 0 end) with d. destruct s; [cbn [advance]; f_equal; lia|]. rewrite u8_u8_add. f_equal. lia.
    + eapply draws_ext; [|apply draws_app; [exact D|exact D']]. intros x y. unfold turned_text, head_dots. cbn [unturned]. rewrite text_dots_cons. change (match glyph_of F ch with Some g => g_dx g | None => 0 end) with d.
      match goal with |- _ \/ ?A <-> _ \/ ?B => assert (Q : A <-> B); [|tauto] end. apply text_dots_eq; unfold u8; Z.div_mod_to_equations; lia.
Qed.
Lemma str180_spec fmt F font c : is_font fmt F font -> box_ok c -> forall s px py t, Forall is_byte s ->
  exists l, strLoop180 c font s px py t = Some (l, match s with [] => t | _ => u8 (t + advance F s) end) /\ draws c l (turned_text F s 2 0 px py).
Proof.
  intros IF C. induction s as [|ch s IH]; intros px py t FS; cbn [strLoop180].
  - exists []. split; [reflexivity|]. apply draws_nil. intros x y. unfold turned_text. destruct (unturned 2 px py x y). intros (a & ch & b & g & K & _). destruct a; discriminate.
  - inversion FS as [|? ? CH FS']; subst. destruct (draw180_spec fmt F font c px py ch IF C CH) as (l & E & D). rewrite E. set (d := dxo F ch) in *.
    destruct (IH (u8 (px - d)) (py) (u8 (t + d)) FS') as (l' & E' & D'). rewrite E'. exists (l ++ l'). split.
    + f_equal. f_equal. cbn [advance]. change (match glyph_of F ch with Some g => g_dx g | None => 0 end) with d. destruct s; [cbn [advance]; f_equal; lia|]. rewrite u8_u8_add. f_equal. lia.
    + eapply draws_ext; [|apply draws_app; [exact D|exact D']]. intros x y. unfold turned_text, head_dots. cbn [unturned]. rewrite text_dots_cons. change (match glyph_of F ch with Some g => g_dx g | None => 0 end) with d.
      match goal with |- _ \/ ?A <-> _ \/ ?B => assert (Q : A <-> B); [|tauto] end. apply text_dots_eq; unfold u8; Z.div_mod_to_equations; lia.
Qed.
Lemma str270_spec fmt F font c : is_font fmt F font -> box_ok c -> forall s px py t, Forall is_byte s ->
  exists l, strLoop270 c font s px py t = Some (l, match s with [] => t | _ => u8 (t + advance F s) end) /\ draws c l (turned_text F s 3 0 px py).
Proof.
  intros IF C. induction s as [|ch s IH]; intros px py t FS; cbn [strLoop270].
  - exists []. split; [reflexivity|]. apply draws_nil. intros x y. unfold turned_text. destruct (unturned 3 px py x y). intros (a & ch & b & g & K & _). destruct a; discriminate.
  - inversion FS as [|? ? CH FS']; subst. destruct (draw270_spec fmt F font c px py ch IF C CH) as (l & E & D). rewrite E. set (d := dxo F ch) in *.
    destruct (IH (px) (u8 (py - d)) (u8 (t + d)) FS') as (l' & E' & D'). rewrite E'. exists (l ++ l'). split.
    + f_equal. f_equal. cbn [advance]. change (match glyph_of F ch with Some g => g_dx g | None => 0 end) with d. destruct s; [cbn [advance]; f_equal; lia|]. rewrite u8_u8_add. f_equal. lia.
    + eapply draws_ext; [|apply draws_app; [exact D|exact D']]. intros x y. unfold turned_text, head_dots. cbn [unturned]. rewrite text_dots_cons. change (match glyph_of F ch with Some g => g_dx g | None => 0 end) with d.
      match goal with |- _ \/ ?A <-> _ \/ ?B => assert (Q : A <-> B); [|tauto] end. apply text_dots_eq; unfold u8; Z.div_mod_to_equations; lia.
Qed.
