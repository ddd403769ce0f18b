(** Proofs for C44, C48-C50, C60 *)
From Verif Require Import Base Text_Model Text_Spec.

(** ** Print *)
Lemma digit_value_char d : 0 <= d < 36 -> digit_value (digitChar d) = Some d.
Proof.
  intros H. unfold digitChar, digit_value, u8. destruct (Z.ltb_spec d 10).
  - rewrite Z.mod_small by lia. destruct (Z.leb_spec 48 (48 + d)), (Z.leb_spec (48 + d) 57); cbn [andb]; try lia. f_equal; lia.
  - rewrite Z.mod_small by lia. destruct (Z.leb_spec 48 (65 - 10 + d)), (Z.leb_spec (65 - 10 + d) 57); cbn [andb]; try lia.
    destruct (Z.leb_spec 65 (65 - 10 + d)), (Z.leb_spec (65 - 10 + d) 90); cbn [andb]; try lia. f_equal; lia.
Qed.
Lemma denotes_snoc b t v d : denotes b t = Some v -> 0 <= d < b -> b <= 36 -> denotes b (t ++ [digitChar d]) = Some (v * b + d).
Proof.
  intros H Hd Hb. unfold denotes in *. rewrite fold_left_app, H. cbn [fold_left]. unfold denotes_step.
  rewrite digit_value_char by lia. destruct (Z.ltb_spec d b); [auto|lia].
Qed.
Lemma printLoop_spec b : 2 <= b <= 36 -> forall room v digits acc,
  (0 < room)%nat -> 0 <= v < 2 ^ Z.of_nat room -> digits <= Z.of_nat room -> -2^31 + Z.of_nat room <= digits ->
  exists t, printLoop room v b digits acc = Some (t ++ acc) /\ denotes b t = Some v /\ padded digits t.
Proof.
  intros Hb. induction room as [|room IH]; intros v digits acc H0 Hv Hd Hm; [lia|]. cbn [printLoop].
  destruct (Z.eqb_spec digits (-2^31)); [lia|].
  assert (M : 0 <= v mod b < b) by (apply Z.mod_pos_bound; lia).
  destruct (Z.ltb_spec 0 (digits - 1)) as [D|D]; cbn [orb].
  2: destruct (Z.eqb_spec (v / b) 0) as [E|E]; cbn [negb].
  2:{ exists [digitChar (v mod b)]. split; auto. split.
      - change [digitChar (v mod b)] with ([] ++ [digitChar (v mod b)]). rewrite (denotes_snoc b [] 0) by (auto; lia).
        f_equal. pose proof (Z.div_mod v b). lia.
      - left. cbn [length]. lia. }
  all: assert (V : 0 <= v / b < 2 ^ Z.of_nat room) by
      (split; [apply Z.div_pos; lia|]; apply Z.div_lt_upper_bound; [lia|];
       replace (Z.of_nat (S room)) with (1 + Z.of_nat room) in Hv by lia; rewrite Z.pow_add_r in Hv by lia;
       pose proof (Z.pow_pos_nonneg 2 (Z.of_nat room)); nia).
  all: assert (R : (0 < room)%nat) by (destruct room; [cbn in V; lia|lia]).
  all: destruct (IH (v / b) (digits - 1) (digitChar (v mod b) :: acc) R V ltac:(lia) ltac:(lia)) as (t & E1 & E2 & E3).
  all: exists (t ++ [digitChar (v mod b)]); rewrite <- app_assoc; cbn [app]; split; auto; split;
    [rewrite (denotes_snoc b t (v / b)) by (auto; lia); f_equal; pose proof (Z.div_mod v b); lia|].
  all: unfold padded in *; rewrite app_length; cbn [length].
  - destruct E3 as [E3|[E3 E4]]; [left; lia|right]. split; [lia|]. destruct t; [cbn in *; lia|exact E4].
  - assert (N : hd 0 t <> 48 \/ hd 0 t = 48 /\ length t = 1%nat).
    { destruct E3 as [E3|[E3 E4]]; [|left; exact E4]. destruct t as [|c [|]]; cbn [length] in *; try lia. }
    destruct N as [N|[N N1]].
    + right. destruct t as [|c t]; [cbn in E2; congruence|]. cbn [length app hd] in *. split; auto. lia.
    + destruct t as [|c [|]]; try discriminate. cbn [hd] in N. subst c. exfalso. apply E.
      assert (denotes b [48] = Some 0) as K by (cbn; destruct (Z.ltb_spec (48 - 48) b); [f_equal; lia|lia]). congruence.
Qed.
Lemma printUInt_spec v b digits : is_u32 v -> 2 <= b <= 36 -> -2^31 + 33 <= digits <= 33 ->
  exists t, printUInt v b digits = Some t /\ denotes b t = Some v /\ padded digits t.
Proof.
  intros Hv Hb Hd. unfold printUInt. destruct (Z.ltb_spec b 2); [lia|].
  destruct (printLoop_spec b Hb PRINTBUF_SIZE v digits [] ltac:(unfold PRINTBUF_SIZE; lia)) as (t & E & E2 & E3).
  - unfold is_u32 in Hv. change (2 ^ Z.of_nat PRINTBUF_SIZE) with 8589934592. lia.
  - change (Z.of_nat PRINTBUF_SIZE) with 33. lia.
  - change (Z.of_nat PRINTBUF_SIZE) with 33. lia.
  - exists t. rewrite E, app_nil_r. auto.
Qed.
(** the text is determined by the number and the width *)
Lemma denotes_chars b t : forall a v, fold_left (denotes_step b) t (Some a) = Some v ->
  0 <= a -> 2 <= b <= 36 -> a * b ^ Z.of_nat (length t) <= v < (a + 1) * b ^ Z.of_nat (length t).
Proof.
  induction t as [|c t IH]; intros a v H Ha Hb; cbn [fold_left length] in *.
  - injection H as <-. change (b ^ Z.of_nat 0) with 1. lia.
  - unfold denotes_step at 2 in H. destruct (digit_value c) as [d|] eqn:D; [|exfalso; clear -H; induction t; cbn in *; [discriminate|auto]].
    destruct (Z.ltb_spec d b); [|exfalso; clear -H; induction t; cbn in *; [discriminate|auto]].
    assert (0 <= d) by (unfold digit_value in D; destruct (Z.leb_spec 48 c), (Z.leb_spec c 57), (Z.leb_spec 65 c), (Z.leb_spec c 90); cbn [andb] in D; inversion D; lia).
    apply IH in H; [|nia|auto]. replace (Z.of_nat (S (length t))) with (1 + Z.of_nat (length t)) by lia.
    rewrite Z.pow_add_r by lia. pose proof (Z.pow_pos_nonneg b (Z.of_nat (length t))). nia.
Qed.
Lemma denotes_none b t : fold_left (denotes_step b) t None = None.
Proof. induction t; cbn; auto. Qed.
Lemma denotes_cons_inv b c t a v : fold_left (denotes_step b) (c :: t) (Some a) = Some v ->
  exists d, digit_value c = Some d /\ 0 <= d < b /\ fold_left (denotes_step b) t (Some (a * b + d)) = Some v.
Proof.
  cbn [fold_left]. unfold denotes_step at 2. destruct (digit_value c) as [d|] eqn:D; [|rewrite denotes_none; discriminate].
  destruct (Z.ltb_spec d b); [|rewrite denotes_none; discriminate]. intros H0. exists d. split; auto. split; auto.
  unfold digit_value in D; destruct (Z.leb_spec 48 c), (Z.leb_spec c 57), (Z.leb_spec 65 c), (Z.leb_spec c 90); cbn [andb] in D; inversion D; lia.
Qed.
Lemma digit_value_inj c c' d : digit_value c = Some d -> digit_value c' = Some d -> c = c'.
Proof.
  unfold digit_value. destruct (Z.leb_spec 48 c), (Z.leb_spec c 57), (Z.leb_spec 65 c), (Z.leb_spec c 90),
  (Z.leb_spec 48 c'), (Z.leb_spec c' 57), (Z.leb_spec 65 c'), (Z.leb_spec c' 90); cbn [andb]; intros; try discriminate;
  repeat match goal with E : Some _ = Some _ |- _ => injection E; clear E; intros end; lia.
Qed.
Lemma denotes_same_length b : 2 <= b <= 36 -> forall t t' a v, length t = length t' ->
  0 <= a -> fold_left (denotes_step b) t (Some a) = Some v -> fold_left (denotes_step b) t' (Some a) = Some v -> t = t'.
Proof.
  intros Hb. induction t as [|c t IH]; intros [|c' t'] a v Hl Ha H H'; cbn [length] in Hl; try lia; auto.
  apply denotes_cons_inv in H. destruct H as (d & D & Hd & H). apply denotes_cons_inv in H'. destruct H' as (d' & D' & Hd' & H').
  assert (d = d').
  { pose proof (denotes_chars b t _ _ H ltac:(nia) Hb). pose proof (denotes_chars b t' _ _ H' ltac:(nia) Hb).
    replace (length t') with (length t) in * by lia. pose proof (Z.pow_pos_nonneg b (Z.of_nat (length t)) ltac:(lia) ltac:(lia)) as Q.
    set (P := b ^ Z.of_nat (length t)) in *. clearbody P.
    assert (a * b + d < a * b + d' + 1) by (apply (Zmult_lt_reg_r _ _ P); lia).
    assert (a * b + d' < a * b + d + 1) by (apply (Zmult_lt_reg_r _ _ P); lia). lia. }
  subst d'. f_equal; [eapply digit_value_inj; eauto|]. apply (IH t' (a * b + d) v); auto. assert (0 <= a * b) by (apply Z.mul_nonneg_nonneg; lia). lia.
Qed.
Lemma padded_unique b width t t' v : 2 <= b <= 36 -> denotes b t = Some v -> denotes b t' = Some v -> padded width t -> padded width t' -> t = t'.
Proof.
  intros Hb. assert (G : forall t t', denotes b t = Some v -> denotes b t' = Some v -> padded width t -> padded width t' -> (length t < length t')%nat -> False).
  { clear t t'. intros t t' H H' P P' L. destruct P' as [P'|[P1 P2]]; [destruct P as [P|[P _]]; lia|].
    destruct t' as [|c t']; [cbn in L; lia|]. cbn [hd length] in *.
    apply denotes_cons_inv in H'. destruct H' as (d & D & Hd & H').
    apply denotes_chars in H; [|lia|auto]. apply denotes_chars in H'; [|lia|auto].
    assert (d <> 0). { intros ->. assert (D0 : digit_value 48 = Some 0) by reflexivity. pose proof (digit_value_inj _ _ _ D D0). congruence. }
    assert (b ^ Z.of_nat (length t) <= b ^ Z.of_nat (length t')) by (apply Z.pow_le_mono_r; lia). nia. }
  intros H H' P P'. destruct (lt_eq_lt_dec (length t) (length t')) as [[L|L]|L].
  - exfalso. eauto.
  - eapply (denotes_same_length b Hb t t' 0 v); eauto. lia.
  - exfalso. eauto.
Qed.

(** ** parseInt *)
Lemma isDigit_iff c : isDigit c = true <-> is_digit c.
Proof. unfold isDigit, is_digit. lia. Qed.
Lemma isDigit_false c : isDigit c = false <-> ~ is_digit c.
Proof. unfold isDigit, is_digit. lia. Qed.
Lemma peekNextDigit_garbage g s : Forall garbage g -> peekNextDigit (g ++ s) = peekNextDigit s.
Proof.
  induction 1 as [|c g [H1 H2] _ IH]; cbn [app peekNextDigit]; auto.
  apply isDigit_false in H1. rewrite H1. destruct (Z.eqb_spec c 45); [contradiction|]. auto.
Qed.
Lemma denotes10_step a c : is_digit c -> denotes_step 10 (Some a) c = Some (a * 10 + c - 48).
Proof.
  unfold is_digit. intros H. unfold denotes_step, digit_value. destruct (Z.leb_spec 48 c), (Z.leb_spec c 57); cbn [andb]; try lia.
  destruct (Z.ltb_spec (c - 48) 10); [f_equal; lia|lia].
Qed.
Lemma s32_small v : -2^31 <= v < 2^31 -> s32 v = v.
Proof.
  intros H. unfold s32, u32. change (2^31) with 2147483648 in H. destruct (Z.ltb_spec (v mod 4294967296) 2147483648); Z.div_mod_to_equations; lia.
Qed.
Lemma parseLoop_spec skip rest body : ends_number skip rest -> Forall (fun c => is_digit c \/ c = skip) body ->
  forall a n ovf, 0 <= a -> fold_left (denotes_step 10) (digits_of body) (Some a) = Some n -> n < 2^31 ->
  exists o, parseLoop skip a ovf (body ++ rest) = (n, o, rest) /\ (n + 48 < 2^31 -> o = ovf).
Proof.
  intros Hr. induction 1 as [|c body Hc _ IH]; intros a n ovf Ha Hn Hl; cbn [app digits_of filter] in *.
  - injection Hn as <-. exists ovf. split; auto. destruct rest as [|d rest]; auto. cbn [parseLoop]. destruct Hr as [H1 H2].
    apply isDigit_false in H1. rewrite H1. destruct (Z.eqb_spec d skip); [contradiction|]. reflexivity.
  - cbn [parseLoop]. destruct (isDigit c) eqn:Hd.
    + unfold isDigit in Hd. rewrite Hd in Hn. apply isDigit_iff in Hd. cbn [fold_left] in Hn. rewrite denotes10_step in Hn by auto.
      unfold is_digit in Hd. pose proof (denotes_chars 10 (digits_of body) _ _ Hn ltac:(lia) ltac:(lia)) as B.
      pose proof (Z.pow_pos_nonneg 10 (Z.of_nat (length (digits_of body)))) as Q.
      assert (a * 10 + c - 48 <= n) by nia. change (2^31) with 2147483648 in *.
      rewrite s32_small by (change (2^31) with 2147483648; lia).
      destruct (IH (a * 10 + c - 48) n (ovf || negb (a * 10 + c <? 2147483648)) ltac:(lia) Hn Hl) as (o & E1 & E2).
      exists o. split; auto. intros L. rewrite E2 by auto. destruct (Z.ltb_spec (a * 10 + c) 2147483648); [apply orb_false_r|lia].
    + unfold isDigit in Hd. rewrite Hd in Hn. destruct Hc as [Hc|Hc]; [apply isDigit_iff in Hc; unfold isDigit in Hc; congruence|].
      destruct (Z.eqb_spec c skip); [|contradiction]. cbn [negb]. eapply IH; eauto.
Qed.
Lemma parseInt_nonneg skip g body rest n :
  Forall garbage g -> Forall (fun c => is_digit c \/ c = skip) body -> is_digit (hd 0 body) -> ends_number skip rest ->
  denotes 10 (digits_of body) = Some n -> n < 2^31 ->
  exists o, parseInt skip (g ++ body ++ rest) = (n, o, rest) /\ (n + 48 < 2^31 -> o = false).
Proof.
  intros Hg Hb Hh Hr Hn Hl. unfold parseInt. rewrite peekNextDigit_garbage by auto.
  destruct body as [|c body]; [cbn in Hh; unfold is_digit in Hh; lia|]. cbn [hd] in Hh. cbn [app peekNextDigit].
  apply isDigit_iff in Hh. rewrite Hh, orb_true_r. apply isDigit_iff in Hh. unfold is_digit in Hh.
  destruct (Z.eqb_spec c 45); [lia|]. apply (parseLoop_spec skip rest (c :: body)); auto. lia.
Qed.
Lemma parseInt_neg skip g body rest n :
  Forall garbage g -> Forall (fun c => is_digit c \/ c = skip) body -> ends_number skip rest ->
  denotes 10 (digits_of body) = Some n -> n < 2^31 ->
  exists o, parseInt skip (g ++ 45 :: body ++ rest) = (- n, o, rest) /\ (n + 48 < 2^31 -> o = false).
Proof.
  intros Hg Hb Hr Hn Hl. unfold parseInt. rewrite peekNextDigit_garbage by auto.
  cbn [app peekNextDigit]. change (45 =? 45) with true. cbn [orb].
  destruct (parseLoop_spec skip rest body Hr Hb 0 n false ltac:(lia) Hn Hl) as (o & E1 & E2). rewrite E1.
  pose proof (denotes_chars 10 (digits_of body) _ _ Hn ltac:(lia) ltac:(lia)).
  pose proof (Z.pow_pos_nonneg 10 (Z.of_nat (length (digits_of body)))).
  rewrite s32_small by (change (2^31) with 2147483648 in *; lia). eexists. split; [reflexivity|]. intros L. rewrite E2 by auto.
  destruct (Z.eqb_spec n (-2^31)); [change (2^31) with 2147483648 in *; nia|reflexivity].
Qed.
Lemma denotes_digits t : forall a n, fold_left (denotes_step 10) t (Some a) = Some n -> digits_of t = t /\ Forall is_digit t.
Proof.
  induction t as [|c t IH]; intros a n H; [split; [reflexivity|constructor]|].
  apply denotes_cons_inv in H. destruct H as (d & D & Hd & H). apply IH in H. destruct H as [H1 H2].
  assert (is_digit c) as K.
  { unfold digit_value in D. unfold is_digit. destruct (Z.leb_spec 48 c), (Z.leb_spec c 57), (Z.leb_spec 65 c), (Z.leb_spec c 90); cbn [andb] in D; inversion D; lia. }
  unfold digits_of in *. cbn [filter]. apply isDigit_iff in K as K'. unfold isDigit in K'. rewrite K', H1. split; auto.
Qed.

(** ** readBytesUntil *)
Lemma readBytesUntil_spec term n : forall s l rest, readBytesUntil term n s = (l, rest) ->
  (length l <= n)%nat /\ Forall (fun c => c <> term) l /\
  (s = l ++ term :: rest /\ (length l < n)%nat \/ s = l ++ rest /\ (length l = n \/ rest = [])).
Proof.
  induction n as [|n IH]; intros s l rest H; cbn [readBytesUntil] in H.
  - injection H as <- <-. split; [cbn; lia|]. split; [constructor|]. right. auto.
  - destruct s as [|c s]. { injection H as <- <-. split; [cbn; lia|]. split; [constructor|]. right. auto. }
    destruct (Z.eqb_spec c term) as [->|N].
    { injection H as <- <-. split; [cbn; lia|]. split; [constructor|]. left. cbn. split; auto. lia. }
    destruct (readBytesUntil term n s) as [l' r'] eqn:E. injection H as <- <-. apply IH in E. destruct E as (E1 & E2 & E3).
    cbn [length app]. split; [lia|]. split; [constructor; auto|]. destruct E3 as [[-> E3]|[-> E3]]; [left|right]; split; auto; try lia. destruct E3; auto.
Qed.

(** ** findUntil *)
Lemma firstn_S_rd (l : list Z) n : (n < length l)%nat -> firstn (S n) l = firstn n l ++ [rd l n].
Proof.
  unfold rd. revert n; induction l as [|x l IH]; intros [|n] H; cbn [length firstn app nth] in *; try lia; auto.
  f_equal. apply IH. lia.
Qed.
Lemma app_snoc_cons (A : Type) (a : list A) x b : (a ++ [x]) ++ b = a ++ x :: b.
Proof. rewrite <- app_assoc. reflexivity. Qed.
Lemma findLoop_sound target term : forall s pre ti ei rest res, target <> [] ->
  (ti < length target)%nat -> (exists p, pre = p ++ firstn ti target) ->
  (term <> [] -> (ei < length term)%nat /\ exists p, pre = p ++ firstn ei term) ->
  findLoop target term ti ei s = (res, rest) ->
  if res then exists p, pre ++ s = p ++ target ++ rest
  else rest = [] \/ term <> [] /\ exists p, pre ++ s = p ++ term ++ rest.
Proof.
  induction s as [|c s IH]; intros pre ti ei rest res Ht Hti Hp He H; cbn [findLoop] in H.
  - injection H as <- <-. auto.
  - destruct (Z.eqb_spec c (rd target ti)) as [E|N]; cbn [andb] in H.
    + destruct (Nat.leb_spec (length target) (S ti)).
      { injection H as <- <-. destruct Hp as [p ->]. exists p. rewrite <- app_assoc. f_equal.
        rewrite <- (firstn_all target) at 2. replace (length target) with (S ti) by lia. rewrite firstn_S_rd by auto.
        rewrite <- app_assoc. cbn. rewrite E. reflexivity. }
      assert (P' : exists p, pre ++ [c] = p ++ firstn (S ti) target).
      { destruct Hp as [p ->]. exists p. rewrite firstn_S_rd, app_assoc, E by auto. reflexivity. }
      destruct (Nat.ltb_spec 0 (length term)).
      * assert (T : term <> []) by (intros ->; cbn in *; lia). specialize (He T). destruct He as [He1 [p He2]].
        destruct (Z.eqb_spec c (rd term ei)) as [E'|N']; cbn [andb] in H.
        -- destruct (Nat.leb_spec (length term) (S ei)).
           { injection H as <- <-. right. split; auto. subst pre. exists p. rewrite <- app_assoc. f_equal.
             rewrite <- (firstn_all term) at 2. replace (length term) with (S ei) by lia. rewrite firstn_S_rd by auto.
             rewrite <- app_assoc. cbn. rewrite E'. reflexivity. }
           specialize (IH (pre ++ [c]) (S ti) (S ei) rest res Ht ltac:(lia) P').
           rewrite app_snoc_cons in IH. apply IH; auto. intros _. split; [lia|]. exists p. subst pre. rewrite firstn_S_rd, app_assoc, E' by auto. reflexivity.
        -- specialize (IH (pre ++ [c]) (S ti) 0%nat rest res Ht ltac:(lia) P'). rewrite app_snoc_cons in IH. apply IH; auto.
           intros _. split; [lia|]. exists (pre ++ [c]). rewrite app_nil_r. reflexivity.
      * specialize (IH (pre ++ [c]) (S ti) ei rest res Ht ltac:(lia) P'). rewrite app_snoc_cons in IH. apply IH; auto.
        intros T. destruct term; [congruence|cbn in *; lia].
    + assert (P' : exists p, pre ++ [c] = p ++ firstn 0 target) by (exists (pre ++ [c]); rewrite app_nil_r; auto).
      destruct (Nat.ltb_spec 0 (length term)).
      * assert (T : term <> []) by (intros ->; cbn in *; lia). specialize (He T). destruct He as [He1 [p He2]].
        destruct (Z.eqb_spec c (rd term ei)) as [E'|N']; cbn [andb] in H.
        -- destruct (Nat.leb_spec (length term) (S ei)).
           { injection H as <- <-. right. split; auto. subst pre. exists p. rewrite <- app_assoc. f_equal.
             rewrite <- (firstn_all term) at 2. replace (length term) with (S ei) by lia. rewrite firstn_S_rd by auto.
             rewrite <- app_assoc. cbn. rewrite E'. reflexivity. }
           specialize (IH (pre ++ [c]) 0%nat (S ei) rest res Ht ltac:(lia) P').
           rewrite app_snoc_cons in IH. apply IH; auto. intros _. split; [lia|]. exists p. subst pre. rewrite firstn_S_rd, app_assoc, E' by auto. reflexivity.
        -- specialize (IH (pre ++ [c]) 0%nat 0%nat rest res Ht ltac:(lia) P'). rewrite app_snoc_cons in IH. apply IH; auto.
      * specialize (IH (pre ++ [c]) 0%nat ei rest res Ht ltac:(lia) P'). rewrite app_snoc_cons in IH. apply IH; auto.
        intros T. destruct term; [congruence|cbn in *; lia].
Qed.
Lemma findLoop_target target : forall n ti ei post, (ti + n = length target)%nat -> (0 < n)%nat ->
  findLoop target [] ti ei (skipn ti target ++ post) = (true, post).
Proof.
  induction n as [|n IH]; intros ti ei post H H0; [lia|].
  assert (E : skipn ti target = rd target ti :: skipn (S ti) target).
  { unfold rd. clear IH. revert ti H. induction target as [|x t IHt]; intros ti H; [cbn in H; lia|]. destruct ti; [reflexivity|].
    cbn [skipn nth]. apply IHt. cbn in H. lia. }
  rewrite E. cbn [app findLoop]. rewrite Z.eqb_refl. cbn [andb]. destruct (Nat.leb_spec (length target) (S ti)).
  - rewrite skipn_all2 by lia. reflexivity.
  - cbn [length Nat.ltb Nat.leb]. apply (IH (S ti)); lia.
Qed.
Lemma find_complete x target pre post : Forall (fun c => c <> x) pre ->
  streamFind (x :: target) (pre ++ (x :: target) ++ post) = (true, post).
Proof.
  intros H. unfold streamFind, findUntil. induction H as [|c pre Hc _ IH]; cbn [app].
  - exact (findLoop_target (x :: target) (length (x :: target)) 0 0 post eq_refl ltac:(cbn; lia)).
  - cbn [findLoop rd nth]. destruct (Z.eqb_spec c x); [contradiction|]. cbn [andb]. exact IH.
Qed.
Lemma find_char x : forall s, streamFind [x] s =
  (existsb (Z.eqb x) s, match nth_error s 0 with None => [] | Some _ => snd (streamFind [x] s) end).
Proof.
  intros s. destruct s as [|c s]; [reflexivity|]. cbn [nth_error]. rewrite (surjective_pairing (streamFind [x] (c :: s))) at 1. f_equal.
  generalize (c :: s). clear. unfold streamFind, findUntil. induction l as [|c l IH]; [reflexivity|].
  cbn [findLoop rd nth existsb length]. rewrite (Z.eqb_sym x c). destruct (Z.eqb_spec c x); cbn [andb orb Nat.leb].
  - reflexivity.
  - exact IH.
Qed.

(** ** Intel HEX *)
Definition hex2 (v : Z) : list Z := [digitChar (v / 16); digitChar (v mod 16)].
Lemma print_hex2 v : is_byte v -> printUInt v HEX 2 = Some (hex2 v).
Proof.
  intros H. pose proof (byte_forall (fun v => match printUInt v HEX 2 with Some l => if list_eq_dec Z.eq_dec l (hex2 v) then true else false | None => false end)) as B.
  specialize (B ltac:(vm_compute; reflexivity) v H). cbv beta in B. destruct (printUInt v HEX 2); [|discriminate].
  destruct (list_eq_dec _ _ _); [congruence|discriminate].
Qed.
Lemma printInt_hex2 v : is_byte v -> printInt v HEX 2 = Some (hex2 v).
Proof. intros H. unfold printInt. destruct (Z.ltb_spec v 0); [destruct H; lia|]. apply print_hex2; auto. Qed.
Lemma print_hex4 v : is_u16 v -> printUInt v HEX 4 = Some (hex2 (v / 256) ++ hex2 (v mod 256)).
Proof.
  intros H. unfold printUInt, PRINTBUF_SIZE, HEX, hex2. change (16 <? 2) with false. cbv iota. cbn [printLoop].
  change (4 =? -2^31) with false. change (4 - 1 =? -2^31) with false. change (4 - 1 - 1 =? -2^31) with false. change (4 - 1 - 1 - 1 =? -2^31) with false.
  change (0 <? 4 - 1) with true. change (0 <? 4 - 1 - 1) with true. change (0 <? 4 - 1 - 1 - 1) with true. change (0 <? 4 - 1 - 1 - 1 - 1) with false.
  cbn [orb]. unfold is_u16 in H.
  assert (E : v / 16 / 16 / 16 / 16 = 0) by (Z.div_mod_to_equations; lia). rewrite E. change (negb (0 =? 0)) with false. cbv iota. cbn [app].
  replace (v / 256 / 16) with (v / 16 / 16 / 16 mod 16) by (Z.div_mod_to_equations; lia).
  replace (v / 256 mod 16) with (v / 16 / 16 mod 16) by (Z.div_mod_to_equations; lia).
  replace (v mod 256 / 16) with (v / 16 mod 16) by (Z.div_mod_to_equations; lia).
  replace (v mod 256 mod 16) with (v mod 16) by (Z.div_mod_to_equations; lia). reflexivity.
Qed.
Lemma hex_value_char d : 0 <= d < 16 -> hex_value (digitChar d) = Some d.
Proof. intros H. unfold hex_value. rewrite digit_value_char by lia. destruct (Z.ltb_spec d 16); [auto|lia]. Qed.
Lemma digitChar_not_cr d : 0 <= d < 16 -> (digitChar d =? 13) = false.
Proof. intros H. unfold digitChar, u8. destruct (Z.ltb_spec d 10); rewrite Z.mod_small by lia; lia. Qed.
Lemma decode_hex2 v bs r : is_byte v -> hex_decode (Hi bs) (hex2 v ++ r) = hex_decode (Hi (bs ++ [v])) r.
Proof.
  intros H. unfold is_byte in H. unfold hex2. cbn [app hex_decode].
  assert (0 <= v / 16 < 16) by (Z.div_mod_to_equations; lia). assert (0 <= v mod 16 < 16) by (Z.div_mod_to_equations; lia).
  rewrite digitChar_not_cr, !hex_value_char by auto. replace (16 * (v / 16) + v mod 16) with v by (Z.div_mod_to_equations; lia). reflexivity.
Qed.
Definition hexs (l : list Z) : list Z := flat_map hex2 l.
Lemma decode_hexs l : forall bs r, Forall is_byte l -> hex_decode (Hi bs) (hexs l ++ r) = hex_decode (Hi (bs ++ l)) r.
Proof.
  induction l as [|v l IH]; intros bs r H; cbn [hexs flat_map app].
  - rewrite app_nil_r. reflexivity.
  - inversion H; subst. rewrite <- app_assoc, decode_hex2 by auto. fold (hexs l). rewrite IH by auto. rewrite <- app_assoc. reflexivity.
Qed.
Lemma decode_line rec r : Forall is_byte rec ->
  hex_decode AtStart (58 :: hexs rec ++ CRLF ++ r) = option_map (cons rec) (hex_decode AtStart r).
Proof. intros H. cbn [hex_decode]. change (58 =? 58) with true. cbv iota. rewrite decode_hexs by auto. reflexivity. Qed.
Lemma sum_app a b : sum (a ++ b) = sum a + sum b.
Proof. induction a; cbn [app sum fold_right]; unfold sum in *; cbn [fold_right]; lia. Qed.
Lemma hexs_app a b : hexs (a ++ b) = hexs a ++ hexs b.
Proof. apply flat_map_app. Qed.
Lemma finalCheckSum_spec c : 0 <= c -> is_byte (finalCheckSum c) /\ (c + finalCheckSum c) mod 256 = 0.
Proof.
  intros H. unfold finalCheckSum. change 255 with (Z.ones 8). rewrite !Z.land_ones by lia. change (2 ^ 8) with 256.
  assert (K : forall x, is_byte x -> Z.lxor x 255 = 255 - x).
  { intros x Hx. pose proof (byte_forall (fun x => Z.lxor x 255 =? 255 - x)) as B. specialize (B ltac:(vm_compute; reflexivity) x Hx). lia. }
  assert (is_byte (c mod 256)) by (red; Z.div_mod_to_equations; lia).
  change (Z.ones 8) with 255. rewrite K by auto. unfold u8, is_byte in *. split; Z.div_mod_to_equations; lia.
Qed.
Lemma dumpBytes_spec mem : (forall a, is_byte (mem a)) -> forall n data check, 0 <= check -> check + 255 * Z.of_nat n < 2^32 ->
  dumpBytes n mem data check = (Some (hexs (bytes_from mem data n)), check + sum (bytes_from mem data n)).
Proof.
  intros Hm. induction n as [|n IH]; intros data check H0 H; cbn [dumpBytes bytes_from hexs flat_map].
  - unfold sum. cbn [fold_right]. rewrite Z.add_0_r. reflexivity.
  - pose proof (Hm data) as B. unfold is_byte in B. change (2^32) with 4294967296 in *.
    unfold u32. rewrite Z.mod_small by lia. rewrite IH by lia. rewrite printInt_hex2 by auto. cbn [app_opt].
    unfold sum at 2. cbn [fold_right]. fold (sum (bytes_from mem (data + 1) n)). f_equal. lia.
Qed.
Lemma bytes_from_length mem n : forall a, length (bytes_from mem a n) = n.
Proof. induction n; intros a; cbn; auto. Qed.
Lemma bytes_from_byte mem n : (forall a, is_byte (mem a)) -> forall a, Forall is_byte (bytes_from mem a n).
Proof. intros Hm. induction n; intros a; cbn; constructor; auto. Qed.
Lemma bytes_from_app mem n m : forall a, bytes_from mem a (n + m) = bytes_from mem a n ++ bytes_from mem (a + Z.of_nat n) m.
Proof.
  induction n; intros a; cbn [Nat.add bytes_from app]; [rewrite Z.add_0_r; auto|]. f_equal. rewrite IHn. f_equal. f_equal. lia.
Qed.
Lemma dumpLines_spec mem bpl : (forall a, is_byte (mem a)) -> 1 <= bpl <= 255 -> forall fuel data left, 0 <= data -> 0 <= left -> data + left <= 65536 ->
  left <= Z.of_nat fuel -> exists out recs, dumpLines fuel mem data left bpl = Some out /\
    (forall r, hex_decode AtStart (out ++ r) = option_map (app recs) (hex_decode AtStart r)) /\
    covers bpl data recs (bytes_from mem data (Z.to_nat left)).
Proof.
  intros Hm Hb. induction fuel as [|fuel IH]; intros data left Hd Hl Ha Hf; cbn [dumpLines].
  - destruct (Z.leb_spec left 0); [|lia]. exists [], []. assert (left = 0) by lia. subst. split; auto. split; [|constructor].
    intros r. cbn [app]. destruct (hex_decode AtStart r); auto.
  - destruct (Z.leb_spec left 0). { exists [], []. assert (left = 0) by lia. subst. split; auto. split; [|constructor].
      intros r. cbn [app]. destruct (hex_decode AtStart r); auto. }
    set (n := if left <? bpl then left else bpl).
    assert (Hn : 1 <= n <= 255 /\ n <= left /\ n <= bpl) by (unfold n; destruct (Z.ltb_spec left bpl); lia). clearbody n.
    set (ah := data / 256). set (al := data mod 256).
    assert (A : Z.land (Z.shiftr data 8) 255 = ah /\ Z.land data 255 = al).
    { change 255 with (Z.ones 8). rewrite !Z.land_ones, Z.shiftr_div_pow2 by lia. change (2 ^ 8) with 256. unfold ah, al.
      split; auto. apply Z.mod_small. Z.div_mod_to_equations; lia. }
    destruct A as [-> ->].
    assert (Hah : is_byte ah /\ is_byte al /\ data = 256 * ah + al) by (unfold ah, al, is_byte; Z.div_mod_to_equations; lia).
    destruct Hah as (B1 & B2 & B3). unfold is_byte in B1, B2.
    unfold u32. rewrite Z.mod_small by lia.
    rewrite dumpBytes_spec by (auto; change (2^32) with 4294967296; lia).
    destruct (IH (data + n) (left - n)) as (out & recs & E1 & E2 & E3); try lia.
    set (c := n + (ah + al) + sum (bytes_from mem data (Z.to_nat n))).
    assert (C0 : 0 <= c).
    { pose proof (bytes_from_byte mem (Z.to_nat n) Hm data) as F. assert (0 <= sum (bytes_from mem data (Z.to_nat n))).
      { induction F as [|x l Hx _ IHF]; unfold sum in *; cbn [fold_right]; [lia|unfold is_byte in Hx; lia]. } unfold c. lia. }
    destruct (finalCheckSum_spec c C0) as [F1 F2].
    rewrite E1, print_hex2 by (red; lia). rewrite print_hex4 by (red; lia). fold ah. fold al.
    rewrite printInt_hex2 by (red; lia). rewrite print_hex2 by auto. cbn [app_opt].
    set (rec := n :: ah :: al :: 0 :: bytes_from mem data (Z.to_nat n) ++ [finalCheckSum c]).
    assert (R : Forall is_byte rec).
    { unfold rec. repeat apply Forall_cons; try (red; lia). apply Forall_app. split; [apply bytes_from_byte; auto|]. repeat constructor; apply F1. }
    exists (58 :: hexs rec ++ CRLF ++ out), (rec :: recs). split.
    { f_equal. unfold rec, HEX_STARTCODE. cbn [app]. f_equal. change (n :: ah :: al :: 0 :: bytes_from mem data (Z.to_nat n) ++ [finalCheckSum c])
        with ([n] ++ [ah; al] ++ [0] ++ bytes_from mem data (Z.to_nat n) ++ [finalCheckSum c]). rewrite !hexs_app, <- !app_assoc. reflexivity. }
    split.
    { intros r. rewrite <- app_comm_cons, <- !app_assoc, decode_line by auto. rewrite E2. destruct (hex_decode AtStart r); reflexivity. }
    replace (Z.to_nat left) with (Z.to_nat n + Z.to_nat (left - n))%nat by lia. rewrite bytes_from_app.
    constructor.
    + exists (finalCheckSum c). rewrite bytes_from_length. split; [unfold rec, ah, al; f_equal; lia|]. split; auto.
      unfold rec, sum. cbn [fold_right]. fold (sum (bytes_from mem data (Z.to_nat n) ++ [finalCheckSum c])). rewrite sum_app.
      assert (S1 : sum [finalCheckSum c] = finalCheckSum c) by (unfold sum; cbn [fold_right]; apply Z.add_0_r).
      rewrite S1. etransitivity; [|exact F2]. f_equal. generalize (finalCheckSum c). intros fc. unfold c. lia.
    + rewrite bytes_from_length. lia.
    + rewrite bytes_from_length. replace (data + Z.of_nat (Z.to_nat n)) with (data + n) by lia. exact E3.
Qed.
Lemma dump_spec mem start count bpl : (forall a, is_byte (mem a)) -> 1 <= bpl <= 255 -> 0 <= start -> 0 <= count -> start + count < 65536 ->
  exists out recs check, dumpIntelHex mem start count bpl = Some out /\
    let last := [4; 0; 0; 3; start / 256; start mod 256; (start + count) / 256; (start + count) mod 256; check] in
    hex_decode AtStart out = Some (recs ++ [last; [0; 0; 0; 1; 255]]) /\ sum last mod 256 = 0 /\ Forall is_byte last /\
    covers bpl start recs (bytes_from mem start (Z.to_nat count)).
Proof.
  intros Hm Hb Hs Hc Ha. unfold dumpIntelHex.
  destruct (dumpLines_spec mem bpl Hm Hb (Z.to_nat count) start count) as (out & recs & E1 & E2 & E3); try lia.
  rewrite E1, !print_hex4 by (red; lia). set (stop := start + count) in *.
  set (check := 7 + (Z.land (Z.shiftr start 8) 255 + Z.land start 255) + (Z.land (Z.shiftr stop 8) 255 + Z.land stop 255)).
  assert (A : forall x, 0 <= x < 65536 -> Z.land (Z.shiftr x 8) 255 = x / 256 /\ Z.land x 255 = x mod 256).
  { intros x Hx. change 255 with (Z.ones 8). rewrite !Z.land_ones, Z.shiftr_div_pow2 by lia. change (2 ^ 8) with 256.
    split; auto. apply Z.mod_small. Z.div_mod_to_equations; lia. }
  assert (C0 : check = 7 + (start / 256 + start mod 256) + (stop / 256 + stop mod 256)).
  { unfold check. destruct (A start) as [-> ->]; [lia|]. destruct (A stop) as [-> ->]; lia. }
  destruct (finalCheckSum_spec check) as [F1 F2]. { rewrite C0. Z.div_mod_to_equations; lia. }
  rewrite print_hex2 by auto. cbn [app_opt].
  set (last := [4; 0; 0; 3; start / 256; start mod 256; stop / 256; stop mod 256; finalCheckSum check]).
  assert (R : Forall is_byte last).
  { unfold last. repeat apply Forall_cons; try apply Forall_nil; try exact F1; red; try lia; Z.div_mod_to_equations; lia. }
  eexists. exists recs, (finalCheckSum check). split; [reflexivity|]. fold last. cbv zeta. split; [|split; [|split; auto]].
  - rewrite E2. match goal with |- option_map _ (hex_decode _ ?x) = _ =>
      replace x with (58 :: hexs last ++ CRLF ++ (58 :: hexs [0; 0; 0; 1; 255] ++ CRLF ++ [])) end.
    2:{ unfold last, HEX_STARTCODE, HEX_START_SEGMENT_RECORD, HEX_END_OF_FILE, CRLF. unfold hexs. cbn [flat_map app]. unfold hex2. reflexivity. }
    rewrite decode_line by auto. rewrite decode_line. 2:{ repeat (apply Forall_cons; [red; lia|]); apply Forall_nil. }
    reflexivity.
  - unfold last, sum. cbn [fold_right]. etransitivity; [|exact F2]. f_equal. generalize (finalCheckSum check). intros fc. rewrite C0. lia.
Qed.
