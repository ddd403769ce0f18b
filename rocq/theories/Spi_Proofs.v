(** Proofs about SPI: the port during a block transfer. *)
From Verif Require Export Spi_Spec.
Local Open Scope nat_scope.

(** A list of which some elements are left out. *)
Inductive sub : list Z -> list Z -> Prop :=
| sub_nil : sub [] []
| sub_take x a b : sub a b -> sub (x :: a) (x :: b)
| sub_skip x a b : sub a b -> sub a (x :: b).
Lemma sub_length a b : sub a b -> length a <= length b.
Proof. induction 1; simpl; lia. Qed.
Lemma sub_all a b : sub a b -> length a = length b -> a = b.
Proof.
  induction 1; simpl; intros E; auto. - f_equal; auto. - apply sub_length in H; lia.
Qed.
Lemma sub_refl a : sub a a.
Proof. induction a; constructor; auto. Qed.
Lemma sub_app a b c d : sub a b -> sub c d -> sub (a ++ c) (b ++ d).
Proof. induction 1; simpl; intros; auto; constructor; auto. Qed.
Lemma sub_app_r a b c : sub a b -> sub a (b ++ c).
Proof. induction 1; simpl; try (constructor; auto; fail). induction c; constructor; auto. Qed.

Lemma answers_app sl a b before : answers sl before (a ++ b) = answers sl before a ++ answers sl (before ++ a) b.
Proof.
  revert before; induction a as [|x a IH]; simpl; intros; [now rewrite app_nil_r|].
  rewrite IH, <- app_assoc; reflexivity.
Qed.
Lemma answers_length sl ws before : length (answers sl before ws) = length ws.
Proof. revert before; induction ws; simpl; intros; auto. Qed.

Definition opt (o : option Z) : list Z := match o with Some x => [x] | None => [] end.
Definition flight (p : port) : nat := length (opt (shift p)) + length (tx p).

Section Port.
  Variables (sl : list Z -> Z) (b : Z) (base raw : list Z).
  Notation f := (fit b).
  Definition ans (l : list Z) : list Z := answers (fun h => f (sl h)) base l.

  (** [k] words are queued, [pop] are read, [done] are sent *)
  Definition okp (p : port) (k : nat) (pop : list Z) : Prop :=
    exists done, on p = true /\ bits p = b /\ sent p = base ++ done /\
      done ++ map f (opt (shift p) ++ tx p) = firstn k (map f raw) /\
      sub (pop ++ rx p) (ans done) /\ length (tx p) <= 8 /\ length (rx p) <= 8 /\ (shift p = None -> tx p = []).
  Definition whole (p : port) (pop : list Z) : Prop := length base + length pop + length (rx p) = length (sent p).

  Lemma okp_counts p k pop : okp p k pop -> k <= length raw ->
    length base + length pop + length (rx p) <= length (sent p) /\ length (sent p) + flight p = length base + k.
  Proof.
    intros (d & O & B & S & Q & U & _) K. apply sub_length in U. unfold ans in U. rewrite answers_length, app_length in U.
    apply (f_equal (@length Z)) in Q. rewrite app_length, map_length, app_length, firstn_length, map_length, Nat.min_l in Q by auto.
    rewrite S, app_length. unfold flight. lia.
  Qed.

  Lemma okp_same p q k pop : okp p k pop -> c0 q = c0 p -> c1 q = c1 p -> tx q = tx p -> shift q = shift p -> rx q = rx p -> sent q = sent p -> okp q k pop.
  Proof. unfold okp, on, bits. intros H -> -> -> -> -> ->. exact H. Qed.

  (** the parts a frame leaves *)
  Definition still (p q : port) : Prop := c0 q = c0 p /\ c1 q = c1 p /\ msk q = msk p /\ cps q = cps p.
  Lemma still_refl p : still p p. Proof. firstorder. Qed.
  Lemma still_trans p q r : still p q -> still q r -> still p r.
  Proof. unfold still; intuition congruence. Qed.

  Lemma frame_ok p k pop : okp p k pop -> okp (frame sl p) k pop.
  Proof.
    intros (d & O & B & S & Q & U & T & R & E). unfold frame. rewrite O.
    destruct (shift p) as [w|] eqn:W; [|exists d; rewrite W; auto 9].
    exists (d ++ [f w]). unfold begin_frame, on. cbn [c1 shift tx]. change (Z.testbit (c1 p) 1) with (on p); rewrite O.
    assert (S' : sent p ++ [fit (bits p) w] = base ++ d ++ [f w]) by (rewrite S, B, app_assoc; auto).
    assert (U' : sub (pop ++ (if length (rx p) <? 8 then rx p ++ [fit (bits p) (sl (sent p ++ [fit (bits p) w]))] else rx p)) (ans (d ++ [f w]))).
    { unfold ans. rewrite answers_app. cbn [answers]. rewrite B, S, <- app_assoc. destruct (length (rx p) <? 8).
      - rewrite app_assoc. apply sub_app; auto. rewrite app_assoc. apply sub_refl.
      - apply sub_app_r; auto. }
    assert (R' : length (if length (rx p) <? 8 then rx p ++ [fit (bits p) (sl (sent p ++ [fit (bits p) w]))] else rx p) <= 8).
    { destruct (length (rx p) <? 8) eqn:L; [rewrite app_length; simpl|]; lia. }
    destruct (tx p) as [|x t] eqn:X; unfold on, bits; cbn [c0 c1 sent shift tx rx opt]; (split; [exact O|]; split; [exact B|]; split; [exact S'|]; split; [|split; [exact U'|]; split; [|split; [exact R'|auto; discriminate]]]).
    - rewrite <- Q. cbn. rewrite app_nil_r. reflexivity.
    - simpl; lia.
    - rewrite <- Q. cbn. rewrite <- app_assoc. reflexivity.
    - simpl in *; lia.
  Qed.
  Lemma frame_still p : still p (frame sl p).
  Proof.
    unfold frame, still. destruct (on p); auto. destruct (shift p); auto. unfold begin_frame. destruct (on _); cbn; auto. destruct (tx p); cbn; auto.
  Qed.
  (** a frame under way ends: one less; the received words are one more at most *)
  Lemma frame_counts p k pop : okp p k pop ->
    (flight p = 0 -> frame sl p = p) /\ (0 < flight p -> S (flight (frame sl p)) = flight p) /\
    (length (rx p) <= length (rx (frame sl p)) <= length (rx p) + 1) /\
    (length (rx p) < 8 -> whole p pop -> whole (frame sl p) pop) /\
    (0 < flight p -> length (rx p) < 8 -> length (rx (frame sl p)) = length (rx p) + 1).
  Proof.
    intros (d & O & B & S & Q & U & T & R & E). unfold frame, flight, whole. rewrite O.
    destruct (shift p) as [w|] eqn:W.
    2: { rewrite W, E by auto. cbn. repeat split; auto; lia. }
    unfold begin_frame, on. cbn [c1 shift tx]. change (Z.testbit (c1 p) 1) with (on p); rewrite O.
    destruct (Nat.ltb_spec (length (rx p)) 8) as [L|L]; destruct (tx p) as [|x t] eqn:X; cbn [opt shift tx rx sent length]; rewrite ?app_length; cbn [length];
      repeat split; intros; lia.
  Qed.
  Lemma frames_ok n p k pop : okp p k pop ->
    let q := Nat.iter n (frame sl) p in
    okp q k pop /\ still p q /\ (flight p = 0 -> q = p) /\ (0 < n -> 0 < flight p -> flight q < flight p) /\
    flight q <= flight p /\ length (rx p) <= length (rx q) /\ length (rx q) <= length (rx p) + n /\
    length (rx q) + flight q <= length (rx p) + flight p /\
    (length (rx p) + n <= 8 -> whole p pop -> whole q pop) /\
    (length (rx p) + flight p <= 8 -> whole p pop -> whole q pop).
  Proof.
    intros H q. subst q. induction n as [|n IH].
    - cbn. repeat split; auto; try lia; apply still_refl.
    - change (Nat.iter (S n) (frame sl) p) with (frame sl (Nat.iter n (frame sl) p)).
      set (q := Nat.iter n (frame sl) p) in *. destruct IH as (K & M & Z0 & D & Fl & L0 & L1 & Tot & W1 & W2).
      destruct (frame_counts q k pop K) as (F0 & F1 & F2 & F3 & F4).
      split; [apply frame_ok; auto|]. split; [eapply still_trans; [exact M|apply frame_still]|].
      assert (X : flight q = 0 \/ 0 < flight q) by lia.
      split; [intros E; rewrite F0, Z0; auto; rewrite Z0; auto|].
      split. { intros _ P. destruct X as [X|X]; [rewrite F0 by auto; lia|specialize (F1 X); lia]. }
      split. { destruct X as [X|X]; [rewrite F0 by auto; lia|specialize (F1 X); lia]. }
      split; [lia|]. split; [lia|].
      split. { destruct X as [X|X]; [rewrite F0 by auto; lia|specialize (F1 X); lia]. }
      split. { intros A B. apply F3; [lia|apply W1; auto; lia]. }
      intros A B. destruct X as [X|X]; [rewrite F0 by auto; auto|]. apply F3; [lia|auto].
  Qed.

  Lemma pop_ok p k pop x t : okp p k pop -> rx p = x :: t -> okp (set_rx p t) k (pop ++ [x]) /\ x = f x /\ (whole p pop -> whole (set_rx p t) (pop ++ [x])).
  Proof.
    intros (d & O & B & S & Q & U & T & R & E) X. split; [|split].
    - exists d. cbn. rewrite X in *. rewrite <- app_assoc. simpl in *. repeat split; auto; lia.
    - assert (In x (ans d)).
      { assert (G : forall a c, sub a c -> forall y, In y a -> In y c) by (induction 1; simpl; intros; intuition).
        apply (G _ _ U). rewrite X. apply in_or_app; right; left; auto. }
      unfold ans in H. clear - H. revert H. generalize base. induction d as [|y d IH]; simpl; intros bs H; [contradiction|].
      destruct H as [<-|H]; [|eauto]. unfold fit. symmetry. destruct (Z.eq_dec (2 ^ b) 0) as [->|N]; [now rewrite !Zmod_0_r|apply Z.mod_mod; auto].
    - unfold whole, set_rx; cbn. rewrite app_length, X. simpl. lia.
  Qed.
  Lemma queue_ok p k pop : okp p k pop -> (1 <= b <= 16)%Z -> length (tx p) < 8 -> k < length raw ->
    okp (queue p (nth k raw 0%Z)) (S k) pop /\ flight (queue p (nth k raw 0%Z)) = S (flight p) /\
    rx (queue p (nth k raw 0%Z)) = rx p /\ sent (queue p (nth k raw 0%Z)) = sent p /\ still p (queue p (nth k raw 0%Z)).
  Proof.
    intros (d & O & B & S & Q & U & T & R & E) Hb L K. set (v := nth k raw 0%Z).
    assert (Fv : f (v mod 65536)%Z = f v).
    { unfold fit. rewrite <- (Znumtheory.Zmod_div_mod (2 ^ b) 65536); auto; try lia. change 65536%Z with (2 ^ 16)%Z. exists (2 ^ (16 - b))%Z. rewrite <- Z.pow_add_r by lia. f_equal; lia. }
    assert (FN : firstn (Datatypes.S k) (map f raw) = firstn k (map f raw) ++ [f v]).
    { subst v. rewrite <- (map_nth f). clear - K. assert (G : forall l i, i < length l -> firstn (Datatypes.S i) l = firstn i l ++ [nth i l (f 0%Z)]).
      { induction l as [|y l IH]; intros i H; simpl in *; [lia|]. destruct i; [reflexivity|]. change (y :: firstn (Datatypes.S i) l = y :: firstn i l ++ [nth i l (f 0%Z)]). f_equal. apply IH. lia. }
      apply G. rewrite map_length. auto. }
    unfold queue. destruct (Nat.ltb_spec (length (tx p)) 8); [|lia].
    unfold begin_frame, set_tx, on, bits. cbn [c0 c1 shift tx]. change (Z.testbit (c1 p) 1) with (on p); rewrite O.
    destruct (shift p) as [w|] eqn:W.
    - split; [|unfold flight, still; cbn [opt tx rx sent shift length c0 c1 cps msk]; rewrite ?W, ?app_length; cbn; repeat split; auto; lia].
      exists d. unfold on, bits; cbn [c0 c1 opt tx rx sent shift]. split; [exact O|]. split; [exact B|]. split; [exact S|]. split; [|split; [exact U|]; split; [rewrite app_length; simpl; lia|split; [exact R|discriminate]]].
      rewrite FN, <- Q. rewrite <- app_assoc. f_equal. rewrite !map_app. cbn [map opt]. rewrite Fv, <- app_assoc; auto.
    - rewrite E in * by auto. cbn [app].
      split; [|unfold flight, still; cbn [opt tx rx sent shift length c0 c1 cps msk]; rewrite ?W, ?E by auto; cbn; repeat split; auto; lia].
      exists d. unfold on, bits; cbn [c0 c1 opt tx rx sent shift]. split; [exact O|]. split; [exact B|]. split; [exact S|]. split; [|split; [exact U|]; split; [simpl; lia|split; [exact R|discriminate]]].
      rewrite FN, <- Q. cbn. rewrite Fv, app_nil_r; auto.
  Qed.
End Port.
