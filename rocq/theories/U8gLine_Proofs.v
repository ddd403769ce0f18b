(** Lines (C114). *)
From Verif Require Export U8gDraw_Spec U8gRect_Proofs.

Lemma i8_small v : -128 <= v <= 127 -> i8 v = v.
Proof. intros. unfold i8, u8. destruct (Z.ltb_spec (v mod 256) 128); Z.div_mod_to_equations; lia. Qed.
Lemma i8_mod v : exists k, i8 v = v + 256 * k.
Proof. unfold i8, u8. destruct (v mod 256 <? 128); [exists (- (v / 256))|exists (- (v / 256) - 1)]; pose proof (Z.div_mod v 256); lia. Qed.
Lemma i8_add_idem a b : i8 (i8 a + b) = i8 (a + b).
Proof.
  destruct (i8_mod a) as (k & E). rewrite E. unfold i8. assert (M : u8 (a + 256 * k + b) = u8 (a + b)).
  { unfold u8. replace (a + 256 * k + b) with (a + b + k * 256) by ring. apply Z.mod_add. lia. }
  rewrite M. reflexivity.
Qed.

(** The loop with the exact error [e]; the variable holds it modulo 256 *)
Section Loop.
Context (swap : bool) (D d a a' b st : Z).
Context (E : Z -> Prop).
Hypothesis HD : 0 <= d <= D.
Hypothesis Ha : 0 <= a /\ a' = a + D /\ a' <= 254.
Hypothesis Hb : 0 <= b <= 255 /\ (st = 1 \/ st = -1).
Hypothesis Estep : forall e, E e -> -128 <= e - d <= 127 /\ E (if e - d <? 0 then e - d + D else e - d).
Hypothesis Erange : forall e, E e -> 0 <= e /\ (e < D \/ e = 0).
(** The dot of column [k] *)
Definition dotk (k n : Z) : msg := if negb swap then Pixel (a + k) (u8 (b + n * st)) else Pixel (u8 (b + n * st)) (a + k).
Lemma line_loop m : forall fuel k n e v, 0 <= k -> Z.of_nat m = D + 1 - k -> (m < fuel)%nat -> E e -> v = i8 e -> e = D / 2 - k * d + n * D ->
  exists ns, length ns = m /\ lineLoop fuel swap (a + k) a' (u8 (b + n * st)) D d st v = Some (map (fun j => dotk (k + Z.of_nat j) (nth j ns 0)) (seq 0 m))
  /\ forall j, (j < m)%nat -> E (D / 2 - (k + Z.of_nat j) * d + nth j ns 0 * D).
Proof.
  induction m as [|m IH]; intros fuel k n e v K M F He V Ee; (destruct fuel as [|fuel]; [lia|]); cbn [lineLoop].
  - destruct (Z.leb_spec (a + k) a'); [lia|]. exists []. repeat split. intros j J. lia.
  - destruct (Z.leb_spec (a + k) a'); [|lia]. destruct (Estep e He) as [R Es]. rewrite V. replace (i8 e - d) with (i8 e + - d) by ring. rewrite i8_add_idem.
    replace (e + - d) with (e - d) by ring. rewrite (i8_small (e - d)) by exact R. rewrite (u8_small (a + k + 1)) by lia. replace (a + k + 1) with (a + (k + 1)) by ring.
    set (n' := if e - d <? 0 then n + 1 else n). set (e' := if e - d <? 0 then e - d + D else e - d) in *.
    assert (P : (if e - d <? 0 then (u8 (u8 (b + n * st) + u8 st), i8 (e - d + D)) else (u8 (b + n * st), e - d)) = (u8 (b + n' * st), i8 e')).
    { unfold n', e'. destruct (e - d <? 0); [|rewrite (i8_small (e - d)) by exact R; reflexivity]. f_equal. unfold u8. rewrite <- Zplus_mod. f_equal. ring. }
    rewrite P. destruct (IH fuel (k + 1) n' e' (i8 e') ltac:(lia) ltac:(lia) ltac:(lia) Es eq_refl) as (ns & L & Q & G).
    { unfold e', n'. destruct (e - d <? 0); rewrite Ee; ring. }
    exists (n :: ns). split; [cbn [length]; lia|]. split.
    + rewrite Q. cbn [option_map seq map nth]. f_equal. f_equal; [unfold dotk; rewrite Z.add_0_r; reflexivity|]. rewrite <- seq_shift, map_map. apply map_ext. intros j. cbn [nth]. f_equal. lia.
    + intros [|j] J; cbn [nth]; [rewrite Z.add_0_r, <- Ee; exact He|]. specialize (G j ltac:(lia)). replace (k + Z.of_nat (S j)) with (k + 1 + Z.of_nat j) by lia. exact G.
Qed.
Hypothesis E0 : E (D / 2).
(** The whole loop *)
Lemma line_flat fuel : (256 <= fuel)%nat -> exists l, lineLoop fuel swap a a' b D d st (i8 (D / 2)) = Some l /\
  forall m, In m l <-> exists k n, 0 <= k <= D /\ (D = 0 /\ n = 0 \/ - D <= 2 * (n * D - k * d) < D) /\ m = dotk k n.
Proof.
  intros F. destruct (Z.eq_dec D 0) as [D0|D0].
  { assert (d = 0) by lia. assert (a' = a) by lia. clear Estep Erange E0 E. subst d a'. rewrite D0. destruct fuel as [|[|fuel]]; [lia|lia|]. cbn [lineLoop].
    destruct (Z.leb_spec a a); [|lia]. change (i8 (i8 (0 / 2) - 0)) with 0. change (0 <? 0) with false. cbv iota. rewrite (u8_small (a + 1)) by lia. destruct (Z.leb_spec (a + 1) a); [lia|].
    cbn [option_map]. eexists. split; [reflexivity|]. intros m.
    assert (E0 : (if negb swap then Pixel a b else Pixel b a) = dotk 0 0) by (unfold dotk; rewrite Z.mul_0_l, !Z.add_0_r, u8_small by lia; reflexivity). rewrite E0. cbn [In]. split.
    - intros [<-|[]]. exists 0, 0. repeat split; auto; lia.
    - intros (k & n & K & [[_ ->]|H1] & ->); [|lia]. left. f_equal. lia. }
  destruct (line_loop (Z.to_nat (D + 1)) fuel 0 0 (D / 2) (i8 (D / 2)) ltac:(lia) ltac:(lia) ltac:(lia) E0 eq_refl ltac:(ring)) as (ns & L & Q & G).
  rewrite Z.add_0_r in Q. replace (u8 (b + 0 * st)) with b in Q by (rewrite Z.mul_0_l, Z.add_0_r, u8_small by lia; reflexivity).
  eexists. split; [exact Q|]. intros m.
  assert (U : forall k n, 0 <= k <= D -> (D = 0 /\ n = 0 \/ - D <= 2 * (n * D - k * d) < D) -> forall n', (D = 0 /\ n' = 0 \/ - D <= 2 * (n' * D - k * d) < D) -> n = n').
  { intros k n K [[Dz ->]|H] n' [[Dz' H']|H']; try lia. assert (-1 < n - n' < 1) by nia. lia. }
  assert (N : forall j, (j < Z.to_nat (D + 1))%nat -> D = 0 /\ nth j ns 0 = 0 \/ - D <= 2 * (nth j ns 0 * D - Z.of_nat j * d) < D).
  { intros j J. specialize (G j J). rewrite Z.add_0_l in G. destruct (Erange _ G) as [G1 G2]. clear - G1 G2 D0 HD. right. revert G1 G2. generalize (Z.of_nat j * d) as u. intros u. generalize (nth j ns 0 * D) as q. intros q G1 G2. Z.div_mod_to_equations. lia. }
  rewrite in_map_iff. split.
  - intros (j & <- & J). apply in_seq in J. exists (Z.of_nat j), (nth j ns 0). split; [lia|]. split; [apply N; lia|reflexivity].
  - intros (k & n & K & H & ->). exists (Z.to_nat k). split; [|apply in_seq; lia]. rewrite Z.add_0_l, Z2Nat.id by lia. f_equal. apply (U k); auto. specialize (N (Z.to_nat k) ltac:(lia)). rewrite Z2Nat.id in N by lia. exact N.
Qed.
End Loop.

Lemma fits_steps D d : 0 <= d <= D -> D <= 255 -> fits D d -> exists E : Z -> Prop, E (D / 2)
  /\ (forall e, E e -> -128 <= e - d <= 127 /\ E (if e - d <? 0 then e - d + D else e - d)) /\ (forall e, E e -> 0 <= e /\ (e < D \/ e = 0)).
Proof.
  intros H D255 F. assert (H2 : 0 <= D / 2 <= 127 /\ D / 2 <= D /\ (D / 2 < D \/ D / 2 = 0)) by (Z.div_mod_to_equations; lia).
  destruct F as [->|[->|[F1 F2]]].
  - exists (fun e => e = D / 2). split; [reflexivity|]. split; [|intros e ->; lia]. intros e ->. rewrite Z.sub_0_r. destruct (Z.ltb_spec (D / 2) 0); lia.
  - exists (fun e => e = D / 2). split; [reflexivity|]. split; [|intros e ->; lia]. intros e ->. assert (D - D / 2 <= 128) by (Z.div_mod_to_equations; lia). destruct (Z.ltb_spec (D / 2 - D) 0); lia.
  - exists (fun e => 0 <= e /\ (e < D \/ e = 0)). split; [lia|]. split; [|auto]. intros e [E1 E2]. destruct (Z.ltb_spec (e - d) 0); lia.
Qed.

(** The dots of the messages of the loop are those of the straight line *)
Lemma flat_dots swap a b a' b' D d st l x y : 0 <= a -> a' = a + D -> a' <= 254 -> is_byte b -> is_byte b' -> d = Z.abs (b' - b) -> 0 <= d <= D -> st = (if b <? b' then 1 else -1) ->
  (forall m, In m l <-> exists k n, 0 <= k <= D /\ (D = 0 /\ n = 0 \/ - D <= 2 * (n * D - k * d) < D) /\ m = dotk swap a b st k n) ->
  Forall msg_ok l /\ (covers l x y <-> if swap then flat a b a' b' y x else flat a b a' b' x y).
Proof.
  unfold is_byte. intros A A' A254 B B' Ed HD Est HL.
  assert (V : forall k n, 0 <= k <= D -> (D = 0 /\ n = 0 \/ - D <= 2 * (n * D - k * d) < D) -> u8 (b + n * st) = b + n * Z.sgn (b' - b) /\ is_byte (b + n * Z.sgn (b' - b))).
  { intros k n K N. assert (0 <= n <= d). { destruct N as [[D0 ->]|N]; [lia|]. split; nia. }
    unfold is_byte. destruct (Z.ltb_spec b b').
    - subst st. rewrite Z.sgn_pos by lia. rewrite u8_small; lia.
    - subst st. destruct (Z.eq_dec b b') as [->|]; [rewrite Z.sub_diag in *; change (Z.abs 0) with 0 in Ed; change (Z.sgn 0) with 0; rewrite u8_small; lia|]. rewrite Z.sgn_neg by lia. rewrite u8_small; lia. }
  split.
  - apply Forall_forall. intros m I. apply HL in I as (k & n & K & N & ->). destruct (V k n K N) as [V1 V2]. unfold dotk. rewrite V1. destruct swap; cbn [negb msg_ok]; split; auto; unfold is_byte; lia.
  - unfold covers, flat. cbn zeta. replace (a' - a) with D by lia. rewrite <- Ed. split.
    + intros (m & I & O). apply HL in I as (k & n & K & N & ->). destruct (V k n K N) as [V1 _]. unfold dotk in O. rewrite V1 in O. destruct swap; cbn [negb on] in O; destruct O as [-> ->]; exists k, n; auto.
    + intros H. exists (Pixel x y). split; [|cbn [on]; auto]. apply HL. destruct swap; destruct H as (k & n & K & -> & -> & N); exists k, n; destruct (V k n K N) as [V1 _]; unfold dotk; rewrite V1; auto.
Qed.

Lemma line_ok fuel x1 y1 x2 y2 : (256 <= fuel)%nat -> is_byte x1 -> is_byte y1 -> is_byte x2 -> is_byte y2 ->
  let dx := Z.abs (x2 - x1) in let dy := Z.abs (y2 - y1) in
  fits (Z.max dx dy) (Z.min dx dy) -> (if dy <=? dx then x1 < 255 /\ x2 < 255 else y1 < 255 /\ y2 < 255) ->
  exists l, DrawLine fuel x1 y1 x2 y2 = Some l /\ Forall msg_ok l /\ forall x y, covers l x y <-> line x1 y1 x2 y2 x y.
Proof.
  intros Fu X1 Y1 X2 Y2 dx dy Fi Hi. unfold is_byte in *. unfold DrawLine, line.
  replace (if x2 <? x1 then u8 (x1 - x2) else u8 (x2 - x1)) with dx by (unfold dx; destruct (Z.ltb_spec x2 x1); rewrite u8_small; lia).
  replace (if y2 <? y1 then u8 (y1 - y2) else u8 (y2 - y1)) with dy by (unfold dy; destruct (Z.ltb_spec y2 y1); rewrite u8_small; lia).
  fold dx dy.
  assert (GO : forall swap a b a' b', a <= a' -> 0 <= a <= 254 -> 0 <= a' <= 254 -> 0 <= b < 256 -> 0 <= b' < 256 -> Z.abs (b' - b) <= a' - a -> fits (a' - a) (Z.abs (b' - b)) ->
    exists l, lineLoop fuel swap a a' b (a' - a) (Z.abs (b' - b)) (if b <? b' then 1 else -1) (i8 (Z.shiftr (a' - a) 1)) = Some l /\ Forall msg_ok l
      /\ forall x y, covers l x y <-> if swap then flat a b a' b' y x else flat a b a' b' x y).
  { intros swap a b a' b' G1 G2 G3 G4 G5 G6 G7. destruct (fits_steps (a' - a) (Z.abs (b' - b)) ltac:(lia) ltac:(lia) G7) as (E & E1 & E2 & E3).
    rewrite Z.shiftr_div_pow2 by lia. change (2 ^ 1) with 2.
    destruct (line_flat swap (a' - a) (Z.abs (b' - b)) a a' b (if b <? b' then 1 else -1) E ltac:(lia) ltac:(lia) ltac:(destruct (b <? b'); lia) E2 E3 E1 fuel Fu) as (l & Q & HL).
    exists l. split; [exact Q|].
    assert (FD : forall x y, Forall msg_ok l /\ (covers l x y <-> if swap then flat a b a' b' y x else flat a b a' b' x y)).
    { intros x y. apply (flat_dots swap a b a' b' (a' - a) (Z.abs (b' - b)) (if b <? b' then 1 else -1)); auto; lia. }
    split; [apply (FD 0 0)|]. intros x y. apply FD. }
  destruct (Z.leb_spec dy dx) as [L|L].
  - destruct (Z.ltb_spec dx dy); [lia|]. rewrite Z.max_l, Z.min_r in Fi by lia. destruct (Z.ltb_spec x2 x1) as [S|S].
    + destruct (Z.leb_spec x1 x2); [lia|]. replace dx with (x1 - x2) by (unfold dx; lia). replace dy with (Z.abs (y1 - y2)) by (unfold dy; lia).
      apply (GO false); try lia. unfold dx, dy in *. replace (x1 - x2) with (Z.abs (x2 - x1)) by lia. replace (Z.abs (y1 - y2)) with (Z.abs (y2 - y1)) by lia. exact Fi.
    + destruct (Z.leb_spec x1 x2); [|lia]. replace dx with (x2 - x1) by (unfold dx; lia). unfold dy.
      apply (GO false); try lia. unfold dx, dy in *. replace (x2 - x1) with (Z.abs (x2 - x1)) by lia. exact Fi.
  - destruct (Z.ltb_spec dx dy); [|lia]. rewrite Z.max_r, Z.min_l in Fi by lia. destruct (Z.ltb_spec y2 y1) as [S|S].
    + destruct (Z.leb_spec y1 y2); [lia|]. replace dy with (y1 - y2) by (unfold dy; lia). replace dx with (Z.abs (x1 - x2)) by (unfold dx; lia).
      apply (GO true); try lia. unfold dx, dy in *. replace (y1 - y2) with (Z.abs (y2 - y1)) by lia. replace (Z.abs (x1 - x2)) with (Z.abs (x2 - x1)) by lia. exact Fi.
    + destruct (Z.leb_spec y1 y2); [|lia]. replace dy with (y2 - y1) by (unfold dy; lia). unfold dx.
      apply (GO true); try lia. unfold dx, dy in *. replace (y2 - y1) with (Z.abs (y2 - y1)) by lia. exact Fi.
Qed.

(** ** What a line is *)
Lemma flat_ends a b a' b' : a <= a' -> Z.abs (b' - b) <= a' - a -> flat a b a' b' a b /\ flat a b a' b' a' b'.
Proof.
  intros A B. unfold flat. cbn zeta. split.
  - exists 0, 0. repeat split; lia.
  - exists (a' - a), (Z.abs (b' - b)). split; [lia|]. split; [lia|]. split; [pose proof (Z.abs_sgn (b' - b)); lia|]. destruct (Z.eq_dec (a' - a) 0); [left; lia|right; lia].
Qed.
Lemma flat_one a b a' b' u : a <= u <= a' -> Z.abs (b' - b) <= a' - a -> exists v, flat a b a' b' u v /\ forall v', flat a b a' b' u v' -> v' = v.
Proof.
  intros U B. unfold flat. cbn zeta. set (D := a' - a) in *. set (d := Z.abs (b' - b)) in *. set (k := u - a). destruct (Z.eq_dec D 0) as [D0|D0].
  - exists b. split; [exists 0, 0; repeat split; lia|]. intros v' (k' & n & K & _ & -> & [[_ ->]|N]); lia.
  - set (n := (2 * k * d + D - 1) / (2 * D)). assert (N : - D <= 2 * (n * D - k * d) < D).
    { pose proof (Z.div_mod (2 * k * d + D - 1) (2 * D) ltac:(lia)) as E. fold n in E. pose proof (Z.mod_pos_bound (2 * k * d + D - 1) (2 * D) ltac:(lia)). lia. }
    exists (b + n * Z.sgn (b' - b)). split; [exists k, n; repeat split; try lia|].
    intros v' (k' & n' & K & Eu & -> & [[? ?]|N']); [lia|]. replace k' with k in * by lia. assert (-1 < n - n' < 1) by nia. replace n' with n by lia. reflexivity.
Qed.
