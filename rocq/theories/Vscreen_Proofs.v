From Verif Require Export Vscreen_Spec U8g_Props U8g_Proofs.

Lemma mod_move x c z : 0 <= x -> 0 <= c -> x + c < 256 -> x = (z - c) mod 256 <-> x + c = z mod 256.
Proof. intros X C H. split; intros E; Z.to_euclidean_division_equations; lia. Qed.
Lemma mod_move_u8 x c a d : 0 <= x -> 0 <= c -> x + c < 256 -> x = (u8 (a - c) + d) mod 256 <-> x + c = (a + d) mod 256.
Proof. intros X C H. unfold u8. rewrite Zplus_mod_idemp_l. replace (a - c + d) with (a + d - c) by lia. apply mod_move; assumption. Qed.
Lemma on_to_child k m x y : msg_ok m -> 0 <= x -> 0 <= cx k -> x + cx k < 256 -> 0 <= y -> 0 <= cy k -> y + cy k < 256 -> on (to_child k m) x y <-> on m (x + cx k) (y + cy k).
Proof.
  intros M X CX XH Y CY YH. destruct m as [a b|a b dir pat]; cbn [to_child on].
  - destruct M as [A B]. pose proof (mod_move x (cx k) a X CX XH) as P. pose proof (mod_move y (cy k) b Y CY YH) as Q. unfold is_byte in *. rewrite (Z.mod_small a) in P by lia. rewrite (Z.mod_small b) in Q by lia.
    unfold u8. tauto.
  - split; intros (j & J & T & E1 & E2); exists j; (split; [exact J|]); (split; [exact T|]); split; apply mod_move_u8; assumption.
Qed.
Definition to_child_e (k : child) (e : Z * msg) : Z * msg := (fst e, to_child k (snd e)).
Lemma dot_to_child k x y : 0 <= x -> 0 <= cx k -> x + cx k < 256 -> 0 <= y -> 0 <= cy k -> y + cy k < 256 ->
  forall l v, Forall (fun e => msg_ok (snd e)) l -> dot (x + cx k) (y + cy k) l v -> dot x y (map (to_child_e k) l) v.
Proof.
  intros X CX XH Y CY YH l v F D. induction D as [|l c m v D IH O|l c m v D IH O]; [constructor| |]; apply Forall_app in F as [F1 F2]; inversion F2; subst; rewrite map_app; cbn [map to_child_e fst snd] in *.
  - eapply dot_on; [apply IH, F1|]. apply on_to_child; assumption.
  - apply dot_off; [apply IH, F1|]. intros Q. apply O. apply on_to_child in Q; assumption.
Qed.
Lemma to_child_ok k m : msg_ok m -> msg_ok (to_child k m).
Proof. destruct m; cbn; unfold is_byte, u8; intros H; repeat split; try apply Z.mod_pos_bound; try lia; tauto. Qed.

(** ** The state while child number [length done] is drawn *)
Definition at_child (v : vs) (done : list child) (k : child) (rest : list child) : vs := mkVs (is_vs v) (done ++ k :: rest) (Z.of_nat (length done)) (vs_width v) (vs_height v).
Lemma nth_mid {A} (d : list A) k r : nth_error (d ++ k :: r) (length d) = Some k.
Proof. rewrite nth_error_app2 by lia. rewrite Nat.sub_diag. reflexivity. Qed.
Lemma wr_mid {A} (d : list A) k k' r : wr (d ++ k :: r) (length d) k' = d ++ k' :: r.
Proof. induction d as [|a d IH]; cbn; [reflexivity|]. f_equal. exact IH. Qed.
Definition with_b (k : child) (b : pb) (log : list (Z * list Z)) : child := mkChild (cx k) (cy k) b log.
Lemma draw_fold v done k rest : forall l b log, fold_left (fun v e => vs_draw v (fst e) (snd e)) l (at_child v done (with_b k b log) rest)
  = at_child v done (with_b k (fold_left (fun b e => pb8v1_draw b (fst e) (snd e)) (map (to_child_e k) l) b) log) rest.
Proof.
  induction l as [|[c m] l IH]; intros b log; [reflexivity|]. cbn [fold_left map to_child_e fst snd]. rewrite <- IH. f_equal.
  unfold vs_draw, at_child. cbn [children current is_vs vs_width vs_height]. rewrite Nat2Z.id, nth_mid, wr_mid. reflexivity.
Qed.
(** What [picture] draws on the child *)
Definition child_draw (draw : box -> list (Z * msg)) (k : child) (c : box) : list (Z * msg) :=
  map (to_child_e k) (draw (mkBox (u8 (x0 c + cx k)) (u8 (y0 c + cy k)) (u8 (x1 c + cx k)) (u8 (y1 c + cy k)))).
Lemma vsLoop_more draw : forall n v r, vsLoop n draw v = Some r -> forall j, vsLoop (n + j) draw v = Some r.
Proof.
  induction n as [|n IH]; [discriminate|]. intros v r H j. cbn [vsLoop Nat.add] in *. destruct (vs_next _) as [[v' more]|]; [|discriminate]. destruct more; [apply IH, H|exact H].
Qed.
Definition finish (draw : box -> list (Z * msg)) (n : nat) (v : vs) (done : list child) (rest : list child) : option vs :=
  match rest with
  | [] => Some (mkVs (is_vs v) done (Z.of_nat (length done)) (vs_width v) (vs_height v))
  | k :: rest => vsLoop n draw (at_child v done (child_first k) rest)
  end.
Lemma vsLoop_child draw v done k rest m r : (length done + S (length rest) <= 4)%nat -> forall n b log b' log', pictureLoop n (child_draw draw k) b log = Some (b', log') ->
  finish draw m v (done ++ [with_b k b' log']) rest = Some r -> vsLoop (n + m) draw (at_child v done (with_b k b log) rest) = Some r.
Proof.
  intros LEN. induction n as [|n IH]; intros b log b' log' P R; [discriminate|]. cbn [pictureLoop vsLoop Nat.add] in *.
  assert (BX : vs_page_box (at_child v done (with_b k b log) rest) = let c := pb_GetPageBox b in mkBox (u8 (x0 c + cx k)) (u8 (y0 c + cy k)) (u8 (x1 c + cx k)) (u8 (y1 c + cy k))).
  { unfold vs_page_box, at_child. cbn [children current]. rewrite Nat2Z.id, nth_mid. reflexivity. }
  rewrite BX, draw_fold. fold (child_draw draw k (pb_GetPageBox b)). cbn zeta.
  change (map (to_child_e k) (draw (mkBox (u8 (x0 (pb_GetPageBox b) + cx k)) (u8 (y0 (pb_GetPageBox b) + cy k)) (u8 (x1 (pb_GetPageBox b) + cx k)) (u8 (y1 (pb_GetPageBox b) + cy k))))) with (child_draw draw k (pb_GetPageBox b)).
  set (b1 := fold_left (fun b e => pb8v1_draw b (fst e) (snd e)) (child_draw draw k (pb_GetPageBox b)) b) in *.
  unfold vs_next. cbn [at_child children current is_vs vs_width vs_height].
  destruct (done ++ with_b k b1 log :: rest) as [|z zs] eqn:Z0; [destruct done; discriminate|]. rewrite <- Z0. clear Z0 z zs. rewrite Nat2Z.id, nth_mid. cbn [with_b cb clog cx cy].
  destruct (dogs102_next b1 log) as [[b2 log2] more]. rewrite wr_mid. destruct more.
  - change (mkVs (is_vs v) (done ++ mkChild (cx k) (cy k) b2 log2 :: rest) (Z.of_nat (length done)) (vs_width v) (vs_height v)) with (at_child v done (with_b k b2 log2) rest). eapply IH; eassumption.
  - injection P as <- <-. assert (CUR : u8 (Z.of_nat (length done) + 1) = Z.of_nat (length (done ++ [with_b k b2 log2]))) by (rewrite app_length; cbn [length]; unfold u8; rewrite Z.mod_small; lia).
    rewrite CUR. fold (with_b k b2 log2). replace (done ++ with_b k b2 log2 :: rest) with ((done ++ [with_b k b2 log2]) ++ rest) by (rewrite <- app_assoc; reflexivity).
    set (d := done ++ [with_b k b2 log2]) in *. destruct rest as [|k2 rest].
    + rewrite app_nil_r. rewrite Z.leb_refl. exact R.
    + replace (Z.of_nat (length (d ++ k2 :: rest)) <=? Z.of_nat (length d)) with false by (symmetry; apply Z.leb_gt; rewrite app_length; cbn [length]; lia).
      rewrite Nat2Z.id, nth_mid, wr_mid. cbn [finish] in R. rewrite Nat.add_comm. apply vsLoop_more. exact R.
Qed.

(** One child: what C112 says about it *)
Lemma child_picture draw l w h k : child_ok w h k -> draws_picture draw l w h k -> Forall (fun e => msg_ok (snd e)) l -> clog k = [] -> forall n, (pages h <= n)%nat ->
  exists b' log', pictureLoop n (child_draw draw k) (pb8v1_first (cb k)) [] = Some (b', log') /\ shows l w h k (with_b k b' log').
Proof.
  intros (D & CX & CXW & CY & CYH) DP LOK L n Hn. pose proof D as (W & H & _).
  assert (BOX : forall c, page_of w h c -> child_draw draw k c = map (to_child_e k) (draw (moved (cx k) (cy k) c)) /\ forall x y, inside c x y -> 0 <= x /\ x + cx k < 256 /\ 0 <= y /\ y + cy k < 256).
  { intros c (j & J1 & J2 & J3 & J4 & J5 & J6). split; [|unfold inside; intros x y I; lia]. unfold child_draw, moved, u8. rewrite !Z.mod_small by lia. reflexivity. }
  assert (CONV : forall c x y l' v, page_of w h c -> inside c x y -> Forall (fun e => msg_ok (snd e)) l' -> dot x y (map (to_child_e k) l') v <-> dot (x + cx k) (y + cy k) l' v).
  { intros c x y l' v P I F. destruct (BOX c P) as [_ B]. destruct (B x y I) as (B1 & B2 & B3 & B4). destruct (dot_total (x + cx k) (y + cy k) l') as (v1 & D1).
    pose proof (dot_to_child k x y B1 CX B2 B3 CY B4 l' v1 F D1) as D2. split; intros Q; [rewrite (dot_unique _ _ _ _ Q _ D2); exact D1|rewrite (dot_unique _ _ _ _ Q _ D1); exact D2]. }
  destruct (C112_picture w h (cb k) (child_draw draw k) (map (to_child_e k) l) D) with (fuel := n) as (b' & log & E & _ & _ & S & _); auto.
  - intros c P. destruct (BOX c P) as [-> _]. destruct (DP c P) as [F _]. apply Forall_forall. intros e I. apply in_map_iff in I as (e0 & <- & I). cbn [to_child_e snd]. apply to_child_ok. rewrite Forall_forall in F. apply F, I.
  - intros c P x y v I. destruct (BOX c P) as [-> _]. destruct (DP c P) as [F SD]. rewrite (CONV c x y _ v P I F), (CONV c x y l v P I LOK). apply SD. unfold inside, moved in *. cbn. lia.
  - exists b', log. split; [exact E|]. split; [reflexivity|]. split; [reflexivity|]. cbn [with_b clog]. intros x y X Y. destruct (S x y X Y) as (v & Sh & Dv). exists v. split; [exact Sh|].
    destruct (dot_total (x + cx k) (y + cy k) l) as (v1 & D1). assert (D2 : dot x y (map (to_child_e k) l) v1) by (apply dot_to_child; try assumption; lia).
    rewrite (dot_unique _ _ _ _ Dv _ D2). exact D1.
Qed.

Lemma vs_all draw l size : Forall (fun e => msg_ok (snd e)) l -> forall rest v done k,
  (length done + S (length rest) <= 4)%nat -> Forall (fun k => child_ok (fst (size k)) (snd (size k)) k /\ draws_picture draw l (fst (size k)) (snd (size k)) k /\ clog k = []) (k :: rest) ->
  forall n, (list_sum (map (fun k => pages (snd (size k))) (k :: rest)) <= n)%nat ->
  exists new, vsLoop n draw (at_child v done (child_first k) rest) = Some (mkVs (is_vs v) (done ++ new) (Z.of_nat (length (done ++ new))) (vs_width v) (vs_height v))
  /\ Forall2 (fun k k' => shows l (fst (size k)) (snd (size k)) k k') (k :: rest) new.
Proof.
  intros LOK. induction rest as [|k2 rest IH]; intros v done k LEN F n Hn; inversion F as [|? ? (CO & DP & CL) F']; subst; cbn [map list_sum fold_right] in Hn; change (fold_right Nat.add 0%nat) with list_sum in Hn.
  - destruct (child_picture draw l _ _ k CO DP LOK CL n) as (b' & log' & E & S); [lia|]. exists [with_b k b' log']. split; [|constructor; [exact S|constructor]].
    replace n with (n + 0)%nat by lia. replace (child_first k) with (with_b k (pb8v1_first (cb k)) []) by (unfold child_first, with_b; rewrite CL; reflexivity).
    eapply vsLoop_child; [exact LEN|exact E|]. cbn [finish]. reflexivity.
  - destruct (child_picture draw l _ _ k CO DP LOK CL (pages (snd (size k)))) as (b' & log' & E & S); [lia|].
    destruct (IH v (done ++ [with_b k b' log']) k2) with (n := (n - pages (snd (size k)))%nat) as (new & EN & FN).
    { rewrite app_length. cbn [length] in *. lia. } { exact F'. } { cbn [map list_sum fold_right]. change (fold_right Nat.add 0%nat) with list_sum. lia. }
    exists (with_b k b' log' :: new). split; [|constructor; assumption].
    replace n with (pages (snd (size k)) + (n - pages (snd (size k))))%nat by lia. replace (child_first k) with (with_b k (pb8v1_first (cb k)) []) by (unfold child_first, with_b; rewrite CL; reflexivity).
    eapply vsLoop_child; [exact LEN|exact E|]. cbn [finish]. rewrite EN. rewrite <- app_assoc. reflexivity.
Qed.
