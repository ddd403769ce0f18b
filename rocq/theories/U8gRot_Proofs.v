(** Proofs about turned and doubled pictures. *)
From Verif Require Export U8g_Proofs U8gRect_Proofs U8gRot_Spec.

(** ** The chain *)
Lemma does_same s s' d l : rot_fn s' = rot_fn s -> rot_mem s' = rot_mem s -> scale_mem s' = scale_mem s -> does s d l -> does s' d l.
Proof.
  intros E1 E2 E3 H. induction H as [|l N H IH|l H IH]; [constructor| |].
  - rewrite <- E1. constructor; [congruence|]. rewrite E2. exact IH.
  - constructor. rewrite E3. exact IH.
Qed.
Lemma does_noturn s s' d l : scale_mem s' = scale_mem s -> turns l = 0%nat -> does s d l -> does s' d l.
Proof. intros E T H. induction H as [|l N H IH|l H IH]; cbn [turns] in T; [constructor|discriminate|]. constructor. rewrite E. auto. Qed.
Lemma does_nodouble s s' d l : rot_fn s' = rot_fn s -> rot_mem s' = rot_mem s -> doubles l = 0%nat -> does s d l -> does s' d l.
Proof. intros E1 E2 T H. induction H as [|l N H IH|l H IH]; cbn [doubles] in T; [constructor| |discriminate]. rewrite <- E1. constructor; [congruence|]. rewrite E2. auto. Qed.
Lemma loop_dim s : rot_mem s = ScaleDev -> scale_mem s = RotDev -> forall n d b, d = RotDev \/ d = ScaleDev -> GetDim n s d b = None.
Proof.
  intros E1 E2. induction n as [|n IH]; intros d b H; cbn [GetDim]; [reflexivity|]. destruct H as [-> | ->].
  - rewrite E1. destruct (rot_fn s); rewrite ?IH; auto.
  - rewrite E2, IH; auto.
Qed.

Lemma run_does k s l : k <> CRot Dummy -> does s (top s) l -> once l ->
  (once (wanted k l) -> does (run k s) (top (run k s)) (wanted k l)) /\ (~ once (wanted k l) -> forall fuel c, UpdateDimension fuel (run k s) c = None).
Proof.
  intros K D [O1 O2]. destruct s as [t rf rm sm w h]. cbn [top] in D. destruct k as [r| | |]; cbn [run].
  - assert (R : r <> Dummy) by congruence. unfold SetRot. cbn [top rot_mem rot_fn scale_mem baseW baseH]. inversion D as [E|l0 N D0 E|l0 D0 E]; subst; cbn [isRot negb top rot_mem scale_mem baseW baseH wanted].
    + split; [|intros NO; exfalso; apply NO; split; cbn; lia]. intros _. apply (does_turn (mkChain RotDev r Base sm w h)); [exact R|constructor].
    + cbn [turns doubles] in O1, O2. split; [|intros NO; exfalso; apply NO; split; cbn; lia]. intros _. apply (does_turn (mkChain RotDev r rm sm w h)); [exact R|].
      refine (does_noturn _ _ _ _ _ _ D0); [reflexivity|lia].
    + cbn [turns doubles] in O1, O2. cbn [scale_mem] in D0. split.
      * intros [T _]. cbn [turns] in T. apply (does_turn (mkChain RotDev r ScaleDev sm w h)); [exact R|]. apply (does_double (mkChain RotDev r ScaleDev sm w h)).
        refine (does_noturn _ _ _ _ _ _ D0); [reflexivity|lia].
      * intros NO fuel c. assert (T : turns l0 <> 0%nat) by (intros E; apply NO; split; cbn [turns doubles]; lia).
        assert (E : sm = RotDev) by (inversion D0 as [E1|l1 N1 D1 E1|l1 D1 E1]; subst; auto; cbn [turns doubles] in *; lia). subst sm.
        unfold UpdateDimension. cbn [top]. unfold GetWidthLL. rewrite loop_dim; auto.
  - unfold UndoRotation. inversion D as [E|l0 N D0 E|l0 D0 E]; subst; cbn [top isRot negb rot_mem rot_fn scale_mem baseW baseH wanted]; cbn [turns doubles] in O1, O2.
    + split; [intros _; constructor|intros NO; exfalso; apply NO; split; cbn; lia].
    + split; [|intros NO; exfalso; apply NO; split; lia]. intros _. cbn [rot_mem] in D0. revert D0. apply does_same; reflexivity.
    + split; [intros _; exact D|intros NO; exfalso; apply NO; split; cbn [turns doubles]; lia].
  - unfold SetScale2x2. cbn [top rot_mem rot_fn scale_mem baseW baseH]. inversion D as [E|l0 N D0 E|l0 D0 E]; subst; cbn [isScale negb top rot_mem scale_mem baseW baseH wanted].
    + split; [|intros NO; exfalso; apply NO; split; cbn; lia]. intros _. apply (does_double (mkChain ScaleDev rf rm Base w h)). constructor.
    + cbn [turns doubles] in O1, O2. cbn [rot_mem rot_fn] in D0, N. split.
      * intros [_ T]. cbn [doubles] in T. apply (does_double (mkChain ScaleDev rf rm RotDev w h)). apply (does_turn (mkChain ScaleDev rf rm RotDev w h)); [exact N|].
        refine (does_nodouble _ _ _ _ _ _ _ D0); [reflexivity|reflexivity|lia].
      * intros NO fuel c. assert (T : doubles l0 <> 0%nat) by (intros E; apply NO; split; cbn [turns doubles]; lia).
        assert (E : rm = ScaleDev) by (inversion D0 as [E1|l1 N1 D1 E1|l1 D1 E1]; subst; auto; cbn [turns doubles] in *; lia). subst rm.
        unfold UpdateDimension. cbn [top]. unfold GetWidthLL. rewrite loop_dim; auto.
    + split; [intros _; exact D|intros NO; exfalso; apply NO; split; assumption].
  - unfold UndoScale. inversion D as [E|l0 N D0 E|l0 D0 E]; subst; cbn [top isScale negb rot_mem rot_fn scale_mem baseW baseH wanted]; cbn [turns doubles] in O1, O2.
    + split; [intros _; constructor|intros NO; exfalso; apply NO; split; cbn; lia].
    + split; [intros _; exact D|intros NO; exfalso; apply NO; split; cbn [turns doubles]; lia].
    + split; [|intros NO; exfalso; apply NO; split; lia]. intros _. cbn [scale_mem] in D0. revert D0. apply does_same; reflexivity.
Qed.

(** ** Sizes *)
Lemma dim_does s d l : does s d l -> forall n, (length l < n)%nat ->
  GetDim n s d true = Some (fst (size l (baseW s) (baseH s))) /\ GetDim n s d false = Some (snd (size l (baseW s) (baseH s))).
Proof.
  intros H. induction H as [|l N H IH|l H IH]; intros n L; (destruct n as [|n]; [cbn in L; lia|]); cbn [GetDim size length] in *.
  - auto.
  - destruct (IH n ltac:(lia)) as [A B]. destruct (size l (baseW s) (baseH s)) as [a b]. cbn [negb]. destruct (rot_fn s); [congruence| | |]; cbn [quarters Z.eqb Pos.eqb fst snd] in *; auto.
  - destruct (IH n ltac:(lia)) as [A B]. rewrite A, B. destruct (size l (baseW s) (baseH s)) as [a b]. auto.
Qed.

(** ** Messages *)
Definition turn_msg (q w h : Z) (m : msg) : msg := match q with 1 => rot90_msg w m | 2 => rot180_msg w h m | _ => rot270_msg h m end.
Definition sent (l : list layer) (w h : Z) (m : msg) : list msg :=
  match l with
  | [] => [m]
  | [Turn q] => [turn_msg q w h m]
  | Turn q :: _ => scale_msg (turn_msg q (w / 2) (h / 2) m)
  | [Double] => scale_msg m
  | Double :: Turn q :: _ => map (turn_msg q w h) (scale_msg m)
  | Double :: _ => []
  end.
Lemma sendAll_map f g : (forall m, f m = Some [g m]) -> forall l, sendAll f l = Some (map g l).
Proof. intros H. induction l as [|m l IH]; cbn [sendAll map]; [reflexivity|]. rewrite H, IH. reflexivity. Qed.
Lemma shape s d l : does s d l -> once l ->
  (d = Base /\ l = []) \/ (d = RotDev /\ rot_fn s <> Dummy /\ rot_mem s = Base /\ l = [Turn (quarters (rot_fn s))]) \/ (d = ScaleDev /\ scale_mem s = Base /\ l = [Double])
  \/ (d = RotDev /\ rot_fn s <> Dummy /\ rot_mem s = ScaleDev /\ scale_mem s = Base /\ l = [Turn (quarters (rot_fn s)); Double])
  \/ (d = ScaleDev /\ scale_mem s = RotDev /\ rot_mem s = Base /\ rot_fn s <> Dummy /\ l = [Double; Turn (quarters (rot_fn s))]).
Proof.
  intros H [O1 O2]. inversion H as [E1 E2|l0 N D0 E1 E2|l0 D0 E1 E2]; subst; cbn [turns doubles] in *; [auto| |].
  - inversion D0 as [E1 E2|l1 N1 D1 E1 E2|l1 D1 E1 E2]; subst; cbn [turns doubles] in *; [auto 10|lia|].
    inversion D1 as [E3 E2|l2 N2 D2 E3 E2|l2 D2 E3 E2]; subst; cbn [turns doubles] in *; [auto 15|lia|lia].
  - inversion D0 as [E1 E2|l1 N1 D1 E1 E2|l1 D1 E1 E2]; subst; cbn [turns doubles] in *; [auto 10| |lia].
    inversion D1 as [E3 E2|l2 N2 D2 E3 E2|l2 D2 E3 E2]; subst; cbn [turns doubles] in *; [auto 20|lia|lia].
Qed.
Lemma send_turn n s d m : rot_fn s <> Dummy -> rot_mem s = d -> (forall b, exists v, GetDim n s d b = Some v) ->
  send (S n) s RotDev m = send n s d (turn_msg (quarters (rot_fn s)) (match GetDim n s d true with Some v => v | None => 0 end) (match GetDim n s d false with Some v => v | None => 0 end) m).
Proof.
  intros N E G. cbn [send]. rewrite E. unfold GetWidthLL, GetHeightLL. destruct (G true) as (w & ->). destruct (G false) as (h & ->).
  destruct (rot_fn s); [congruence| | |]; reflexivity.
Qed.
Lemma send_sent s d l n m : does s d l -> once l -> (3 <= n)%nat -> send n s d m = Some (sent l (baseW s) (baseH s) m).
Proof.
  intros D O L. destruct n as [|[|[|n]]]; try lia. destruct (shape s d l D O) as [(-> & ->)|[(-> & N & R & ->)|[(-> & R & ->)|[(-> & N & R & S & ->)|(-> & S & R & N & ->)]]]].
  - reflexivity.
  - rewrite (send_turn _ s Base); auto. intros [|]; eexists; reflexivity.
  - cbn [send]. rewrite R. change (sendAll (send (Datatypes.S (Datatypes.S n)) s Base)) with (sendAll (fun m => Some [m])). rewrite (sendAll_map _ (fun m => m)) by reflexivity. rewrite map_id. reflexivity.
  - rewrite (send_turn _ s ScaleDev); auto; [|intros [|]; cbn [GetDim]; rewrite S; eexists; reflexivity]. cbn [GetDim]. rewrite S. cbn [option_map sent].
    cbn [send]. rewrite S. change (sendAll (send (Datatypes.S n) s Base)) with (sendAll (fun m => Some [m])). rewrite (sendAll_map _ (fun m => m)) by reflexivity. rewrite map_id. reflexivity.
  - change (send (Datatypes.S (Datatypes.S (Datatypes.S n))) s ScaleDev m) with (sendAll (send (Datatypes.S (Datatypes.S n)) s (scale_mem s)) (scale_msg m)). rewrite S. cbn [sent].
    apply sendAll_map. intros m'. rewrite (send_turn _ s Base); auto. intros [|]; eexists; reflexivity.
Qed.
Lemma turn_ok q w h m : msg_ok m -> msg_ok (turn_msg q w h m).
Proof.
  assert (L : forall v, is_byte (Z.land v 3)) by (intros v; change 3 with (Z.ones 2); rewrite Z.land_ones by lia; unfold is_byte; pose proof (Z.mod_pos_bound v (2 ^ 2)); lia).
  assert (U : forall v, is_byte (u8 v)) by (intros v; pose proof (u8_range v); unfold is_byte; lia).
  intros H. unfold turn_msg. destruct m as [a b|a b d pat]; cbn [msg_ok] in H.
  - destruct H as [A B]. destruct q as [|[q|[q|q|]|]|q]; cbn [rot90_msg rot180_msg rot270_msg msg_ok]; auto.
  - destruct H as (A & B & C & D). destruct q as [|[q|[q|q|]|]|q]; cbn [rot90_msg rot180_msg rot270_msg msg_ok]; auto.
Qed.
Lemma mod_eq a b : (exists k, a = b + 256 * k) -> a mod 256 = b mod 256.
Proof. intros (k & ->). replace (b + 256 * k) with (b + k * 256) by lia. apply Z_mod_plus_full. Qed.
(** A coordinate [x], turned round to [(w - 1 - x) mod 256] *)
Lemma flip w X a t : is_byte X -> X = (u8 (u8 (w - a) - 1) - t) mod 256 <-> (w - 1 - X) mod 256 = (a + t) mod 256.
Proof. unfold is_byte. intros H. rewrite !u8_mod. split; intros; Z.div_mod_to_equations; lia. Qed.
Lemma turn_on q w h m X Y : q = 1 \/ q = 2 \/ q = 3 -> msg_ok m -> heads (fun d => 0 <= d <= 3) m -> is_byte X -> is_byte Y ->
  on (turn_msg q w h m) X Y <-> (let '(x, y) := seen1 (Turn q) w h X Y in on m x y).
Proof.
  intros Q M Hd HX HY. destruct m as [a b|a b d pat]; cbn [msg_ok heads] in M, Hd.
  - destruct M as [A B]. unfold is_byte in A, B. pose proof (flip w X b 0 HX). pose proof (flip w X a 0 HX). pose proof (flip h Y b 0 HY). pose proof (flip h Y a 0 HY). rewrite ?Z.sub_0_r, ?Z.add_0_r in *.
    rewrite (Z.mod_small a), (Z.mod_small b) in * by lia. rewrite !u8_mod in *. rewrite !Zmod_mod in *.
    destruct Q as [-> |[-> | ->]]; cbn [turn_msg rot90_msg rot180_msg rot270_msg seen1 on]; rewrite ?u8_mod; tauto.
  - assert (Hc : d = 0 \/ d = 1 \/ d = 2 \/ d = 3) by lia.
    destruct Q as [-> |[-> | ->]]; cbn [turn_msg rot90_msg rot180_msg rot270_msg seen1 on]; destruct Hc as [-> |[-> |[-> | ->]]];
      match goal with |- context [Z.land ?v 3] => let r := eval vm_compute in (Z.land v 3) in change (Z.land v 3) with r end; cbn [stepX stepY];
      split; intros (k & K & T & E1 & E2); exists k; (split; [exact K|split; [exact T|]]); unfold is_byte in *; rewrite !u8_mod in *; split; clear T; Z.div_mod_to_equations; lia.
Qed.

(** *** Doubling *)
Ltac ar := repeat match goal with H : context [Z.testbit] |- _ => clear H | H : forall _, _ |- _ => clear H end; unfold is_byte in *; rewrite ?u8_mod in *; Z.div_mod_to_equations; lia.
Lemma scaled_bits : forall pat, is_byte pat -> forall j, 0 <= j < 8 ->
  Z.testbit (u8 (Z.shiftr (scaledLoop 8 0 pat) 8)) (7 - j) = Z.testbit pat (7 - j / 2) /\ Z.testbit (Z.land (scaledLoop 8 0 pat) 255) (7 - j) = Z.testbit pat (3 - j / 2).
Proof.
  assert (F : forallb (fun pat => forallb (fun j => eqb (Z.testbit (u8 (Z.shiftr (scaledLoop 8 0 pat) 8)) (7 - j)) (Z.testbit pat (7 - j / 2))
    && eqb (Z.testbit (Z.land (scaledLoop 8 0 pat) 255) (7 - j)) (Z.testbit pat (3 - j / 2))) (map Z.of_nat (seq 0 8))) (map Z.of_nat (seq 0 256)) = true) by (vm_compute; reflexivity).
  intros pat P j J. unfold is_byte in P. rewrite forallb_forall in F. specialize (F pat). rewrite forallb_forall in F.
  assert (I1 : In pat (map Z.of_nat (seq 0 256))) by (apply in_map_iff; exists (Z.to_nat pat); split; [lia|apply in_seq; lia]).
  assert (I2 : In j (map Z.of_nat (seq 0 8))) by (apply in_map_iff; exists (Z.to_nat j); split; [lia|apply in_seq; lia]).
  specialize (F I1 j I2). apply andb_prop in F as [F1 F2]. apply eqb_prop in F1, F2. auto.
Qed.
Lemma scale_ok m : msg_ok m -> Forall msg_ok (scale_msg m).
Proof.
  assert (U : forall v, is_byte (u8 v)) by (intros v; pose proof (u8_range v); unfold is_byte; lia).
  assert (L : forall v, is_byte (Z.land v 255)) by (intros v; change 255 with (Z.ones 8); rewrite Z.land_ones by lia; unfold is_byte; pose proof (Z.mod_pos_bound v (2 ^ 8)); lia).
  destruct m as [a b|a b d pat]; cbn [msg_ok]; intros H.
  - cbn [scale_msg]. repeat apply Forall_cons; [..|apply Forall_nil]; cbn [msg_ok]; auto.
  - destruct H as (A & B & C & D). unfold scale_msg. destruct (negb (Z.land d 1 =? 0)), (d =? 0), (d =? 1), (d =? 2), (d =? 3);
      (apply Forall_cons; [|apply Forall_cons; [|apply Forall_cons; [|apply Forall_cons; [|apply Forall_nil]]]]); cbn [msg_ok]; auto.
Qed.
Lemma scale_heads m : heads (fun d => d = 0 \/ d = 1) m -> Forall (heads (fun d => 0 <= d <= 3)) (scale_msg m).
Proof.
  destruct m as [a b|a b d pat]; cbn [heads]; intros H; [repeat constructor|].
  destruct H as [-> | ->]; unfold scale_msg; cbn [Z.land Z.eqb negb Pos.land]; repeat constructor; cbn; lia.
Qed.
Lemma scale_on m X Y : msg_ok m -> heads (fun d => d = 0 \/ d = 1) m -> (forall x y, on m x y -> x < 128 /\ y < 128) -> is_byte X -> is_byte Y -> covers (scale_msg m) X Y <-> on m (X / 2) (Y / 2).
Proof.
  unfold is_byte. intros M Hd F HX HY. destruct m as [a b|a b d pat]; cbn [msg_ok heads] in M, Hd.
  - unfold is_byte in M. destruct (F a b) as [Fa Fb]; [cbn [on]; auto|]. unfold covers. cbn [scale_msg on].
    replace (u8 (a * 2)) with (2 * a) by (rewrite u8_small; lia). replace (u8 (b * 2)) with (2 * b) by (rewrite u8_small; lia).
    replace (u8 (2 * a + 1)) with (2 * a + 1) by (rewrite u8_small; lia). replace (u8 (2 * b + 1)) with (2 * b + 1) by (rewrite u8_small; lia). replace (u8 (2 * a + 1 - 1)) with (2 * a) by (rewrite u8_small; lia).
    split.
    + intros (m & I & O). cbn [In] in I. destruct I as [<-|[<-|[<-|[<-|[]]]]]; cbn [on] in O; Z.div_mod_to_equations; lia.
    + intros [E1 E2]. exists (Pixel X Y). split; [|cbn [on]; auto]. assert (C1 : X = 2 * a \/ X = 2 * a + 1) by (Z.div_mod_to_equations; lia). assert (C2 : Y = 2 * b \/ Y = 2 * b + 1) by (Z.div_mod_to_equations; lia).
      cbn [In]. destruct C1 as [-> | ->], C2 as [-> | ->]; auto.
  - destruct M as (A & B & _ & P). pose proof (scaled_bits pat P) as SB. unfold is_byte in A, B. unfold covers. destruct Hd as [-> | ->].
    + cbn [scale_msg Z.land Z.eqb negb]. set (s := scaledLoop 8 0 pat) in *. clearbody s. split.
      * intros (m & I & O). cbn [In] in I.
        assert (G : exists j t, 0 <= j < 16 /\ Z.testbit pat (7 - j / 2) = true /\ (t = 0 \/ t = 1) /\ X = (2 * a + j) mod 256 /\ Y = (2 * b + t) mod 256).
        { destruct I as [<-|[<-|[<-|[<-|[]]]]]; cbn [on stepX stepY] in O; destruct O as (k & K & T & E1 & E2); destruct (SB k K) as [S1 S2].
          - exists k, 0. rewrite <- S1. split; [ar|split; [exact T|split; [auto|split; ar]]].
          - exists k, 1. rewrite <- S1. split; [ar|split; [exact T|split; [auto|split; ar]]].
          - exists (k + 8), 0. replace (7 - (k + 8) / 2) with (3 - k / 2) by ar. rewrite <- S2. split; [ar|split; [exact T|split; [auto|split; ar]]].
          - exists (k + 8), 1. replace (7 - (k + 8) / 2) with (3 - k / 2) by ar. rewrite <- S2. split; [ar|split; [exact T|split; [auto|split; ar]]]. }
        clear I O m. destruct G as (j & t & J & T & Ht & E1 & E2).
        assert (O : on (Eight a b 0 pat) ((a + j / 2) mod 256) b).
        { exists (j / 2). cbn [stepX stepY]. split; [Z.div_mod_to_equations; lia|]. split; [exact T|]. split; [f_equal; lia|]. rewrite Z.mul_0_r, Z.add_0_r, Z.mod_small; lia. }
        destruct (F _ _ O) as [F1 F2]. replace (X / 2) with ((a + j / 2) mod 256) by (clear - E1 F1 J; Z.div_mod_to_equations; lia). replace (Y / 2) with b by (clear - E2 F2 Ht B; Z.div_mod_to_equations; lia). exact O.
      * intros O. pose proof (F _ _ O) as [F1 F2]. cbn [on stepX stepY] in O. destruct O as (k & K & T & E1 & E2).
        assert (Ej : exists j, 0 <= j < 8 /\ (k < 4 /\ j / 2 = k \/ 4 <= k /\ j / 2 = k - 4) /\ X mod 2 = j mod 2).
        { destruct (Z.ltb_spec k 4); [exists (2 * k + X mod 2)|exists (2 * (k - 4) + X mod 2)]; Z.div_mod_to_equations; lia. }
        destruct Ej as (j & J & Hj & Pj). destruct (SB j J) as [S1 S2].
        assert (Y = 2 * b + Y mod 2) by (clear - E2 B; Z.div_mod_to_equations; lia). assert (Hy : Y mod 2 = 0 \/ Y mod 2 = 1) by (pose proof (Z.mod_pos_bound Y 2); lia).
        destruct Hj as [[Hk Hj]|[Hk Hj]].
        -- rewrite Hj in S1. rewrite T in S1. destruct Hy as [Hy|Hy]; rewrite Hy in H.
           ++ eexists. split; [cbn [In]; left; reflexivity|]. exists j; cbn [stepX stepY]; split; [exact J|split; [exact S1|]]. rewrite !u8_mod. split; ar.
           ++ eexists. split; [cbn [In]; right; left; reflexivity|]. exists j; cbn [stepX stepY]; split; [exact J|split; [exact S1|]]. rewrite !u8_mod. split; ar.
        -- replace (3 - j / 2) with (7 - k) in S2 by lia. rewrite T in S2. destruct Hy as [Hy|Hy]; rewrite Hy in H.
           ++ eexists. split; [cbn [In]; right; right; left; reflexivity|]. exists j; cbn [stepX stepY]; split; [exact J|split; [exact S2|]]. rewrite !u8_mod. split; ar.
           ++ eexists. split; [cbn [In]; right; right; right; left; reflexivity|]. exists j; cbn [stepX stepY]; split; [exact J|split; [exact S2|]]. rewrite !u8_mod. split; ar.
    + cbn [scale_msg Z.land Z.eqb negb Pos.land Pos.eqb]. set (s := scaledLoop 8 0 pat) in *. clearbody s. split.
      * intros (m & I & O). cbn [In] in I.
        assert (G : exists j t, 0 <= j < 16 /\ Z.testbit pat (7 - j / 2) = true /\ (t = 0 \/ t = 1) /\ Y = (2 * b + j) mod 256 /\ X = (2 * a + t) mod 256).
        { destruct I as [<-|[<-|[<-|[<-|[]]]]]; cbn [on stepX stepY] in O; destruct O as (k & K & T & E1 & E2); destruct (SB k K) as [S1 S2].
          - exists k, 0. rewrite <- S1. split; [ar|split; [exact T|split; [auto|split; ar]]].
          - exists k, 1. rewrite <- S1. split; [ar|split; [exact T|split; [auto|split; ar]]].
          - exists (k + 8), 0. replace (7 - (k + 8) / 2) with (3 - k / 2) by ar. rewrite <- S2. split; [ar|split; [exact T|split; [auto|split; ar]]].
          - exists (k + 8), 1. replace (7 - (k + 8) / 2) with (3 - k / 2) by ar. rewrite <- S2. split; [ar|split; [exact T|split; [auto|split; ar]]]. }
        clear I O m. destruct G as (j & t & J & T & Ht & E1 & E2).
        assert (O : on (Eight a b 1 pat) a ((b + j / 2) mod 256)).
        { exists (j / 2). cbn [stepX stepY]. split; [Z.div_mod_to_equations; lia|]. split; [exact T|]. split; [rewrite Z.mul_0_r, Z.add_0_r, Z.mod_small; lia|f_equal; lia]. }
        destruct (F _ _ O) as [F1 F2]. replace (Y / 2) with ((b + j / 2) mod 256) by (clear - E1 F2 J; Z.div_mod_to_equations; lia). replace (X / 2) with a by (clear - E2 F1 Ht A; Z.div_mod_to_equations; lia). exact O.
      * intros O. pose proof (F _ _ O) as [F1 F2]. cbn [on stepX stepY] in O. destruct O as (k & K & T & E2 & E1).
        assert (Ej : exists j, 0 <= j < 8 /\ (k < 4 /\ j / 2 = k \/ 4 <= k /\ j / 2 = k - 4) /\ Y mod 2 = j mod 2).
        { destruct (Z.ltb_spec k 4); [exists (2 * k + Y mod 2)|exists (2 * (k - 4) + Y mod 2)]; Z.div_mod_to_equations; lia. }
        destruct Ej as (j & J & Hj & Pj). destruct (SB j J) as [S1 S2].
        assert (X = 2 * a + X mod 2) by (clear - E2 A; Z.div_mod_to_equations; lia). assert (Hy : X mod 2 = 0 \/ X mod 2 = 1) by (pose proof (Z.mod_pos_bound X 2); lia).
        destruct Hj as [[Hk Hj]|[Hk Hj]].
        -- rewrite Hj in S1. rewrite T in S1. destruct Hy as [Hy|Hy]; rewrite Hy in H.
           ++ eexists. split; [cbn [In]; left; reflexivity|]. exists j; cbn [stepX stepY]; split; [exact J|split; [exact S1|]]. rewrite !u8_mod. split; ar.
           ++ eexists. split; [cbn [In]; right; left; reflexivity|]. exists j; cbn [stepX stepY]; split; [exact J|split; [exact S1|]]. rewrite !u8_mod. split; ar.
        -- replace (3 - j / 2) with (7 - k) in S2 by lia. rewrite T in S2. destruct Hy as [Hy|Hy]; rewrite Hy in H.
           ++ eexists. split; [cbn [In]; right; right; left; reflexivity|]. exists j; cbn [stepX stepY]; split; [exact J|split; [exact S2|]]. rewrite !u8_mod. split; ar.
           ++ eexists. split; [cbn [In]; right; right; right; left; reflexivity|]. exists j; cbn [stepX stepY]; split; [exact J|split; [exact S2|]]. rewrite !u8_mod. split; ar.
Qed.

(** *** The whole chain *)
Lemma sent_ok l w h m : msg_ok m -> Forall msg_ok (sent l w h m).
Proof.
  intros M. unfold sent. destruct l as [|[q|] [|k l]]; [constructor; auto|constructor; [apply turn_ok; auto|constructor]|apply scale_ok, turn_ok, M|apply scale_ok, M|].
  destruct k as [q|]; [|constructor]. apply Forall_map. eapply Forall_impl; [|apply scale_ok, M]. intros m' M'. apply turn_ok, M'.
Qed.
Definition shapes (l : list layer) : Prop :=
  l = [] \/ l = [Double] \/ exists q, (q = 1 \/ q = 2 \/ q = 3) /\ (l = [Turn q] \/ l = [Turn q; Double] \/ l = [Double; Turn q]).
Lemma does_shapes s d l : does s d l -> once l -> shapes l.
Proof.
  intros D O. assert (Q : rot_fn s <> Dummy -> quarters (rot_fn s) = 1 \/ quarters (rot_fn s) = 2 \/ quarters (rot_fn s) = 3) by (destruct (rot_fn s); cbn; auto; congruence).
  destruct (shape s d l D O) as [(_ & ->)|[(_ & N & _ & ->)|[(_ & _ & ->)|[(_ & N & _ & _ & ->)|(_ & _ & _ & N & ->)]]]]; unfold shapes; eauto 10.
Qed.
Lemma seen1_byte q w h X Y : is_byte X -> is_byte Y -> is_byte (fst (seen1 (Turn q) w h X Y)) /\ is_byte (snd (seen1 (Turn q) w h X Y)).
Proof.
  assert (M : forall v, is_byte (v mod 256)) by (intros v; unfold is_byte; pose proof (Z.mod_pos_bound v 256); lia).
  intros A B. destruct q as [|[q|[q|q|]|]|q]; cbn [seen1 fst snd]; auto.
Qed.
Lemma sent_on l w h m X Y : shapes l -> msg_ok m -> fits_in l w h m -> is_byte X -> is_byte Y -> covers (sent l w h m) X Y <-> on m (fst (seen l w h X Y)) (snd (seen l w h X Y)).
Proof.
  assert (S1 : forall m' x y, covers [m'] x y <-> on m' x y) by (intros; unfold covers; split; [intros (m1 & [->|[]] & O); exact O|intros O; exists m'; split; [left; auto|exact O]]).
  intros Sh M F BX BY. destruct Sh as [-> |[-> |(q & Q & [-> |[-> | ->]])]]; cbn [sent seen size fits_in] in *.
  - apply S1.
  - cbn [seen1 fst snd]. apply scale_on; auto; tauto.
  - rewrite S1, turn_on by auto. destruct (seen1 (Turn q) w h X Y). tauto.
  - destruct F as [F1 F2]. assert (M' := turn_ok q (w / 2) (h / 2) m M).
    assert (Hd : heads (fun d => 0 <= d <= 3) m) by (destruct m; cbn [heads] in *; tauto).
    assert (B2 : forall v, is_byte v -> is_byte (v / 2)) by (unfold is_byte; intros; Z.div_mod_to_equations; lia).
    rewrite scale_on; auto.
    + rewrite turn_on; auto. change (seen1 Double w h X Y) with (X / 2, Y / 2). cbv beta iota. destruct (seen1 (Turn q) (w / 2) (h / 2) (X / 2) (Y / 2)). reflexivity.
    + destruct m as [a b|a b d pat]; [destruct Q as [-> |[-> | ->]]; exact Logic.I|]. cbn [heads] in F1. destruct F1 as [D F1].
      assert (Dc : d = 0 \/ d = 1 \/ d = 2 \/ d = 3) by lia. destruct Q as [-> |[-> | ->]]; destruct Dc as [-> |[-> |[-> | ->]]]; cbn in F1 |- *; auto; lia.
    + intros x y O. assert (Bx : is_byte x /\ is_byte y).
      { revert M' O. destruct (turn_msg q (w / 2) (h / 2) m) as [a b|a b d pat]; cbn [msg_ok on]; [intros [? ?] [-> ->]; auto|]. intros _ (k & _ & _ & -> & ->). unfold is_byte. split; [pose proof (Z.mod_pos_bound (a + k * stepX d) 256)|pose proof (Z.mod_pos_bound (b + k * stepY d) 256)]; lia. }
      destruct Bx as [Bx By]. rewrite turn_on in O by auto. specialize (F2 x y Bx By). destruct (seen1 (Turn q) (w / 2) (h / 2) x y). auto.
  - destruct F as [F1 F2]. pose proof (scale_ok m M) as OKs. pose proof (scale_heads m F1) as Hs. destruct (seen1_byte q w h X Y BX BY) as [B1 B2].
    assert (E : covers (map (turn_msg q w h) (scale_msg m)) X Y <-> covers (scale_msg m) (fst (seen1 (Turn q) w h X Y)) (snd (seen1 (Turn q) w h X Y))).
    { rewrite Forall_forall in OKs, Hs. unfold covers. split.
      - intros (m1 & I & O). apply in_map_iff in I as (m2 & <- & I). exists m2. split; [exact I|]. rewrite turn_on in O by auto. destruct (seen1 (Turn q) w h X Y). exact O.
      - intros (m2 & I & O). exists (turn_msg q w h m2). split; [apply in_map; exact I|]. rewrite turn_on by auto. destruct (seen1 (Turn q) w h X Y). exact O. }
    rewrite E, scale_on by auto. destruct (seen1 (Turn q) w h X Y), (q =? 2); reflexivity.
Qed.

(** A coloured list through a function of messages *)
Lemma dot_block X Y c : forall ms l v, dot X Y l v ->
  (covers ms X Y -> dot X Y (l ++ map (pair c) ms) (negb (c =? 0))) /\ (~ covers ms X Y -> dot X Y (l ++ map (pair c) ms) v).
Proof.
  induction ms as [|m ms IH] using rev_ind; intros l v D.
  - cbn [map]. rewrite app_nil_r. split; [intros (m & [] & _)|auto].
  - rewrite map_app. cbn [map]. rewrite app_assoc. destruct (IH l v D) as [A B]. destruct (on_dec m X Y) as [O|O].
    + split; [|intros N; exfalso; apply N; exists m; split; [apply in_or_app; right; left; auto|exact O]]. intros _.
      destruct (dot_total X Y (l ++ map (pair c) ms)) as (v0 & D0). apply dot_on with v0; assumption.
    + split.
      * intros (m' & I & O'). apply in_app_or in I as [I|[->|[]]]; [|contradiction]. apply dot_off; [|exact O]. apply A. exists m'. auto.
      * intros N. apply dot_off; [|exact O]. apply B. intros (m' & I & O'). apply N. exists m'. split; [apply in_or_app; auto|exact O'].
Qed.
Lemma dot_through f X Y x y : forall l v, (forall e, In e l -> covers (f (snd e)) X Y <-> on (snd e) x y) -> dot x y l v -> dot X Y (flat_map (fun e => map (pair (fst e)) (f (snd e))) l) v.
Proof.
  intros l v H D. induction D as [|l c m v D IH O|l c m v D IH O]; [constructor| |]; rewrite flat_map_app; cbn [flat_map]; rewrite app_nil_r; cbn [fst snd].
  - specialize (IH ltac:(intros e I; apply H; apply in_or_app; auto)). apply (dot_block X Y c (f m) _ v IH). apply (H (c, m)); [apply in_or_app; right; left; auto|exact O].
  - specialize (IH ltac:(intros e I; apply H; apply in_or_app; auto)). apply (dot_block X Y c (f m) _ v IH). intros C. apply O. apply (H (c, m)); [apply in_or_app; right; left; auto|exact C].
Qed.

(** *** Pages *)
Lemma box_through s d l c n : does s d l -> once l -> (3 <= n)%nat -> 1 <= baseW s <= 255 -> 8 <= baseH s <= 128 -> page_of (baseW s) (baseH s) c ->
  (doubles l = 0%nat \/ baseW s mod 2 = 0 /\ baseH s mod 2 = 0) ->
  exists b, GetPageBox n s d c = Some b /\ box_ok b /\ forall X Y, inside c X Y -> inside b (fst (seen l (baseW s) (baseH s) X Y)) (snd (seen l (baseW s) (baseH s) X Y)).
Proof.
  intros D O L W H (k & K & K8 & C1 & C2 & C3 & C4) EV. destruct n as [|[|[|n]]]; try lia. destruct c as [cx0 cy0 cx1 cy1]. cbn [x0 x1 y0 y1] in *. subst cx0 cx1 cy0.
  assert (Y1 : cy1 <= baseH s - 1) by lia. assert (Y0 : 8 * k <= cy1) by lia. clear C4.
  destruct (shape s d l D O) as [(-> & ->)|[(-> & N & R & ->)|[(-> & R & ->)|[(-> & N & R & S & ->)|(-> & S & R & N & ->)]]]]; cbn [doubles] in EV.
  - eexists. split; [reflexivity|]. split; [unfold box_ok; cbn; lia|]. intros X Y I. exact I.
  - cbn [GetPageBox]. rewrite R. unfold GetWidthLL, GetHeightLL. cbn [GetDim]. destruct (rot_fn s); [congruence| | |]; (eexists; split; [reflexivity|]); cbn [seen size quarters seen1 fst snd];
      unfold inside, rot90_box, rot180_box, rot270_box, box_ok; cbn [x0 x1 y0 y1]; rewrite ?u8_small by lia; (split; [lia|]); intros X Y I; rewrite ?Z.mod_small by lia; lia.
  - destruct EV as [EV|[EW EH]]; [discriminate|]. cbn [GetPageBox]. rewrite R. cbn [option_map]. eexists. split; [reflexivity|]. unfold inside, scale_box, box_ok. cbn [x0 x1 y0 y1 seen size seen1 fst snd].
    split; [|intros X Y I]; Z.div_mod_to_equations; lia.
  - destruct EV as [EV|[EW EH]]; [discriminate|]. cbn [GetPageBox]. rewrite R, S. unfold GetWidthLL, GetHeightLL. cbn [GetDim option_map]. rewrite S. cbn [GetDim option_map].
    assert (E1 : (baseW s - 1) / 2 = baseW s / 2 - 1) by (Z.div_mod_to_equations; lia). assert (E2 : cy1 / 2 <= baseH s / 2 - 1) by (Z.div_mod_to_equations; lia).
    assert (E3 : 8 * k / 2 <= cy1 / 2) by (Z.div_mod_to_equations; lia). assert (E4 : 0 <= 8 * k / 2) by (Z.div_mod_to_equations; lia). assert (E5 : 1 <= baseW s / 2 <= 127) by (Z.div_mod_to_equations; lia).
    assert (E6 : 4 <= baseH s / 2 <= 64) by (Z.div_mod_to_equations; lia).
    assert (E7 : forall X Y, 0 <= X <= baseW s - 1 -> 8 * k <= Y <= cy1 -> 0 <= X / 2 <= baseW s / 2 - 1 /\ 8 * k / 2 <= Y / 2 <= cy1 / 2) by (intros; Z.div_mod_to_equations; lia).
    destruct (rot_fn s); [congruence| | |]; (eexists; split; [reflexivity|]); cbn [seen size quarters seen1 fst snd];
      unfold inside, rot90_box, rot180_box, rot270_box, scale_box, box_ok; cbn [x0 x1 y0 y1]; rewrite ?E1; change (0 / 2) with 0; rewrite ?u8_small by lia; (split; [lia|]); intros X Y [I1 I2]; destruct (E7 X Y I1 I2); rewrite ?Z.mod_small by lia; lia.
  - destruct EV as [EV|[EW EH]]; [discriminate|]. cbn [GetPageBox]. rewrite S, R. unfold GetWidthLL, GetHeightLL. cbn [GetDim option_map].
    destruct (rot_fn s); [congruence| | |]; (eexists; split; [reflexivity|]); cbn [seen size quarters seen1 fst snd];
      unfold inside, rot90_box, rot180_box, rot270_box, scale_box, box_ok; cbn [x0 x1 y0 y1]; rewrite ?u8_small by lia; (split; [Z.div_mod_to_equations; lia|]); intros X Y I; rewrite ?Z.mod_small by lia;
      (split; split; apply Z.div_le_mono; lia).
Qed.
