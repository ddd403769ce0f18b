(** C116: turned and doubled pictures *)
From Verif Require Import U8gRot_Proofs U8g_Props.

(** u8g_SetRot90/180/270, u8g_UndoRotation, u8g_SetScale2x2, u8g_UndoScale do what they say, as long as nothing is turned or doubled twice; where they would, the chain of devices leads back to
    itself, and already u8g_UpdateDimension at their end never returns *)
Theorem C116_calls k s l : k <> CRot Dummy -> does s (top s) l -> once l ->
  (once (wanted k l) -> does (run k s) (top (run k s)) (wanted k l)) /\ (~ once (wanted k l) -> forall fuel c, UpdateDimension fuel (run k s) c = None).
Proof. apply run_does. Qed.
Print Assumptions C116_calls.

(** Width and height of the picture *)
Theorem C116_size s l fuel : does s (top s) l -> once l -> (3 <= fuel)%nat ->
  GetWidthLL fuel s (top s) = Some (fst (size l (baseW s) (baseH s))) /\ GetHeightLL fuel s (top s) = Some (snd (size l (baseW s) (baseH s))).
Proof.
  intros D O L. apply dim_does; [exact D|]. destruct (shape s _ l D O) as [(_ & ->)|[(_ & _ & _ & ->)|[(_ & _ & ->)|[(_ & _ & _ & _ & ->)|(_ & _ & _ & _ & ->)]]]]; cbn [length]; lia.
Qed.
Print Assumptions C116_size.

(** Each dot of the display shows a dot of the picture, and each dot of the picture is to be seen *)
Theorem C116_seen s d l : does s d l -> once l -> let w := baseW s in let h := baseH s in 1 <= w <= 255 -> 1 <= h <= 128 -> (doubles l = 0%nat \/ w mod 2 = 0 /\ h mod 2 = 0) ->
  (forall X Y, 0 <= X < w -> 0 <= Y < h -> 0 <= fst (seen l w h X Y) < fst (size l w h) /\ 0 <= snd (seen l w h X Y) < snd (size l w h))
  /\ (forall x y, 0 <= x < fst (size l w h) -> 0 <= y < snd (size l w h) -> exists X Y, 0 <= X < w /\ 0 <= Y < h /\ seen l w h X Y = (x, y)).
Proof.
  cbn zeta. intros D O W H EV. pose proof (does_shapes s d l D O) as Sh. destruct Sh as [-> |[-> |(q & Q & [-> |[-> | ->]])]]; cbn [doubles] in EV; cbn [seen size].
  - cbn [fst snd]. split; [auto|]. intros x y X Y. exists x, y. auto.
  - destruct EV as [EV|[E1 E2]]; [discriminate|]. cbn [seen1 fst snd]. split; [intros; Z.div_mod_to_equations; lia|]. intros x y X Y. exists (2 * x), (2 * y).
    rewrite !(Z.mul_comm 2), !Z.div_mul by lia. split; [Z.div_mod_to_equations; lia|]. split; [Z.div_mod_to_equations; lia|reflexivity].
  - destruct Q as [-> |[-> | ->]]; cbn [Z.eqb Pos.eqb seen1 fst snd]; (split; [intros X Y HX HY; rewrite ?Z.mod_small by lia; lia|]); intros x y X Y.
    + exists (baseW s - 1 - y), x. rewrite Z.mod_small by lia. repeat split; try lia. f_equal; lia.
    + exists (baseW s - 1 - x), (baseH s - 1 - y). rewrite !Z.mod_small by lia. repeat split; try lia. f_equal; lia.
    + exists y, (baseH s - 1 - x). rewrite !Z.mod_small by lia. repeat split; try lia. f_equal; lia.
  - destruct EV as [EV|[E1 E2]]; [discriminate|]. assert (A : forall X, 0 <= X < baseW s -> 0 <= X / 2 < baseW s / 2) by (intros; Z.div_mod_to_equations; lia).
    assert (B : forall X, 0 <= X < baseH s -> 0 <= X / 2 < baseH s / 2) by (intros; Z.div_mod_to_equations; lia).
    assert (A2 : forall v, 0 <= v < baseW s / 2 -> 0 <= 2 * v < baseW s /\ 2 * v / 2 = v) by (intros v Hv; rewrite (Z.mul_comm 2), Z.div_mul by lia; Z.div_mod_to_equations; lia).
    assert (B2 : forall v, 0 <= v < baseH s / 2 -> 0 <= 2 * v < baseH s /\ 2 * v / 2 = v) by (intros v Hv; rewrite (Z.mul_comm 2), Z.div_mul by lia; Z.div_mod_to_equations; lia).
    assert (A3 : baseW s / 2 <= 127) by (Z.div_mod_to_equations; lia). assert (B3 : baseH s / 2 <= 64) by (Z.div_mod_to_equations; lia).
    destruct Q as [-> |[-> | ->]]; cbn [Z.eqb Pos.eqb seen1 fst snd]; (split; [intros X Y HX HY; pose proof (A X HX); pose proof (B Y HY); rewrite ?Z.mod_small by lia; lia|]); intros x y X Y.
    + exists (2 * (baseW s / 2 - 1 - y)), (2 * x). destruct (A2 (baseW s / 2 - 1 - y) ltac:(lia)) as [? ->]. destruct (B2 x ltac:(lia)) as [? ->]. rewrite ?Z.mod_small by lia. repeat split; try lia. f_equal; lia.
    + exists (2 * (baseW s / 2 - 1 - x)), (2 * (baseH s / 2 - 1 - y)). destruct (A2 (baseW s / 2 - 1 - x) ltac:(lia)) as [? ->]. destruct (B2 (baseH s / 2 - 1 - y) ltac:(lia)) as [? ->].
      rewrite ?Z.mod_small by lia. repeat split; try lia. f_equal; lia.
    + exists (2 * y), (2 * (baseH s / 2 - 1 - x)). destruct (A2 y ltac:(lia)) as [? ->]. destruct (B2 (baseH s / 2 - 1 - x) ltac:(lia)) as [? ->]. rewrite ?Z.mod_small by lia. repeat split; try lia. f_equal; lia.
  - destruct EV as [EV|[E1 E2]]; [discriminate|].
    assert (A : forall v, 0 <= v < baseW s -> 0 <= v / 2 < baseW s / 2) by (intros; Z.div_mod_to_equations; lia).
    assert (B : forall v, 0 <= v < baseH s -> 0 <= v / 2 < baseH s / 2) by (intros; Z.div_mod_to_equations; lia).
    assert (A2 : forall v, 0 <= v < baseW s / 2 -> 0 <= 2 * v < baseW s /\ 2 * v / 2 = v) by (intros v Hv; rewrite (Z.mul_comm 2), Z.div_mul by lia; Z.div_mod_to_equations; lia).
    assert (B2 : forall v, 0 <= v < baseH s / 2 -> 0 <= 2 * v < baseH s /\ 2 * v / 2 = v) by (intros v Hv; rewrite (Z.mul_comm 2), Z.div_mul by lia; Z.div_mod_to_equations; lia).
    destruct Q as [-> |[-> | ->]]; cbn [Z.eqb Pos.eqb seen1 fst snd]; (split; [intros X Y HX HY; rewrite ?Z.mod_small by lia; split; first [apply A | apply B]; lia|]); intros x y X Y.
    + destruct (A2 y ltac:(lia)) as [? Ey]. destruct (B2 x ltac:(lia)) as [? Ex]. exists (baseW s - 1 - 2 * y), (2 * x). rewrite Z.mod_small by lia. replace (baseW s - 1 - (baseW s - 1 - 2 * y)) with (2 * y) by lia. rewrite Ex, Ey. repeat split; lia.
    + destruct (A2 x ltac:(lia)) as [? Ex]. destruct (B2 y ltac:(lia)) as [? Ey]. exists (baseW s - 1 - 2 * x), (baseH s - 1 - 2 * y). rewrite !Z.mod_small by lia.
      replace (baseW s - 1 - (baseW s - 1 - 2 * x)) with (2 * x) by lia. replace (baseH s - 1 - (baseH s - 1 - 2 * y)) with (2 * y) by lia. rewrite Ex, Ey. repeat split; lia.
    + destruct (A2 y ltac:(lia)) as [? Ey]. destruct (B2 x ltac:(lia)) as [? Ex]. exists (2 * y), (baseH s - 1 - 2 * x). rewrite Z.mod_small by lia. replace (baseH s - 1 - (baseH s - 1 - 2 * x)) with (2 * x) by lia. rewrite Ex, Ey. repeat split; lia.
Qed.
Print Assumptions C116_seen.

(** The picture loop shows the turned and doubled picture; every message gets through to the display. Missing: what [fits_in] excludes, and odd sizes where something is doubled, see the
    refutations *)
Theorem C116_picture_partial s b draw pic l fuel : let w := baseW s in let h := baseH s in
  display_ok w h b -> 8 <= h -> does s (top s) l -> once l -> (doubles l = 0%nat \/ w mod 2 = 0 /\ h mod 2 = 0) -> (3 <= fuel)%nat ->
  (forall c, box_ok c -> Forall (fun e => msg_ok (snd e) /\ fits_in l w h (snd e)) (draw c)) -> Forall (fun e => msg_ok (snd e) /\ fits_in l w h (snd e)) pic -> (forall c, box_ok c -> same_dots c (draw c) pic) ->
  (forall m, exists ms, send fuel s (top s) m = Some ms) /\ (forall c, page_of w h c -> exists c', GetPageBox fuel s (top s) c = Some c')
  /\ forall n, (pages h <= n)%nat -> exists b' log, picture n (through fuel s draw) b = Some (b', log) /\ length log = pages h
    /\ forall X Y, 0 <= X < w -> 0 <= Y < h -> exists v, shown log X Y = Some v /\ dot (fst (seen l w h X Y)) (snd (seen l w h X Y)) pic v.
Proof.
  cbn zeta. intros D H8 Ds O EV L OK PIC SAME. pose proof D as (W & H & _). split; [intros m; eexists; apply send_sent; eauto|]. split.
  { intros c P. destruct (box_through s (top s) l c fuel Ds O L W ltac:(lia) P EV) as (c' & E & _). eauto. }
  intros n Hn. pose proof (does_shapes s _ l Ds O) as Sh.
  assert (E : forall c c', GetPageBox fuel s (top s) c = Some c' -> through fuel s draw c = flat_map (fun e => map (pair (fst e)) (sent l (baseW s) (baseH s) (snd e))) (draw c')).
  { intros c c' Ec. unfold through. rewrite Ec. apply flat_map_ext. intros e. rewrite (send_sent s (top s) l fuel (snd e) Ds O L). reflexivity. }
  assert (OKt : forall c, page_of (baseW s) (baseH s) c -> Forall (fun e => msg_ok (snd e)) (through fuel s draw c)).
  { intros c P. destruct (box_through s (top s) l c fuel Ds O L W ltac:(lia) P EV) as (c' & Ec & Bc & _). rewrite (E c c' Ec). apply Forall_forall. intros e I. apply in_flat_map in I as (e0 & I0 & I).
    apply in_map_iff in I as (m & <- & I). cbn [snd]. specialize (OK c' Bc). rewrite Forall_forall in OK. destruct (OK e0 I0) as [M _]. pose proof (sent_ok l (baseW s) (baseH s) (snd e0) M) as F. rewrite Forall_forall in F. auto. }
  destruct (C112_picture (baseW s) (baseH s) b (fun c => through fuel s draw c) (flat_map (fun e => map (pair (fst e)) (sent l (baseW s) (baseH s) (snd e))) pic) D OKt) with (fuel := n) as (b' & log & P1 & P2 & P3 & P4 & P5); [|exact Hn|].
  { intros c P X Y v I. assert (Bc : is_byte X /\ is_byte Y) by (destruct P as (k & K1 & K2 & K3 & K4 & K5 & K6); unfold inside in I; unfold is_byte; lia). destruct Bc as [BX BY].
    destruct (box_through s (top s) l c fuel Ds O L W ltac:(lia) P EV) as (c' & Ec & Bc & In'). rewrite (E c c' Ec). specialize (In' X Y I).
    assert (G : forall li v1, Forall (fun e => msg_ok (snd e) /\ fits_in l (baseW s) (baseH s) (snd e)) li -> dot (fst (seen l (baseW s) (baseH s) X Y)) (snd (seen l (baseW s) (baseH s) X Y)) li v1 ->
      dot X Y (flat_map (fun e => map (pair (fst e)) (sent l (baseW s) (baseH s) (snd e))) li) v1).
    { intros li v1 Hl D1. eapply dot_through; [|exact D1]. intros e Ie. rewrite Forall_forall in Hl. destruct (Hl e Ie). apply sent_on; auto. }
    destruct (dot_total (fst (seen l (baseW s) (baseH s) X Y)) (snd (seen l (baseW s) (baseH s) X Y)) pic) as (v0 & D0). pose proof (proj2 (SAME c' Bc _ _ v0 In') D0) as D1.
    pose proof (G pic v0 PIC D0) as G1. pose proof (G (draw c') v0 (OK c' Bc) D1) as G2. split; intros Dv.
    - rewrite (dot_unique _ _ _ _ Dv _ G2). exact G1.
    - rewrite (dot_unique _ _ _ _ Dv _ G1). exact G2. }
  exists b', log. split; [exact P1|]. split; [rewrite <- (map_length fst), P2, map_length, seq_length; reflexivity|]. intros X Y HX HY. destruct (P4 X Y HX HY) as (v & E1 & Dv). exists v. split; [exact E1|].
  destruct (dot_total (fst (seen l (baseW s) (baseH s) X Y)) (snd (seen l (baseW s) (baseH s) X Y)) pic) as (v0 & D0). replace v with v0; [exact D0|]. eapply dot_unique; [|exact Dv].
  eapply dot_through; [|exact D0]. intros e Ie. rewrite Forall_forall in PIC. destruct (PIC e Ie). apply sent_on; auto; unfold is_byte; lia.
Qed.
Print Assumptions C116_picture_partial.

(** Eight pixels to the left, doubled, are one column too far to the left: so an X bitmap, whose bytes are drawn to the left, lies one column too far to the left, the first over the edge *)
Theorem C116_left_refuted : let l := DrawXBM (mkBox 0 0 50 3) 0 0 8 1 [1] in
  covers l 0 0 /\ covers (flat_map scale_msg l) 0 0 /\ ~ covers (flat_map scale_msg l) 1 0 /\ covers (flat_map scale_msg l) 255 0.
Proof.
  cbn zeta. assert (E : DrawXBM (mkBox 0 0 50 3) 0 0 8 1 [1] = [Eight 7 0 2 1]) by reflexivity. rewrite E.
  assert (E2 : flat_map scale_msg [Eight 7 0 2 1] = [Eight 14 0 2 0; Eight 14 1 2 0; Eight 6 0 2 3; Eight 6 1 2 3]) by reflexivity. rewrite E2.
  split; [|split; [|split]].
  - exists (Eight 7 0 2 1). split; [left; auto|]. exists 7. cbn [stepX stepY]. repeat split; lia.
  - exists (Eight 6 0 2 3). split; [right; right; left; auto|]. exists 6. cbn [stepX stepY]. repeat split; lia.
  - intros (m & I & O). cbn [In] in I. destruct I as [<-|[<-|[<-|[<-|[]]]]]; destruct O as (k & K & T & X & Y); cbn [stepX stepY] in X, Y; try (rewrite Z.testbit_0_l in T; discriminate).
    + assert (k = 5) by (Z.div_mod_to_equations; lia). subst. discriminate.
    + Z.div_mod_to_equations. lia.
  - exists (Eight 6 0 2 3). split; [right; right; left; auto|]. exists 7. cbn [stepX stepY]. repeat split; lia.
Qed.
Print Assumptions C116_left_refuted.
(** Doubled, what lies right of the picture at column 128 comes back at its left edge *)
Theorem C116_wrap_refuted y : is_byte y -> y < 128 -> covers (scale_msg (Pixel 128 y)) 0 (2 * y) /\ ~ on (Pixel 128 y) (0 / 2) (2 * y / 2).
Proof.
  unfold is_byte. intros Y Y2. split; [|cbn [on]; change (0 / 2) with 0; lia]. exists (Pixel 0 (2 * y)). split; [|cbn [on]; auto]. left. change (u8 (128 * 2)) with 0. f_equal. rewrite u8_small; lia.
Qed.
Print Assumptions C116_wrap_refuted.
(** A display of odd width, doubled, then turned by 180 degrees: the page seems to begin at column 255, and all that has a bounding box on the left is left out *)
Theorem C116_odd_refuted : let s := mkChain RotDev R180 ScaleDev Base 101 64 in
  does s (top s) [Turn 2; Double] /\ GetPageBox 3 s (top s) (mkBox 0 0 100 7) = Some (mkBox 255 28 49 31) /\ forall w, 1 <= w <= 255 -> DrawBox (mkBox 255 28 49 31) 0 28 w 1 = [].
Proof.
  cbn zeta. split; [|split; [reflexivity|]].
  - change 2 with (quarters (rot_fn (mkChain RotDev R180 ScaleDev Base 101 64))). constructor; [discriminate|]. cbn [rot_mem]. constructor. cbn [scale_mem]. constructor.
  - intros w W. unfold DrawBox, IsBBXIntersection. cbn [x0 x1 y0 y1]. change (negb (is_intersection_decision_tree 28 31 28 (u8 (u8 (28 + 1) - 1)))) with false. cbv iota.
    replace (u8 (u8 (0 + w) - 1)) with (w - 1) by (rewrite !u8_small; try rewrite u8_small; lia). unfold is_intersection_decision_tree. destruct (Z.leb_spec 0 49); [|lia]. destruct (Z.leb_spec 255 (w - 1)); [lia|].
    destruct (Z.ltb_spec (w - 1) 0); [lia|]. reflexivity.
Qed.
Print Assumptions C116_odd_refuted.

(** The DOGS102 display turned by 90 degrees, and a part of the picture *)
Example C116_calls_example : let s0 := plainChain 102 64 in let s1 := run (CRot R90) s0 in let s2 := run CScale s1 in
  does s0 (top s0) [] /\ does s1 (top s1) [Turn 1] /\ does s2 (top s2) [Double; Turn 1] /\ run CUndoRot s2 = s2 /\ ~ once (wanted (CRot R180) [Double; Turn 1]) /\ top (run (CRot R180) s2) = RotDev
  /\ UpdateDimension 3 s2 (mkBox 0 56 101 63) = Some (32, 51, mkBox 28 0 31 50).
Proof.
  cbn zeta. split; [constructor|]. split; [|split; [|split; [reflexivity|split; [|split; reflexivity]]]].
  - change 1 with (quarters (rot_fn (run (CRot R90) (plainChain 102 64)))). constructor; [discriminate|constructor].
  - constructor. change 1 with (quarters (rot_fn (run CScale (run (CRot R90) (plainChain 102 64))))). constructor; [discriminate|constructor].
  - intros [T _]. cbn in T. lia.
Qed.
Example C116_seen_example : seen [Turn 1] 102 64 101 0 = (0, 0) /\ seen [Turn 1] 102 64 0 63 = (63, 101) /\ seen [Double; Turn 3] 102 64 0 63 = (0, 0) /\ size [Double; Turn 3] 102 64 = (32, 51)
  /\ seen [Turn 2; Double] 102 64 101 63 = (0, 0).
Proof. repeat split; reflexivity. Qed.
(** A pixel, eight pixels to the right and a white one over them, turned by 90 degrees and doubled *)
Example C116_picture_example :
  let s := mkChain ScaleDev R90 Base RotDev 102 64 in let b := mkPb (mkPage 8 64 0 7 0) 102 (repeat 0x55 102) in
  let l := [(1, Eight 2 3 0 0xff); (0, Pixel 4 3)] in
  display_ok 102 64 b /\ does s (top s) [Double; Turn 1] /\ once [Double; Turn 1] /\ Forall (fun e => msg_ok (snd e) /\ fits_in [Double; Turn 1] 102 64 (snd e)) l
  /\ (exists log, option_map snd (picture 8 (through 3 s (fun _ => l)) b) = Some log
      /\ map (fun y => shown log 95 y) [3; 4; 5; 6; 7; 8; 9; 10; 19; 20] = map Some [false; true; true; true; true; false; false; true; true; false]
      /\ map (fun x => shown log x 5) [93; 94; 95; 96] = map Some [false; true; true; false]).
Proof.
  split; [unfold display_ok; cbn [p page_height total_height width buf]; rewrite repeat_length; lia|].
  split; [constructor; change 1 with (quarters (rot_fn (mkChain ScaleDev R90 Base RotDev 102 64))); constructor; [discriminate|constructor]|].
  split; [split; cbn; lia|]. split.
  { apply Forall_cons; [|apply Forall_cons; [|apply Forall_nil]]; (split; [cbn; unfold is_byte; repeat split; lia|]); cbn [snd fits_in heads]; (split; [auto|]); intros x y O; cbn [on stepX stepY] in O; [|lia].
    destruct O as (k & K & _ & -> & ->). Z.div_mod_to_equations. lia. }
  eexists. split; [vm_compute; reflexivity|]. split; vm_compute; reflexivity.
Qed.
