(** C117: painted pictures *)
From Verif Require Import U8gPaint_Proofs U8g_Props U8gRot_Props.

(** An application draws a list of coloured shapes in the picture loop, on a display as it is or turned: each dot of the display shows the colour of the last shape that has the dot of the picture
    seen there, and nothing where there is none. Missing: doubled pictures (see C116_left_refuted) and what C113 to C115 refute *)
Theorem C117_painted_partial s b shapes l fuel : let w := baseW s in let h := baseH s in
  display_ok w h b -> 8 <= h -> does s (top s) l -> once l -> doubles l = 0%nat -> (3 <= fuel)%nat -> Forall (fun e => shape_ok (snd e)) shapes ->
  forall n, (pages h <= n)%nat -> exists b' log, picture n (through fuel s (paint shapes)) b = Some (b', log) /\ length log = pages h
    /\ forall X Y, 0 <= X < w -> 0 <= Y < h -> exists v, shown log X Y = Some v /\ painted (fst (seen l w h X Y)) (snd (seen l w h X Y)) shapes v.
Proof.
  cbn zeta. intros D H8 Ds O DB L OK n Hn. pose proof D as (W & H & _). set (full := mkBox 0 0 255 255). assert (F : box_ok full) by (unfold box_ok, full; cbn; lia).
  assert (FI : forall c, box_ok c -> Forall (fun e => msg_ok (snd e) /\ fits_in l (baseW s) (baseH s) (snd e)) (paint shapes c)).
  { intros c C. eapply Forall_impl; [|apply paint_straight; eassumption]. intros e [M S]. split; [exact M|]. destruct (does_shapes s _ l Ds O) as [-> |[-> |(q & Q & [-> |[-> | ->]])]]; cbn [doubles fits_in] in *; auto; discriminate. }
  assert (SAME : forall c, box_ok c -> same_dots c (paint shapes c) (paint shapes full)).
  { intros c C x y v I. destruct (paint_dot c x y C I shapes OK) as (v1 & D1 & P1). assert (I2 : inside full x y) by (unfold inside, full, box_ok in *; cbn; lia).
    destruct (paint_dot full x y F I2 shapes OK) as (v2 & D2 & P2). rewrite <- (painted_unique _ _ _ _ P1 _ P2) in D2. split; intros Dv.
    - rewrite (dot_unique _ _ _ _ Dv _ D1). exact D2.
    - rewrite (dot_unique _ _ _ _ Dv _ D2). exact D1. }
  destruct (C116_picture_partial s b (paint shapes) (paint shapes full) l fuel D H8 Ds O (or_introl DB) L FI (FI full F) SAME) as (_ & _ & G). destruct (G n Hn) as (b' & log & E & Len & K).
  exists b', log. split; [exact E|]. split; [exact Len|]. intros X Y HX HY. destruct (K X Y HX HY) as (v & Es & Dv). exists v. split; [exact Es|].
  destruct (C116_seen s _ l Ds O W ltac:(lia) (or_introl DB)) as [Sn _]. specialize (Sn X Y HX HY).
  assert (I2 : inside full (fst (seen l (baseW s) (baseH s) X Y)) (snd (seen l (baseW s) (baseH s) X Y))).
  { unfold inside, full. cbn [x0 x1 y0 y1]. assert (Sz : fst (size l (baseW s) (baseH s)) <= 255 /\ snd (size l (baseW s) (baseH s)) <= 255).
    { destruct (does_shapes s _ l Ds O) as [-> |[-> |(q & Q & [-> |[-> | ->]])]]; cbn [doubles] in DB; try discriminate; cbn [size]; [cbn; lia|]. destruct (q =? 2); cbn; lia. }
    lia. }
  destruct (paint_dot full _ _ F I2 shapes OK) as (v1 & D1 & P1). rewrite (dot_unique _ _ _ _ Dv _ D1). exact P1.
Qed.
Print Assumptions C117_painted_partial.
(** The picture says one colour for each dot *)
Theorem C117_unique x y shapes v v' : painted x y shapes v -> painted x y shapes v' -> v = v'.
Proof. intros A B. eapply painted_unique; eassumption. Qed.
Print Assumptions C117_unique.

(** A white line across a black rounded box with a bitmap beside it, on the DOGS102 display turned by 270 degrees *)
Example C117_painted_example :
  let s := mkChain RotDev R270 Base Null 102 64 in let b := mkPb (mkPage 8 64 0 7 0) 102 (repeat 0xaa 102) in
  let l := [(1, SRBox 4 10 30 20 4); (0, SLine 0 20 63 20); (1, SXbm 40 50 12 2 [0x81; 0x0f; 0xff; 0x01])] in
  display_ok 102 64 b /\ does s (top s) [Turn 3] /\ once [Turn 3] /\ Forall (fun e => shape_ok (snd e)) l
  /\ (exists log, option_map snd (picture 8 (through 3 s (paint l)) b) = Some log
      /\ map (fun p => (seen [Turn 3] 102 64 (fst p) (snd p), shown log (fst p) (snd p))) [(19, 53); (20, 53); (21, 53); (10, 59); (50, 23); (50, 22); (51, 22)]
         = [((10, 19), Some true); ((10, 20), Some false); ((10, 21), Some true); ((4, 10), Some false); ((40, 50), Some true); ((41, 50), Some false); ((41, 51), Some true)]).
Proof.
  split; [unfold display_ok; cbn [p page_height total_height width buf]; rewrite repeat_length; lia|].
  split; [change 3 with (quarters (rot_fn (mkChain RotDev R270 Base Null 102 64))); constructor; [discriminate|constructor]|].
  split; [split; cbn; lia|]. split.
  { repeat (apply Forall_cons); [..|apply Forall_nil]; cbn [snd shape_ok]; unfold is_byte; repeat split; try lia. repeat constructor; lia. }
  eexists. split; [vm_compute; reflexivity|]. vm_compute. reflexivity.
Qed.
