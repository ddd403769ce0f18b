(** C114: straight lines *)
From Verif Require Import U8gLine_Proofs.

(** The dots of a line. Missing: lines to column (steep lines: row) 255 and lines longer than 128 dots whose slope does not fit, see the refutations *)
Theorem C114_line_partial fuel x1 y1 x2 y2 : (256 <= fuel)%nat -> is_byte x1 -> is_byte y1 -> is_byte x2 -> is_byte y2 ->
  let dx := Z.abs (x2 - x1) in let dy := Z.abs (y2 - y1) in
  fits (Z.max dx dy) (Z.min dx dy) -> (if dy <=? dx then x1 < 255 /\ x2 < 255 else y1 < 255 /\ y2 < 255) ->
  exists l, DrawLine fuel x1 y1 x2 y2 = Some l /\ Forall msg_ok l /\ forall x y, covers l x y <-> line x1 y1 x2 y2 x y.
Proof. apply line_ok. Qed.
Print Assumptions C114_line_partial.

(** On every display of up to 129 columns and rows the conditions hold for all lines *)
Theorem C114_display_partial fuel x1 y1 x2 y2 : (256 <= fuel)%nat -> 0 <= x1 <= 128 -> 0 <= y1 <= 128 -> 0 <= x2 <= 128 -> 0 <= y2 <= 128 ->
  exists l, DrawLine fuel x1 y1 x2 y2 = Some l /\ Forall msg_ok l /\ forall x y, covers l x y <-> line x1 y1 x2 y2 x y.
Proof.
  intros F A B C D. apply line_ok; auto; try (unfold is_byte; lia); [unfold fits; lia|]. destruct (Z.leb_spec (Z.abs (y2 - y1)) (Z.abs (x2 - x1))); lia.
Qed.
Print Assumptions C114_display_partial.

(** What such a set of dots is like: both ends belong to it; a line that is not steep has one dot in each column, a steep one has one in each row *)
Theorem C114_ends x1 y1 x2 y2 : line x1 y1 x2 y2 x1 y1 /\ line x1 y1 x2 y2 x2 y2.
Proof.
  unfold line. destruct (Z.leb_spec (Z.abs (y2 - y1)) (Z.abs (x2 - x1))).
  - destruct (Z.leb_spec x1 x2); [apply flat_ends; lia|]. destruct (flat_ends x2 y2 x1 y1 ltac:(lia) ltac:(lia)). auto.
  - destruct (Z.leb_spec y1 y2); [apply flat_ends; lia|]. destruct (flat_ends y2 x2 y1 x1 ltac:(lia) ltac:(lia)). auto.
Qed.
Print Assumptions C114_ends.
Theorem C114_one_per_column x1 y1 x2 y2 x : Z.abs (y2 - y1) <= Z.abs (x2 - x1) -> Z.min x1 x2 <= x <= Z.max x1 x2 -> exists y, line x1 y1 x2 y2 x y /\ forall y', line x1 y1 x2 y2 x y' -> y' = y.
Proof.
  intros S X. unfold line. destruct (Z.leb_spec (Z.abs (y2 - y1)) (Z.abs (x2 - x1))); [|lia]. destruct (Z.leb_spec x1 x2); apply flat_one; lia.
Qed.
Print Assumptions C114_one_per_column.
Theorem C114_one_per_row x1 y1 x2 y2 y : Z.abs (x2 - x1) < Z.abs (y2 - y1) -> Z.min y1 y2 <= y <= Z.max y1 y2 -> exists x, line x1 y1 x2 y2 x y /\ forall x', line x1 y1 x2 y2 x' y -> x' = x.
Proof.
  intros S X. unfold line. destruct (Z.leb_spec (Z.abs (y2 - y1)) (Z.abs (x2 - x1))); [lia|]. destruct (Z.leb_spec y1 y2); apply flat_one; lia.
Qed.
Print Assumptions C114_one_per_row.

(** A line that is not steep and ends in column 255 never ends *)
Theorem C114_endless_refuted fuel x1 y1 y2 : is_byte x1 -> is_byte y1 -> is_byte y2 -> Z.abs (y2 - y1) <= 255 - x1 -> DrawLine fuel x1 y1 255 y2 = None.
Proof.
  unfold is_byte. intros X Y1 Y2 S. unfold DrawLine. replace (if 255 <? x1 then u8 (x1 - 255) else u8 (255 - x1)) with (255 - x1) by (destruct (Z.ltb_spec 255 x1); [lia|rewrite u8_small; lia]).
  replace (if y2 <? y1 then u8 (y1 - y2) else u8 (y2 - y1)) with (Z.abs (y2 - y1)) by (destruct (Z.ltb_spec y2 y1); rewrite u8_small; lia).
  destruct (Z.ltb_spec (255 - x1) (Z.abs (y2 - y1))); [lia|]. destruct (Z.ltb_spec 255 x1); [lia|].
  generalize (if y1 <? y2 then 1 else -1) as st. generalize (i8 (Z.shiftr (255 - x1) 1)) as e. generalize (255 - x1) as D. generalize (Z.abs (y2 - y1)) as d. generalize y1 as y. intros y d D e st. clear y2 S Y2 H H0 Y1 y1.
  revert x1 X y e. induction fuel as [|n IH]; intros x X y e; cbn [lineLoop]; [reflexivity|]. destruct (Z.leb_spec x 255); [|lia].
  destruct (if i8 (e - d) <? 0 then _ else _) as [y' e']. rewrite IH; [reflexivity|]. apply u8_range.
Qed.
Print Assumptions C114_endless_refuted.

(** 131 columns, one row down: the error overflows and the line goes on downwards *)
Theorem C114_long_refuted : exists l, DrawLine 256 0 0 130 1 = Some l /\ covers l 130 33 /\ ~ line 0 0 130 1 130 33.
Proof.
  eexists. split; [vm_compute; reflexivity|]. split.
  - exists (Pixel 130 33). split; [repeat first [left; reflexivity | right]|cbn [on]; auto].
  - intros H. destruct (C114_one_per_column 0 0 130 1 130 ltac:(cbn; lia) ltac:(cbn; lia)) as (v & _ & U). pose proof (U 33 H). pose proof (U 1 (proj2 (C114_ends 0 0 130 1))). lia.
Qed.
Print Assumptions C114_long_refuted.

(** A steep line upwards to the left and what it gives *)
Example C114_line_example : fits (Z.max 3 7) (Z.min 3 7) /\ DrawLine 256 10 20 7 13 = Some [Pixel 7 13; Pixel 7 14; Pixel 8 15; Pixel 8 16; Pixel 9 17; Pixel 9 18; Pixel 10 19; Pixel 10 20]
  /\ line 10 20 7 13 8 15 /\ ~ line 10 20 7 13 8 14.
Proof.
  split; [unfold fits; cbn; lia|]. split; [reflexivity|]. unfold line. cbn -[Z.mul flat]. split.
  - exists 2, 1. cbn. lia.
  - intros (k & n & K & E1 & E2 & [[? _]|N]); [lia|]. assert (k = 1) by lia. subst. cbn in E2, N. lia.
Qed.
Example C114_display_example : 0 <= 101 <= 128 /\ 0 <= 63 <= 128 /\ exists l, DrawLine 256 0 0 101 63 = Some l /\ length l = 102%nat /\ nth 50 l (Pixel 0 0) = Pixel 50 31.
Proof. split; [lia|]. split; [lia|]. eexists. split; [vm_compute; reflexivity|]. split; reflexivity. Qed.
Example C114_one_example : Z.abs (5 - 0) <= Z.abs (20 - 3) /\ Z.min 3 20 <= 7 <= Z.max 3 20 /\ Z.abs (5 - 0) < Z.abs (20 - 3) /\ line 3 0 20 5 7 1.
Proof. repeat split; try (cbn; lia). unfold line. cbn -[Z.mul flat]. exists 4, 1. cbn. lia. Qed.
Example C114_endless_example : is_byte 200 /\ Z.abs (30 - 0) <= 255 - 200. Proof. unfold is_byte. cbn. lia. Qed.
