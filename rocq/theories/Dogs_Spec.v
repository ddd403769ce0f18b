(** Specification for C122: the display controller UC1701 by its data sheet (environment, not part of the code) *)
From Verif Require Export Base.
Open Scope Z_scope.

(** [pixels page column]: eight pixels below each other; [column], [page]: where the next byte goes; [operand]: the command that waits for a second byte *)
Record ctrl := mkCtrl { pixels : Z -> Z -> Z; column : Z; page : Z; inverted : bool; shown : bool; allOn : bool; power : Z; contrast : Z; firstLine : Z; operand : option Z }.
Definition upd (m : Z -> Z -> Z) (p c b : Z) : Z -> Z -> Z := fun p' c' => if (p' =? p) && (c' =? c) then b else m p' c'.
(** a byte of data, at the column selected, which is then the next one; [past]: the column after the last one of the 132 (the controllers differ) *)
Definition datum (past : Z) (k : ctrl) (b : Z) : ctrl :=
  mkCtrl (if (column k <=? 131) && (page k <=? 8) then upd (pixels k) (page k) (column k) b else pixels k) (if column k <? 131 then column k + 1 else past) (page k)
    (inverted k) (shown k) (allOn k) (power k) (contrast k) (firstLine k) (operand k).
(** a command; commands that only concern the electrical properties or the orientation are accepted and have no effect here *)
Definition command (k : ctrl) (b : Z) : ctrl :=
  match operand k with
  | Some c => mkCtrl (pixels k) (column k) (page k) (inverted k) (shown k) (allOn k) (power k) (if c =? 0x81 then b else contrast k) (firstLine k) None
  | None =>
      if b <? 0x10 then mkCtrl (pixels k) (column k / 16 * 16 + b) (page k) (inverted k) (shown k) (allOn k) (power k) (contrast k) (firstLine k) None
      else if b <? 0x20 then mkCtrl (pixels k) ((b - 0x10) * 16 + column k mod 16) (page k) (inverted k) (shown k) (allOn k) (power k) (contrast k) (firstLine k) None
      else if (0x28 <=? b) && (b <? 0x30) then mkCtrl (pixels k) (column k) (page k) (inverted k) (shown k) (allOn k) (b - 0x28) (contrast k) (firstLine k) None
      else if (0x40 <=? b) && (b <? 0x80) then mkCtrl (pixels k) (column k) (page k) (inverted k) (shown k) (allOn k) (power k) (contrast k) (b - 0x40) None
      else if (b =? 0x81) || (b =? 0xfa) then mkCtrl (pixels k) (column k) (page k) (inverted k) (shown k) (allOn k) (power k) (contrast k) (firstLine k) (Some b)
      else if (b =? 0xa4) || (b =? 0xa5) then mkCtrl (pixels k) (column k) (page k) (inverted k) (shown k) (b =? 0xa5) (power k) (contrast k) (firstLine k) None
      else if (b =? 0xa6) || (b =? 0xa7) then mkCtrl (pixels k) (column k) (page k) (b =? 0xa7) (shown k) (allOn k) (power k) (contrast k) (firstLine k) None
      else if (b =? 0xae) || (b =? 0xaf) then mkCtrl (pixels k) (column k) (page k) (inverted k) (b =? 0xaf) (allOn k) (power k) (contrast k) (firstLine k) None
      else if (0xb0 <=? b) && (b <? 0xc0) then mkCtrl (pixels k) (column k) (b - 0xb0) (inverted k) (shown k) (allOn k) (power k) (contrast k) (firstLine k) None
      else if b =? 0xe2 then mkCtrl (pixels k) 0 0 false false false 0 0x20 0 None
      else k
  end.
Definition uc1701 (past : Z) (k : ctrl) (cd : bool) (b : Z) : ctrl := if cd then datum past k b else command k b.

(** everything but the pixels and the place of the next byte is as before *)
Definition settings (k k' : ctrl) : Prop :=
  inverted k' = inverted k /\ shown k' = shown k /\ allOn k' = allOn k /\ power k' = power k /\ contrast k' = contrast k /\ firstLine k' = firstLine k /\ operand k' = operand k.
(** the next byte goes to (x, y) *)
Definition at_place (k : ctrl) (x y : Z) : Prop := column k = x /\ page k = y.
(** the bytes [l] are at row y from column x on, everything else is as in [m] *)
Definition painted (m m' : Z -> Z -> Z) (y x : Z) (l : list Z) : Prop :=
  forall p c, m' p c = if (p =? y) && (x <=? c) && (c <? x + Z.of_nat (length l)) then nth (Z.to_nat (c - x)) l 0 else m p c.
