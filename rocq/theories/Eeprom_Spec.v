(** An EEPROM as its user sees it: RAM content, stored content and a dirty mark *)
From Verif Require Import Base Eeprom_Model.

(** the layouts: pages fit the sector, sizes are ones the flash can program *)
Definition ecfg_ok (c : ecfg) : Prop :=
  (1 <= esize c <= fsize c)%nat /\ (fsize c <= FLASH_SECTOR_SIZE)%nat /\ Z.of_nat (fsize c) mod 256 = 0 /\
  (Z.of_nat (esize c) mod 1024 = 0 \/ Z.of_nat (esize c) mod 1024 = 256 \/ Z.of_nat (esize c) mod 1024 = 512).
Record ideal := mkIdeal { now : list Z; stored : list Z; dirty : bool }.
(** the last byte is not available to the user: saving clears it *)
Definition without_last (d : list Z) : list Z := removelast d ++ [0].
Definition ideal_step (ev : eevent) (x : ideal) : ideal :=
  match ev with
  | Store i v => mkIdeal (wr (now x) i v) (stored x) (dirty x)
  | Modified b => mkIdeal (now x) (stored x) b
  | Save => if dirty x then mkIdeal (without_last (now x)) (without_last (now x)) false else x
  | Restart => mkIdeal (stored x) (stored x) false
  end.
Definition ideal_run (l : list eevent) (x : ideal) : ideal := fold_left (fun x ev => ideal_step ev x) l x.
Definition event_ok (ev : eevent) : Prop := match ev with Store _ v => is_byte v | _ => True end.
(** the sector is in order: behind the page in use (the highest one whose marker is programmed) the pages are blank *)
Definition used (c : ecfg) (s : list Z) (p : nat) : Prop := (p < numEepromPages c)%nat /\ rd s (p * fsize c + (esize c - 1)) <> 255.
Definition blank (c : ecfg) (s : list Z) (p : nat) : Prop := forall i, (i < esize c)%nat -> rd s (p * fsize c + i) = 255.
Definition sector_ok (c : ecfg) (s : list Z) : Prop :=
  length s = FLASH_SECTOR_SIZE /\ Forall is_byte s /\
  (forall p q, used c s p -> (p < q < numEepromPages c)%nat -> blank c s q \/ exists r, (q <= r)%nat /\ used c s r).
Definition page_content (c : ecfg) (s : list Z) (p : nat) : list Z := map (fun i => rd s (p * fsize c + i)) (seq 0 (esize c)).
(** what a restart reads: the highest used page, or zeros *)
Definition content (c : ecfg) (s : list Z) (d : list Z) : Prop :=
  (exists p, used c s p /\ (forall q, (p < q)%nat -> ~ used c s q) /\ d = page_content c s p) \/ ((forall q, ~ used c s q) /\ d = repeat 0 (esize c)).

(** ** Power loss *)
(** the sector contents that can be found after power was lost during the operations [ops]: between two operations, during an erase (anything),
    or while a range is programmed (in address order: a prefix has been programmed) *)
Inductive power_lost : list fop -> list Z -> list Z -> Prop :=
| lost_here ops s : power_lost ops s s
| lost_erasing ops s g : length g = FLASH_SECTOR_SIZE -> Forall is_byte g -> power_lost (Erase :: ops) s g
| lost_programming a bs ops s j : power_lost (Prog a bs :: ops) s (program s a (firstn j bs))
| lost_later op ops s s1 s2 : doOp op s = Some s1 -> power_lost ops s1 s2 -> power_lost (op :: ops) s s2.
(** every programming operation hits erased bytes only *)
Fixpoint programs_erased (ops : list fop) (s : list Z) : Prop :=
  match ops with
  | [] => True
  | o :: r => (match o with Prog a bs => forall i, (a <= i < a + length bs)%nat -> rd s i = 255 | Erase => True end) /\
      forall s', doOp o s = Some s' -> programs_erased r s'
  end.
(** a device that has just been switched on *)
Definition switched_on (c : ecfg) (s : list Z) : eeprom := readUserEeprom c (mkEep s [] false).
(** the save at hand has to erase the sector first *)
Definition starts_over (ops : list fop) : Prop := exists r, ops = Erase :: r.
