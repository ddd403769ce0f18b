(** What the updater of the bootloader should leave in the flash: no code of /repo. *)
From Verif Require Export Iap_Spec.

(** The chip while the buffer at address [p] holds [buf] *)
Definition with_buffer (wd : world) (p : Z) (buf : list Z) : world :=
  {| sectors := sectors wd; ram := fun a => if within p (Z.of_nat (length buf)) a then nth (Z.to_nat (a - p)) buf 0 else ram wd a;
     busy := busy wd; worn := worn wd; meddle := meddle wd; uid := uid wd; part := part wd |}.

(** The word at address 4 j of the flash, lowest byte first *)
Definition entry (f : Z -> Z) (j : Z) : Z := f (4 * j) + f (4 * j + 1) * 2 ^ 8 + f (4 * j + 2) * 2 ^ 16 + f (4 * j + 3) * 2 ^ 24.
(** UM10398, 26.3.3: the boot ROM starts the program in the flash if the first eight vectors add up to zero *)
Definition accepted (f : Z -> Z) : Prop := (entry f 0 + entry f 1 + entry f 2 + entry f 3 + entry f 4 + entry f 5 + entry f 6 + entry f 7) mod 2 ^ 32 = 0.
(** The number of whole sectors an image takes *)
Definition taken (n : nat) : Z := (Z.of_nat n + 4095) / 4096.
(** The flash holds the image: in the sectors it takes there are its bytes, apart from the eighth vector, and 0xff behind them; the boot ROM starts it *)
Definition holds (image : list Z) (f : Z -> Z) : Prop :=
  (forall a, 0 <= a < taken (length image) * 4096 -> ~ (28 <= a < 32) -> f a = nth (Z.to_nat a) image 0xff) /\ (forall a, 28 <= a < 32 -> is_byte (f a)) /\ accepted f.
