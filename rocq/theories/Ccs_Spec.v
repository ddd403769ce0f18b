(** Specification for C120: the gas sensor CCS811 by its data sheet, as a participant of the bus (environment, not part of the code) *)
From Coq Require Export QArith.
From Verif Require Export Base I2c_Model I2c_Spec.
Open Scope Z_scope.

(** [high]: the level of its wake pin (it hears only while it is low); [running]: the application (not the boot loader) runs; [regs]: the registers by number;
    [ptr]: the register selected; [pos]: bytes since the last START; [heard]: the bytes for it so far; [deaf]: it was addressed while the pin was high *)
Record gas := mkGas { high : bool; running : bool; regs : Z -> list Z; ptr : Z; pos : nat; heard : nat; deaf : bool }.
(** What does not change: [valid]: it has an application; [flags]: the other bits of its status (3: data ready, 0: error); [acks k]: it acknowledges the k-th byte for it *)
Record maker := { valid : bool; flags : Z; acks : nat -> bool; hwid : Z }.
(** register 0 is the status (bit 7: application running, bit 4: application present), register 0x20 the identification *)
Definition register (k : maker) (g : gas) (r : Z) : list Z :=
  if r =? 0 then [128 * Z.b2z (running g) + 16 * Z.b2z (valid k) + flags k] else if r =? 0x20 then [hwid k] else regs g r.
Definition put (f : Z -> list Z) (r : Z) (i : nat) (b : Z) : Z -> list Z := fun x => if x =? r then wr (f x) i b else f x.
(** a byte written: first the number of a register (0xF4 starts the application), then its contents *)
Definition take (k : maker) (g : gas) (b : Z) : gas :=
  match pos g with
  | O => mkGas (high g) (running g || ((b =? 0xF4) && valid k)) (regs g) b 1 (heard g) (deaf g)
  | S i => mkGas (high g) (running g) (put (regs g) (ptr g) i b) (ptr g) (S (S i)) (heard g) (deaf g)
  end.
Definition hears (g : gas) : gas := mkGas (high g) (running g) (regs g) (ptr g) (pos g) (S (heard g)) (deaf g).
Definition nose (a : Z) (k : maker) : bus gas :=
  mkBus gas (fun g => mkGas (high g) (running g) (regs g) (ptr g) 0 (heard g) (deaf g))
    (fun g x _ => if x =? a then if high g then (mkGas (high g) (running g) (regs g) (ptr g) (pos g) (heard g) true, Nak) else (hears g, if acks k (heard g) then Ack else Nak) else (g, Nak))
    (fun g b => if acks k (heard g) then (take k (hears g) b, Ack) else (hears g, Nak))
    (fun g _ => (mkGas (high g) (running g) (regs g) (ptr g) (S (pos g)) (heard g) (deaf g), Byte (nth (pos g) (register k g (ptr g)) 0xff)))
    (fun g => g).
Definition pin (g : gas) (b : bool) : gas := mkGas b (running g) (regs g) (ptr g) (pos g) (heard g) (deaf g).

(** The sensor sleeps, and was never addressed while it slept *)
Definition asleep (g : gas) : Prop := high g = true /\ deaf g = false.
(** everything has been acknowledged so far and will be for a while *)
Definition polite (k : maker) (g : gas) (count : nat) : Prop := forall j, (j < count)%nat -> acks k (heard g + j) = true.
(** the registers are as before, except [r], which holds [l] *)
Definition set_to (g g' : gas) (r : Z) (l : list Z) : Prop := regs g' r = l /\ running g' = running g /\ forall x, x <> r -> regs g' x = regs g x.
Definition kept (g g' : gas) : Prop := running g' = running g /\ regs g' = regs g.
