(** What the time functions and the timers' modes are meant to do; independent of the model. *)
From Verif Require Import Base.

(** Moments, in clock cycles, at which a program makes its successive reads: later reads are not earlier. *)
Definition moments (at_ : nat -> Z) : Prop := forall k, at_ k <= at_ (S k).

(** The down counter SysTick: it holds [v0] at moment 0, counts down with every cycle, and goes from 0 to [load]. *)
Definition counter (load v0 : Z) (t : Z) : Z := (v0 - t) mod (load + 1).

(** Cycles of a delay of [usec] microseconds less the two that the call itself is taken to last *)
Definition cycles (clock usec : Z) : Z := (usec - 2) * (clock / 1000000).

(** A count of interrupts, as the successive reads of it find it: it grows by at most one from read to read. *)
Definition steady (ticks : nat -> Z) : Prop := forall k, ticks k <= ticks (S k) <= ticks k + 1.

(** The match modes as the hardware reads them from MCR and EMR (three bits and two bits of each channel). *)
Definition onMatch (mcr emr ch : Z) (interrupt reset stop : bool) (pin : bool * bool) : Prop :=
  Z.testbit mcr (3 * ch) = interrupt /\ Z.testbit mcr (3 * ch + 1) = reset /\ Z.testbit mcr (3 * ch + 2) = stop /\
  Z.testbit emr (2 * ch + 4) = fst pin /\ Z.testbit emr (2 * ch + 5) = snd pin.
(** Capture modes, from CCR *)
Definition onCapture (ccr ch : Z) (rising falling interrupt : bool) : Prop :=
  Z.testbit ccr (3 * ch) = rising /\ Z.testbit ccr (3 * ch + 1) = falling /\ Z.testbit ccr (3 * ch + 2) = interrupt.
(** Two registers agree outside the bits from [lo] to [lo + n - 1]. *)
Definition agreeOutside (r r' lo n : Z) : Prop := forall i, 0 <= i -> ~ lo <= i < lo + n -> Z.testbit r' i = Z.testbit r i.

(** Counter mode, from CTCR: the edges counted, the input, and what clears the counter: the channel (true: CAP1)
    and the edge (true: falling). *)
Definition counts (ctcr : Z) (rising falling cap1 : bool) : Prop :=
  Z.testbit ctcr 0 = rising /\ Z.testbit ctcr 1 = falling /\ Z.testbit ctcr 2 = cap1 /\ Z.testbit ctcr 3 = false.
Definition clears (ctcr : Z) : option (bool * bool) :=
  if Z.testbit ctcr 4 then Some (Z.testbit ctcr 6, Z.testbit ctcr 5) else None.

(** A pin sampled by successive reads: [a] reads at the level of the pulse (an earlier pulse), then at least one
    read at the other level, up to read [b], then the pulse for [w + 1] reads, and the other level after it. *)
Definition pulse (pin : nat -> bool) (a b w : nat) : Prop :=
  (a < b)%nat /\
  (forall k, (k < a)%nat -> pin k = true) /\
  (forall k, (a <= k < b)%nat -> pin k = false) /\
  (forall k, (b <= k <= b + w)%nat -> pin k = true) /\
  pin (b + w + 1)%nat = false.
