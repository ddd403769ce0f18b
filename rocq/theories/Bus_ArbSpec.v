(** Two devices send at the same time. Covers C92. *)
From Verif Require Import Base Bus_Model Bus_Spec Bus_BitSpec.

(** the bits of [w] from [a] up to [k] (exclusive) that are 0 *)
Definition lows (w : Z) (a k : nat) : list nat := filter (fun j => negb (Z.testbit w (Z.of_nat j))) (seq a (k - a)).
(** the timer of a sender restarts at the end of each of its own low pulses: what it shows at time [x] after the begin of the start bit, if the latest own pulse was the [a]-th pulse position
    (0: the start bit, j+1: bit j) *)
Definition clock (a : nat) (x : Z) : Z := x - (104 * Z.of_nat a + 35).
Definition latestLow (zs : list nat) : nat := fold_left (fun _ z => S z) zs 0%nat.
(** an edge that may be seen around the own pulse of bit [z]: a reflection of the last own rising edge, or a low pulse begun 7 us before to 34 us after ours *)
Definition harmless (a z : nat) (o : bop) : Prop :=
  exists t, edgeOp t o /\ (t < 3 \/ exists d, -7 <= d <= 34 /\ t = clock a (nominal z + d)).
(** the interrupts while the own low pulses [zs] are sent, the latest one having been at position [a] *)
Fixpoint shared (a : nat) (zs : list nat) (ops : list bop) : Prop :=
  match zs with
  | [] => ops = []
  | z :: r => exists es o ops1, ops = es ++ o :: ops1 /\ Forall (harmless a z) es /\ tick o /\ shared (S z) r ops1
  end.
(** word [c] loses against word [w] at bit [k]: the first that differs, and [w] has the low pulse *)
Definition loses (c w : Z) (k : nat) : Prop :=
  (k <= 8)%nat /\ (forall j, (j < k)%nat -> Z.testbit c (Z.of_nat j) = Z.testbit w (Z.of_nat j)) /\ Z.testbit c (Z.of_nat k) = true /\ Z.testbit w (Z.of_nat k) = false.
(** the interrupts of a sender of [c] from the end of its start bit on, when another device sends [w], whose pulse of bit [k] is [d] us later than ours would have been, and whose further pulses come
    up to 35 us too early and 68 us too late *)
Definition beaten (c w : Z) (k : nat) (d : Z) (ops : list bop) : Prop :=
  let a := latestLow (lows c 0 k) in
  exists ops1 x ts es y, ops = ops1 ++ x :: es ++ [y] /\ shared 0 (lows c 0 k) ops1 /\ edgeOp (clock a (nominal k + d)) x /\
    Forall2 (fun j t => -35 <= t - clock a (nominal j + d) <= 68) (lows w (S k) 9) ts /\ Forall2 edgeOp ts es /\ quiet y.
(** the bytes of the own telegram that are out; an acknowledge is no telegram *)
Definition sentSoFar (v : view) : list Z := match on v with Some (false, l) => l | _ => [] end.
(** a byte is about to begin: the timer runs out at the end of the low pulse of its start bit *)
Definition starting (b : bus) : Prop := state b = SEND_START_BIT \/ state b = SEND_BIT_0.
(** the byte to be sent next *)
Definition next (v : view) (c : Z) : Prop :=
  (on v = Some (true, []) /\ c = 0xCC) \/ (exists l f, on v = Some (false, l) /\ due v = Some f /\ (length l < length f)%nat /\ c = nth (length l) f 0).
