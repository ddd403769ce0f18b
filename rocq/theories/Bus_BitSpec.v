(** How bytes look on the wire: a low pulse of the start bit, then for each of the nine bits (eight data bits, least significant first, and even parity)
    a low pulse if the bit is 0. Nominal distance 104 us. Covers C78. *)
From Verif Require Import Base Bus_Model Bus_Spec.

Definition oddOnes (c : Z) : bool := fold_left xorb (map (fun k => Z.testbit c (Z.of_nat k)) (seq 0 8)) false.
Definition word (c : Z) : Z := c + 256 * Z.b2z (oddOnes c).
Definition zeros (w : Z) : list nat := filter (fun k => negb (Z.testbit w (Z.of_nat k))) (seq 0 9).
(** nominal begin of the pulse of bit [k], counted from the begin of the start bit *)
Definition nominal (k : nat) : Z := 104 * (Z.of_nat k + 1).
(** an edge at time [t] counts for bit [k]: up to 35 us early, up to 68 us late *)
Definition onTime (k : nat) (t : Z) : Prop := nominal k - 35 <= t <= nominal k + 68.
(** the edges for a word of nine bits *)
Definition encodes (w : Z) (ts : list Z) : Prop := Forall2 onTime (zeros w) ts.
Definition is_word (w : Z) : Prop := 0 <= w < 512.
(** the number of bits set is even *)
Definition evenWord (w : Z) : bool := negb (fold_left xorb (map (fun k => Z.testbit w (Z.of_nat k)) (seq 0 9)) false).
(** an interrupt for an edge [t] us after the start bit that is no spike *)
Definition edgeOp (t : Z) (o : bop) : Prop := exists e i, o = Irq e i /\ env_ok e /\ iCap i = true /\ iMatch i = false /\ iSpike i = false /\ iCapture i = t /\ 0 <= t.
(** the interrupts of one byte: start bit, edges, end *)
Definition byteOps (w : Z) (ops : list bop) : Prop := exists s t es ts x, ops = s :: es ++ [x] /\ edgeOp t s /\ Forall2 edgeOp ts es /\ encodes w ts /\ quiet x.
(** of several words, of several bytes *)
Definition wordsOps (ws : list Z) (ops : list bop) : Prop := exists ls, Forall2 byteOps ws ls /\ ops = concat ls.
Definition bytesOps (f : list Z) (ops : list bop) : Prop := wordsOps (map word f) ops.
(** the receiver waits for a new frame *)
Definition listening (b : bus) : Prop := state b = IDLE \/ state b = WAIT_50BT \/ state b = RECV_WAIT_FOR_ACK_TX_START \/ state b = SEND_WAIT_FOR_RX_ACK.
(** the low pulses that begin after the interrupt at time [t], up to the end of the byte: the timer restarts at 0, a pulse begins when it reaches the match
    register of the PWM channel, the next interrupt comes when it has reached that of the time channel; [ops]: the interrupts *)
Fixpoint pulses (L : limits) (ops : list bop) (t : Z) (b : bus) : list Z :=
  match ops with
  | [] => []
  | o :: r =>
      match state b with
      | SEND_BITS_OF_BYTE => (if mPwm b <=? mTime b then [t + mPwm b] else []) ++ match bstep L b o with Some (b1, _) => pulses L r (t + mTime b + 1) b1 | None => [] end
      | _ => []
      end
  end.
(** the interrupt at the end of the start bit, which begins at time [origin] of the timer, and the interrupts of the ten bits (if no two are joined): no edges but our own *)
Definition sent (L : limits) (b : bus) (o : bop) (ops : list bop) (origin c : Z) : Prop :=
  exists b1, bstep L b o = Some (b1, [TxByte c]) /\ pulses L ops (mTime b + 1) b1 = map (fun k => origin + nominal k) (zeros (word c)).
