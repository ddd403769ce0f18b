(** The A/D converter of the LPC11xx by its manual (chapter ADC), as a converter of Adc_Model. *)
From Verif Require Import Base Adc_Model.

(** what is at the inputs: a value of ten bits for each moment and channel; how long a conversion begun at a moment takes, in accesses. Both are arbitrary *)
Record world := { volts : nat -> nat -> Z; takes : nat -> nat }.
(** powered and clocked or not; the control register; the data registers; the conversion going on: channel and accesses left; the moment *)
Record adc := { on : bool; cr : Z; dr : list Z; work : option (nat * nat); now : nat }.
(** the flags of a data register *)
Definition done (v : Z) : bool := Z.testbit v 31.
Definition overrun (v : Z) : bool := Z.testbit v 30.
(** a result in the register: the value in bits 6..15, DONE, and OVERRUN if the last one had not been read *)
Definition result (old v : Z) : Z := 2147483648 + (if done old then 1073741824 else 0) + v * 64.
(** one moment passes *)
Definition tick (e : world) (s : adc) : adc :=
  match work s with
  | Some (c, O) => {| on := on s; cr := cr s; dr := wr (dr s) c (result (rd (dr s) c) (volts e (now s) c)); work := None; now := S (now s) |}
  | Some (c, S k) => {| on := on s; cr := cr s; dr := dr s; work := Some (c, k); now := S (now s) |}
  | None => {| on := on s; cr := cr s; dr := dr s; work := None; now := S (now s) |}
  end.
(** the channel selected: the lowest bit of SEL *)
Fixpoint lowest (n : nat) (c : nat) (v : Z) : option nat := match n with O => None | S m => if Z.testbit v (Z.of_nat c) then Some c else lowest m (S c) v end.
(** START, bits 24..26: 1 begins a conversion of the channel selected; 0: none *)
Definition started (v : Z) : bool := Z.land (Z.shiftr v 24) 7 =? 1.
Definition lpc (e : world) : converter adc :=
  {| getCR := fun s => let s := tick e s in (s, cr s);
     setCR := fun s v => let s := tick e s in
       {| on := on s; cr := v; dr := dr s; work := if on s && started v then match lowest 8 0 v with Some c => Some (c, takes e (now s)) | None => None end else None; now := now s |};
     (** reading a data register clears its flags *)
     readDR := fun s c => let s := tick e s in
       ({| on := on s; cr := cr s; dr := wr (dr s) c (Z.land (rd (dr s) c) 0x3fffffff); work := work s; now := now s |}, rd (dr s) c) |}.
(** a converter at rest: nothing begun; the data registers may hold anything *)
Definition ready (s : adc) : Prop := on s = true /\ is_u32 (cr s) /\ Z.land (Z.shiftr (cr s) 24) 7 = 0 /\ length (dr s) = 8%nat /\ Forall is_u32 (dr s).
Definition tenbit (e : world) : Prop := forall t c, 0 <= volts e t c < 1024.
(** bits 8..23 of CR: clock divider, BURST, CLKS *)
Definition settings (v : Z) : Z := Z.land v 0xffff00.
