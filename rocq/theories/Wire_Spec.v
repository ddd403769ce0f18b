(** The 1-Wire line and the devices on it, after the data sheet of the DS18B20 (times in ns): no code of /repo. *)
From Verif Require Export Wire_Model.

(** Devices as a whole: what a reset, a written bit and a read slot do to them; whether they have a bit to send in the next slot (a 0 of any of them wins); what
    happens if the master violates the timing. *)
Record devices (B : Type) := { onReset : B -> B * bool; onWrite : bool -> B -> B; sends : B -> option bool; sent : B -> B; upset : B -> B }.
Arguments onReset {B}. Arguments onWrite {B}. Arguments sends {B}. Arguments sent {B}. Arguments upset {B}.
(** What is not fixed: the time every operation of the program takes in addition (processor, interrupts), how long devices hold a 0, begin and length of the presence pulse;
    whether there is a resistor at the line; whether the line is shorted; whether writing to a pin that is an input reaches its output latch. *)
Record world := { lag : nat -> Z; holdTime : nat -> Z; presenceAfter : nat -> Z; presenceFor : nat -> Z; resistor : bool; shorted : bool; latchIn : bool }.
Definition legal (wd : world) : Prop := (forall k, 0 <= lag wd k) /\ (forall k, 15000 <= holdTime wd k <= 60000) /\ (forall k, 15000 <= presenceAfter wd k <= 60000) /\ (forall k, 60000 <= presenceFor wd k <= 240000).
(** The processor is fast enough: six operations in a row take at most 2 us more than the delays. *)
Definition quick (wd : world) : Prop := forall k, lag wd k + lag wd (k + 1) + lag wd (k + 2) + lag wd (k + 3) + lag wd (k + 4) + lag wd (k + 5) <= 2000.

(** [fell]: when the master last pulled the line low; [ready]: from when on it may do so again; [hold]: from when to when the devices pull it low. *)
Record line (B : Type) := mkLine { out : bool; pull : bool; latch : bool; now : Z; ops : nat; fell : Z; ready : Z; hold : Z * Z; bus : B; pinIrq : bool }.
Arguments mkLine {B}. Arguments out {B}. Arguments pull {B}. Arguments latch {B}. Arguments now {B}. Arguments ops {B}. Arguments fell {B}. Arguments ready {B}. Arguments hold {B}. Arguments bus {B}. Arguments pinIrq {B}.

Section Line.
  Context {B : Type} (d : devices B) (wd : world).
  Definition low (l : line B) : bool := out l && negb (latch l).
  Definition held (l : line B) : bool := (fst (hold l) <=? now l) && (now l <=? snd (hold l)).
  Definition level (l : line B) : bool := negb (low l) && negb (shorted wd) && negb (held l).
  Definition fall (l : line B) : line B :=
    let b := if now l <? ready l then upset d (bus l) else bus l in
    mkLine (out l) (pull l) (latch l) (now l) (ops l) (now l) (ready l) (match sends d b with Some false => (now l, now l + holdTime wd (ops l)) | _ => hold l end) b (pinIrq l).
  Definition rise (l : line B) : line B :=
    let t := now l - fell l in
    let short := (1000 <=? t) && (t <=? 15000) in
    if 480000 <=? t then
      let '(b, p) := onReset d (bus l) in
      mkLine (out l) (pull l) (latch l) (now l) (ops l) (fell l) (now l + 480000)
        (if p then (now l + presenceAfter wd (ops l), now l + presenceAfter wd (ops l) + presenceFor wd (ops l)) else hold l) b (pinIrq l)
    else
      let b := match sends d (bus l) with
               | Some _ => if short then sent d (bus l) else upset d (bus l)
               | None => if short then onWrite d true (bus l) else if (60000 <=? t) && (t <=? 120000) then onWrite d false (bus l) else upset d (bus l)
               end in
      mkLine (out l) (pull l) (latch l) (now l) (ops l) (fell l) (Z.max (fell l + 60000) (now l) + 1000) (hold l) b (pinIrq l).
  Definition tick (n : Z) (l : line B) : line B := mkLine (out l) (pull l) (latch l) (now l + n + lag wd (ops l)) (S (ops l)) (fell l) (ready l) (hold l) (bus l) (pinIrq l).
  (** the pin's registers change: edges; a line that nobody drives and nothing pulls up may disturb the devices *)
  Definition drive (o p v : bool) (l : line B) : line B :=
    let l' := mkLine o p v (now l) (ops l) (fell l) (ready l) (hold l) (bus l) (pinIrq l) in
    let l' := if negb (low l) && low l' then fall l' else if low l && negb (low l') then rise l' else l' in
    let l' := if negb o && negb p && negb (resistor wd) then mkLine o p v (now l') (ops l') (fell l') (ready l') (hold l') (upset d (bus l')) (pinIrq l') else l' in
    tick 0 l'.
  Definition gpio : pins (line B) :=
    {| pinMode := fun m l => match m with Output => drive true (pull l) (latch l) l | Input => drive false false (latch l) l | InputPullUp => drive false true (latch l) l end;
       digitalWrite := fun v l => drive (out l) (pull l) (if out l || latchIn wd then v else latch l) l;
       digitalRead := fun l => (tick 0 l, level l);
       delayMicroseconds := fun n l => tick (n * 1000) l;
       pinInterrupt := fun e l => tick 0 (mkLine (out l) (pull l) (latch l) (now l) (ops l) (fell l) (ready l) (hold l) (bus l) e) |}.

  (** Between the calls: the line is high, long enough. *)
  Definition atRest (l : line B) : Prop := low l = false /\ ready l <= now l /\ snd (hold l) < now l.

  (** What a slot is for the devices. *)
  Definition writeSlot (v : bool) (b : B) : B := match sends d b with None => onWrite d v b | Some _ => if v then sent d b else upset d b end.
  Definition readSlot (b : B) : B * bool := match sends d b with None => (onWrite d true b, true) | Some v => (sent d b, v) end.
  Definition writeByte (v : Z) (b : B) : B := fold_left (fun b x => writeSlot x b) (byte_bits v) b.
  Fixpoint readBits (n : nat) (b : B) : B * list bool := match n with O => (b, []) | S n => let '(b, x) := readSlot b in let '(b, r) := readBits n b in (b, x :: r) end.
  Fixpoint value (l : list bool) : Z := match l with [] => 0 | b :: r => Z.b2z b + 2 * value r end.
  Fixpoint readByteN (n : nat) (b : B) : B * list Z := match n with O => (b, []) | S n => let '(b, x) := readBits 8 b in let '(b, r) := readByteN n b in (b, value x :: r) end.
End Line.

(** Temperature sensors DS18x20, each with a ROM code and a memory (both as bits): waiting for a reset, receiving the command; search: sending the bit, sending its complement, receiving the
    direction, at the end ([SendBit []]) chosen; selection: receiving the code; receiving the function; sending the memory. Conversions are counted. *)
Inductive phase := Silent | Command (got : list bool) | SendBit (rest : list bool) | SendComplement (rest : list bool) | Direction (rest : list bool) | Matching (rest : list bool) | Function (got : list bool) | Sending (rest : list bool).
Record slave := mkSlave { code : list bool; memory : list bool; started : nat; ph : phase }.
Definition go (p : phase) (s : slave) : slave := mkSlave (code s) (memory s) (started s) p.
Definition toSend (s : slave) : option bool := match ph s with SendBit (b :: _) => Some b | SendComplement (b :: _) => Some (negb b) | Sending (b :: _) => Some b | _ => None end.
Definition matching (rest : list bool) : phase := match rest with [] => Function [] | _ => Matching rest end.
Definition gets (v : bool) (s : slave) : slave :=
  match ph s with
  | Command got => let got := got ++ [v] in
      if (length got <? 8)%nat then go (Command got) s else
      let c := value got in go (if c =? 0xF0 then SendBit (code s) else if c =? 0x55 then matching (code s) else if c =? 0xCC then Function [] else Silent) s
  | Direction (b :: r) => go (if Bool.eqb b v then SendBit r else Silent) s
  | Matching (b :: r) => go (if Bool.eqb b v then matching r else Silent) s
  | Function got => let got := got ++ [v] in
      if (length got <? 8)%nat then go (Function got) s else
      let c := value got in if c =? 0x44 then mkSlave (code s) (memory s) (S (started s)) Silent else go (if c =? 0xBE then Sending (memory s) else Silent) s
  | _ => s
  end.
Definition clocked (s : slave) : slave := match ph s with SendBit r => go (SendComplement r) s | SendComplement r => go (Direction r) s | Sending r => go (Sending (List.tl r)) s | _ => s end.
Definition search_devices : devices (list slave) :=
  {| onReset := fun l => (map (go (Command [])) l, match l with [] => false | _ => true end);
     onWrite := fun v l => map (gets v) l;
     sends := fun l => fold_right (fun s r => match toSend s, r with None, r => r | Some b, None => Some b | Some b, Some c => Some (b && c) end) None l;
     sent := map clocked;
     upset := map (go Silent) |}.

(** [n] calls of the search function on the line *)
Fixpoint lineSearches (wd : world) (parasite : bool) (n : nat) (q : search) (l : line (list slave)) : option (list (bool * option (list Z)) * search * line (list slave)) :=
  match n with
  | O => Some ([], q, l)
  | S k => match OneWireSearch (gpio search_devices wd) parasite q l with
           | None => None
           | Some (l, (ret, addr, q)) => match lineSearches wd parasite k q l with None => None | Some (r, q, l) => Some ((ret, addr) :: r, q, l) end
           end
  end.
