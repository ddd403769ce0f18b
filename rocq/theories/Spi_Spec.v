(** Claims about SPI. The SSP controllers as the manual (UM10398, chapter 14) describes them, in master mode: a FIFO of 8 words to send, the word
    being shifted, a FIFO of 8 words received. The slaves, the speed of the bus, the moments of interrupts are arbitrary. Nothing here refers to the code. *)
From Verif Require Export Spi_Model.

(** One controller. [c0], [c1], [cps], [msk]: CR0, CR1, CPSR, IMSC. [sent]: all words ever clocked out, oldest first. [ror]: words received were lost. *)
Record port := mkPort { c0 : Z; c1 : Z; cps : Z; msk : Z; tx : list Z; shift : option Z; rx : list Z; sent : list Z; ror : bool }.
(** Both controllers, and the number of accesses so far. *)
Record ports := mkPorts { portA : port; portB : port; now : nat }.
Definition sel (no : bool) (h : ports) : port := if no then portB h else portA h.
Definition upd (no : bool) (h : ports) (p : port) : ports := if no then mkPorts (portA h) p (now h) else mkPorts p (portB h) (now h).

(** The world: how many frames end between two accesses, the word a slave sends with a frame given all words it got including this one's (it may
    depend on anything else, too: this is any function), what DR reads when nothing is received, when the interrupt is taken. *)
Record world := { pace : bool -> nat -> nat; slave : bool -> list Z -> Z; junk : nat -> Z; irqAt : nat -> bool }.

(** Enabled (CR1 bit 1), bits in a frame (CR0 bits 0..3), a word cut to them. *)
Definition on (p : port) : bool := Z.testbit (c1 p) 1.
Definition bits (p : port) : Z := c0 p mod 16 + 1.
Definition fit (n w : Z) : Z := w mod 2 ^ n.

(** The next word moves to the shift register; a frame ends. *)
Definition begin_frame (p : port) : port :=
  if on p then
    match shift p, tx p with
    | None, w :: t => mkPort (c0 p) (c1 p) (cps p) (msk p) t (Some w) (rx p) (sent p) (ror p)
    | _, _ => p
    end
  else p.
Definition frame (sl : list Z -> Z) (p : port) : port :=
  if on p then
    match shift p with
    | None => p
    | Some w =>
        let out := fit (bits p) w in
        let a := fit (bits p) (sl (sent p ++ [out])) in
        let room := (length (rx p) <? 8)%nat in
        begin_frame (mkPort (c0 p) (c1 p) (cps p) (msk p) (tx p) None (if room then rx p ++ [a] else rx p) (sent p ++ [out]) (ror p || negb room))
    end
  else p.
Definition advance (w : world) (no : bool) (t : nat) (p : port) : port := Nat.iter (pace w no t) (frame (slave w no)) p.
(** Time until the next access. *)
Definition elapse (w : world) (h : ports) : ports :=
  mkPorts (advance w false (now h) (portA h)) (advance w true (now h) (portB h)) (S (now h)).

Definition b2z (b : bool) (v : Z) : Z := if b then v else 0.
(** No frame under way and none waiting. *)
Definition idle (p : port) : Prop := tx p = [] /\ shift p = None.
Definition busy (p : port) : bool := match tx p, shift p with [], None => false | _, _ => true end.
(** SR: TFE, TNF, RNE, RFF, BSY. *)
Definition status (p : port) : Z :=
  b2z (length (tx p) =? 0)%nat 1 + b2z (length (tx p) <? 8)%nat 2 + b2z (negb (length (rx p) =? 0)%nat) 4 + b2z (length (rx p) =? 8)%nat 8 + b2z (busy p) 16.
(** RIS: overrun, half full, half empty (receive time-out left out). *)
Definition raw_status (p : port) : Z := b2z (ror p) 1 + b2z (4 <=? length (rx p))%nat 4 + b2z (length (tx p) <=? 4)%nat 8.

Definition set_c0 (p : port) (v : Z) := mkPort v (c1 p) (cps p) (msk p) (tx p) (shift p) (rx p) (sent p) (ror p).
Definition set_c1 (p : port) (v : Z) := mkPort (c0 p) v (cps p) (msk p) (tx p) (shift p) (rx p) (sent p) (ror p).
Definition set_cps (p : port) (v : Z) := mkPort (c0 p) (c1 p) v (msk p) (tx p) (shift p) (rx p) (sent p) (ror p).
Definition set_msk (p : port) (v : Z) := mkPort (c0 p) (c1 p) (cps p) v (tx p) (shift p) (rx p) (sent p) (ror p).
Definition set_rx (p : port) (l : list Z) := mkPort (c0 p) (c1 p) (cps p) (msk p) (tx p) (shift p) l (sent p) (ror p).
Definition set_tx (p : port) (l : list Z) := mkPort (c0 p) (c1 p) (cps p) (msk p) l (shift p) (rx p) (sent p) (ror p).
Definition set_ror (p : port) (b : bool) := mkPort (c0 p) (c1 p) (cps p) (msk p) (tx p) (shift p) (rx p) (sent p) b.
(** Writing DR: the word is queued (lost if there is no room). *)
Definition queue (p : port) (v : Z) : port := if (length (tx p) <? 8)%nat then begin_frame (set_tx p (tx p ++ [v mod 65536])) else p.

Definition reading (w : world) (no : bool) (r : reg) (h : ports) : ports * Z :=
  let h := elapse w h in
  let p := sel no h in
  match r with
  | DR => match rx p with x :: t => (upd no h (set_rx p t), x) | [] => (h, junk w (now h) mod 65536) end
  | SR => (h, status p) | RIS => (h, raw_status p)
  | CR0 => (h, c0 p) | CR1 => (h, c1 p) | CPSR => (h, cps p) | IMSC => (h, msk p) | ICR => (h, 0)
  end.
Definition writing (w : world) (no : bool) (r : reg) (h : ports) (v : Z) : ports :=
  let h := elapse w h in
  let p := sel no h in
  match r with
  | DR => upd no h (queue p v)
  | CR0 => upd no h (set_c0 p v) | CR1 => upd no h (begin_frame (set_c1 p v)) | CPSR => upd no h (set_cps p v)
  | IMSC => upd no h (set_msk p v)
  | ICR => upd no h (if Z.testbit v 0 then set_ror p false else p)
  | SR | RIS => h
  end.
(** An interrupt can come when IMSC bit 3 is set and at most half of the words to send are left. (Requests latched before are left out.) *)
Definition lpc (w : world) : ssp ports :=
  {| get := reading w; put := writing w; due := fun no h => Z.testbit (msk (sel no h)) 3 && (length (tx (sel no h)) <=? 4)%nat && irqAt w (now h) |}.

(** What the slave says to the words [ws] after it got [before]. *)
Fixpoint answers (sl : list Z -> Z) (before ws : list Z) : list Z :=
  match ws with [] => [] | x :: t => sl (before ++ [x]) :: answers sl (before ++ [x]) t end.
(** The array [a] with [l] at its beginning. *)
Definition filled (a l : list Z) : list Z := l ++ skipn (length l) a.

(** The bus goes on: frames end again and again. *)
Definition fair (w : world) : Prop := forall no k, exists j, (k <= j)%nat /\ (0 < pace w no j)%nat.
(** The processor is fast: of any five accesses to port 0 at most one waits for the end of a frame, and that of one. *)
Definition brisk (w : world) : Prop :=
  forall k, (pace w false k + pace w false (k + 1) + pace w false (k + 2) + pace w false (k + 3) + pace w false (k + 4) <= 1)%nat.

(** CR0 in the manual's terms: frame format (bits 4, 5: 0 SPI, 1 TI, 2 Microwire), clock divider less one (bits 8..15). *)
Definition format (v : Z) : Z := (v / 16) mod 4.
Definition divider (v : Z) : Z := (v / 256) mod 256 + 1.
(** Slave select is driven by the controller: low while a frame is shifted. *)
Definition selected (p : port) : Prop := shift p <> None.
