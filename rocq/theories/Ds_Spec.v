(** Specification for C104, C105: the bridge DS2482-100 as its data sheet describes it, on a 1-Wire line with anything attached (environment, not part of the code) *)
From Verif Require Export Base I2c_Spec Ds_Model.

(** ** The 1-Wire line; [W]: the state of what is attached *)
(** [reset]: presence pulse seen, short detected; [slot l v]: a time slot in which v is written, and the level sampled; [power l b]: the strong pull-up goes on or off; [noise]: what the registers show while a command is under way; [took l c]: how many readings of the status register after command [c] still show it *)
Record wire (W : Type) := mkWire { reset : W -> W * (bool * bool); slot : W -> bool -> W * bool; power : W -> bool -> W; noise : W -> Z; level : W -> bool; took : W -> Z -> nat }.
Arguments reset {W}. Arguments slot {W}. Arguments power {W}. Arguments noise {W}. Arguments level {W}. Arguments took {W}.
(** time slots for the given bits, the first first; the levels sampled *)
Fixpoint slots {W} (x : wire W) (l : W) (v : list bool) : W * list bool :=
  match v with
  | [] => (l, [])
  | b :: r => let '(l, s) := slot x l b in let '(l, t) := slots x l r in (l, s :: t)
  end.
(** the bits of a byte, least significant first *)
Definition bits_of (b : Z) : list bool := map (Z.testbit b) [0; 1; 2; 3; 4; 5; 6; 7].
Fixpoint byte_of (l : list bool) : Z := match l with [] => 0 | b :: r => Z.b2z b + 2 * byte_of r end.
(** two read slots, then the bit in which the search goes on: the only one present, or [v] if both are *)
Definition triplet {W} (x : wire W) (l : W) (v : bool) : W * (bool * bool * bool) :=
  let '(l, id) := slot x l true in
  let '(l, comp) := slot x l true in
  let dir := if id then true else if comp then false else v in
  (fst (slot x l dir), (id, comp, dir)).

(** ** The bridge *)
(** what the next byte written means *)
Inductive phase := Opcode | Operand (c : Z) | Over.
(** [shown]: the result bits of the status register, bits 1, 2, 4 to 7; [pulling]: the strong pull-up is on; [busy]: readings of the status register that still show a command under way *)
Record chip (W : Type) := mkChip { line : W; pulling : bool; config : Z; pointer : Z; shown : Z; data : Z; busy : nat; phase_of : phase }.
Arguments mkChip {W}. Arguments line {W}. Arguments pulling {W}. Arguments config {W}. Arguments pointer {W}. Arguments shown {W}. Arguments data {W}. Arguments busy {W}. Arguments phase_of {W}.
Section Bridge.
  Context {W : Type} (x : wire W) (addr : Z).
  Definition set_phase (c : chip W) (p : phase) : chip W := mkChip (line c) (pulling c) (config c) (pointer c) (shown c) (data c) (busy c) p.
  (** the strong pull-up ends, and with it the request for it (bit 2 of the configuration) *)
  Definition released (c : chip W) : W * Z := if pulling c then (power x (line c) false, Z.land (config c) 11) else (line c, config c).
  (** a 1-Wire command has been executed: the read pointer goes to the status register *)
  Definition executed (c : chip W) (cmd : Z) (l : W) (pull : bool) (cfg : Z) (result d : Z) : chip W := mkChip l pull cfg 0xF0 result d (took x (line c) cmd) Over.
  (** after a byte or a single bit was written: the strong pull-up comes on if asked for *)
  Definition pulled (l : W) (cfg : Z) : W * bool := if Z.testbit cfg 2 then (power x l true, true) else (l, false).
  Definition wire_reset (c : chip W) : chip W :=
    let '(l, cfg) := released c in
    let '(l, (here, short)) := reset x l in
    executed c 0xB4 l false cfg (Z.lor (Z.b2z here * 2) (Z.b2z short * 4)) (data c).
  Definition wire_read (c : chip W) : chip W :=
    let '(l, cfg) := released c in
    let '(l, v) := slots x l (repeat true 8) in
    executed c 0x96 l false cfg (shown c) (byte_of v).
  Definition wire_write (c : chip W) (b : Z) : chip W :=
    let '(l, cfg) := released c in
    let '(l, p) := pulled (fst (slots x l (bits_of b))) cfg in
    executed c 0xA5 l p cfg (shown c) (data c).
  Definition wire_bit (c : chip W) (b : Z) : chip W :=
    let '(l, cfg) := released c in
    let '(l, v) := slot x l (Z.testbit b 7) in
    let '(l, p) := pulled l cfg in
    executed c 0x87 l p cfg (Z.b2z v * 32) (data c).
  Definition wire_triplet (c : chip W) (b : Z) : chip W :=
    let '(l, cfg) := released c in
    let '(l, (id, comp, dir)) := triplet x l (Z.testbit b 7) in
    executed c 0x78 l false cfg (Z.b2z id * 32 + Z.b2z comp * 64 + Z.b2z dir * 128) (data c).
  (** the upper half must be the complement of the lower one *)
  Definition write_config (c : chip W) (b : Z) : chip W :=
    let '(l, cfg) := released c in
    mkChip l false (if b / 16 =? 15 - b mod 16 then b mod 16 else cfg) 0xC3 (shown c) (data c) (busy c) Over.
  (** device reset; bit 4 of the status tells of it *)
  Definition device_reset (c : chip W) : chip W := mkChip (fst (released c)) false 0 0xF0 16 (data c) 0 Over.
  (** a byte written: commands that need a time slot are not accepted while one is under way *)
  Definition take (c : chip W) (b : Z) : chip W * answer :=
    match phase_of c with
    | Opcode =>
        if b =? 0xF0 then (device_reset c, Ack)
        else if b =? 0xE1 then (set_phase c (Operand b), Ack)
        else if (0 <? busy c)%nat then (set_phase c Over, Nak)
        else if b =? 0xB4 then (wire_reset c, Ack)
        else if b =? 0x96 then (wire_read c, Ack)
        else if (b =? 0xD2) || (b =? 0xA5) || (b =? 0x87) || (b =? 0x78) then (set_phase c (Operand b), Ack)
        else (set_phase c Over, Nak)
    | Operand p =>
        if p =? 0xE1 then
          if (b =? 0xF0) || (b =? 0xE1) || (b =? 0xC3) then (mkChip (line c) (pulling c) (config c) b (shown c) (data c) (busy c) Over, Ack)
          else (set_phase c Over, Nak)
        else if p =? 0xD2 then (write_config c b, Ack)
        else if p =? 0xA5 then (wire_write c b, Ack)
        else if p =? 0x87 then (wire_bit c b, Ack)
        else (wire_triplet c b, Ack)
    | Over => (c, Nak)
    end.
  (** a byte read *)
  Definition give (c : chip W) : chip W * Z :=
    if pointer c =? 0xC3 then (c, config c)
    else match busy c with
         | Datatypes.S k =>
             if pointer c =? 0xF0 then (mkChip (line c) (pulling c) (config c) (pointer c) (shown c) (data c) k (phase_of c), Z.lor (Z.land (noise x (line c)) 254) 1)
             else (c, Z.land (noise x (line c)) 255)
         | O => (c, if pointer c =? 0xF0 then Z.lor (shown c) (Z.b2z (level x (line c)) * 8) else data c)
         end.
  (** the I2C bus with the bridge alone on it *)
  Definition bridge : bus (chip W) :=
    mkBus _ (fun c => set_phase c Opcode) (fun c a read => (c, if a =? addr then Ack else Nak)) take (fun c ack => let '(c, b) := give c in (c, Byte b)) (fun c => c).
End Bridge.

(** ** What a caller sees *)
(** the driver can talk to the bridge, which has the configuration [cfg], its strong pull-up on or off, and is ready in time; [l]: the line *)
Record linked {W} (addr : Z) (h : hw (chip W)) (d : drv) (l : W) (pull : bool) (cfg : Z) : Prop := mkLinked {
  l_addr : mAddress d = addr; l_idle : idle h; l_line : line (world h) = l; l_pull : pulling (world h) = pull; l_config : config (world h) = cfg; l_range : 0 <= cfg < 16;
  l_ready : (busy (world h) < Z.to_nat 1000)%nat; l_shown : 0 <= shown (world h) < 256 /\ Z.testbit (shown (world h)) 0 = false /\ Z.testbit (shown (world h)) 3 = false }.
(** every command comes to an end before the driver gives up *)
Definition prompt {W} (x : wire W) : Prop := forall l c, (took x l c < Z.to_nat 1000)%nat.
(** the line and the configuration when the next 1-Wire command begins: a strong pull-up has ended *)
Definition freed {W} (x : wire W) (l : W) (pull : bool) : W := if pull then power x l false else l.
Definition kept (pull : bool) (cfg : Z) : Z := if pull then Z.land cfg 11 else cfg.
(** the configuration that a command with an operand meets; [pw]: with strong pull-up *)
Definition asked (pw pull : bool) (cfg : Z) : Z := if pw then Z.lor cfg 4 else kept pull cfg.
(** what follows a write: the strong pull-up if it was asked for *)
Definition boosted {W} (x : wire W) (l : W) (cfg : Z) : W := if Z.testbit cfg 2 then power x l true else l.

(** ** Devices on the line during a search *)
From Verif Require OneWire_Model OneWire_Spec.
(** what the devices wait for: nothing (until the next reset), the rest of a command byte, or the next step of a search (the bits in [act] are those still to be walked through, as in OneWire_Model) *)
Inductive stage := Quiet | Hears (bits : list bool) | First (act : list OneWire_Model.device) | Second (act : list OneWire_Model.device) | Choice (act : list OneWire_Model.device).
Definition step (devs : list OneWire_Model.device) (s : stage) (v : bool) : stage * bool :=
  match s with
  | Quiet => (Quiet, v)
  | Hears bits => let bits := bits ++ [v] in (if (length bits <? 8)%nat then Hears bits else if byte_of bits =? 0xF0 then First devs else Quiet, v)
  | First act => (Second act, v && OneWire_Model.read_bit act)
  | Second act => (Choice act, v && OneWire_Model.read_cmp act)
  | Choice act => (First (OneWire_Model.write_bit v act), v)
  end.
(** a line with the devices [devs]; the rest of what the bridge shows is left open *)
Definition attached (devs : list OneWire_Model.device) (nz : stage -> Z) (lv : stage -> bool) (tk : stage -> Z -> nat) : wire stage :=
  mkWire _ (fun _ => match devs with [] => (Quiet, (false, false)) | _ => (Hears [], (true, false)) end) (step devs) (fun s _ => s) nz lv tk.
(** the answers of [k] calls of the search function *)
Fixpoint finds {S} (w : bus S) (n k : nat) (h : hw S) (d : drv) : res (hw S * drv * list (option (list Z))) :=
  match k with
  | O => Done (h, d, [])
  | Datatypes.S k' =>
      match wireSearch w n h d with
      | Done (h, d, r) => match finds w n k' h d with Done (h, d, l) => Done (h, d, r :: l) | Fault => Fault | Hang => Hang end
      | Fault => Fault
      | Hang => Hang
      end
  end.
(** the devices that the search can reach: those with an odd first byte if there are some of either kind *)
Definition reached (roms : list (list Z)) : list (list Z) :=
  if existsb (fun r => Z.even (rd r 0)) roms && existsb (fun r => Z.odd (rd r 0)) roms then filter (fun r => Z.odd (rd r 0)) roms else roms.
