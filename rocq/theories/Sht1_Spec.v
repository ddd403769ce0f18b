(** Specification for C121: the sensor SHT1x by its data sheet (environment, not part of the code) *)
From Coq Require Export QArith.
From Verif Require Export Base Sht1_Model.
Open Scope Z_scope.

(** What the sensor is doing. [Taking contents n v]: n bits of a byte have come (contents: of the status register, else a command); [Acking contents v half]: it acknowledges that byte by pulling the
    data line low for a clock (half: the clock is high); [Rising left next]: it lets go, and the line needs some time (microseconds) to rise; [Measuring left l]: until the result l is there;
    [Giving l n]: it shows the first bit of l, n bits of the byte have been given; [Asked l yes]: after a byte the master may acknowledge. *)
Inductive phase := Idle | Taking (contents : bool) (n : nat) (v : Z) | Acking (contents : bool) (v : Z) (half : bool) | Rising (left : Z) (next : phase) | Measuring (left : Z) (l : list bool)
  | Giving (l : list bool) (n : nat) | Asked (l : list bool) (yes : bool).
(** [start]: how much of the start of a transmission has been seen; [oc], [od]: the lines before; [status]: its register *)
Record chip := mkChip { doing : phase; start : nat; oc : bool; od : bool; status : Z }.
(** its results and the time for them, the checksum byte, the time the line needs; [there]: there is one at all *)
Record nature := mkNature { T : Z; H : Z; timeT : Z; timeH : Z; crc : Z; rise : Z; there : bool }.
Definition bits8 (v : Z) : list bool := map (Z.testbit v) [7; 6; 5; 4; 3; 2; 1; 0].
Definition bits16 (v : Z) : list bool := bits8 (v / 256) ++ bits8 (v mod 256).
Definition pulls (p : phase) : bool :=
  match p with Idle | Taking _ _ _ | Measuring _ _ | Asked _ _ => false | Acking _ _ _ | Rising _ _ => true | Giving l _ => match l with b :: _ => negb b | [] => false end end.
Definition commands : list Z := [3; 5; 6; 7; 0x1e].
Definition measure (t : Z) (l : list bool) : phase := if t <=? 0 then Giving l 0 else Measuring t l.
(** what follows an acknowledged byte, and the status register then *)
Definition next (k : nature) (c : chip) (contents : bool) (v : Z) : phase * Z :=
  if contents then (Idle, v)
  else if v =? 3 then (measure (timeT k) (bits16 (T k) ++ bits8 (crc k)), status c)
  else if v =? 5 then (measure (timeH k) (bits16 (H k) ++ bits8 (crc k)), status c)
  else if v =? 6 then (Taking true 0 0, status c)
  else if v =? 7 then (Giving (bits8 (status c) ++ bits8 (crc k)) 0, status c)
  else (Idle, 0).
Definition rises (k : nature) (p : phase) : phase := if rise k <=? 0 then p else Rising (rise k) p.
Definition on_rising (p : phase) (d : bool) : phase :=
  match p with
  | Taking x n v => if (n <? 8)%nat then Taking x (S n) (2 * v + Z.b2z d) else p
  | Acking x v _ => Acking x v true
  | Asked l _ => Asked l (negb d)
  | _ => p
  end.
Definition on_falling (k : nature) (c : chip) : phase * Z :=
  match doing c with
  | Taking x n v => if (n =? 8)%nat then if there k && (x || existsb (Z.eqb v) commands) then (Acking x v false, status c) else (Idle, status c) else (doing c, status c)
  | Acking x v true => let '(p, s) := next k c x v in (rises k p, s)
  | Giving (_ :: l) n => if (n =? 7)%nat then (Asked l false, status c) else (Giving l (S n), status c)
  | Asked l yes => match l with [] => (Idle, status c) | _ => if yes then (Giving l 0, status c) else (Idle, status c) end
  | p => (p, status c)
  end.
(** the start of a transmission: data falls while the clock is high, a low pulse of the clock, data rises while the clock is high *)
Definition seen (c : chip) (clk d : bool) : nat :=
  if Bool.eqb (oc c) clk then
    if Bool.eqb (od c) d then start c else if clk then if d then if (start c =? 3)%nat then 4%nat else 0%nat else 1%nat else 0%nat
  else if d then 0%nat else match start c with 1%nat => if clk then 0%nat else 2%nat | 2%nat => if clk then 3%nat else 0%nat | _ => 0%nat end.
Definition sees (k : nature) (c : chip) (clk master : bool) : chip :=
  let d := master && negb (pulls (doing c)) in
  if (seen c clk d =? 4)%nat then mkChip (Taking false 0 0) 0 clk d (status c)
  else if negb (oc c) && clk then let p := on_rising (doing c) d in mkChip p (seen c clk d) clk d (status c)
  else if oc c && negb clk then let '(p, s) := on_falling k c in mkChip p (seen c clk d) clk d s
  else mkChip (doing c) (seen c clk d) clk d (status c).
Definition later (c : chip) (us : Z) : chip :=
  let p := match doing c with Rising t p => if t <=? us then p else Rising (t - us) p | Measuring t l => if t <=? us then Giving l 0 else Measuring (t - us) l | p => p end in
  mkChip p (start c) (oc c) (od c) (status c).
Definition sensor (k : nature) : wire chip := mkWire chip (sees k) (fun c => pulls (doing c)) later.

(** by the data sheet: 14 and 12 bits *)
Definition regular (k : nature) : Prop := there k = true /\ 0 <= T k < 16384 /\ 0 <= H k < 4096 /\ 0 <= crc k < 256.
(** both ends at rest: the data line free, the sensor idle *)
Definition resting (m : pins chip) : Prop := out m = false /\ doing (world m) = Idle /\ oc (world m) = clk m /\ start (world m) = 0%nat.
(** temperature and humidity of the data sheet (14 bits, 12 bits) with the coefficients of the driver *)
Definition celsius (raw : Z) : Q := ((raw # 100) - (397 # 10))%Q.
Definition humidity (rawT raw : Z) : Q := ((celsius rawT - 25) * ((1 # 100) + (raw * 8 # 100000)) + ((-20468 # 10000) + (raw * 367 # 10000) - (raw * raw * 15955 # 10000000000)))%Q.
