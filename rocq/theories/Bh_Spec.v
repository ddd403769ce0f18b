(** Specification for C119: the sensor BH1750FVI by its data sheet, as a participant of the bus (environment, not part of the code) *)
From Coq Require Export QArith.
From Verif Require Export Base I2c_Model I2c_Spec.
Open Scope Z_scope.

(** [on]: powered; [runs]: the measurements started, the latest first, each with its opcode and the measurement time register; [mt]: that register; [data]: the result register;
    [heard]: the bytes for it so far; [low]: the low byte is read next *)
Record sensor := mkSensor { on : bool; runs : list (Z * Z); mt : Z; data : Z; heard : nat; low : bool }.
(** data sheet, page 5: the instruction set *)
Definition obey (s : sensor) (b : Z) : sensor :=
  if b =? 0 then mkSensor false (runs s) (mt s) (data s) (heard s) (low s)
  else if b =? 1 then mkSensor true (runs s) (mt s) (data s) (heard s) (low s)
  else if b =? 7 then if on s then mkSensor (on s) (runs s) (mt s) 0 (heard s) (low s) else s
  else if existsb (Z.eqb b) [16; 17; 19; 32; 33; 35] then mkSensor true ((b, mt s) :: runs s) (mt s) (data s) (heard s) (low s)
  else if (64 <=? b) && (b <=? 71) then mkSensor (on s) (runs s) ((b - 64) * 32 + mt s mod 32) (data s) (heard s) (low s)
  else if (96 <=? b) && (b <=? 127) then mkSensor (on s) (runs s) (mt s / 32 * 32 + (b - 96)) (data s) (heard s) (low s)
  else s.
Definition hears (s : sensor) : sensor := mkSensor (on s) (runs s) (mt s) (data s) (S (heard s)) (low s).
(** The sensor at address [a]; [acks k]: it acknowledges the k-th byte for it. There is no other master. *)
Definition light (a : Z) (acks : nat -> bool) : bus sensor :=
  mkBus sensor (fun s => s)
    (fun s x _ => if x =? a then let s' := hears s in (mkSensor (on s') (runs s') (mt s') (data s') (heard s') false, if acks (heard s) then Ack else Nak) else (s, Nak))
    (fun s b => if acks (heard s) then (obey (hears s) b, Ack) else (hears s, Nak))
    (fun s _ => (mkSensor (on s) (runs s) (mt s) (data s) (heard s) (negb (low s)), Byte (if low s then data s mod 256 else data s / 256)))
    (fun s => s).
(** what the user sees of the sensor *)
Definition same (s s' : sensor) : Prop := on s' = on s /\ runs s' = runs s /\ mt s' = mt s /\ data s' = data s.
(** the modes of the data sheet *)
Definition a_mode (m : Z) : Prop := In m [16; 17; 19; 32; 33; 35].
(** data sheet, page 11: lux = result / 1.2 * 69 / MT, halved in the modes of half a lux; as a product with the denominators *)
Definition lux (m mtreg result : Z) (level : Q) : Prop := Qeq (Qmult level (inject_Z (12 * mtreg * (if existsb (Z.eqb m) [17; 33] then 2 else 1)))) (inject_Z (690 * result)).
(** data sheet, page 2: the measurement times in milliseconds for MT = 69, typical and at most *)
Definition time69 (m : Z) (longest : bool) : Z := if existsb (Z.eqb m) [19; 35] then (if longest then 24 else 16) else (if longest then 180 else 120).
