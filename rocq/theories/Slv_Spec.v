(** Specification for C123: transfers with the device as a slave, as the other master and the event handlers see them *)
From Verif Require Export Base I2c_Model Slv_Model.
Open Scope Z_scope.

(** The slave n (0: the one for general calls) is the one for the address byte b: of those whose address agrees with it in the bits 1 to 7 that are not masked, the first *)
Definition agrees (o : own) (n : nat) (b : Z) : Prop := forall i, 1 <= i <= 7 -> Z.testbit (MASK o n) i = false -> Z.testbit (ADR o n) i = Z.testbit b i.
Definition meant (o : own) (b : Z) (sid : nat) : Prop :=
  if b =? 0 then sid = 0%nat /\ exists n, (n < 4)%nat /\ Z.testbit (ADR o n) 0 = true
  else 2 <= b < 256 /\ exists n, (n < 4)%nat /\ sid = Datatypes.S n /\ agrees o n b /\ forall m, (m < n)%nat -> ~ agrees o m b.
Definition foreign (o : own) (b : Z) : Prop := if b =? 0 then forall n, (n < 4)%nat -> Z.testbit (ADR o n) 0 = false else 0 < b < 256 /\ (b = 1 \/ forall n, (n < 4)%nat -> ~ agrees o n b).
(** the registers hold bytes *)
Definition sane (o : own) : Prop := forall n, (n < 4)%nat -> is_byte (ADR o n) /\ is_byte (MASK o n).
(** The peripheral is on as a slave, waits for its address, and the driver serves nobody *)
Definition waits {U} (h : hw own) (d : drv U) : Prop := sta h = false /\ sto h = false /\ si h = false /\ aa h = true /\ i2en h = true /\ part (world h) = Away /\ sXfer d = None.
(** the handlers do not change the structures, except at the event DONE *)
Definition discreet {U} (event : nat -> Z -> U -> xfer -> U * xfer) : Prop := forall sid e u x, e <> 2 -> snd (event sid e u x) = x.
(** the bytes [l] are sent and the first k acknowledged *)
Definition taken (k : nat) (l : list Z) : list seen := map (fun i => Acked (Nat.ltb i k)) (seq 0 (length l)).
(** n bytes are read, the first ones are [data], the others 0xff *)
Definition given (data : list Z) (n : nat) : list seen := map (fun i => Got (nth i data 0xff)) (seq 0 n).
(** the usual reading master: it acknowledges all bytes but the last *)
Definition reading (n : nat) : list act := repeat (Fetch true) n ++ [Fetch false].
(** The structure after bytes were received, after bytes were sent *)
Definition received (x : xfer) (b : Z) (l : list Z) : xfer := mkXfer (b / 2 * 2) (txBuff x) (txSz x) (rxBuff x ++ l) (room x - length l) (rxSz x - Z.of_nat (length l)) DONE.
Definition delivered (x : xfer) (b : Z) (n : nat) : xfer := mkXfer (b / 2 * 2) (skipn n (txBuff x)) (txSz x - Z.of_nat n) (rxBuff x) (room x) (rxSz x) DONE.
(** the handler of the slave sid was told [events]; at the last, DONE, it saw the structure x', and the others have not changed *)
Definition reported {U} (event : nat -> Z -> U -> xfer -> U * xfer) (d d' : drv U) (sid : nat) (events : list Z) (x' : xfer) : Prop :=
  told d' = told d ++ map (fun e => (sid, e)) (events ++ [2]) /\ (exists u, (memory d', slaves d' sid) = let r := event sid 2 u x' in (fst r, Some (snd r))) /\ forall n, n <> sid -> slaves d' n = slaves d n.
(** A structure the driver can use: room for what it says, something to send; the handlers hand over such a structure at each event DONE *)
Definition fit (x : xfer) : Prop := rxSz x <= Z.of_nat (room x) + 1 /\ 1 <= txSz x <= Z.of_nat (length (txBuff x)).
Definition renews {U} (event : nat -> Z -> U -> xfer -> U * xfer) : Prop := forall sid u x, fit (snd (event sid 2 u x)).
(** every slave that can be addressed is set up, with a usable structure *)
Definition ready {U} (o : own) (d : drv U) : Prop := (forall b sid, meant o b sid -> slaves d sid <> None) /\ forall sid x, slaves d sid = Some x -> fit x.
