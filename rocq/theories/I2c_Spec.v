(** What is expected on an I2C bus (C98), stated on what can be seen on the lines *)
From Verif Require Import Base I2c_Model.

(** the other participants, from state [s] on, take part in the conversation [tr] and end in [s'] *)
Fixpoint plays {S} (w : bus S) (s : S) (tr : list ev) (s' : S) : Prop :=
  match tr with
  | [] => s' = s
  | Start :: r => plays w (start w s) r s'
  | Stop :: r => plays w (stop w s) r s'
  | Addr a read o :: r => exists s1, select w s a read = (s1, o) /\ plays w s1 r s'
  | Wr b o :: r => exists s1, accept w s b = (s1, o) /\ plays w s1 r s'
  | Rd b ack :: r => exists s1 b0, supply w s ack = (s1, Byte b0) /\ b = b0 mod 256 /\ plays w s1 r s'
  | RdTrouble ack lost :: r => exists s1, supply w s ack = (s1, Trouble lost) /\ plays w s1 r s'
  end.
(** The bytes are sent to device [a]: its answer to the last byte sent (Ack: to all), and the number of bytes sent, the last one included *)
Inductive sending (a : Z) (bytes : list Z) : list ev -> answer -> nat -> Prop :=
| not_addressed o : o <> Ack -> sending a bytes [Start; Addr a false o] o 0
| broken_off l b r o : bytes = l ++ b :: r -> o <> Ack -> sending a bytes ([Start; Addr a false Ack] ++ map (fun c => Wr c Ack) l ++ [Wr b o]) o (length l + 1)
| all_sent : sending a bytes ([Start; Addr a false Ack] ++ map (fun c => Wr c Ack) bytes) Ack (length bytes).
(** [n] bytes are read from device [a]: every byte but the last is acknowledged by the master *)
Inductive receiving (a : Z) (n : nat) : list ev -> answer -> list Z -> Prop :=
| no_answer o : o <> Ack -> receiving a n [Start; Addr a true o] o []
| disturbed l lost : (length l < n)%nat -> receiving a n ([Start; Addr a true Ack] ++ map (fun b => Rd b true) l ++ [RdTrouble (S (length l) <? n)%nat lost]) (if lost then Lost else Error) l
| all_received l b : S (length l) = n -> receiving a n ([Start; Addr a true Ack] ++ map (fun b => Rd b true) l ++ [Rd b false]) Ack (l ++ [b]).
(** the bus is released by a STOP unless another master has it or there was an error *)
Definition ending (o : answer) : list ev := match o with Ack | Nak => [Stop] | _ => [] end.
(** A transfer: bytes sent, then bytes read after a repeated START *)
Inductive transfer (a : Z) (tx : list Z) (n : nat) : list ev -> answer -> nat -> list Z -> Prop :=
| reads tr o l : tx = [] -> (0 < n)%nat -> receiving a n tr o l -> transfer a tx n (tr ++ ending o) o 0 l
| writes tr o k : tx <> [] -> (o <> Ack \/ n = 0%nat) -> sending a tx tr o k -> transfer a tx n (tr ++ ending o) o k []
| both tr1 tr2 o k l : tx <> [] -> (0 < n)%nat -> sending a tx tr1 Ack k -> receiving a n tr2 o l -> transfer a tx n (tr1 ++ tr2 ++ ending o) o k l.
(** what the caller is told *)
Definition outcome (o : answer) : status := match o with Ack => DONE | Nak => NAK | Lost => ARBLOST | Error => BUSERR end.
(** the peripheral between two transfers *)
Definition idle {S} (h : hw S) : Prop := stat h = 0xF8 \/ stat h = 0x38.
(** a bus with a single master *)
Definition alone {S} (w : bus S) : Prop := (forall s a r, snd (select w s a r) <> Lost) /\ (forall s b, snd (accept w s b) <> Lost) /\ (forall s k, snd (supply w s k) <> Trouble true).
