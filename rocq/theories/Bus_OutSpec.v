(** A telegram sent from beginning to end on an undisturbed bus. Covers C93. *)
From Verif Require Import Base Bus_Model Bus_Spec.

(** what is seen of one complete transmission of the frame [f] *)
Definition transmission (f : list Z) : list bout := TxBegin false :: map TxByte f ++ [TxEnd false].
(** a transmission nobody answers *)
Definition ignored (f : list Z) : list bout := transmission f ++ [NoAnswer].
(** how often a telegram nobody answers is repeated *)
Definition repetitions (L : limits) : nat := if sendBusyRetriesMax L =? 0 then O else Z.to_nat (sendRetriesMax L).
(** the telegram, then its repetitions *)
Definition allIgnored (L : limits) (own : Z) (t : list Z) : list bout := ignored (wire own t) ++ concat (repeat (ignored (wire own (repeated t))) (repetitions L)).
