(** SHT4x: the wait ends; a bus that plays a given conversation *)
From Verif Require Import Base Bits I2c_Model I2c_Spec I2c_Proofs I2c_Props I2c_Det Sht_Model Sht_Spec Sht_Proofs Sht_Proofs2.

Lemma alone_oas {S} (w : bus S) tx : alone w -> only_at_start w tx.
Proof. intros (A & B & C). split; [intros; apply A|split; assumption]. Qed.
Lemma no_loss {S} (w : bus S) a tx n tr k l s s' : alone w -> transfer a tx n tr Lost k l -> plays w s tr s' -> False.
Proof.
  intros AL T P. destruct (lost_where w a tx n tr k l s s' (alone_oas w tx AL) T P) as (-> & _). destruct P as (s1 & E & _). apply (proj1 AL (start w s) a match tx with [] => true | _ :: _ => false end). rewrite E. reflexivity.
Qed.
Lemma won {S} (w : bus S) n h a tx e rm rx st : alone w -> idle h -> 0 <= a < 128 -> tx <> [] \/ (0 < rx)%nat -> (rx <= rm)%nat -> untilWon w (Datatypes.S n) h (mkXfer a (tx ++ e) (Z.of_nat (length tx)) [] rm (Z.of_nat rx) st) <> Hang.
Proof.
  intros AL I A NE R. cbn [untilWon]. destruct (transfer_ok w h a tx e [] rm rx st I A NE R) as (tr & o & k & l & h' & E & L & P & T & I' & _). rewrite E. cbn [xstatus]. destruct o; cbn [outcome]; try discriminate. destruct (no_loss w _ _ _ _ _ _ _ _ AL T P).
Qed.
Lemma read_won {S} (w : bus S) n h a tx rm rx : alone w -> idle h -> 0 <= a < 128 -> (0 < rx <= rm)%nat -> MasterWriteRead w (Datatypes.S n) h a tx rm (Z.of_nat (length tx)) (Z.of_nat rx) <> Hang.
Proof.
  intros AL I A N. unfold MasterWriteRead. pose proof (won w n h a tx [] rm rx DONE AL I A (or_intror (proj1 N)) (proj2 N)) as H. rewrite app_nil_r in H. destruct (untilWon w (Datatypes.S n) h _) as [[]| |]; [discriminate|discriminate|destruct (H eq_refl)].
Qed.
Lemma send_won {S} (w : bus S) n h a tx : alone w -> idle h -> 0 <= a < 128 -> tx <> [] -> MasterSend w (Datatypes.S n) h a tx (Z.of_nat (length tx)) <> Hang.
Proof.
  intros AL I A N. unfold MasterSend. pose proof (won w n h a tx [] 0 0 DONE AL I A (or_introl N) (le_n _)) as H. rewrite app_nil_r in H. change (Z.of_nat 0) with 0 in H. destruct (untilWon w (Datatypes.S n) h _) as [[]| |]; [discriminate|discriminate|destruct (H eq_refl)].
Qed.
Lemma sht4x_ends {S} (w : bus S) n ms timeout : alone w -> forall fuel k h, idle h -> (forall i, (k <= i < k + fuel)%nat -> ms i < ms (Datatypes.S i)) -> timeout - ms k < Z.of_nat fuel - 1 -> (0 < fuel)%nat -> sht4xLoop w (Datatypes.S n) ms timeout fuel k h <> Hang.
Proof.
  intros AL. induction fuel as [|f IH]; intros k h I M T F; [lia|]. cbn [sht4xLoop]. destruct (Z.ltb_spec timeout (ms k)); [discriminate|]. unfold MasterRead, eSHT4xAddress.
  pose proof (read_won w n h 0x44 [] 6 6 AL I ltac:(lia) ltac:(lia)) as NH. destruct (call_read w (Datatypes.S n) h 0x44 [] 6 6 (alone_oas w _ AL) I ltac:(lia) ltac:(lia)) as [E|(pre & tr & o & kk & l & h1 & E & LE & AK & L & P & Tr & I1 & PO & BY)]; [destruct (NH E)|]. cbn [length] in E. change (Z.of_nat 0) with 0 in E. change (Z.of_nat 6) with 6 in E. rewrite E.
  destruct (u8 (Z.of_nat (length l)) =? 0); [|discriminate]. pose proof (M k ltac:(lia)). apply IH; [exact I1|intros i Hi; apply M; lia|lia|lia].
Qed.

(** the other participants play the conversation [tr] (another master never wins) *)
Definition answer_of (o : answer) : answer := match o with Lost => Error | o => o end.
Definition script : bus (list ev) := mkBus (list ev)
  (fun s => match s with Start :: r => r | _ => s end)
  (fun s a rw => match s with Addr b r' o :: t => if (b =? a) && Bool.eqb r' rw then (t, answer_of o) else (s, Nak) | _ => (s, Nak) end)
  (fun s v => match s with Wr b o :: t => if b =? v then (t, answer_of o) else (s, Nak) | _ => (s, Nak) end)
  (fun s k => match s with Rd b _ :: t => (t, Byte b) | _ => (s, Trouble false) end)
  (fun s => match s with Stop :: r => r | _ => s end).
Lemma script_alone : alone script.
Proof.
  split; [|split].
  - intros [|[|x rw o|x o|x k|k t|] s] a r; cbn; try discriminate. destruct ((x =? a) && Bool.eqb rw r); [destruct o|]; discriminate.
  - intros [|[|x rw o|x o|x k|k t|] s] b; cbn; try discriminate. destruct (x =? b); [destruct o|]; discriminate.
  - intros [|[] s] k; cbn; discriminate.
Qed.
(** conversations *)
Definition reading (a : Z) (cmd : list Z) (l : list Z) (last : Z) : list ev :=
  (match cmd with [] => [] | _ => [Start; Addr a false Ack] ++ map (fun c => Wr c Ack) cmd end) ++ [Start; Addr a true Ack] ++ map (fun b => Rd b true) l ++ [Rd last false] ++ [Stop].
Lemma reading_transfer a cmd l last n : Datatypes.S (length l) = n -> transfer a cmd n (reading a cmd l last) Ack (length cmd) (l ++ [last]).
Proof.
  intros N. unfold reading. destruct cmd as [|c r].
  - cbn [app length]. change (Start :: Addr a true Ack :: map (fun b => Rd b true) l ++ [Rd last false; Stop]) with ([Start; Addr a true Ack] ++ map (fun b => Rd b true) l ++ [Rd last false] ++ [Stop]). rewrite !app_assoc. rewrite <- (app_assoc [Start; Addr a true Ack]). apply (reads a [] n _ Ack); [reflexivity|lia|apply all_received; exact N].
  - replace ([Start; Addr a true Ack] ++ map (fun b : Z => Rd b true) l ++ [Rd last false] ++ [Stop]) with (([Start; Addr a true Ack] ++ map (fun b : Z => Rd b true) l ++ [Rd last false]) ++ ending Ack) by (rewrite <- !app_assoc; reflexivity). apply both; [discriminate|lia|apply all_sent|apply all_received; exact N].
Qed.
Definition sentence (a : Z) (cmd : list Z) : list ev := ([Start; Addr a false Ack] ++ map (fun c => Wr c Ack) cmd) ++ [Stop].
Lemma sentence_transfer a cmd : cmd <> [] -> transfer a cmd 0 (sentence a cmd) Ack (length cmd) [].
Proof. intros N. apply (writes a cmd 0 _ Ack); [exact N|auto|apply all_sent]. Qed.
