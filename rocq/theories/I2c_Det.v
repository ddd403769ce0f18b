(** A transfer is determined by the request and by what the other participants do *)
From Verif Require Import Base I2c_Model I2c_Spec I2c_Proofs.

Section D.
Context {S : Type} (w : bus S).
(** the conversation computed *)
Fixpoint wrF (s : S) (tx : list Z) : list ev * answer * nat * S :=
  match tx with
  | [] => ([], Ack, 0%nat, s)
  | b :: r => match accept w s b with
              | (s1, Ack) => match wrF s1 r with (tr, o, k, s2) => (Wr b Ack :: tr, o, Datatypes.S k, s2) end
              | (s1, o) => ([Wr b o], o, 1%nat, s1)
              end
  end.
Definition sendF (s : S) (a : Z) (tx : list Z) : list ev * answer * nat * S :=
  match select w (start w s) a false with
  | (s1, Ack) => match wrF s1 tx with (tr, o, k, s2) => (Start :: Addr a false Ack :: tr, o, k, s2) end
  | (s1, o) => ([Start; Addr a false o], o, 0%nat, s1)
  end.
Fixpoint rdF (n : nat) (s : S) : list ev * answer * list Z * S :=
  match n with
  | O => ([], Ack, [], s)
  | Datatypes.S m =>
      let ack := (1 <? Datatypes.S m)%nat in
      match supply w s ack with
      | (s1, Byte b) => match rdF m s1 with (tr, o, l, s2) => (Rd (b mod 256) ack :: tr, o, b mod 256 :: l, s2) end
      | (s1, Trouble lost) => ([RdTrouble ack lost], if lost then Lost else Error, [], s1)
      end
  end.
Definition recvF (s : S) (a : Z) (n : nat) : list ev * answer * list Z * S :=
  match select w (start w s) a true with
  | (s1, Ack) => match rdF n s1 with (tr, o, l, s2) => (Start :: Addr a true Ack :: tr, o, l, s2) end
  | (s1, o) => ([Start; Addr a true o], o, [], s1)
  end.

Lemma wr_all : forall tx s r t, plays w s (map (fun c => Wr c Ack) tx ++ r) t -> exists s', wrF s tx = (map (fun c => Wr c Ack) tx, Ack, length tx, s') /\ plays w s' r t.
Proof.
  induction tx as [|b tx IH]; intros s r t P; [exists s; auto|]. cbn [map app plays] in P. destruct P as (s1 & E & P). destruct (IH _ _ _ P) as (s' & E' & P'). exists s'. split; [|exact P']. cbn [wrF map length]. rewrite E, E'. reflexivity.
Qed.
Lemma wr_broken : forall l s b tail o r t, o <> Ack -> plays w s (map (fun c => Wr c Ack) l ++ Wr b o :: r) t -> exists s', wrF s (l ++ b :: tail) = (map (fun c => Wr c Ack) l ++ [Wr b o], o, (length l + 1)%nat, s') /\ plays w s' r t.
Proof.
  induction l as [|c l IH]; intros s b tail o r t NO P; cbn [map app plays] in P; destruct P as (s1 & E & P).
  - exists s1. split; [|exact P]. cbn [app wrF map length plus]. rewrite E. destruct o; [destruct (NO eq_refl)|reflexivity|reflexivity|reflexivity].
  - destruct (IH _ _ tail _ _ _ NO P) as (s' & E' & P'). exists s'. split; [|exact P']. cbn [app wrF map length plus]. rewrite E, E'. reflexivity.
Qed.
Lemma sending_det a tx tr o k s r t : sending a tx tr o k -> plays w s (tr ++ r) t -> exists s', sendF s a tx = (tr, o, k, s') /\ plays w s' r t.
Proof.
  intros SD P. unfold sendF. inversion SD as [o1 NA|l1 b1 r1 o1 TE NA|]; subst.
  - cbn [app plays] in P. destruct P as (s1 & E & P). exists s1. split; [|exact P]. rewrite E. destruct o; [destruct (NA eq_refl)|reflexivity|reflexivity|reflexivity].
  - rewrite <- !app_assoc in P. cbn [app plays] in P. destruct P as (s1 & E & P). rewrite E. destruct (wr_broken l1 s1 b1 r1 o r t NA P) as (s' & E' & P'). exists s'. split; [|exact P']. rewrite E'. reflexivity.
  - rewrite <- !app_assoc in P. cbn [app plays] in P. destruct P as (s1 & E & P). rewrite E. destruct (wr_all tx s1 r t P) as (s' & E' & P'). exists s'. split; [|exact P']. rewrite E'. reflexivity.
Qed.
Lemma rd_all : forall l b s r t, plays w s (map (fun b => Rd b true) l ++ Rd b false :: r) t -> exists s', rdF (Datatypes.S (length l)) s = (map (fun b => Rd b true) l ++ [Rd b false], Ack, l ++ [b], s') /\ plays w s' r t.
Proof.
  induction l as [|c l IH]; intros b s r t P; cbn [map app plays] in P; destruct P as (s1 & b0 & E & EB & P).
  - exists s1. split; [|exact P]. cbn [length rdF map app]. change (1 <? 1)%nat with false. rewrite E, EB. reflexivity.
  - destruct (IH _ _ _ _ P) as (s' & E' & P'). exists s'. split; [|exact P']. cbn [length map app]. cbn [length] in E'. change (rdF (Datatypes.S (Datatypes.S (length l))) s) with (match supply w s true with
      | (s1, Byte b) => match rdF (Datatypes.S (length l)) s1 with (tr, o, l, s2) => (Rd (b mod 256) true :: tr, o, b mod 256 :: l, s2) end
      | (s1, Trouble lost) => ([RdTrouble true lost], if lost then Lost else Error, [], s1)
      end). rewrite E, E', EB. reflexivity.
Qed.
Lemma rd_broken : forall l n lost s r t, (length l < n)%nat -> plays w s (map (fun b => Rd b true) l ++ RdTrouble (Datatypes.S (length l) <? n)%nat lost :: r) t ->
  exists s', rdF n s = (map (fun b => Rd b true) l ++ [RdTrouble (Datatypes.S (length l) <? n)%nat lost], if lost then Lost else Error, l, s') /\ plays w s' r t.
Proof.
  induction l as [|c l IH]; intros n lost s r t N P.
  - cbn [map app plays length] in P. destruct P as (s1 & E & P). exists s1. split; [|exact P]. destruct n as [|m]; [cbn in N; lia|]. cbn [length rdF map app]. rewrite E. reflexivity.
  - destruct n as [|n]; [cbn in N; lia|]. cbn [map app plays] in P. destruct P as (s1 & b0 & E & EB & P). cbn [length] in *. replace (Datatypes.S (Datatypes.S (length l)) <? Datatypes.S n)%nat with (Datatypes.S (length l) <? n)%nat in * by reflexivity.
    destruct (IH n lost s1 r t ltac:(lia) P) as (s' & E' & P'). exists s'. split; [|exact P']. cbn [rdF]. replace (1 <? Datatypes.S n)%nat with true by (symmetry; apply Nat.ltb_lt; lia). rewrite E, E', EB. reflexivity.
Qed.
Lemma receiving_det a n tr o l s r t : receiving a n tr o l -> plays w s (tr ++ r) t -> exists s', recvF s a n = (tr, o, l, s') /\ plays w s' r t.
Proof.
  intros RC P. unfold recvF. inversion RC as [o1 NA|l1 lost L1|l1 b1 L1]; subst.
  - cbn [app plays] in P. destruct P as (s1 & E & P). exists s1. split; [|exact P]. rewrite E. destruct o; [destruct (NA eq_refl)|reflexivity|reflexivity|reflexivity].
  - rewrite <- !app_assoc in P. cbn [app plays] in P. destruct P as (s1 & E & P). rewrite E. destruct (rd_broken l n lost s1 r t L1 P) as (s' & E' & P'). exists s'. split; [|exact P']. rewrite E'. reflexivity.
  - rewrite <- !app_assoc in P. cbn [app plays] in P. destruct P as (s1 & E & P). rewrite E. destruct (rd_all l1 b1 s1 r t P) as (s' & E' & P'). exists s'. split; [|exact P']. rewrite E'. reflexivity.
Qed.
Lemma sending_ack a tx tr k : sending a tx tr Ack k -> k = length tx.
Proof. intros H. inversion H; subst; [tauto|tauto|reflexivity]. Qed.
(** the same request meets the same answers *)
Lemma transfer_det a tx n tr1 o1 k1 l1 tr2 o2 k2 l2 s r1 r2 t1 t2 : transfer a tx n tr1 o1 k1 l1 -> transfer a tx n tr2 o2 k2 l2 -> plays w s (tr1 ++ r1) t1 -> plays w s (tr2 ++ r2) t2 ->
  tr1 = tr2 /\ o1 = o2 /\ k1 = k2 /\ l1 = l2 /\ exists s', plays w s tr1 s' /\ plays w s' r1 t1 /\ plays w s' r2 t2.
Proof.
  assert (End : forall s tr r t, plays w s (tr ++ r) t -> exists s', plays w s tr s' /\ plays w s' r t).
  { clear. intros s tr. revert s. induction tr as [|e tr IH]; intros s r t P; [exists s; split; [reflexivity|exact P]|]. cbn [app plays] in *. destruct e; try (exact (IH _ _ _ P)).
    - destruct P as (s1 & E & P). destruct (IH _ _ _ P) as (s' & P1 & P2). exists s'. split; [exists s1; auto|exact P2].
    - destruct P as (s1 & E & P). destruct (IH _ _ _ P) as (s' & P1 & P2). exists s'. split; [exists s1; auto|exact P2].
    - destruct P as (s1 & b0 & E & EB & P). destruct (IH _ _ _ P) as (s' & P1 & P2). exists s'. split; [exists s1, b0; auto|exact P2].
    - destruct P as (s1 & E & P). destruct (IH _ _ _ P) as (s' & P1 & P2). exists s'. split; [exists s1; auto|exact P2]. }
  assert (Det : forall tr s t1 t2, plays w s tr t1 -> plays w s tr t2 -> t1 = t2).
  { clear. induction tr as [|e tr IH]; intros s t1 t2 P1 P2; [cbn in *; congruence|]. cbn [plays] in *. destruct e; try (exact (IH _ _ _ P1 P2)).
    - destruct P1 as (s1 & E1 & P1), P2 as (s2 & E2 & P2). rewrite E1 in E2. injection E2 as <-. exact (IH _ _ _ P1 P2).
    - destruct P1 as (s1 & E1 & P1), P2 as (s2 & E2 & P2). rewrite E1 in E2. injection E2 as <-. exact (IH _ _ _ P1 P2).
    - destruct P1 as (s1 & b1 & E1 & _ & P1), P2 as (s2 & b2 & E2 & _ & P2). rewrite E1 in E2. injection E2 as <- _. exact (IH _ _ _ P1 P2).
    - destruct P1 as (s1 & E1 & P1), P2 as (s2 & E2 & P2). rewrite E1 in E2. injection E2 as <-. exact (IH _ _ _ P1 P2). }
  intros T1 T2 P1 P2. assert (EQ : tr1 = tr2 /\ o1 = o2 /\ k1 = k2 /\ l1 = l2).
  { inversion T1 as [a1 b1 c1 TX N RC Q1 Q2 Q3 Q4|a1 b1 c1 TX N SD Q1 Q2 Q3 Q4|a1 b1 c1 d1 e1 TX N SD RC Q1 Q2 Q3 Q4]; inversion T2 as [a2 b2 c2 TX' N' RC' Q1' Q2' Q3' Q4'|a2 b2 c2 TX' N' SD' Q1' Q2' Q3' Q4'|a2 b2 c2 d2 e2 TX' N' SD' RC' Q1' Q2' Q3' Q4']; subst; try congruence; rewrite <- ?app_assoc in P1, P2.
    - destruct (receiving_det _ _ _ _ _ _ _ _ RC P1) as (s1 & E1 & _), (receiving_det _ _ _ _ _ _ _ _ RC' P2) as (s2 & E2 & _). rewrite E1 in E2. injection E2 as -> -> -> _. auto.
    - destruct (sending_det _ _ _ _ _ _ _ _ SD P1) as (s1 & E1 & _), (sending_det _ _ _ _ _ _ _ _ SD' P2) as (s2 & E2 & _). rewrite E1 in E2. injection E2 as -> -> -> _. auto.
    - exfalso. destruct (sending_det _ _ _ _ _ _ _ _ SD P1) as (s1 & E1 & _), (sending_det _ _ _ _ _ _ _ _ SD' P2) as (s2 & E2 & _). rewrite E1 in E2. injection E2 as _ -> _ _. destruct N as [N|N]; [destruct (N eq_refl)|lia].
    - exfalso. destruct (sending_det _ _ _ _ _ _ _ _ SD P1) as (s1 & E1 & _), (sending_det _ _ _ _ _ _ _ _ SD' P2) as (s2 & E2 & _). rewrite E1 in E2. injection E2 as _ <- _ _. destruct N' as [N'|N']; [destruct (N' eq_refl)|lia].
    - destruct (sending_det _ _ _ _ _ _ _ _ SD P1) as (s1 & E1 & P1'), (sending_det _ _ _ _ _ _ _ _ SD' P2) as (s2 & E2 & P2'). rewrite E1 in E2. injection E2 as -> -> ->. 
      destruct (receiving_det _ _ _ _ _ _ _ _ RC P1') as (s3 & E3 & _), (receiving_det _ _ _ _ _ _ _ _ RC' P2') as (s4 & E4 & _). rewrite E3 in E4. injection E4 as -> -> -> _. auto. }
  destruct EQ as (-> & -> & -> & ->). split; [reflexivity|]. split; [reflexivity|]. split; [reflexivity|]. split; [reflexivity|].
  destruct (End _ _ _ _ P1) as (s1 & A1 & B1), (End _ _ _ _ P2) as (s2 & A2 & B2). rewrite (Det _ _ _ _ A1 A2) in *. exists s2. auto.
Qed.
End D.

(** ** Calls whose conversation is known *)
Lemma read_known {S} (w : bus S) m h a cmd size n tr o k l r t : idle h -> 0 <= a < 128 -> (0 < n <= size)%nat -> transfer a cmd n tr o k l -> o <> Lost -> plays w (world h) (tr ++ r) t ->
  exists h', MasterWriteRead w (Datatypes.S m) h a cmd size (Z.of_nat (length cmd)) (Z.of_nat n) = Done (h', Z.of_nat (length l), l) /\ log h' = log h ++ tr /\ plays w (world h) tr (world h') /\ plays w (world h') r t /\ idle h'.
Proof.
  intros I A N T NL P. destruct (transfer_ok w h a cmd [] [] size n DONE I A (or_intror (proj1 N)) (proj2 N)) as (tr2 & o2 & k2 & l2 & h' & E & L & P2 & T2 & I' & _). rewrite app_nil_r in E.
  rewrite <- (app_nil_r tr2) in P2. destruct (transfer_det w a cmd n _ _ _ _ _ _ _ _ _ _ _ _ _ T2 T P2 P) as (-> & -> & -> & -> & s' & P3 & Q & P4). cbn [plays] in Q.
  exists h'. split; [|split; [exact L|split; [rewrite Q; exact P3|split; [rewrite Q; exact P4|exact I']]]]. unfold MasterWriteRead. cbn [untilWon]. rewrite E. cbn [xstatus]. destruct o; [| |destruct (NL eq_refl)|]; cbn [outcome rxSz rxBuff app]; do 3 f_equal; lia.
Qed.
Lemma send_known {S} (w : bus S) m h a buff tr o k l r t : idle h -> 0 <= a < 128 -> buff <> [] -> transfer a buff 0 tr o k l -> o <> Lost -> plays w (world h) (tr ++ r) t ->
  exists h', MasterSend w (Datatypes.S m) h a buff (Z.of_nat (length buff)) = Done (h', Z.of_nat k) /\ log h' = log h ++ tr /\ plays w (world h) tr (world h') /\ plays w (world h') r t /\ idle h'.
Proof.
  intros I A N T NL P. destruct (transfer_ok w h a buff [] [] 0 0 DONE I A (or_introl N) (le_n 0)) as (tr2 & o2 & k2 & l2 & h' & E & L & P2 & T2 & I' & K). rewrite app_nil_r in E.
  rewrite <- (app_nil_r tr2) in P2. destruct (transfer_det w a buff 0 _ _ _ _ _ _ _ _ _ _ _ _ _ T2 T P2 P) as (-> & -> & -> & -> & s' & P3 & Q & P4). cbn [plays] in Q.
  exists h'. split; [|split; [exact L|split; [rewrite Q; exact P3|split; [rewrite Q; exact P4|exact I']]]]. unfold MasterSend. cbn [untilWon]. change (Z.of_nat 0) with 0 in E. rewrite E. cbn [xstatus]. destruct o; [| |destruct (NL eq_refl)|]; cbn [outcome txSz]; do 2 f_equal; lia.
Qed.
