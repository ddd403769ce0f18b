(** Proofs for C120 *)
From Coq Require Export Qround.
From Verif Require Export Ccs_Model Ccs_Spec.
From Verif Require Import Bits I2c_Proofs I2c_Det.
Open Scope Z_scope.

Section Chip.
  Context (a : Z) (k : maker) (m : nat).
  Hypothesis HA : 0 <= a < 128.
  Let w := nose a k.
  Let n := Datatypes.S m.
  Definition at_pos (g : gas) (p : nat) : gas := mkGas (high g) (running g) (regs g) (ptr g) p (heard g) (deaf g).
  Lemma pin_asleep g b : deaf (pin g b) = deaf g /\ heard (pin g b) = heard g /\ regs (pin g b) = regs g /\ running (pin g b) = running g /\ high (pin g b) = b.
  Proof. repeat split. Qed.

  (** writing *)
  Fixpoint taken (g : gas) (l : list Z) : gas := match l with [] => g | b :: r => taken (take k (hears g) b) r end.
  Lemma take_heard g b : heard (take k g b) = heard g.
  Proof. unfold take. destruct (pos g); reflexivity. Qed.
  Lemma write_plays : forall l g r t, (forall j, (j < length l)%nat -> acks k (heard g + j) = true) -> plays w (taken g l) r t -> plays w g (map (fun c => Wr c Ack) l ++ r) t.
  Proof.
    induction l as [|b l IH]; intros g r t A P; [exact P|]. cbn [map app plays taken] in *. exists (take k (hears g) b). split.
    - cbn [w nose accept]. rewrite <- (Nat.add_0_r (heard g)), A by (cbn [length]; lia). reflexivity.
    - apply IH; [|exact P]. intros j J. rewrite take_heard. cbn [hears heard]. rewrite <- (A (S j)) by (cbn [length]; lia). f_equal. lia.
  Qed.
  Definition addressed (g : gas) : gas := hears (at_pos g 0).
  Lemma send_ok h d bytes : idle h -> _I2C_ADDR d = a -> bytes <> [] -> polite k (world h) (S (length bytes)) ->
    exists h', sendBytes w n pin h d bytes = Done h' /\ idle h' /\ world h' = pin (taken (addressed (pin (world h) false)) bytes) true.
  Proof.
    intros I D NE P. unfold sendBytes. rewrite D. set (h0 := wake pin h false). set (g := pin (world h) false).
    assert (PL : plays w (world h0) ((([Start; Addr a false Ack] ++ map (fun c => Wr c Ack) bytes) ++ ending Ack) ++ []) (taken (addressed g) bytes)).
    { change (world h0) with g. rewrite app_nil_r, <- app_assoc. cbn [app plays]. exists (addressed g). split.
      - cbn [w nose select start]. rewrite Z.eqb_refl. assert (A0 : acks k (heard (world h)) = true) by (rewrite <- (P 0%nat) by lia; f_equal; lia). change (high _) with false. change (heard _) with (heard (world h)). cbv iota. rewrite A0. reflexivity.
      - apply write_plays; [|reflexivity]. intros j J. cbn [addressed hears at_pos heard g pin]. rewrite <- (P (S j)) by lia. f_equal. lia. }
    assert (T : transfer a bytes 0 (([Start; Addr a false Ack] ++ map (fun c => Wr c Ack) bytes) ++ ending Ack) Ack (length bytes) []) by (apply writes; [exact NE|right; reflexivity|apply all_sent]).
    assert (I0 : idle h0) by exact I.
    destruct (send_known w m h0 a bytes _ Ack _ [] [] _ I0 HA NE T ltac:(discriminate) PL) as (h' & E & _ & _ & Q & I'). fold n in E. rewrite E. exists (wake pin h' true). split; [reflexivity|]. split; [exact I'|]. cbn [plays] in Q. cbn [wake world]. rewrite Q. reflexivity.
  Qed.

  (** reading *)
  Definition contents (g : gas) (r : Z) (p len : nat) : list Z := map (fun i => nth i (register k g r) 0xff mod 256) (seq p len).
  Lemma read_plays ack : forall len g r t, plays w (at_pos g (pos g + len)) r t -> plays w g (map (fun b => Rd b ack) (contents g (ptr g) (pos g) len) ++ r) t.
  Proof.
    induction len as [|len IH]; intros g r t P.
    - cbn [contents seq map app]. replace (at_pos g (pos g + 0)) with g in P; [exact P|]. rewrite Nat.add_0_r. destruct g. reflexivity.
    - unfold contents. cbn [seq map app plays]. exists (at_pos g (S (pos g))), (nth (pos g) (register k g (ptr g)) 0xff). split; [reflexivity|]. split; [reflexivity|].
      apply (IH (at_pos g (S (pos g)))). cbn [at_pos pos]. replace (S (pos g) + len)%nat with (pos g + S len)%nat by lia. exact P.
  Qed.
  Lemma contents_snoc g r p len : contents g r p (S len) = contents g r p len ++ [nth (p + len) (register k g r) 0xff mod 256].
  Proof. unfold contents. rewrite seq_S, map_app. reflexivity. Qed.
  Lemma contents_length g r p len : length (contents g r p len) = len.
  Proof. unfold contents. rewrite map_length, seq_length. reflexivity. Qed.
  Definition answers (g : gas) : bool := acks k (heard g) && acks k (S (heard g)) && acks k (S (S (heard g))).
  Lemma register_kept g g' r : running g' = running g -> regs g' = regs g -> register k g' r = register k g r.
  Proof. intros A B. unfold register. rewrite A, B. reflexivity. Qed.
  Lemma contents_kept g g' r p len : running g' = running g -> regs g' = regs g -> contents g' r p len = contents g r p len.
  Proof. intros A B. unfold contents. rewrite (register_kept g g' r A B). reflexivity. Qed.
  Lemma read_ok h d r len : idle h -> _I2C_ADDR d = a -> r <> 0xF4 ->
    exists h', readRegister w n pin h d r (S len) = Done (h', if answers (world h) then Z.of_nat (S len) else 0, if answers (world h) then contents (world h) r 0 (S len) else []) /\ idle h' /\
      kept (world h) (world h') /\ high (world h') = true /\ deaf (world h') = deaf (world h) /\ (answers (world h) = true -> heard (world h') = (heard (world h) + 3)%nat).
  Proof.
    intros I D NR. unfold readRegister, MasterCmdRead. rewrite D. set (h0 := wake pin h false). set (g := pin (world h) false). assert (I0 : idle h0) by exact I.
    assert (Fin : forall tr o kk l t, transfer a [r] (S len) tr o kk l -> o <> Lost -> plays w g (tr ++ []) t -> kept g t -> deaf t = deaf g -> (answers (world h) = true -> heard t = (heard (world h) + 3)%nat) ->
      (Z.of_nat (length l), l) = (if answers (world h) then Z.of_nat (S len) else 0, if answers (world h) then contents (world h) r 0 (S len) else []) ->
      exists h', match MasterWriteRead w n h0 a [r] (S len) 1 (Z.of_nat (S len)) with Done (h, c, l) => Done (wake pin h true, c, l) | Fault => Fault | Hang => Hang end =
        Done (h', if answers (world h) then Z.of_nat (S len) else 0, if answers (world h) then contents (world h) r 0 (S len) else []) /\ idle h' /\
        kept (world h) (world h') /\ high (world h') = true /\ deaf (world h') = deaf (world h) /\ (answers (world h) = true -> heard (world h') = (heard (world h) + 3)%nat)).
    { intros tr o kk l t T NL P K DF HE L. destruct (read_known w m h0 a [r] (S len) (S len) tr o kk l [] t I0 HA ltac:(lia) T NL P) as (h' & E & _ & _ & Q & I'). fold n in E. change (Z.of_nat (length [r])) with 1 in E. rewrite E.
      injection L as L1 L2. rewrite L1, L2. exists (wake pin h' true). split; [reflexivity|]. split; [exact I'|]. cbn [plays] in Q. cbn [wake world]. rewrite <- Q. split; [exact K|]. split; [reflexivity|]. split; [exact DF|exact HE]. }
    unfold answers in *. destruct (acks k (heard (world h))) eqn:A0; cbn [andb] in *.
    2:{ apply (Fin [Start; Addr a false Nak; Stop] Nak 0%nat [] (addressed g)); auto; try discriminate; [|exists (addressed g); split; [cbn [w nose select start]; rewrite Z.eqb_refl; cbn [high g pin heard]; rewrite A0; reflexivity|reflexivity]|split; reflexivity].
        apply (writes a [r] (S len) [Start; Addr a false Nak] Nak); [discriminate|left; discriminate|apply not_addressed; discriminate]. }
    assert (S1 : select w (start w g) a false = (addressed g, Ack)) by (cbn [w nose select start]; rewrite Z.eqb_refl; cbn [high g pin heard]; rewrite A0; reflexivity).
    destruct (acks k (S (heard (world h)))) eqn:A1; cbn [andb] in *.
    2:{ apply (Fin [Start; Addr a false Ack; Wr r Nak; Stop] Nak 1%nat [] (hears (addressed g))); auto; try discriminate.
        - apply (writes a [r] (S len) [Start; Addr a false Ack; Wr r Nak] Nak); [discriminate|left; discriminate|apply (broken_off a [r] [] r [] Nak); [reflexivity|discriminate]].
        - exists (addressed g). split; [exact S1|]. exists (hears (addressed g)). split; [|reflexivity]. cbn [w nose accept addressed hears at_pos heard g pin]. rewrite A1. reflexivity.
        - split; reflexivity. }
    set (g2 := take k (hears (addressed g)) r).
    assert (G2 : g2 = mkGas false (running (world h)) (regs (world h)) r 1 (S (S (heard (world h)))) (deaf (world h))).
    { unfold g2, take. cbn [hears addressed at_pos pos high running regs heard deaf g pin ptr]. destruct (Z.eqb_spec r 0xF4); [contradiction|]. rewrite andb_false_l, orb_false_r. reflexivity. }
    assert (S2 : accept w (addressed g) r = (g2, Ack)) by (cbn [w nose accept]; cbn [addressed hears at_pos heard g pin]; rewrite A1; reflexivity).
    destruct (acks k (S (S (heard (world h))))) eqn:A2.
    2:{ apply (Fin ([Start; Addr a false Ack; Wr r Ack] ++ [Start; Addr a true Nak] ++ [Stop]) Nak 1%nat [] (hears (at_pos g2 0))); auto; try discriminate.
        - apply (both a [r] (S len) [Start; Addr a false Ack; Wr r Ack] [Start; Addr a true Nak] Nak 1%nat); [discriminate|lia|apply (all_sent a [r])|apply no_answer; discriminate].
        - cbn [app plays]. exists (addressed g). split; [exact S1|]. exists g2. split; [exact S2|]. exists (hears (at_pos g2 0)). split; [|reflexivity]. rewrite G2. cbn [w nose select start high heard]. rewrite Z.eqb_refl, A2. reflexivity.
        - rewrite G2. split; reflexivity. }
    set (g3 := hears (at_pos g2 0)).
    assert (C3 : forall p q, contents g3 r p q = contents (world h) r p q) by (intros p q; apply contents_kept; unfold g3; rewrite G2; reflexivity).
    apply (Fin ([Start; Addr a false Ack; Wr r Ack] ++ ([Start; Addr a true Ack] ++ map (fun b => Rd b true) (contents (world h) r 0 len) ++ [Rd (nth len (register k g3 r) 0xff mod 256) false]) ++ [Stop]) Ack 1%nat (contents (world h) r 0 (S len)) (at_pos g3 (S len))); auto; try discriminate.
    - apply (both a [r] (S len) [Start; Addr a false Ack; Wr r Ack] _ Ack 1%nat); [discriminate|lia|apply (all_sent a [r])|]. rewrite <- !C3, contents_snoc. cbn [plus]. apply all_received. rewrite contents_length. reflexivity.
    - rewrite app_nil_r, <- !app_assoc. cbn [app plays]. exists (addressed g). split; [exact S1|]. exists g2. split; [exact S2|]. exists g3. split.
      { unfold g3. rewrite G2. cbn [w nose select start high heard]. rewrite Z.eqb_refl, A2. reflexivity. }
      rewrite <- C3. replace (contents g3 r 0 len) with (contents g3 (ptr g3) (pos g3) len) by (unfold g3; rewrite G2; reflexivity). apply read_plays.
      exists (at_pos g3 (S len)), (nth len (register k g3 r) 0xff). split; [|split; reflexivity]. unfold g3. rewrite G2. reflexivity.
    - unfold g3. rewrite G2. split; reflexivity.
    - intros _. unfold g3. rewrite G2. cbn. lia.
    - rewrite contents_length. reflexivity.
  Qed.
End Chip.

(** ** Whatever the sensor answers *)
Section Any.
  Context (a : Z) (k : maker) (m : nat).
  Let w := nose a k.
  Let n := Datatypes.S m.
  Definition no_loss (e : ev) : Prop := match e with Addr _ _ Lost | Wr _ Lost | RdTrouble _ true => False | _ => True end.
  Lemma plays_awake : forall tr s t, high s = false -> plays w s tr t -> high t = false /\ deaf t = deaf s /\ Forall no_loss tr.
  Proof.
    induction tr as [|e tr IH]; intros s t H P; [cbn in P; subst; auto|]. destruct e; cbn [plays] in P.
    - destruct (IH (start w s) t H P) as (A & B & C). cbn [no_loss]. split; [exact A|]. split; [exact B|]. constructor; [exact Logic.I|exact C].
    - destruct P as (s1 & E & P). cbn [w nose select] in E. rewrite H in E. destruct (_ =? a).
      + destruct (acks k (heard s)); injection E as <- <-; destruct (IH (hears s) t H P) as (A & B & C); (split; [exact A|]); (split; [exact B|]); constructor; try exact C; exact Logic.I.
      + injection E as <- <-. destruct (IH s t H P) as (A & B & C). split; [exact A|]. split; [exact B|]. constructor; [exact Logic.I|exact C].
    - destruct P as (s1 & E & P). cbn [w nose accept] in E. assert (T : forall b, high (take k (hears s) b) = high s /\ deaf (take k (hears s) b) = deaf s) by (intros x; unfold take; destruct (pos (hears s)); split; reflexivity).
      destruct (acks k (heard s)); injection E as <- <-.
      + destruct (T b) as (T1 & T2). destruct (IH _ t (eq_trans T1 H) P) as (A & B & C). split; [exact A|]. split; [rewrite B; exact T2|]. constructor; [exact Logic.I|exact C].
      + destruct (IH (hears s) t H P) as (A & B & C). split; [exact A|]. split; [exact B|]. constructor; [exact Logic.I|exact C].
    - destruct P as (s1 & b0 & E & _ & P). cbn [w nose supply] in E. injection E as <- <-. match type of P with plays _ ?x _ _ => destruct (IH x t H P) as (A & B & C) end. split; [exact A|]. split; [exact B|]. constructor; [exact Logic.I|exact C].
    - destruct P as (s1 & E & P). cbn [w nose supply] in E. discriminate.
    - destruct (IH s t H P) as (A & B & C). split; [exact A|]. split; [exact B|]. constructor; [exact Logic.I|exact C].
  Qed.
  Lemma sending_lost x tx tr kk : sending x tx tr Lost kk -> ~ Forall no_loss tr.
  Proof. intros H F. inversion H; subst; repeat (rewrite ?Forall_app in F; cbn [app] in F); rewrite Forall_forall in *; [|destruct F as [_ F]; destruct F as [_ F]; rewrite Forall_forall in F; exact (F _ (or_introl eq_refl))]. exact (F (Addr x false Lost) (or_intror (or_introl eq_refl))). Qed.
  Lemma receiving_lost x c tr l : receiving x c tr Lost l -> ~ Forall no_loss tr.
  Proof.
    intros H F. inversion H as [o1 NA|l1 lost L1 E1 E2|]; subst.
    - rewrite Forall_forall in F. exact (F (Addr x true Lost) (or_intror (or_introl eq_refl))).
    - destruct lost; [|discriminate]. rewrite !Forall_app in F. destruct F as (_ & _ & F). rewrite Forall_forall in F. exact (F _ (or_introl eq_refl)).
  Qed.
  Lemma transfer_lost x tx c tr kk l : transfer x tx c tr Lost kk l -> ~ Forall no_loss tr.
  Proof. intros H F. inversion H; subst; rewrite ?Forall_app in F; [exact (receiving_lost _ _ _ _ ltac:(eassumption) (proj1 F))|exact (sending_lost _ _ _ _ ltac:(eassumption) (proj1 F))|exact (receiving_lost _ _ _ _ ltac:(eassumption) (proj1 (proj2 F)))]. Qed.

  Lemma send_any h d bytes : idle h -> 0 <= _I2C_ADDR d < 128 -> bytes <> [] ->
    exists h', sendBytes w n pin h d bytes = Done h' /\ idle h' /\ high (world h') = true /\ deaf (world h') = deaf (world h).
  Proof.
    intros I A NE. set (h0 := wake pin h false). assert (I0 : idle h0) by exact I. destruct (transfer_ok w h0 (_I2C_ADDR d) bytes [] [] 0 0 DONE I0 A (or_introl NE) (le_n 0)) as (tr & o & kk & l & h1 & E & L & P & T & I1 & _).
    destruct (plays_awake tr (world h0) (world h1) eq_refl P) as (_ & DF & F). assert (NL : o <> Lost) by (intros ->; exact (transfer_lost _ _ _ _ _ _ T F)).
    rewrite <- (app_nil_r tr) in P. destruct (send_known w m h0 (_I2C_ADDR d) bytes tr o kk l [] _ I0 A NE T NL P) as (h' & E' & _ & _ & Q & I'). fold n in E'. unfold sendBytes. fold h0. rewrite E'. exists (wake pin h' true). cbn [plays] in Q. split; [reflexivity|]. split; [exact I'|]. split; [reflexivity|]. cbn [wake world pin deaf]. rewrite <- Q. exact DF.
  Qed.
  Lemma read_any h d r len : idle h -> 0 <= _I2C_ADDR d < 128 -> (0 < len)%nat ->
    exists h' c l, readRegister w n pin h d r len = Done (h', c, l) /\ idle h' /\ high (world h') = true /\ deaf (world h') = deaf (world h).
  Proof.
    intros I A NE. set (h0 := wake pin h false). assert (I0 : idle h0) by exact I. destruct (transfer_ok w h0 (_I2C_ADDR d) [r] [] [] len len DONE I0 A (or_intror NE) (le_n len)) as (tr & o & kk & l & h1 & E & L & P & T & I1 & _).
    destruct (plays_awake tr (world h0) (world h1) eq_refl P) as (_ & DF & F). assert (NL : o <> Lost) by (intros ->; exact (transfer_lost _ _ _ _ _ _ T F)).
    rewrite <- (app_nil_r tr) in P. destruct (read_known w m h0 (_I2C_ADDR d) [r] len len tr o kk l [] _ I0 A ltac:(lia) T NL P) as (h' & E' & _ & _ & Q & I'). fold n in E'. unfold readRegister, MasterCmdRead. fold h0. change (Z.of_nat (length [r])) with 1 in E'. rewrite E'. exists (wake pin h' true), (Z.of_nat (length l)), l. cbn [plays] in Q. split; [reflexivity|]. split; [exact I'|]. split; [reflexivity|]. cbn [wake world pin deaf]. rewrite <- Q. exact DF.
  Qed.
End Any.

(** ** Numbers *)
Lemma answers_polite k g : answers k g = true <-> polite k g 3.
Proof.
  unfold answers, polite. rewrite !andb_true_iff. split.
  - intros ((A & B) & C) j J. destruct j as [|[|[|j]]]; [rewrite Nat.add_0_r; exact A|replace (heard g + 1)%nat with (S (heard g)) by lia; exact B|replace (heard g + 2)%nat with (S (S (heard g))) by lia; exact C|lia].
  - intros P. rewrite <- (Nat.add_0_r (heard g)) at 1. rewrite (P 0%nat) by lia. replace (S (heard g)) with (heard g + 1)%nat by lia. rewrite (P 1%nat) by lia. replace (S (heard g + 1)) with (heard g + 2)%nat by lia. rewrite (P 2%nat) by lia. auto.
Qed.
Lemma polite_part k g g' c c' e : heard g' = (heard g + e)%nat -> (e + c' <= c)%nat -> polite k g c -> polite k g' c'.
Proof. intros H L P j J. rewrite H, <- Nat.add_assoc. apply P. lia. Qed.
Lemma status_bits r v f : 0 <= f < 16 -> let s := (128 * Z.b2z r + 16 * Z.b2z v + f) mod 256 in (Z.land s (Z.shiftl 1 4) =? 0) = negb v /\ (Z.land s (Z.shiftl 1 7) =? 0) = negb r.
Proof.
  intros F. assert (F' : f = 0 \/ f = 1 \/ f = 2 \/ f = 3 \/ f = 4 \/ f = 5 \/ f = 6 \/ f = 7 \/ f = 8 \/ f = 9 \/ f = 10 \/ f = 11 \/ f = 12 \/ f = 13 \/ f = 14 \/ f = 15) by lia.
  clear F. destruct r, v; repeat (destruct F' as [-> |F']; [split; reflexivity|]); subst f; split; reflexivity.
Qed.
Lemma trunc_pos q : (0 <= q)%Q -> trunc q = Qfloor q.
Proof. intros H. destruct q as [x y]. unfold trunc, Qle in *. cbn [Qnum Qden] in *. rewrite Z.quot_div_nonneg by lia. reflexivity. Qed.
Lemma trunc_neg q : (q <= 0)%Q -> trunc q = Qceiling q.
Proof. intros H. destruct q as [x y]. unfold trunc, Qle, Qceiling, Qopp, Qfloor in *. cbn [Qnum Qden] in *. rewrite <- (Z.opp_involutive x) at 1. rewrite Z.quot_opp_l, Z.quot_div_nonneg by lia. reflexivity. Qed.
Lemma half_pos z : 0 <= z -> trunc (Qplus (inject_Z z) (1 # 2)) = z.
Proof. intros H. unfold trunc. cbn. rewrite Z.quot_div_nonneg by lia. symmetry. apply (Z.div_unique _ 2 z 1); lia. Qed.
Lemma half_neg z : z <= 0 -> trunc (Qminus (inject_Z z) (1 # 2)) = z.
Proof. intros H. unfold trunc. cbn. match goal with |- Z.quot ?x _ = _ => replace x with (- (2 * (- z) + 1)) by lia end. rewrite Z.quot_opp_l, Z.quot_div_nonneg by lia. rewrite <- (Z.div_unique (2 * - z + 1) 2 (- z) 1); lia. Qed.

(** ** Whole functions, the sensor acknowledging *)
Section Good.
  Context (a : Z) (k : maker) (m : nat).
  Hypothesis HA : 0 <= a < 128.
  Let w := nose a k.
  Let n := Datatypes.S m.
  Lemma taken_const : forall l g, high (taken k g l) = high g /\ deaf (taken k g l) = deaf g /\ heard (taken k g l) = (heard g + length l)%nat.
  Proof.
    induction l as [|b l IH]; intros g; [cbn; auto|]. cbn [taken length]. destruct (IH (take k (hears g) b)) as (A & B & C). rewrite A, B, C, take_heard. unfold take. destruct (pos (hears g)); cbn; repeat split; lia.
  Qed.
  (** the contents of a register replaced as a whole *)
  Lemma taken_regs : forall l g i, pos g = S i -> (i + length l <= length (regs g (ptr g)))%nat ->
    running (taken k g l) = running g /\ regs (taken k g l) (ptr g) = firstn i (regs g (ptr g)) ++ l ++ skipn (i + length l) (regs g (ptr g)) /\ forall x, x <> ptr g -> regs (taken k g l) x = regs g x.
  Proof.
    induction l as [|b l IH]; intros g i P L.
    - cbn [taken length]. rewrite Nat.add_0_r. cbn [app]. rewrite firstn_skipn. auto.
    - cbn [taken length] in *. set (g1 := take k (hears g) b). assert (G1 : g1 = mkGas (high g) (running g) (put (regs g) (ptr g) i b) (ptr g) (S (S i)) (S (heard g)) (deaf g)) by (unfold g1, take; cbn [hears pos]; rewrite P; reflexivity).
      assert (R1 : regs g1 (ptr g) = wr (regs g (ptr g)) i b) by (rewrite G1; cbn [regs]; unfold put; rewrite Z.eqb_refl; reflexivity).
      assert (PT : ptr g1 = ptr g) by (rewrite G1; reflexivity). assert (RN : running g1 = running g) by (rewrite G1; reflexivity).
      destruct (IH g1 (S i)) as (A & B & C); [rewrite G1; reflexivity|rewrite PT, R1, wr_length; lia|]. rewrite PT, R1 in B. rewrite PT in C. split; [congruence|]. split.
      + rewrite B. clear - L. set (o := regs g (ptr g)) in *. clearbody o. revert i L. induction o as [|c o IHo]; intros i L; [cbn in L; lia|]. destruct i as [|i]; [cbn; reflexivity|]. cbn [length] in L. specialize (IHo i ltac:(lia)). cbn [wr firstn skipn app plus]. cbn [firstn] in IHo. f_equal. exact IHo.
      + intros x X. rewrite (C x X), G1. cbn [regs]. unfold put. destruct (Z.eqb_spec x (ptr g)); [contradiction|reflexivity].
  Qed.
  Lemma send_set h d r l : idle h -> _I2C_ADDR d = a -> r <> 0xF4 -> length (regs (world h) r) = length l -> polite k (world h) (S (S (length l))) ->
    exists h', sendBytes w n pin h d (r :: l) = Done h' /\ idle h' /\ set_to (world h) (world h') r l /\ high (world h') = true /\ deaf (world h') = deaf (world h) /\ heard (world h') = (heard (world h) + S (S (length l)))%nat.
  Proof.
    intros I D NR L P. destruct (send_ok a k m HA h d (r :: l) I D ltac:(discriminate) P) as (h' & E & I' & W). exists h'. split; [exact E|]. split; [exact I'|]. rewrite W. cbn [taken].
    set (g1 := take k (hears (addressed (pin (world h) false))) r).
    assert (G1 : g1 = mkGas false (running (world h)) (regs (world h)) r 1 (S (S (heard (world h)))) (deaf (world h))).
    { unfold g1, take. cbn [hears addressed at_pos pos high running regs heard deaf pin ptr]. destruct (Z.eqb_spec r 0xF4); [contradiction|]. rewrite andb_false_l, orb_false_r. reflexivity. }
    destruct (taken_regs l g1 0) as (A & B & C); [rewrite G1; reflexivity|rewrite G1; cbn [ptr regs]; lia|]. destruct (taken_const l g1) as (_ & DF & HE). split; [split|].
    - cbn [pin regs]. assert (PT : ptr g1 = r) by (rewrite G1; reflexivity). assert (RG : regs g1 = regs (world h)) by (rewrite G1; reflexivity). rewrite PT, RG, Nat.add_0_l, <- L, skipn_all, app_nil_r in B. exact B.
    - cbn [pin regs running]. split; [rewrite A, G1; reflexivity|]. intros x X. rewrite C by (rewrite G1; exact X). rewrite G1. reflexivity.
    - cbn [pin high deaf heard]. split; [reflexivity|]. split; [rewrite DF, G1; reflexivity|]. rewrite HE, G1. cbn [heard]. lia.
  Qed.
  Lemma send_start h d : idle h -> _I2C_ADDR d = a -> polite k (world h) 2 ->
    exists h', sendBytes w n pin h d [APP_START] = Done h' /\ idle h' /\ running (world h') = running (world h) || valid k /\ regs (world h') = regs (world h) /\ heard (world h') = (heard (world h) + 2)%nat.
  Proof.
    intros I D P. destruct (send_ok a k m HA h d [APP_START] I D ltac:(discriminate) P) as (h' & E & I' & W). exists h'. split; [exact E|]. split; [exact I'|]. rewrite W. cbn. split; [reflexivity|]. split; [reflexivity|lia].
  Qed.
  Lemma read_good h d r len : idle h -> _I2C_ADDR d = a -> r <> 0xF4 -> polite k (world h) 3 ->
    exists h', readRegister w n pin h d r (S len) = Done (h', Z.of_nat (S len), contents k (world h) r 0 (S len)) /\ idle h' /\ kept (world h) (world h') /\ heard (world h') = (heard (world h) + 3)%nat.
  Proof.
    intros I D NR P. apply answers_polite in P. destruct (read_ok a k m HA h d r len I D NR) as (h' & E & I' & K & _ & _ & HE). fold w n in E. rewrite P in E. exists h'. auto.
  Qed.
  Lemma begin_ok junk h d mode : idle h -> polite k (world h) 14 -> 0 <= flags k < 16 -> is_byte (hwid k) -> regs (world h) 1 = [mode] ->
    exists h', begin w n pin junk h d a = Done (h', mkCcs (TVOC d) (CO2 d) a, (hwid k =? 0x81) && valid k) /\ idle h' /\
      ((hwid k =? 0x81) && valid k = true -> running (world h') = true /\ regs (world h') 1 = [0x20] /\ forall x, x <> 1 -> regs (world h') x = regs (world h) x) /\
      ((hwid k =? 0x81) && valid k = false -> kept (world h) (world h')).
  Proof.
    intros I P F HB MO. unfold begin. cbv zeta. set (d1 := mkCcs (TVOC d) (CO2 d) a).
    assert (P1 : polite k (world h) 3) by (apply (polite_part k (world h) (world h) 14 3 0 ltac:(lia) ltac:(lia) P)).
    destruct (read_good h d1 HW_ID 0 I eq_refl ltac:(discriminate) P1) as (h1 & E1 & I1 & K1 & H1). unfold readHW_ID. rewrite E1. change (negb (Z.of_nat 1 =? 1)) with false. cbv iota.
    assert (V1 : local (contents k (world h) HW_ID 0 1) (junk 4%nat) 0 = hwid k) by (cbn; apply Z.mod_small; exact HB). rewrite V1. destruct (Z.eqb_spec (hwid k) 0x81) as [HW|HW]; cbn [negb andb].
    2:{ exists h1. split; [reflexivity|]. split; [exact I1|]. split; [discriminate|auto]. }
    assert (P2 : polite k (world h1) 3) by (apply (polite_part k _ _ 14 3 3 H1 ltac:(lia) P)).
    destruct (read_good h1 d1 STATUS 0 I1 eq_refl ltac:(discriminate) P2) as (h2 & E2 & I2 & K2 & H2). unfold readStatus at 1. rewrite E2.
    assert (V2 : forall g j, local (contents k g STATUS 0 1) j 0 = (128 * Z.b2z (running g) + 16 * Z.b2z (valid k) + flags k) mod 256) by reflexivity. rewrite V2.
    rewrite (proj1 (status_bits (running (world h1)) (valid k) (flags k) F)). destruct (valid k) eqn:VA; cbn [negb].
    2:{ assert (P3 : polite k (world h2) 3) by (apply (polite_part k (world h) (world h2) 14 3 6 ltac:(lia) ltac:(lia) P)). destruct (read_good h2 d1 ERROR_ID 0 I2 eq_refl ltac:(discriminate) P3) as (h3 & E3 & I3 & K3 & H3). unfold readErrorID. rewrite E3.
        exists h3. split; [reflexivity|]. split; [exact I3|]. split; [discriminate|]. intros _. destruct K1, K2, K3. split; congruence. }
    assert (P3 : polite k (world h2) 2) by (apply (polite_part k (world h) (world h2) 14 2 6 ltac:(lia) ltac:(lia) P)). destruct (send_start h2 d1 I2 eq_refl P3) as (h3 & E3 & I3 & R3 & G3 & H3). rewrite E3.
    assert (P4 : polite k (world h3) 3) by (apply (polite_part k (world h) (world h3) 14 3 8 ltac:(lia) ltac:(lia) P)).
    destruct (read_good h3 d1 STATUS 0 I3 eq_refl ltac:(discriminate) P4) as (h4 & E4 & I4 & K4 & H4). unfold readStatus. rewrite E4, V2. rewrite VA in R3. rewrite orb_true_r in R3.
    match goal with |- context [Z.land ?x (Z.shiftl 1 7) =? 0] => replace (Z.land x (Z.shiftl 1 7) =? 0) with false by (symmetry; etransitivity; [exact (proj2 (status_bits (running (world h3)) true (flags k) F))|rewrite R3; reflexivity]) end. cbn [negb].
    assert (R4 : regs (world h4) = regs (world h)) by (destruct K1, K2, K4; congruence).
    assert (P5 : polite k (world h4) 3) by (apply (polite_part k (world h) (world h4) 14 3 11 ltac:(lia) ltac:(lia) P)).
    destruct (send_set h4 d1 1 [0x20] I4 eq_refl ltac:(discriminate) ltac:(rewrite R4, MO; reflexivity) P5) as (h5 & E5 & I5 & (S1 & S2 & S3) & _). change MEAS_MODE with 1. rewrite E5. exists h5. split; [reflexivity|]. split; [exact I5|].
    split; [|discriminate]. intros _. split; [rewrite S2; destruct K4; congruence|]. split; [exact S1|]. intros x X. rewrite (S3 x X), R4. reflexivity.
  Qed.
End Good.
