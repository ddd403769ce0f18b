(** C123: every sequence of transfers *)
From Verif Require Export Slv_Proofs.
Open Scope Z_scope.

Lemma meant_regs h h' b sid : regs h h' -> meant (world h') b sid -> meant (world h) b sid.
Proof. intros [A M] H. unfold meant, agrees in *. rewrite A, M in H. exact H. Qed.
Lemma sane_regs h h' : regs h h' -> sane (world h) -> sane (world h').
Proof. intros [A M] H. unfold sane in *. rewrite A, M. exact H. Qed.
Lemma classify o b : is_byte b -> (exists sid, meant o b sid) \/ foreign o b.
Proof.
  intros B. unfold meant, foreign. destruct (Z.eqb_spec b 0) as [E|N].
  - destruct (existsb (fun n => Z.testbit (ADR o n) 0) [0; 1; 2; 3]%nat) eqn:X.
    + left. exists 0%nat. split; [reflexivity|]. apply existsb_exists in X. destruct X as (n & I & T). exists n. split; [cbn in I; lia|exact T].
    + right. intros n L. apply not_true_iff_false. intros T. apply not_true_iff_false in X. apply X. apply existsb_exists. exists n. split; [cbn; lia|exact T].
  - destruct (Z.eq_dec b 1) as [->|N1]; [right; split; [lia|left; reflexivity]|]. unfold is_byte in B.
    assert (D : forall n, agrees o n b \/ ~ agrees o n b) by (intros n; rewrite <- answers_spec; destruct (answers o n b); [left; reflexivity|right; discriminate]).
    destruct (D 0%nat) as [A0|A0]; [left; exists 1%nat; split; [lia|]; exists 0%nat; repeat split; auto; lia|].
    destruct (D 1%nat) as [A1|A1]; [left; exists 2%nat; split; [lia|]; exists 1%nat; repeat split; auto; intros m L; destruct m; [exact A0|lia]|].
    destruct (D 2%nat) as [A2|A2]; [left; exists 3%nat; split; [lia|]; exists 2%nat; repeat split; auto; intros m L; destruct m as [|[|m]]; [exact A0|exact A1|lia]|].
    destruct (D 3%nat) as [A3|A3]; [left; exists 4%nat; split; [lia|]; exists 3%nat; repeat split; auto; intros m L; destruct m as [|[|[|m]]]; [exact A0|exact A1|exact A2|lia]|].
    right. split; [lia|]. right. intros n L. destruct n as [|[|[|[|n]]]]; auto; lia.
Qed.
Section S.
  Context {U : Type} (event : nat -> Z -> U -> xfer -> U * xfer) (quiet : discreet event) (renew : renews event).
  Definition setup (h : hw own) (d : drv U) : Prop := sane (world h) /\ forall b sid, meant (world h) b sid -> slaves d sid <> None.
  Definition allfit (d : drv U) : Prop := forall sid x, slaves d sid = Some x -> fit x.
  Definition inv (h : hw own) (d : drv U) : Prop := setup h d /\
    ((waits h d /\ allfit d) \/
     (exists sid x gc, busy h d sid x (Listening gc) /\ aa h = (1 <? rxSz x) /\ allfit d) \/
     (exists sid x b, offers h d sid x b /\ rxSz x <= Z.of_nat (room x) + 1 /\ forall n y, n <> sid -> slaves d n = Some y -> fit y)).
  Lemma setup_next h h' d d' sid x : setup h d -> regs h h' -> others d d' sid -> slaves d' sid = Some x -> setup h' d'.
  Proof. intros [Sa Se] G O X. split; [exact (sane_regs h h' G Sa)|]. intros b s M. destruct (Nat.eq_dec s sid) as [->|N]; [rewrite X; discriminate|]. rewrite (O s N). exact (Se b s (meant_regs h h' b s G M)). Qed.
  Lemma allfit_next d d' sid x : (forall n y, n <> sid -> slaves d n = Some y -> fit y) -> others d d' sid -> slaves d' sid = Some x -> fit x -> allfit d'.
  Proof. intros F O X Fx n y Y. destruct (Nat.eq_dec n sid) as [->|N]; [rewrite X in Y; injection Y as <-; exact Fx|]. rewrite (O n N) in Y. exact (F n y N Y). Qed.
  Lemma after_done h h' d d' sid es x : setup h d -> (forall n y, n <> sid -> slaves d n = Some y -> fit y) -> regs h h' -> waits h' d' -> reported event d d' sid es x -> inv h' d'.
  Proof.
    intros Se F G W (_ & (u & Eu) & O). cbv zeta in Eu. assert (X : slaves d' sid = Some (snd (event sid 2 u x))) by congruence. split; [exact (setup_next h h' d d' sid _ Se G O X)|]. left. split; [exact W|].
    exact (allfit_next d d' sid _ F O X (renew sid u x)).
  Qed.
  (** whatever goes on, a STOP or START ends it *)
  Lemma inv_end h d : inv h d -> exists h1 d1, interrupt event (ended h) d = Some (h1, d1) /\ waits h1 d1 /\ inv h1 d1 /\ regs h h1.
  Proof.
    intros (Se & [(W & F)|[(sid & x & gc & B & Aa & F)|(sid & x & b & O & Rf & F)]]).
    - exists h, d. split; [exact (still event h d W)|]. split; [exact W|]. split; [split; [exact Se|left; split; assumption]|apply regs_refl].
    - destruct (stop_step event h d sid x _ B) as (h1 & d1 & E & W1 & G1 & R1); [discriminate|]. exists h1, d1. split; [exact E|]. split; [exact W1|]. split; [|exact G1]. apply (after_done h h1 d d1 sid [] _ Se (fun n y _ Y => F n y Y) G1 W1 R1).
    - destruct O as (B & _). destruct (stop_step event h d sid x _ B) as (h1 & d1 & E & W1 & G1 & R1); [discriminate|]. exists h1, d1. split; [exact E|]. split; [exact W1|]. split; [|exact G1]. apply (after_done h h1 d d1 sid [] _ Se F G1 W1 R1).
  Qed.
  Lemma inv_call h d b : inv h d -> waits h d -> is_byte b ->
    exists h' d' s, serve event h d (Call b) = Some (h', d', s) /\ inv h' d' /\ regs h h' /\ (forall sid, meant (world h) b sid -> s = Acked true) /\ (foreign (world h) b -> s = Acked false).
  Proof.
    intros (Se & I) W Bb. assert (F : allfit d). { pose proof W as (_ & _ & _ & _ & _ & P & _). destruct I as [(_ & F)|[(sid & x & gc & B & _)|(sid & x & c & O & _)]]; [exact F| |]; exfalso; [destruct B as (_ & _ & _ & _ & B5 & _)|destruct O as ((_ & _ & _ & _ & B5 & _) & _)]; congruence. }
    pose proof Se as [Sa Sl]. assert (Ex : forall sid, meant (world h) b sid -> foreign (world h) b -> False).
    { intros sid M Fo. unfold meant, foreign in *. destruct (b =? 0); [destruct M as (_ & n & L & T); rewrite (Fo n L) in T; discriminate|]. destruct M as (B & n & L & _ & A & _), Fo as (_ & [->|Fo]); [lia|]. exact (Fo n L A). }
    destruct (classify (world h) b Bb) as [(sid & M)|Fo].
    - destruct (slaves d sid) as [x|] eqn:X; [|exfalso; exact (Sl b sid M X)]. destruct (Z.testbit b 0) eqn:Tb.
      + destruct (call_talk event quiet h d b sid x W Sa M Tb X (proj2 (F sid x X))) as (h1 & d1 & b0 & t & Tx & E & Of & G & _ & O). exists h1, d1, (Acked true). split; [exact E|]. split; [|split; [exact G|split; [reflexivity|intros Fo; destruct (Ex sid M Fo)]]].
        assert (X1 : slaves d1 sid = Some (gaveOne (begun x b) t)) by (destruct Of as ((_ & _ & _ & _ & _ & _ & B7 & _) & _); exact B7).
        split; [exact (setup_next h h1 d d1 sid _ Se G O X1)|]. right. right. exists sid, (gaveOne (begun x b) t), b0. split; [exact Of|]. split; [exact (proj1 (F sid x X))|]. intros n y N Y. rewrite (O n N) in Y. exact (F n y Y).
      + destruct (call_listen event h d b sid x W Sa M Tb X) as (h1 & d1 & E & Bu & Aa & G & _ & O). exists h1, d1, (Acked true). split; [exact E|]. split; [|split; [exact G|split; [reflexivity|intros Fo; destruct (Ex sid M Fo)]]].
        assert (X1 : slaves d1 sid = Some (begun x b)) by (destruct Bu as (_ & _ & _ & _ & _ & _ & B7 & _); exact B7).
        split; [exact (setup_next h h1 d d1 sid _ Se G O X1)|]. right. left. exists sid, (begun x b), (b =? 0). split; [exact Bu|]. split; [exact Aa|].
        exact (allfit_next d d1 sid _ (fun n y _ Y => F n y Y) O X1 (F sid x X)).
    - exists (leaves h), d, (Acked false). pose proof W as (W1 & W2 & W3 & W4 & W5 & W6 & W7). split; [unfold serve; rewrite (still event h d W), (addressed_foreign h b Fo); cbn [fst snd]; unfold interrupt; change (si (leaves h)) with (si h); rewrite W3; reflexivity|].
      assert (G : regs h (leaves h)) by (split; reflexivity). split; [|split; [exact G|split; [intros sid M; destruct (Ex sid M Fo)|reflexivity]]].
      split; [split; [exact (sane_regs _ _ G Sa)|intros c s M; exact (Sl c s (meant_regs _ _ _ _ G M))]|]. left. split; [repeat split; assumption|exact F].
  Qed.
  Definition good_act (a : act) : Prop := match a with Call b => is_byte b | Broken => False | _ => True end.
  Lemma inv_step h d a : inv h d -> good_act a -> exists h' d' s, serve event h d a = Some (h', d', s) /\ inv h' d' /\ regs h h' /\
    match a with Call b => (forall sid, meant (world h) b sid -> s = Acked true) /\ (foreign (world h) b -> s = Acked false) | _ => True end.
  Proof.
    intros I Ga. destruct a as [b|b|ack| |]; [| | | |destruct Ga].
    - destruct (inv_end h d I) as (h1 & d1 & E1 & W1 & I1 & G1). destruct (inv_call h1 d1 b I1 W1 Ga) as (h2 & d2 & s & E2 & I2 & G2 & P1 & P2). exists h2, d2, s.
      split; [unfold serve in *; rewrite E1; rewrite (still event h1 d1 W1) in E2; exact E2|]. split; [exact I2|]. split; [exact (regs_trans _ _ _ G1 G2)|].
      destruct G1 as [GA GM]. unfold meant, foreign, agrees in *. rewrite GA, GM in P1, P2. split; assumption.
    - pose proof I as (Se & [(W & F)|[(sid & x & gc & B & Aa & F)|(sid & x & c & O & Rf & F)]]).
      + pose proof W as (_ & _ & W3 & _ & _ & W6 & _). exists h, d, (Acked false). split; [unfold serve, sent; rewrite W6; cbn [fst snd]; unfold interrupt; rewrite W3; reflexivity|]. split; [exact I|]. split; [apply regs_refl|exact Logic.I].
      + pose proof B as (_ & _ & _ & _ & _ & _ & B7 & _). destruct (Z.ltb_spec 1 (rxSz x)) as [L|L].
        * pose proof (F sid x B7) as [Fr Ft]. destruct (room x) as [|r] eqn:Ro; [lia|]. destruct (rx_step event quiet h d sid x gc b r B Aa Ro) as (h1 & d1 & E & B1 & A1 & G1 & _ & O1). exists h1, d1, (Acked true). split; [exact E|]. split; [|split; [exact G1|exact Logic.I]].
          assert (X1 : slaves d1 sid = Some (gotOne x b r)) by (destruct B1 as (_ & _ & _ & _ & _ & _ & X & _); exact X).
          split; [exact (setup_next h h1 d d1 sid _ Se G1 O1 X1)|]. right. left. exists sid, (gotOne x b r), gc. split; [exact B1|]. split; [exact A1|].
          apply (allfit_next d d1 sid _ (fun n y _ Y => F n y Y) O1 X1). split; [cbn [gotOne rxSz room]; lia|exact Ft].
        * destruct (refuse_step event h d sid x gc b B Aa) as (h1 & d1 & E & W1 & G1 & R1). exists h1, d1, (Acked false). split; [exact E|]. split; [|split; [exact G1|exact Logic.I]]. apply (after_done h h1 d d1 sid [] _ Se (fun n y _ Y => F n y Y) G1 W1 R1).
      + pose proof O as ((O1 & O2 & O3 & O4 & O5 & O6) & _). exists h, d, (Acked false). split; [unfold serve, sent; rewrite O5; cbn [fst snd]; unfold interrupt; rewrite O3; reflexivity|]. split; [exact I|]. split; [apply regs_refl|exact Logic.I].
    - pose proof I as (Se & [(W & F)|[(sid & x & gc & B & Aa & F)|(sid & x & c & O & Rf & F)]]).
      + pose proof W as (_ & _ & W3 & _ & _ & W6 & _). exists h, d, (Got 0xff). split; [unfold serve, fetched; rewrite W6; cbn [fst snd]; unfold interrupt; rewrite W3; reflexivity|]. split; [exact I|]. split; [apply regs_refl|exact Logic.I].
      + pose proof B as (B1 & B2 & B3 & B4 & B5 & _). exists h, d, (Got 0xff). split; [unfold serve, fetched; rewrite B5; cbn [fst snd]; unfold interrupt; rewrite B3; reflexivity|]. split; [exact I|]. split; [apply regs_refl|exact Logic.I].
      + assert (C : (ack = true /\ 0 < txSz x) \/ (ack = false \/ txSz x = 0)) by (destruct O as (_ & _ & _ & Sz); destruct ack; [destruct (Z.eq_dec (txSz x) 0); [right; right; assumption|left; split; [reflexivity|lia]]|right; left; reflexivity]).
        destruct C as [(-> & P)|C].
        * destruct (tx_step event quiet h d sid x c O P) as (h1 & d1 & b' & t & Tx & E & Of & G1 & _ & O1). exists h1, d1, (Got c). split; [exact E|]. split; [|split; [exact G1|exact Logic.I]].
          assert (X1 : slaves d1 sid = Some (gaveOne x t)) by (destruct Of as ((_ & _ & _ & _ & _ & _ & X & _) & _); exact X).
          split; [exact (setup_next h h1 d d1 sid _ Se G1 O1 X1)|]. right. right. exists sid, (gaveOne x t), b'. split; [exact Of|]. split; [exact Rf|]. intros n y N Y. rewrite (O1 n N) in Y. exact (F n y N Y).
        * destruct (last_step event h d sid x c ack O C) as (h1 & d1 & E & W1 & G1 & R1). exists h1, d1, (Got c). split; [exact E|]. split; [|split; [exact G1|exact Logic.I]]. apply (after_done h h1 d d1 sid [] _ Se F G1 W1 R1).
    - destruct (inv_end h d I) as (h1 & d1 & E1 & W1 & I1 & G1). exists h1, d1, Nothing. split; [unfold serve; cbn [fst snd]; rewrite E1; reflexivity|]. split; [exact I1|]. split; [exact G1|exact Logic.I].
  Qed.
  Lemma inv_run l : forall h d, inv h d -> Forall good_act l -> exists h' d' r, serves event h d l = Some (h', d', r) /\ inv h' d' /\ regs h h'.
  Proof.
    induction l as [|a l IH]; intros h d I G; [exists h, d, []; split; [reflexivity|]; split; [exact I|apply regs_refl]|]. inversion G as [|? ? Ga Gl]; subst.
    destruct (inv_step h d a I Ga) as (h1 & d1 & s & E & I1 & G1 & _). destruct (IH h1 d1 I1 Gl) as (h2 & d2 & r & E2 & I2 & G2). exists h2, d2, (s :: r). cbn [serves]. rewrite E, E2. split; [reflexivity|]. split; [exact I2|exact (regs_trans _ _ _ G1 G2)].
  Qed.
End S.
