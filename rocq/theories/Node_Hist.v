(** A device with communication objects: histories *)
From Verif Require Import Base Bits Telegram_Model Device_Model Device_Spec Device_Spec3 Device_TL Device_Status Device_Proofs Device_Wf Device_Steps Device_Bytes Device_Refine Device_Refine2 Device_Client Device_Restart Device_Answer.
From Verif Require Import Node_Model Node_Spec Node_Proofs Node_Pass Node_Pass2.
From Verif Require ComObj_Model ComObj_Spec ComObj_Next ComObj_Proofs ComObj_Values ComObj_Props Rate_Model Rate_Spec Rate_Props TL4_Spec Node_Com Device_Props.

Definition names (g : ComObj_Model.cfg) (a : appCall) : Prop :=
  match a with AWrite q _ | ASet q _ | AUpdate q _ | AWritten q | ARequestRead q => (q < ComObj_Spec.num_objs g)%nat | ANext => True end.
Section Hist.
Variable c : conf.
Hypothesis K : conf_ok c.
Hypothesis T : tables_ok c.
Hypothesis SZ : sized c.
Variable g : ComObj_Model.cfg.
Hypothesis SG : settled g.
Lemma fit_ok x : healthy c (ndev x) -> installed c (nle x) (mem (ndev x)) g -> ComObj_Spec.mem_ok g (contents c x).
Proof.
  intros H I. destruct (i_ram _ _ _ _ I) as (_ & R). destruct (i_ee _ _ _ _ I) as (_ & E). apply (fit_mem c g _ SZ R E). rewrite contents_user. apply userMem_fit. apply H.
Qed.
(** a call of the application *)
Lemma app_does a x y l : ngood c x -> installed c (nle x) (mem (ndev x)) g -> running (ndev x) = true -> names g a -> nstep c x (NApp a) = Some (y, l) ->
  contents c y = fst (callMem g a (contents c x)) /\ l = map NResult (snd (callMem g a (contents c x))) /\ tl (ndev y) = tl (ndev x) /\ running (ndev y) = true /\
  nnext y = nnext x /\ ngroup y = ngroup x /\ nle y = nle x /\ nrate y = nrate x /\ eeModified (mem (ndev y)) = eeModified (mem (ndev x)) /\ eeData (mem (ndev y)) = eeData (mem (ndev x)) /\
  status (mem (ndev y)) = status (mem (ndev x)) /\ runState (ndev y) = runState (ndev x).
Proof.
  intros (H & N) I R NA. pose proof (installed_tables c _ _ _ K (proj1 (proj1 H)) I (s_cfg g SG)) as TB. unfold nstep. rewrite R, TB.
  destruct (i_ram _ _ _ _ I) as (_ & GR). destruct (i_ee _ _ _ _ I) as (_ & GE). pose proof (userMem_fit c _ (proj1 (proj1 H))) as F.
  pose proof (call_fit c SZ g GR GE a _ F) as CF.
  assert (B : based c (eeData (mem (ndev x))) (fst (callMem g a (userMem c (mem (ndev x)))))).
  { pose proof (based_bytes c (eeData (mem (ndev x)))) as BB. pose proof (kv g SG c SZ GR GE (eeData (mem (ndev x)))) as V. pose proof (kf g SG c SZ GR GE (eeData (mem (ndev x)))) as W.
    assert (B0 : based c (eeData (mem (ndev x))) (userMem c (mem (ndev x)))) by (split; [exact F|reflexivity]).
    destruct a as [q v|q v|q v|q|q|]; cbn [callMem fst names] in *.
    - apply (Node_Com.write_keeps g (listed g) _ V W); assumption.
    - apply (Node_Com.write_keeps g (listed g) _ V W); assumption.
    - apply (Node_Com.write_keeps g (listed g) _ V W); assumption.
    - apply (Node_Com.add_keeps g _ W); assumption.
    - apply (Node_Com.set_keeps g _ W); assumption.
    - pose proof (Node_Com.next_keeps g _ W _ B0) as Q. destruct (ComObj_Model.nextUpdatedObject _ _). exact Q. }
  destruct (callMem g a (userMem c (mem (ndev x)))) as [m r] eqn:E. cbn [fst snd] in *. intros Q. apply (f_equal (fun o => match o with Some p => p | None => (y, l) end)) in Q. cbv beta iota in Q.
  pose proof (f_equal fst Q) as Q1. pose proof (f_equal snd Q) as Q2. cbn [fst snd] in Q1, Q2. subst y l. clear Q. rewrite !contents_user. rewrite E. cbn [fst snd ndev setDev nnext ngroup nle nrate tl running runState mem setMem].
  split; [apply user_stored; apply CF|]. split; [reflexivity|]. split; [reflexivity|]. split; [exact R|]. repeat (split; [reflexivity|]). split; [apply B|]. split; reflexivity.
Qed.
(** requests survive calls of the application *)
Lemma land3 v : v mod 4 = Z.land v 3.
Proof. symmetry. apply (Z.land_ones v 2). lia. Qed.
Lemma lor_keeps v f : v mod 4 = 3 -> Z.lor v f mod 4 = 3.
Proof.
  rewrite !land3. intros H. apply Z.bits_inj'. intros n Hn. pose proof (f_equal (fun z => Z.testbit z n) H) as B. cbv beta in B. rewrite Z.land_spec in *. rewrite Z.lor_spec.
  destruct (Z.testbit 3 n), (Z.testbit v n), (Z.testbit f n); cbn in *; congruence.
Qed.
Lemma lor_asks v : Z.lor v 3 mod 4 = 3.
Proof. rewrite land3. apply Z.bits_inj'. intros n Hn. rewrite Z.land_spec, Z.lor_spec. destruct (Z.testbit 3 n), (Z.testbit v n); reflexivity. Qed.
Lemma land7_keeps v : Z.land v 7 mod 4 = v mod 4.
Proof. rewrite !land3, <- Z.land_assoc. reflexivity. Qed.
Lemma call_pending a m p : (p < ComObj_Spec.num_objs g)%nat -> ComObj_Spec.mem_ok g m -> names g a -> (forall v, a <> ASet p v /\ a <> AUpdate p v) -> ComObj_Spec.pending g m p -> ComObj_Spec.pending g (fst (callMem g a m)) p.
Proof.
  intros P M NA NE H. unfold ComObj_Spec.pending in *. pose proof (s_cfg g SG) as C. destruct (s_layout g SG) as (LF & LO & LD & _).
  assert (EW : forall q v f, (q < ComObj_Spec.num_objs g)%nat -> 0 <= f < 16 -> (q = p -> f mod 4 = 3) -> ComObj_Spec.flags g (ComObj_Model.objectWrite_ g q v f m) p mod 4 = 3).
  { intros q v f Q F S. destruct (ComObj_Values.objectWrite_effect g m q v f C M LF (LO q Q) (fun a => LD q a Q) F) as (_ & _ & _ & E). rewrite E by exact P. destruct (Nat.eqb_spec p q) as [->|]; auto. }
  destruct a as [q v|q v|q v|q|q|]; cbn [callMem fst names] in *.
  - apply EW; [exact NA|unfold ComObj_Model.COMFLAG_TRANSREQ; lia|reflexivity].
  - apply EW; [exact NA|lia|]. intros ->. destruct (NE v) as (X & _). destruct (X eq_refl).
  - apply EW; [exact NA|unfold ComObj_Model.COMFLAG_UPDATE; lia|]. intros ->. destruct (NE v) as (_ & X). destruct (X eq_refl).
  - unfold ComObj_Model.objectWritten. destruct (ComObj_Proofs.addObjectFlags_step g m q 3 C M LF NA ltac:(lia)) as (_ & _ & E). unfold ComObj_Model.COMFLAG_TRANSREQ. rewrite E. destruct (Nat.eqb p q); [apply lor_asks|exact H].
  - unfold ComObj_Model.requestObjectRead. change (Z.lor ComObj_Model.COMFLAG_TRANSREQ ComObj_Model.COMFLAG_DATAREQ) with 7. destruct (ComObj_Proofs.setObjectFlags_step g m q 7 C M LF NA ltac:(lia)) as (_ & _ & E). rewrite E. destruct (Nat.eqb p q); [reflexivity|exact H].
  - destruct (ComObj_Values.nextUpdated_spec g m C M LF (s_some g SG)) as [(q & _ & _ & _ & E1 & _ & _ & E)|(_ & E)]; [|rewrite E; exact H].
    destruct (ComObj_Model.nextUpdatedObject g m) as [n m']. cbn [fst snd] in *. rewrite E. destruct (Nat.eqb p q) eqn:PQ; [|exact H]. rewrite land7_keeps. exact H.
Qed.
Lemma reacts_pending h m m' ts p : (p < ComObj_Spec.num_objs g)%nat -> reacts g h m m' ts -> ComObj_Spec.pending g m p -> ComObj_Spec.pending g m' p.
Proof.
  intros P R H. unfold ComObj_Spec.pending in *. assert (S : same_objects g m m' -> ComObj_Spec.flags g m' p mod 4 = 3) by (intros S; destruct (S p P) as (_ & ->); exact H).
  assert (TK : forall t, takes g t m m' -> ComObj_Spec.flags g m' p mod 4 = 3).
  { intros t (A & B). destruct (Z.eq_dec (ComObj_Spec.flags g m' p mod 4) 3) as [|NE]; [assumption|]. exfalso. apply NE.
    destruct (B p P) as (_ & ->); [|exact H]. intros (D1 & D2). apply NE. destruct (A p D1 D2) as (_ & -> & _). apply lor_keeps. exact H. }
  unfold reacts in R. destruct h as [t|]; [|apply S; apply R]. destruct (command t =? 0x80); [apply (TK t); apply R|]. destruct (command t =? 0x40); [apply (TK t); apply R|]. destruct (command t =? 0); [|apply S; apply R].
  destruct R as [(_ & _ & Q)|(k & _ & _ & _ & Q & _)]; [apply S; exact Q|]. specialize (Q p P). unfold ComObj_Spec.request in Q.
  replace (ComObj_Spec.flags g m' p mod 4) with ((ComObj_Spec.flags g m' p mod 8) mod 4) by (Z.div_mod_to_equations; lia). rewrite Q. replace ((ComObj_Spec.flags g m p mod 8) mod 4) with (ComObj_Spec.flags g m p mod 4) by (Z.div_mod_to_equations; lia). exact H.
Qed.
(** ** No object is forgotten *)
Lemma shift_set ks : NoDup ks -> exists ks', NoDup ks' /\ (forall k, In k ks' <-> In (S k) ks) /\ (length ks <= S (length ks'))%nat /\ (~ In 0%nat ks -> length ks = length ks').
Proof.
  induction ks as [|a r IH]; intros ND; [exists []; cbn; split; [constructor|]; split; [tauto|]; split; [lia|reflexivity]|].
  inversion ND as [|? ? NI ND']; subst. destruct (IH ND') as (ks' & A & B & C & D). destruct a as [|b].
  - exists ks'. split; [exact A|]. split; [intros k; rewrite B; cbn [In]; intuition discriminate|]. cbn [length]. rewrite (D NI). split; [lia|]. intros N. destruct N. left. reflexivity.
  - exists (b :: ks'). split; [constructor; [rewrite B; exact NI|exact A]|]. split; [|cbn [length]; split; [lia|intros N; rewrite D; [reflexivity|intros Q; apply N; right; exact Q]]].
    intros k. cbn [In]. rewrite B. split; (intros [Q|Q]; [left; congruence|right; exact Q]).
Qed.
Definition ready (p : nat) (x : node) : Prop := ngood c x /\ installed c (nle x) (mem (ndev x)) g /\ eeModified (mem (ndev x)) = false /\ ComObj_Spec.pending g (contents c x) p.
Definition idx_of (x : node) : nat := Z.to_nat (nnext x mod Z.of_nat (ComObj_Spec.num_objs g)).
Definition wait_of (p : nat) (x : node) : nat := ComObj_Next.delay (ComObj_Spec.num_objs g) (idx_of x) p.
Definition chance (o : nop) (x y : node) : Prop := exists i, o = NLoop i /\ may_send c i x y.
Lemma wait_step p q x y : (p < ComObj_Spec.num_objs g)%nat -> (idx_of x <= q < ComObj_Spec.num_objs g)%nat -> (idx_of x <= p -> q < p)%nat -> nnext y = Z.of_nat q + 1 -> (wait_of p y < wait_of p x)%nat.
Proof.
  intros P Q L N. unfold wait_of. assert (ID : idx_of y = if Nat.eqb (S q) (ComObj_Spec.num_objs g) then 0%nat else S q) by (unfold idx_of; rewrite N; apply ComObj_Next.next_idx; lia). rewrite ID. set (idx := idx_of x) in *. clearbody idx. clear ID N.
  unfold ComObj_Next.delay. destruct (Nat.leb idx p) eqn:L1.
  - apply Nat.leb_le in L1. specialize (L L1). replace (Nat.eqb (S q) (ComObj_Spec.num_objs g)) with false by (symmetry; apply Nat.eqb_neq; lia).
    replace (Nat.leb (S q) p) with true by (symmetry; apply Nat.leb_le; lia). lia.
  - apply Nat.leb_gt in L1. destruct (Nat.eqb (S q) (ComObj_Spec.num_objs g)); [change (Nat.leb 0 p) with true; cbv iota; lia|].
    replace (Nat.leb (S q) p) with false by (symmetry; apply Nat.leb_gt; lia). lia.
Qed.
Lemma pending_request m m' p : ComObj_Spec.request g m' p = ComObj_Spec.request g m p -> ComObj_Spec.pending g m p -> ComObj_Spec.pending g m' p.
Proof.
  unfold ComObj_Spec.request, ComObj_Spec.pending. intros Q H. replace (ComObj_Spec.flags g m' p mod 4) with ((ComObj_Spec.flags g m' p mod 8) mod 4) by (Z.div_mod_to_equations; lia). rewrite Q.
  replace ((ComObj_Spec.flags g m p mod 8) mod 4) with (ComObj_Spec.flags g m p mod 4) by (Z.div_mod_to_equations; lia). exact H.
Qed.
Lemma pending_same m m' p : (p < ComObj_Spec.num_objs g)%nat -> same_objects g m m' -> ComObj_Spec.pending g m p -> ComObj_Spec.pending g m' p.
Proof. intros P S. unfold ComObj_Spec.pending. destruct (S p P) as (_ & ->). auto. Qed.
(** one operation: [p] is served, or still waits, not longer than before, and less if there was a chance *)
Lemma one_step p o x y l : (p < ComObj_Spec.num_objs g)%nat -> ComObj_Spec.sendable g p -> ready p x -> nop_ok o -> calm g p x o -> nstep c x o = Some (y, l) ->
  (exists i, o = NLoop i /\ served c g p i x y l) \/ (ready p y /\ (wait_of p y <= wait_of p x)%nat /\ (chance o x y -> (wait_of p y < wait_of p x)%nat)).
Proof.
  intros P SE (G & I & M & PE) OK CA E. pose proof (nstep_ok c K T SZ _ _ _ _ OK G E) as GY.
  destruct (running (ndev x)) eqn:R.
  2:{ unfold nstep in E. rewrite R in E. injection E as <- <-. right. split; [split; auto|]. split; [lia|]. intros (i & -> & (MR & _)). congruence. }
  destruct o as [i|ok|a|v|b].
  - unfold nstep in E. rewrite R in E. destruct (nodeLoop c i x) as [[z o]|] eqn:NL; [|discriminate]. injection E as <- <-.
    destruct (pass_does c K T SZ g SG _ _ _ _ G I OK CA NL) as (m & ts1 & ts2 & RE & TS & CASES & _ & LE & _ & EE & _). destruct (EE M) as (EY & MY).
    assert (IY : installed c (nle z) (mem (ndev z)) g) by (rewrite LE; apply (installed_same _ _ (mem (ndev x))); assumption). pose proof (reacts_pending _ _ _ _ _ P RE PE) as PM.
    destruct CASES as [(MS & S)|(MS & -> & S & N)].
    + cbn [fst snd]. destruct S as [(q & t & Q1 & Q2 & Q3 & -> & Q5 & Q6)|(Q1 & -> & Q3 & Q4)].
      * destruct (Nat.eq_dec q p) as [->|NE]. { left. exists i. split; [reflexivity|]. exists m, ts1, t. auto. }
        right. assert (W : (wait_of p z < wait_of p x)%nat). { apply (wait_step p q); auto. intros L. destruct (Nat.lt_trichotomy q p) as [|[|L2]]; auto; [congruence|]. destruct (Q3 p); [split; [exact L|exact L2]|split; assumption]. }
        split; [|split; [lia|intros _; exact W]]. split; [exact GY|]. split; [exact IY|]. split; [exact MY|]. destruct Q5 as (a & _ & _ & _ & _ & RQ & _). apply (pending_request m); [apply RQ; auto|exact PM].
      * right. assert (W : (wait_of p z < wait_of p x)%nat). { apply (wait_step p (idx_of x)); auto; [|intros L; destruct (Q1 p); [split; [exact L|exact P]|split; assumption]]. split; [lia|]. unfold idx_of. pose proof (Z.mod_pos_bound (nnext x) (Z.of_nat (ComObj_Spec.num_objs g)) ltac:(lia)). lia. }
        split; [|split; [lia|intros _; exact W]]. split; [exact GY|]. split; [exact IY|]. split; [exact MY|]. apply (pending_same m); assumption.
    + right. cbn [fst snd]. split; [split; [exact GY|]; split; [exact IY|]; split; [exact MY|apply (pending_same m); assumption]|]. unfold wait_of, idx_of. rewrite N. split; [lia|]. intros (j & Q & MJ). injection Q as <-. destruct (MS MJ).
  - unfold nstep in E. rewrite R in E. destruct (step (tl (ndev x)) (OpTxDone ok)) as [[s o]|]; [|discriminate]. injection E as <- <-. right. split; [split; auto|]. split; [unfold wait_of, idx_of; cbn [nnext setDev]; lia|]. intros (j & Q & _). discriminate.
  - assert (NA : names g a) by (destruct a; cbn in *; tauto). assert (NE : forall v, a <> ASet p v /\ a <> AUpdate p v) by (intros v; split; intros ->; cbn in CA; destruct CA as (_ & X); exact (X eq_refl)).
    destruct (app_does a x y l G I R NA E) as (C1 & _ & _ & _ & C5 & _ & C7 & _ & C9 & C10 & _). right. split.
    + split; [exact GY|]. split; [rewrite C7; apply (installed_same _ _ (mem (ndev x))); assumption|]. split; [congruence|]. rewrite C1. apply call_pending; auto. apply fit_ok; [apply G|exact I].
    + unfold wait_of, idx_of. rewrite C5. split; [lia|]. intros (j & Q & _). discriminate.
  - unfold nstep in E. rewrite R in E. injection E as <- <-. right. split; [split; auto|]. split; [unfold wait_of, idx_of; cbn [nnext setDev]; lia|]. intros (j & Q & _). discriminate.
  - unfold nstep in E. rewrite R in E. injection E as <- <-. right. split; [split; auto|]. split; [unfold wait_of, idx_of; cbn [nnext setDev]; lia|]. intros (j & Q & _). discriminate.
Qed.
Lemma served_at p : (p < ComObj_Spec.num_objs g)%nat -> ComObj_Spec.sendable g p -> forall ops x y outs ks, ready p x -> nruns c ops x = Some (y, outs) -> Forall nop_ok ops ->
  (forall k o z, nth_error ops k = Some o -> nth_error (states c x ops) k = Some z -> calm g p z o) -> NoDup ks -> (wait_of p x <= length ks)%nat ->
  (forall k, In k ks -> exists i z z', nth_error ops k = Some (NLoop i) /\ nth_error (states c x ops) k = Some z /\ nth_error (states c x ops) (S k) = Some z' /\ may_send c i z z') ->
  exists k i z z' l, nth_error ops k = Some (NLoop i) /\ nth_error (states c x ops) k = Some z /\ nth_error (states c x ops) (S k) = Some z' /\ nth_error outs k = Some l /\ served c g p i z z' l.
Proof.
  intros P SE. induction ops as [|o r IH]; intros x y outs ks RD E OK CA ND LE CH.
  { destruct ks as [|k ks]. { unfold wait_of, ComObj_Next.delay in LE. cbn [length] in LE. destruct (Nat.leb _ p) in LE; lia. } destruct (CH k (or_introl eq_refl)) as (i & z & z' & Q & _). destruct k; discriminate. }
  cbn [nruns] in E. destruct (nstep c x o) as [[x1 l]|] eqn:S1; [|discriminate]. destruct (nruns c r x1) as [[x2 ls]|] eqn:S2; [|discriminate]. injection E as <- <-. inversion OK as [|? ? OK1 OK2]; subst.
  assert (HD : nth_error (states c x (o :: r)) 1 = Some x1) by (cbn [states]; rewrite S1; destruct r; reflexivity).
  assert (CA1 : calm g p x o) by (apply (CA 0%nat); reflexivity).
  destruct (one_step p o x x1 l P SE RD OK1 CA1 S1) as [(i & -> & SV)|(RD1 & W1 & W2)].
  { exists 0%nat, i, x, x1, l. split; [reflexivity|]. split; [reflexivity|]. split; [exact HD|]. split; [reflexivity|exact SV]. }
  destruct (shift_set ks ND) as (ks' & A & B & C1 & C2).
  destruct (IH x1 x2 ls ks' RD1 S2 OK2) as (k & i & z & z' & l' & Q1 & Q2 & Q3 & Q4 & Q5).
  - intros k o' z N1 N2. apply (CA (S k)); [exact N1|]. cbn [states nth_error]. rewrite S1. exact N2.
  - exact A.
  - destruct (in_dec Nat.eq_dec 0%nat ks) as [Z|Z]; [|rewrite <- (C2 Z); lia]. destruct (CH 0%nat Z) as (i & z & z' & N1 & N2 & N3 & N4). rewrite HD in N3. cbn [nth_error] in N1. cbn [states nth_error] in N2. injection N1 as ->. injection N2 as <-. injection N3 as <-.
    assert (wait_of p x1 < wait_of p x)%nat by (apply W2; exists i; auto). lia.
  - intros k Q. apply B in Q. destruct (CH (S k) Q) as (i & z & z' & N1 & N2 & N3 & N4). cbn [nth_error states] in N1, N2, N3. rewrite S1 in N2, N3. exists i, z, z'. auto.
  - exists (S k), i, z, z', l'. cbn [nth_error states]. rewrite S1. auto 10.
Qed.
Lemma delay_at p x : settled g -> (p < ComObj_Spec.num_objs g)%nat -> (wait_of p x <= ComObj_Spec.num_objs g)%nat.
Proof. intros _ P. apply ComObj_Next.delay_le; [exact P|]. unfold idx_of. pose proof (Z.mod_pos_bound (nnext x) (Z.of_nat (ComObj_Spec.num_objs g)) ltac:(lia)). lia. Qed.
End Hist.
