(** C127: gas index *)
From Verif Require Export Gas_Proofs3.
Open Scope Z_scope.

(** an instance just initialised, or then continued with states kept from before *)
Definition started (nox : bool) (si : Z) (g : gas) : Prop :=
  exists l g0, initWithSamplingInterval nox si l = Some g0 /\ (g = g0 \/ exists state0 state1, setStates g0 state0 state1 = Some g).
Lemma started_inv nox si g : usual_interval si -> started nox si g -> GInv nox si g /\ uptime g = 0.
Proof.
  intros U (l & g0 & I & R). unfold initWithSamplingInterval in I. destruct (init_some nox si l 0 0 U) as (g1 & e & I1 & _ & G & T & _). rewrite I in I1. injection I1 as <-. destruct R as [->|(s0 & s1 & S)]; [auto|].
  unfold setStates in S. destruct (getMean _); [|discriminate]. injection S as <-. destruct G as (A & B & C & D). split; [|exact T]. split; [exact A|]. split; [exact B|]. split; [exact C|exact D].
Qed.

(** Initialisation succeeds for every usual interval. *)
Theorem C127_init nox si l : usual_interval si -> exists g, initWithSamplingInterval nox si l = Some g.
Proof. intros U. destruct (init_some nox si l 0 0 U) as (g & e & I & _). exists g. exact I. Qed.
Print Assumptions C127_init.
(** The index: zero during the initial blackout, then from 1 to 500, whatever the readings, for all time (as long as the floats of the estimate stay finite: then the result is Some). The blackout takes at most 46 calls, exactly 46 at an interval of a second.
    Missing: that mean and deviation stay finite for all time. *)
Theorem C127_range_partial E nox si g readings g' ns : exponential (expf E) -> usual_interval si -> started nox si g -> indices E g readings = Some (g', ns) ->
  length ns = length readings /\ exists k rest, ns = repeat 0 k ++ rest /\ Forall index_value rest /\ (k <= 46)%nat /\ (si = 2 ^ 149 -> rest <> [] -> k = 46%nat).
Proof.
  intros EX U S R. destruct (started_inv nox si g U S) as [G T]. destruct (run_any E nox si readings EX U g g' ns 0 G ltac:(lia) ltac:(rewrite T; lia) R) as (_ & L & k & rest & A & B & C & D).
  split; [exact L|]. exists k, rest. split; [exact A|]. split; [exact B|]. split; [lia|]. intros S1 S2. specialize (D S1 ltac:(rewrite T; reflexivity) ltac:(lia) S2). lia.
Qed.
Print Assumptions C127_range_partial.
(** ... and nothing but the estimate can fail: a further call gives an index if the raw index and the learning are finite *)
Theorem C127_fails_only_there E nox si g readings g' ns v : exponential (expf E) -> usual_interval si -> started nox si g -> indices E g readings = Some (g', ns) ->
  rawIndex E g' (takeSraw (gcfg g') (sraw g') v) <> None -> (forall index, 0 < index < 501 * 2 ^ 149 -> learn E g' (takeSraw (gcfg g') (sraw g') v) index <> None) -> process E g' v <> None.
Proof.
  intros EX U S R A B. destruct (started_inv nox si g U S) as [G T]. destruct (run_any E nox si readings EX U g g' ns 0 G ltac:(lia) ltac:(rewrite T; lia) R) as (G' & _). destruct G' as (C' & G2). rewrite C' in A, B. assert (G' : GInv nox si g') by (split; assumption). apply (process_total E nox si); try assumption.
  clear - U S R T G EX. revert g g' ns S R T G. assert (X : forall vs g g' ns, GInv nox si g -> 0 <= uptime g -> indices E g vs = Some (g', ns) -> 0 <= uptime g').
  { induction vs as [|v vs IH]; intros g g' ns G T R; cbn [indices] in R; [injection R as <- _; exact T|]. destruct (Z.le_gt_cases (uptime g) (45 * ONE)) as [A|A].
    - destruct (process_early E nox si g v U G A T) as (g1 & P & G1 & T1 & _). rewrite P in R. destruct (indices E g1 vs) as [[g2 ms]|] eqn:Q; [|discriminate]. injection R as <- _. apply (IH g1 g2 ms); [exact G1|rewrite T1; destruct U as [_ UI]; apply flq_nonneg; lia|exact Q].
    - destruct (process E g v) as [[g1 n]|] eqn:P; [|discriminate]. destruct (process_late E nox si g v g1 n EX U G A P) as (G1 & T1 & _). destruct (indices E g1 vs) as [[g2 ms]|] eqn:Q; [|discriminate]. injection R as <- _. apply (IH g1 g2 ms); [exact G1|lia|exact Q]. }
  intros g g' ns S R T G. apply (X readings g g' ns G ltac:(lia) R).
Qed.
Print Assumptions C127_fails_only_there.

(** a library for the examples *)
Definition lib : clib := mkLib (fun x => if x <=? 0 then ONE / 2 else 3 * ONE) (fun x => Z.sqrt (x * ONE)).
Definition nothing : lowpass := mkLow 0 0 true 77 88 99.
Lemma lib_exponential : exponential (expf lib).
Proof. intros x. unfold lib, expf. destruct (Z.leb_spec x 0); repeat split; intros; try (vm_compute; discriminate); lia. Qed.
Lemma second_usual : usual_interval (2 ^ 149).
Proof. split; [exists 1, 149; repeat split; lia|split; vm_compute; discriminate]. Qed.
(** 48 seconds, the last reading an error *)
Example C127_range_example : match initWithSamplingInterval false (2 ^ 149) nothing with Some g => match indices lib g (repeat 30000 47 ++ [65535]) with Some (_, ns) => skipn 45 ns | None => [] end | None => [] end = [0; 1; 1].
Proof. vm_compute. reflexivity. Qed.

Example C127_fails_example : match initWithSamplingInterval false (2 ^ 149) nothing with Some g => rawIndex lib g (takeSraw (gcfg g) (sraw g) 30000) <> None /\ forall index, learn lib g (takeSraw (gcfg g) (sraw g) 30000) index <> None | None => False end.
Proof. vm_compute. split; [discriminate|intros; discriminate]. Qed.

(** Readings: those below the range of the gas count as its smallest, those above as the largest; errors (0, negative, 65000 and more) repeat the last valid reading. *)
Theorem C127_clipped E nox si g v : gcfg g = config nox si -> valid_reading v -> process E g v = process E g (Z.max (least_reading nox) (Z.min v (least_reading nox + 32766))).
Proof.
  intros C V. unfold process. rewrite C. assert (T : takeSraw (config nox si) (sraw g) v = takeSraw (config nox si) (sraw g) (Z.max (least_reading nox) (Z.min v (least_reading nox + 32766)))); [|rewrite T; reflexivity].
  unfold takeSraw, valid_reading, least_reading in *. assert (M : srawMinimum (config nox si) = if nox then 10000 else 20000) by (destruct nox; reflexivity). rewrite M. destruct nox;
    repeat match goal with |- context [?a <? ?b] => destruct (Z.ltb_spec a b) end; cbn [andb]; try lia; f_equal; lia.
Qed.
Print Assumptions C127_clipped.
Theorem C127_errors E nox si g v g' n u : exponential (expf E) -> usual_interval si -> started nox si g ->
  forall readings g1 ns, indices E g readings = Some (g1, ns) -> 45 * 2 ^ 149 < uptime g1 -> valid_reading v -> process E g1 v = Some (g', n) -> ~ valid_reading u -> process E g' u = process E g' v.
Proof.
  intros EX U S readings g1 ns R T V P NU. destruct (started_inv nox si g U S) as [G T0]. destruct (run_any E nox si readings EX U g g1 ns 0 G ltac:(lia) ltac:(rewrite T0; lia) R) as (G1 & _).
  destruct (process_late E nox si g1 v g' n EX U G1 T P) as (G' & _ & _ & SR). destruct G' as (C' & _). unfold process. rewrite C'. assert (X : takeSraw (config nox si) (sraw g') u = takeSraw (config nox si) (sraw g') v); [|rewrite X; reflexivity].
  rewrite SR. unfold takeSraw, valid_reading in *. destruct (Z.ltb_spec 0 u), (Z.ltb_spec u 65000), (Z.ltb_spec 0 v), (Z.ltb_spec v 65000); cbn [andb]; try lia; reflexivity.
Qed.
Print Assumptions C127_errors.
Example C127_errors_example : valid_reading 20000 /\ ~ valid_reading 65535 /\ Z.max (least_reading false) (Z.min 20000 (least_reading false + 32766)) = 20001 /\ Z.max (least_reading true) (Z.min 64000 (least_reading true + 32766)) = 42767.
Proof. unfold valid_reading. repeat split; try reflexivity; lia. Qed.

(** After reset() an instance shows what a new one would show, whatever happened before and whatever its memory holds. *)
Theorem C127_reset E nox si g readings g' ns l : exponential (expf E) -> usual_interval si -> started nox si g -> indices E g readings = Some (g', ns) ->
  exists r f, reset g' = Some r /\ initWithSamplingInterval nox si l = Some f /\ forall later, option_map snd (indices E r later) = option_map snd (indices E f later).
Proof.
  intros EX U S R. destruct (started_inv nox si g U S) as [G T]. destruct (run_any E nox si readings EX U g g' ns 0 G ltac:(lia) ltac:(rewrite T; lia) R) as ((C & _) & _).
  unfold reset, initWithSamplingInterval. rewrite C. destruct (init_some nox si (glow g') 0 0 U) as (r & _ & I1 & _). destruct (init_some nox si l 0 0 U) as (f & _ & I2 & _). exists r, f. split; [exact I1|]. split; [exact I2|]. intros later. apply same_indices. apply (init_same nox si _ _ _ _ I1 I2).
Qed.
Print Assumptions C127_reset.
Example C127_reset_example : match initWithSamplingInterval true (2 ^ 149) nothing with Some g => match indices lib g (repeat 15000 47) with Some (g', ns) => skipn 45 ns = [0; 1] /\ lowX3 (glow g') <> 99 | None => False end | None => False end.
Proof. vm_compute. split; [reflexivity|discriminate]. Qed.

(** States kept are taken over unchanged: what was set is read back, also at the end of the blackout (nothing is learnt before an index is shown). *)
Theorem C127_states E nox si l g0 state0 state1 : exponential (expf E) -> usual_interval si -> initWithSamplingInterval nox si l = Some g0 -> is_float state0 -> Z.abs state0 < 2 ^ 277 ->
  exists g, setStates g0 state0 state1 = Some g /\ getStates g = Some (state0, state1) /\
    forall readings g' ns, indices E g readings = Some (g', ns) -> Forall (fun n => n = 0) ns -> getStates g' = Some (state0, state1).
Proof.
  intros EX U I F B. assert (I' := I). unfold initWithSamplingInterval in I. destruct (init_some nox si l 0 0 U) as (g1 & e & I1 & _ & G & T & _ & GE & _ & _ & Of & _). rewrite I in I1. injection I1 as <-. unfold setStates, getMean, estimatorSetStates. cbn [emean eoffset estd]. rewrite GE, Of.
  assert (A : oadd (Some state0) (Some 0) = Some state0). { assert (Q : fadd state0 0 = state0) by (unfold fadd; rewrite Z.add_0_r; apply fl_id, F). rewrite oadd_some; rewrite Q; [reflexivity|exact B]. } rewrite A.
  set (g := mkGas _ _ _ _ _ _ _ _). exists g. split; [reflexivity|]. assert (GS : getStates g = Some (state0, state1)). { unfold getStates, getMean, g. cbn [gest emean eoffset estd]. rewrite A. reflexivity. } split; [exact GS|].
  intros readings g' ns R Z0. assert (SG : started nox si g). { exists l, g0. split; [exact I'|]. right. exists state0, state1. unfold setStates, getMean, estimatorSetStates. cbn [emean eoffset estd]. rewrite GE, Of, A. reflexivity. }
  destruct (started_inv nox si g U SG) as [G' T']. destruct (run_zeros E nox si readings EX U g g' ns G' ltac:(lia) R Z0) as [Q _]. unfold getStates in *. rewrite Q. exact GS.
Qed.
Print Assumptions C127_states.
Example C127_states_example : match initWithSamplingInterval false (2 ^ 149) nothing with Some g => match setStates g (lit 104 10) (lit 65 1) with Some g => match indices lib g (repeat 30000 6) with Some (g', ns) => (fold_left Z.add ns 0, getStates g') | None => (1, None) end | None => (2, None) end | None => (3, None) end = (0, Some (lit 104 10, 65 * 2 ^ 149)).
Proof. vm_compute. reflexivity. Qed.
(** Not for all intervals init() accepts: with an interval of 0 ms the blackout never ends. *)
Theorem C127_interval_refuted E nox l : exists g, initWithSamplingInterval nox 0 l = Some g /\ forall readings, indices E g readings = Some (g, repeat 0 (length readings)).
Proof.
  destruct l as [a1 a2 b x1 x2 x3]. assert (X : exists g, initWithSamplingInterval nox 0 (mkLow a1 a2 b x1 x2 x3) = Some g /\ uptime g = 0 /\ interval (gcfg g) = 0 /\ gasIndex g = 0).
  { destruct nox; match goal with |- exists g, ?t = _ /\ _ => let r := eval vm_compute in t in match r with Some ?k => exists k end end; (split; [vm_compute; reflexivity|]); repeat split. }
  destruct X as (g & I & T & S & G). exists g. split; [exact I|]. induction readings as [|v vs IH]; [reflexivity|]. cbn [indices].
  assert (P : process E g v = Some (g, 0)). { unfold process. rewrite T. assert (L : 0 <=? lit 45 1 = true) by (vm_compute; reflexivity). rewrite L, S, G. assert (A : oadd (Some 0) (Some 0) = Some 0) by (vm_compute; reflexivity). assert (B : shown 0 = Some 0) by (vm_compute; reflexivity). rewrite A, B. destruct g. cbn in T, G |- *. subst. reflexivity. }
  rewrite P, IH. reflexivity.
Qed.
Print Assumptions C127_interval_refuted.

(** Without a valid reading nothing is learnt: mean and deviation stay those of the initialisation, however often the index is asked for *)
Theorem C127_no_reading E nox si l g readings g' ns : usual_interval si -> initWithSamplingInterval nox si l = Some g -> Forall (fun v => ~ valid_reading v) readings ->
  indices E g readings = Some (g', ns) -> getStates g' = getStates g.
Proof.
  intros U I F R. unfold initWithSamplingInterval in I. destruct (init_some nox si l 0 0 U) as (g1 & e & I1 & _ & _ & _ & SR & _). rewrite I in I1. injection I1 as <-.
  assert (X : gest g' = gest g /\ sraw g' = 0); [|unfold getStates; destruct X as [-> _]; reflexivity]. clear I. revert g ns SR R. induction F as [|v vs NV F IH]; intros g ns SR R; cbn [indices] in R.
  - injection R as <- _. auto.
  - destruct (process E g v) as [[g2 n]|] eqn:P; [|discriminate]. destruct (indices E g2 vs) as [[g3 ms]|] eqn:Q; [|discriminate]. injection R as -> _.
    assert (K : gest g2 = gest g /\ sraw g2 = 0).
    { unfold process in P. destruct (uptime g <=? lit 45 1).
      - destruct (oadd _ _); [|discriminate]. destruct (shown _); [|discriminate]. injection P as <- _. auto.
      - assert (T : takeSraw (gcfg g) (sraw g) v = 0). { unfold takeSraw, valid_reading in *. rewrite SR. destruct (Z.ltb_spec 0 v), (Z.ltb_spec v 65000); cbn [andb]; try reflexivity; lia. }
        rewrite T in P. destruct (rawIndex E g 0); [|discriminate]. destruct (lowpassProcess _ _ _ _) as [[l' i']|]; [|discriminate]. unfold learn in P. change (0 <? 0) with false in P. cbv match in P.
        destruct (shown _); [|discriminate]. injection P as <- _. auto. }
    destruct K as [K1 K2]. destruct (IH g2 ms K2 Q) as [A B]. split; [rewrite A; exact K1|exact B].
Qed.
Print Assumptions C127_no_reading.
Example C127_no_reading_example : match initWithSamplingInterval true (2 ^ 149) nothing with Some g => match indices lib g (repeat 65535 47) with Some (g', ns) => skipn 45 ns = [0; 1] /\ ~ valid_reading 65535 | None => False end | None => False end.
Proof. assert (N : ~ valid_reading 65535) by (unfold valid_reading; lia). vm_compute in *. split; [reflexivity|exact N]. Qed.
(** Once states are set the index is computed from them; without them the first NOx index is 1 whatever the reading *)
Theorem C127_states_used E nox si l g0 state0 state1 g raw : initWithSamplingInterval nox si l = Some g0 -> setStates g0 state0 state1 = Some g -> usual_interval si ->
  rawIndex E g raw = match moxProcess (gcfg g) (gmox g) raw with Some x => sigmoidScaled E (gcfg g) (gsig g) x | None => None end
  /\ moxStd (gmox g) = state1 /\ (nox = true -> rawIndex E g0 raw = Some (lit 1 1)).
Proof.
  intros I S U. unfold setStates in S. destruct (getMean _) as [mean|]; [|discriminate]. injection S as <-. split; [|split; [reflexivity|]].
  - unfold rawIndex. cbn [gcfg gest estimatorSetStates einit gmox gsig]. rewrite orb_true_r. reflexivity.
  - intros ->. unfold initWithSamplingInterval in I. destruct (init_some true si l 0 0 U) as (g1 & e & I1 & _ & (C & _) & _ & _ & GE & _ & _ & _ & EI & _). rewrite I in I1. injection I1 as <-.
    unfold rawIndex. rewrite C, GE, EI. reflexivity.
Qed.
Print Assumptions C127_states_used.
Example C127_states_used_example : match initWithSamplingInterval true (2 ^ 149) nothing with Some g0 => match setStates g0 (lit 5000 1) (lit 50 1) with Some g => rawIndex lib g (lit 5300 1) <> Some (lit 1 1) | None => False end | None => False end.
Proof. vm_compute. discriminate. Qed.
