(** C23 *)
From Verif Require Import Base Telegram_Model Rate_Model Rate_Spec.
From Verif Require ComObj_Model ComObj_Spec ComObj_Props.

Lemma spacing_range l : 35 <= spacing l <= 1000.
Proof.
  unfold spacing. destruct ((1 <=? l) && (l <=? 28)) eqn:E; [|vm_compute; split; discriminate]. split.
  - apply Z.div_le_lower_bound; lia.
  - apply Z.div_le_upper_bound; lia.
Qed.
Lemma set_spacing l r : groupTelWaitMillis (setGroupTelRateLimit l r) = spacing l.
Proof.
  unfold setGroupTelRateLimit, spacing, MAX_GROUP_TEL_PER_SECOND. cbn [groupTelWaitMillis]. replace (1 <=? l) with (0 <? l) by lia. reflexivity.
Qed.
Lemma elapsed_exact t g : elapsed t (u32 g) = u32 (t - g).
Proof. unfold elapsed, millis, u32. rewrite <- Zminus_mod. reflexivity. Qed.
Lemma u32_le x : 0 <= x -> u32 x <= x.
Proof. intros H. unfold u32. apply Z.mod_le; lia. Qed.
Lemma u32_add g x : u32 (u32 g + x) = u32 (g + x).
Proof. unfold u32. apply Zplus_mod_idemp_l. Qed.
(** [g]: the true time that groupTelSent stands for *)
Definition stands (r : rate) (g : Z) : Prop := groupTelSent r = u32 g.
Lemma loop_step t1 t2 t3 q r g : stands r g -> g <= t1 -> t1 <= t2 -> t2 <= t3 ->
  exists g', stands (snd (loop t1 t2 t3 q r)) g' /\ g <= g' <= t3 /\ groupTelWaitMillis (snd (loop t1 t2 t3 q r)) = groupTelWaitMillis r /\
    (fst (loop t1 t2 t3 q r) = true -> g + groupTelWaitMillis r <= t1 /\ t2 <= g').
Proof.
  unfold stands, loop. intros E H1 H2 H3. rewrite E, elapsed_exact. set (go := (groupTelWaitMillis r <=? u32 (t1 - g)) && q). cbn [fst snd groupTelSent groupTelWaitMillis].
  assert (G : exists g1, (if go then millis t2 else u32 g) = u32 g1 /\ g <= g1 <= t2 /\ (go = true -> g1 = t2)).
  { destruct go; [exists t2|exists g]; repeat split; try lia; auto; discriminate. }
  destruct G as (g1 & -> & G1 & G2). rewrite elapsed_exact. pose proof (u32_le (t3 - g1) ltac:(lia)) as U. pose proof (u32_le (t1 - g) ltac:(lia)) as V.
  destruct (2000 <=? u32 (t3 - g1)) eqn:T; [exists (g1 + 1000); rewrite u32_add|exists g1]; (split; [reflexivity|]); (split; [lia|]); (split; [reflexivity|]); intros GO; rewrite GO in *; specialize (G2 eq_refl); unfold go in GO; apply andb_true_iff in GO; lia.
Qed.
Lemma safe : forall evs r g now l j u1 u2 u3 q, ordered now evs -> stands r g -> g <= now -> groupTelWaitMillis r = spacing l ->
  nth_error evs j = Some (Loop u1 u2 u3 q) -> nth_error (run evs r) j = Some true -> g + spacing (limit_at l evs j) <= u1.
Proof.
  induction evs as [|e evs IH]; intros r g now l j u1 u2 u3 q HO HS HG HW HE HR; [destruct j; discriminate|].
  destruct e as [t1 t2 t3 q0|x].
  - destruct HO as (O1 & O2 & O3). destruct (loop_step t1 t2 t3 q0 r g HS ltac:(lia) ltac:(lia) O2) as (g' & S' & G' & W' & X).
    cbn [run step] in HR. destruct (loop t1 t2 t3 q0 r) as [b r'] eqn:L. cbn [fst snd] in *. destruct j as [|j].
    + cbn [nth_error limit_at] in *. injection HE as <- <- <- <-. injection HR as ->. rewrite <- HW. apply X; auto.
    + cbn [nth_error limit_at] in *. specialize (IH r' g' t3 l j u1 u2 u3 q O3 S' ltac:(lia) ltac:(congruence) HE HR). lia.
  - cbn [run step] in HR. destruct j as [|j]; [discriminate|]. cbn [nth_error limit_at ordered] in *.
    apply (IH (setGroupTelRateLimit x r) g now x j u1 u2 u3 q); auto. apply set_spacing.
Qed.
Lemma two_sends : forall evs r g now l i j t1 t2 t3 qi u1 u2 u3 qj, ordered now evs -> stands r g -> g <= now -> groupTelWaitMillis r = spacing l -> (i < j)%nat ->
  nth_error evs i = Some (Loop t1 t2 t3 qi) -> nth_error (run evs r) i = Some true ->
  nth_error evs j = Some (Loop u1 u2 u3 qj) -> nth_error (run evs r) j = Some true -> t2 + spacing (limit_at l evs j) <= u1.
Proof.
  induction evs as [|e evs IH]; intros r g now l i j t1 t2 t3 qi u1 u2 u3 qj HO HS HG HW HL HEi HRi HEj HRj; [destruct i; discriminate|].
  destruct j as [|j]; [lia|]. destruct e as [s1 s2 s3 q0|x].
  - destruct HO as (O1 & O2 & O3). destruct (loop_step s1 s2 s3 q0 r g HS ltac:(lia) ltac:(lia) O2) as (g' & S' & G' & W' & X).
    cbn [run step] in HRi, HRj. destruct (loop s1 s2 s3 q0 r) as [b r'] eqn:L. cbn [fst snd] in *. cbn [nth_error limit_at] in *. destruct i as [|i].
    + cbn [nth_error] in *. injection HEi as <- <- <- <-. injection HRi as ->. destruct (X eq_refl) as [_ X2].
      pose proof (safe evs r' g' s3 l j u1 u2 u3 qj O3 S' ltac:(lia) ltac:(congruence) HEj HRj). lia.
    + cbn [nth_error] in *. apply (IH r' g' s3 l i j t1 t2 t3 qi u1 u2 u3 qj); auto; try lia; try congruence.
  - cbn [run step] in HRi, HRj. destruct i as [|i]; [discriminate|]. cbn [nth_error limit_at ordered] in *.
    apply (IH (setGroupTelRateLimit x r) g now x i j t1 t2 t3 qi u1 u2 u3 qj); auto; try lia. apply set_spacing.
Qed.
(** Between two telegrams the device sends on its own behalf there are at least 1000/L ms, L the limit in force at the second one, for every history.
    Missing for the full claim: responses to read requests are not limited, see below. *)
Theorem C23_rate_limit_partial : forall t0 evs i j t1 t2 t3 qi u1 u2 u3 qj, ordered t0 evs -> (i < j)%nat ->
  nth_error evs i = Some (Loop t1 t2 t3 qi) -> nth_error (run evs (begin_ t0)) i = Some true ->
  nth_error evs j = Some (Loop u1 u2 u3 qj) -> nth_error (run evs (begin_ t0)) j = Some true -> t2 + spacing (limit_at 28 evs j) <= u1.
Proof. intros t0 evs i j t1 t2 t3 qi u1 u2 u3 qj HO. apply (two_sends evs (begin_ t0) t0 t0 28); auto; try reflexivity; lia. Qed.
Print Assumptions C23_rate_limit_partial.
(** Nor is the first telegram sent earlier than that after the start. *)
Theorem C23_first_telegram : forall t0 evs j u1 u2 u3 q, ordered t0 evs -> nth_error evs j = Some (Loop u1 u2 u3 q) -> nth_error (run evs (begin_ t0)) j = Some true ->
  t0 + spacing (limit_at 28 evs j) <= u1.
Proof. intros t0 evs j u1 u2 u3 q HO. apply (safe evs (begin_ t0) t0 t0 28 j u1 u2 u3 q); auto; try reflexivity; lia. Qed.
Print Assumptions C23_first_telegram.
(** Read responses are not limited: one received read request makes the device send two group telegrams at once. *)
Theorem C23_responses_limited_refuted : exists s, length (ComObj_Model.sent (ComObj_Model.processGroupAddressTelegram ComObj_Props.ex1 0 0x0901 [] s)) = 2%nat /\ ComObj_Model.sent s = [].
Proof. exists (ComObj_Model.mkSt ComObj_Props.ex1_mem (repeat 0 23) [] 0 0). vm_compute. auto. Qed.
Print Assumptions C23_responses_limited_refuted.

(** ** The limit delays no telegram longer than that *)
Lemma live : forall evs r g now last l j u1 u2 u3, ordered now evs -> frequent now evs -> stands r g -> g <= now <= g + 2000 -> g = last \/ g + 1000 <= now -> groupTelWaitMillis r = spacing l ->
  nth_error evs j = Some (Loop u1 u2 u3 true) ->
  last + spacing (limit_at l evs j) <= u1 -> (forall i t1 t2 t3 q, (i < j)%nat -> nth_error evs i = Some (Loop t1 t2 t3 q) -> nth_error (run evs r) i = Some true -> t2 + spacing (limit_at l evs j) <= u1) ->
  nth_error (run evs r) j = Some true.
Proof.
  induction evs as [|e evs IH]; intros r g now last l j u1 u2 u3 HO HF HS HG HL HW HE HX HI; [destruct j; discriminate|].
  destruct e as [t1 t2 t3 q0|x].
  - destruct HO as (O1 & O2 & O3). destruct HF as (F1 & F2). unfold stands in HS.
    assert (SM : forall y z, z <= y <= z + 3000 -> u32 (y - z) = y - z) by (intros; unfold u32; apply Z.mod_small; lia).
    destruct j as [|j].
    + cbn [nth_error limit_at run step] in *. injection HE as <- <- <- ->. unfold loop. cbn [nth_error]. rewrite HS, HW, elapsed_exact, SM by lia. pose proof (spacing_range l).
      f_equal. apply andb_true_iff. split; auto. apply Z.leb_le. lia.
    + cbn [nth_error limit_at run step] in *. destruct (loop t1 t2 t3 q0 r) as [b r'] eqn:L. cbn [nth_error].
      assert (HI' : forall i t4 t5 t6 q, (i < j)%nat -> nth_error evs i = Some (Loop t4 t5 t6 q) -> nth_error (run evs r') i = Some true -> t5 + spacing (limit_at l evs j) <= u1)
        by (intros i t4 t5 t6 q Hi; apply (HI (S i) t4 t5 t6 q); lia).
      unfold loop in L. injection L as Lb Lr.
      set (go := (groupTelWaitMillis r <=? elapsed t1 (groupTelSent r)) && q0) in *.
      set (g1 := if go then t2 else g). set (last' := if go then t2 else last).
      assert (S1 : (if go then millis t2 else groupTelSent r) = u32 g1) by (unfold g1; destruct go; auto). rewrite S1, elapsed_exact, SM in Lr by (unfold g1; destruct go; lia).
      assert (X' : last' + spacing (limit_at l evs j) <= u1) by (unfold last'; destruct go eqn:GO; auto; apply (HI 0%nat t1 t2 t3 q0); auto; [lia|rewrite Lb; reflexivity]).
      destruct (Z.leb_spec 2000 (t3 - g1)) as [T|T].
      * apply (IH r' (g1 + 1000) t3 last' l j u1 u2 u3); auto; try (rewrite <- Lr; cbn [groupTelWaitMillis]; assumption).
        -- unfold stands. rewrite <- Lr. cbn [groupTelSent]. apply u32_add.
        -- unfold g1 in *. destruct go; lia.
        -- right. lia.
      * apply (IH r' g1 t3 last' l j u1 u2 u3); auto; try (rewrite <- Lr; cbn [groupTelWaitMillis]; assumption).
        -- unfold stands. rewrite <- Lr. reflexivity.
        -- unfold g1 in *. destruct go; lia.
        -- unfold g1, last'. destruct go; [left; reflexivity|]. destruct HL; [left; auto|right; lia].
  - cbn [run step]. destruct j as [|j]; [discriminate|]. cbn [nth_error limit_at ordered frequent run step] in *.
    apply (IH (setGroupTelRateLimit x r) g now last x j u1 u2 u3); auto; [apply set_spacing|]. intros i t1 t2 t3 q Hi. apply (HI (S i) t1 t2 t3 q). lia.
Qed.
(** If the main loop comes round at least every second, an iteration that finds a telegram to send sends it as soon as the distance to the start and to all earlier telegrams is reached. *)
Theorem C23_no_longer_than_needed : forall t0 evs j u1 u2 u3, ordered t0 evs -> frequent t0 evs -> nth_error evs j = Some (Loop u1 u2 u3 true) ->
  t0 + spacing (limit_at 28 evs j) <= u1 ->
  (forall i t1 t2 t3 q, (i < j)%nat -> nth_error evs i = Some (Loop t1 t2 t3 q) -> nth_error (run evs (begin_ t0)) i = Some true -> t2 + spacing (limit_at 28 evs j) <= u1) ->
  nth_error (run evs (begin_ t0)) j = Some true.
Proof. intros t0 evs j u1 u2 u3 HO HF. apply (live evs (begin_ t0) t0 t0 t0 28 j u1 u2 u3); auto; try reflexivity; lia. Qed.
Print Assumptions C23_no_longer_than_needed.
(** A longer pause of the loop can spoil this: exactly 2^32 ms after the last telegram the next one is delayed. *)
Theorem C23_long_pause_refuted : exists t0 evs u1 u2 u3, ordered t0 evs /\ evs = [Loop u1 u2 u3 true] /\ t0 + 1000 <= u1 /\ run evs (begin_ t0) = [false].
Proof. exists 0, [Loop 4294967300 4294967300 4294967300 true], 4294967300, 4294967300, 4294967300. split; [simpl; lia|]. split; [reflexivity|]. split; [lia|]. vm_compute. reflexivity. Qed.
Print Assumptions C23_long_pause_refuted.
(** across the wrap of the counter, with a change of the limit *)
Example C23_example : let evs := [Loop 4294967290 4294967291 4294967291 true; Loop 4294967300 4294967300 4294967300 true; Loop 4294967326 4294967327 4294967327 true; Limit 10; Loop 4294967400 4294967400 4294967400 true; Loop 4294967427 4294967428 4294967428 true] in
  ordered 4294967250 evs /\ frequent 4294967250 evs /\ run evs (begin_ 4294967250) = [true; false; true; false; false; true] /\ spacing (limit_at 28 evs 2) = 35 /\ spacing (limit_at 28 evs 5) = 100.
Proof. cbv zeta. split; [simpl; lia|]. split; [simpl; lia|]. vm_compute. auto. Qed.
