(** C96: humidity and temperature from DHT sensors *)
From Verif Require Import Base Bits Dht_Model Dht_Spec Dht_Proofs.

(** The signal of the sensor is decoded: if the checksum of the 40 bits agrees, humidity and temperature are those of the frame, otherwise the error is reported and the values stay *)
Theorem C96_reading_partial s force now line a b ps : length (data s) = 6%nat -> (force = true \/ 2000 <= s32 now - lastReadTime s <= 2147483647) ->
  length ps = 40%nat -> clean (maxcycles s) a b ps -> receives line a b ps ->
  exists r s' tr, readData s force now line = Some (r, s', tr) /\ lastReadTime s' = s32 now /\
  let n := number (bits_of ps) in
  (intact n -> r = true /\ lastError s' = NONE /\ humidity s' = humidity_of (type22 s) n /\ temperature s' = temperature_of (type22 s) n) /\
  (~ intact n -> r = false /\ lastError s' = CHECKSUM /\ humidity s' = humidity s /\ temperature s' = temperature s).
Proof.
  intros L TI L40 (CA & CB & CP) RE.
  assert (FO : follows line 0 (repeat false a ++ repeat true b ++ signal ps ++ [false])). { intros k Hk. cbn [Nat.add]. unfold receives in RE. cbn [signal flat_map fst snd] in RE. fold (signal ps) in RE. rewrite <- !app_assoc in RE. apply RE. exact Hk. }
  apply follows_app in FO. rewrite repeat_length in FO. destruct FO as (F1 & FO). destruct b as [|b]; [lia|]. pose proof FO as FO'. cbn [repeat app] in FO'. apply follows_cons in FO'. destruct FO' as (F2 & FO'). apply follows_app in FO'. rewrite repeat_length in FO'. destruct FO' as (F3 & F4).
  assert (E0 : expectPulse (maxcycles s) line false 0 0 = (a, (a + 1)%nat)). { rewrite (pulse_run line false a); [cbn; f_equal; lia| |lia]. apply follows_app. split; [exact F1|]. rewrite repeat_length. apply follows_cons. split; [exact F2|]. intros k Hk. cbn in Hk. lia. }
  assert (NX : exists q, signal ps ++ [false] = false :: q).
  { destruct ps as [|(l2, h2) ps]; [exists []; reflexivity|]. inversion CP as [|? ? (Q & _) _]; subst. cbn [fst] in Q. destruct l2 as [|l2]; [lia|]. cbn [signal flat_map fst repeat app]. eexists. reflexivity. }
  assert (E1 : expectPulse (maxcycles s) line true 0 (a + 1) = (b, (a + 1 + b + 1)%nat)).
  { replace (a + 1)%nat with (S (0 + a)) by lia. rewrite (pulse_run line true b); [cbn; f_equal; lia| |lia]. apply follows_app. split; [exact F3|]. rewrite repeat_length. destruct NX as (q & NX). rewrite NX in F4. apply follows_cons in F4. apply follows_cons. split; [apply F4|]. intros k Hk. cbn in Hk. lia. }
  pose proof (pulses_signal (maxcycles s) line ps CP _ F4) as EP. rewrite L40 in EP. replace (S (S (0 + a) + b)) with (a + 1 + b + 1)%nat in EP by lia.
  assert (FP : Forall (fun p => 0 < fst p /\ 0 < snd p) (counts ps)). { unfold counts. apply Forall_forall. intros p Hp. apply in_map_iff in Hp. destruct Hp as (q & <- & Hq). rewrite Forall_forall in CP. specialize (CP q Hq). cbn [fst snd]. lia. }
  destruct (frame_read s (counts ps) L FP) as (d & EB & Ld & R & P & V); [unfold counts; rewrite map_length; exact L40|]. rewrite <- number_counts in P, V.
  unfold readData. cbv zeta. assert (T1 : negb force && ((s32 now - lastReadTime s <? -2147483648) || (2147483647 <? s32 now - lastReadTime s)) = false) by (destruct TI as [->|TI]; [reflexivity|lia]).
  assert (T2 : negb force && (s32 now - lastReadTime s <? 2000) = false) by (destruct TI as [->|TI]; [reflexivity|lia]). rewrite T1, T2, E0. destruct (Nat.eqb_spec a 0); [lia|]. rewrite E1. destruct (Nat.eqb_spec b 0); [lia|].
  rewrite EP. fold (counts ps). fold (cleared (data s)). rewrite EB. pose proof (checked _ _ P) as CK. destruct (_ =? _) eqn:Q.
  - rewrite V. do 3 eexists. split; [reflexivity|]. split; [reflexivity|]. split; [auto|]. intros N. destruct (N (proj1 CK eq_refl)).
  - do 3 eexists. split; [reflexivity|]. split; [reflexivity|]. split; [|auto]. intros N. apply CK in N. discriminate.
Qed.
Print Assumptions C96_reading_partial.
(** 65.2 % and -10.1 degrees from a DHT22; pulses of 50 and 26 or 70 readings *)
Definition ex_bits : list bool := map (fun k => Z.testbit 0x028C806573 (39 - Z.of_nat k)) (seq 0 40).
Definition ex_pulses (bs : list bool) : list (nat * nat) := map (fun b : bool => (50%nat, if b then 70%nat else 26%nat)) bs.
Definition ex_line (l : list bool) : nat -> bool := fun k => nth k l true.
Definition ex_dht : dht := fst (init true (Z.to_nat 48000) (repeat 0 6)).
Lemma ex_clean bs : clean (maxcycles ex_dht) 80 80 (ex_pulses bs).
Proof.
  assert (M : maxcycles ex_dht = Z.to_nat 48000) by reflexivity. unfold clean. rewrite M. split; [lia|]. split; [lia|]. apply Forall_forall. intros p Hp. apply in_map_iff in Hp. destruct Hp as (b & <- & _). cbn [fst snd]. destruct b; lia.
Qed.
Lemma ex_receives l a b ps : l = signal ((a, b) :: ps) ++ [false] -> receives (ex_line l) a b ps.
Proof. intros -> k Hk. unfold ex_line. apply nth_indep. exact Hk. Qed.
Example C96_reading_example : let ps := ex_pulses ex_bits in let line := ex_line (signal ((80%nat, 80%nat) :: ps) ++ [false]) in
  length (data ex_dht) = 6%nat /\ 2000 <= s32 5000 - lastReadTime ex_dht <= 2147483647 /\ length ps = 40%nat /\ clean (maxcycles ex_dht) 80 80 ps /\ receives line 80 80 ps /\
  number (bits_of ps) = 0x028C806573 /\ intact (number (bits_of ps)) /\ humidity_of true 0x028C806573 = 6520 /\ temperature_of true 0x028C806573 = -1010 /\
  humidity_of false 0x2D00170044 = 4500 /\ temperature_of false 0x2D00170044 = 2300.
Proof.
  cbv zeta. split; [reflexivity|]. split; [vm_compute; split; discriminate|]. split; [reflexivity|]. split; [apply ex_clean|]. split; [apply ex_receives; reflexivity|]. vm_compute. auto 10.
Qed.
(** Whatever the line does: a reading that fails leaves humidity and temperature as they are and reports a reason; one that succeeds has values that belong to a frame with a correct checksum *)
Theorem C96_any_signal s force now line r s' tr : length (data s) = 6%nat -> readData s force now line = Some (r, s', tr) ->
  length (data s') = 6%nat /\ type22 s' = type22 s /\ maxcycles s' = maxcycles s /\
  (r = false -> humidity s' = humidity s /\ temperature s' = temperature s /\ lastError s' <> NONE) /\
  (r = true -> lastError s' = NONE /\ exists n, 0 <= n < 2 ^ 40 /\ intact n /\ humidity s' = humidity_of (type22 s) n /\ temperature s' = temperature_of (type22 s) n).
Proof.
  intros L. unfold readData. cbv zeta. fold (cleared (data s)). destruct (cleared_ok _ L) as (CL & _).
  destruct (_ && _); [discriminate|]. destruct (_ && _); [intros [= <- <- _]; cbn; do 4 (split; [first [assumption|reflexivity|discriminate|intros _; split; [reflexivity|split; [reflexivity|discriminate]]]|]); discriminate|].
  destruct (expectPulse _ _ false _ _) as [c0 p0]. destruct (Nat.eqb c0 0); [intros [= <- <- _]; cbn; do 4 (split; [first [assumption|reflexivity|discriminate|intros _; split; [reflexivity|split; [reflexivity|discriminate]]]|]); discriminate|].
  destruct (expectPulse _ _ true _ _) as [c1 p1]. destruct (Nat.eqb c1 0); [intros [= <- <- _]; cbn; do 4 (split; [first [assumption|reflexivity|discriminate|intros _; split; [reflexivity|split; [reflexivity|discriminate]]]|]); discriminate|].
  destruct (pulses_ok (maxcycles s) 40 line p1) as (F & L40). destruct (bits 0 (pulses (maxcycles s) 40 line p1) (cleared (data s))) as [e d] eqn:E.
  assert (Ld : forall cs i d, length (snd (bits i cs d)) = length d). { clear. induction cs as [|(l, h) cs IH]; intros i d; cbn [bits]; [reflexivity|]. destruct (_ || _); [reflexivity|]. rewrite IH. destruct (_ <? _); rewrite ?wr_length; reflexivity. }
  specialize (Ld (pulses (maxcycles s) 40 line p1) 0%nat (cleared (data s))). rewrite E in Ld. cbn [snd] in Ld. rewrite CL in Ld.
  destruct (bits_error (pulses (maxcycles s) 40 line p1) 0 (cleared (data s))) as [Q|Q]; rewrite E in Q; cbn [fst] in Q; subst e.
  - assert (NP : Forall (fun p => 0 < fst p /\ 0 < snd p) (pulses (maxcycles s) 40 line p1)) by (apply (bits_none _ F 0%nat (cleared (data s))); rewrite E; reflexivity).
    destruct (frame_read s _ L NP L40) as (d' & EB & _ & R & P & V). rewrite E in EB. injection EB as <-. pose proof (checked _ _ P) as CK. destruct (_ =? _) eqn:K.
    + rewrite V. intros [= <- <- _]. cbn. do 4 (split; [first [assumption|reflexivity|discriminate|intros _; split; [reflexivity|split; [reflexivity|discriminate]]]|]). intros _. split; [reflexivity|]. exists (horner 0 (pulses (maxcycles s) 40 line p1)). split; [exact R|]. split; [apply CK; reflexivity|]. auto.
    + intros [= <- <- _]. cbn. do 4 (split; [first [assumption|reflexivity|discriminate|intros _; split; [reflexivity|split; [reflexivity|discriminate]]]|]). discriminate.
  - intros [= <- <- _]. cbn. do 4 (split; [first [assumption|reflexivity|discriminate|intros _; split; [reflexivity|split; [reflexivity|discriminate]]]|]). discriminate.
Qed.
Print Assumptions C96_any_signal.
(** a checksum error, and a line that stays high *)
Example C96_any_signal_example : let bad := ex_line (signal ((80%nat, 80%nat) :: ex_pulses (true :: List.tl ex_bits)) ++ [false]) in
  length (data ex_dht) = 6%nat /\ option_map (fun p => (fst (fst p), lastError (snd (fst p)))) (readData ex_dht false 5000 bad) = Some (false, CHECKSUM) /\
  option_map (fun p => (fst (fst p), lastError (snd (fst p)))) (readData ex_dht false 5000 (fun _ => true)) = Some (false, DATA_TIMEOUT) /\
  option_map (fun p => (fst (fst p), temperature (snd (fst p)))) (readData ex_dht false 5000 (ex_line (signal ((80%nat, 80%nat) :: ex_pulses ex_bits) ++ [false]))) = Some (true, -1010).
Proof. cbv zeta. split; [reflexivity|]. vm_compute. auto. Qed.
(** A reading needs a whole frame: 82 changes of the level (the answer, 40 bits and the end of the last one); a line that gets stuck before that is never taken for a reading *)
Lemma changes_mono line a b : (a <= b)%nat -> (changes line a <= changes line b)%nat.
Proof. induction 1; [lia|]. cbn [changes]. lia. Qed.
Lemma changes_between line b : forall a, (a <= b)%nat -> line a <> line b -> (changes line a + 1 <= changes line b)%nat.
Proof.
  induction b as [|b IH]; intros a L N; [assert (a = 0)%nat as -> by lia; destruct (N eq_refl)|]. destruct (Nat.eq_dec a (S b)) as [->|NE]; [destruct (N eq_refl)|]. cbn [changes]. destruct (Bool.eqb (line b) (line (S b))) eqn:Q.
  - apply eqb_prop in Q. rewrite <- Q in N. specialize (IH a ltac:(lia) N). lia.
  - pose proof (changes_mono line a b ltac:(lia)). lia.
Qed.
Lemma pulse_changes line level : forall fuel count pos c p, expectPulse fuel line level count pos = (c, p) -> (0 < c)%nat -> (pos < p)%nat /\ line (p - 1)%nat = negb level /\ ((0 < count)%nat \/ line pos = level).
Proof.
  induction fuel as [|n IH]; intros count pos c p; cbn [expectPulse]; destruct (Bool.eqb (line pos) level) eqn:Q.
  - intros [= <- <-]. lia.
  - intros [= <- <-] C. split; [lia|]. rewrite Nat.sub_succ, Nat.sub_0_r. split; [destruct (line pos), level; (discriminate || reflexivity)|left; exact C].
  - intros E C. destruct (IH _ _ _ _ E C) as (I1 & I2 & _). split; [lia|]. split; [exact I2|]. right. apply eqb_prop. exact Q.
  - intros [= <- <-] C. split; [lia|]. rewrite Nat.sub_succ, Nat.sub_0_r. split; [destruct (line pos), level; (discriminate || reflexivity)|left; exact C].
Qed.
Lemma pulse_change line level fuel pos c p : expectPulse fuel line level 0 pos = (c, p) -> (0 < c)%nat -> (changes line pos + 1 <= changes line (p - 1))%nat /\ (changes line pos + 1 <= changes line p)%nat.
Proof.
  intros E C. destruct (pulse_changes line level fuel 0 pos c p E C) as (L & N & [B|B]); [lia|]. assert (K : (changes line pos + 1 <= changes line (p - 1))%nat) by (apply changes_between; [lia|rewrite B, N; destruct level; discriminate]). split; [exact K|]. pose proof (changes_mono line (p - 1) p ltac:(lia)). lia.
Qed.
Lemma pulses_changes max line n : forall pos, Forall (fun p => 0 < fst p /\ 0 < snd p) (pulses max n line pos) -> exists q, (changes line pos + 2 * n <= changes line q)%nat.
Proof.
  assert (U : forall k, 0 < u8 (Z.of_nat k) -> (0 < k)%nat) by (intros [|k] H; [vm_compute in H; discriminate|lia]).
  induction n as [|n IH]; intros pos F; cbn [pulses] in F; [exists pos; lia|]. destruct (expectPulse max line false 0 pos) as [c1 p1] eqn:E1. destruct (expectPulse max line true 0 p1) as [c2 p2] eqn:E2. inversion F as [|? ? (F1 & F2) F3]; subst. cbn [fst snd] in F1, F2.
  destruct (IH p2 F3) as (q & H). exists q. pose proof (pulse_change _ _ _ _ _ _ E1 (U _ F1)). pose proof (pulse_change _ _ _ _ _ _ E2 (U _ F2)). lia.
Qed.
Theorem C96_edges s force now line s' tr : length (data s) = 6%nat -> readData s force now line = Some (true, s', tr) -> exists n, (82 <= changes line n)%nat.
Proof.
  intros L. unfold readData. cbv zeta. fold (cleared (data s)). destruct (negb force && ((s32 now - lastReadTime s <? -2147483648) || (2147483647 <? s32 now - lastReadTime s))); [discriminate|]. destruct (negb force && (s32 now - lastReadTime s <? 2000)); [discriminate|].
  destruct (expectPulse (maxcycles s) line false 0 0) as [c0 p0] eqn:E0. destruct (Nat.eqb_spec c0 0) as [|N0]; [discriminate|]. destruct (expectPulse (maxcycles s) line true 0 p0) as [c1 p1] eqn:E1. destruct (Nat.eqb_spec c1 0) as [|N1]; [discriminate|].
  destruct (bits 0 (pulses (maxcycles s) 40 line p1) (cleared (data s))) as [e d] eqn:E. intros R. destruct (pulses_ok (maxcycles s) 40 line p1) as (F & _).
  assert (e = NONE) as -> by (destruct e; [reflexivity|discriminate R|discriminate R|discriminate R|discriminate R]). assert (NP : Forall (fun p => 0 < fst p /\ 0 < snd p) (pulses (maxcycles s) 40 line p1)) by (apply (bits_none _ F 0%nat (cleared (data s))); rewrite E; reflexivity).
  destruct (pulses_changes _ _ _ _ NP) as (q & H). exists q. pose proof (pulse_change _ _ _ _ _ _ E0 ltac:(lia)). pose proof (pulse_change _ _ _ _ _ _ E1 ltac:(lia)). lia.
Qed.
Print Assumptions C96_edges.
(** the last bit does not end: 81 changes *)
Example C96_edges_example : let sig := signal ((80%nat, 80%nat) :: ex_pulses ex_bits) in let stuck k := if (k <? length sig)%nat then nth k sig true else true in let s := fst (init true 250 (repeat 0 6)) in
  length (data s) = 6%nat /\ option_map (fun p => fst (fst p)) (readData s false 5000 (ex_line (sig ++ [false]))) = Some true /\ changes (ex_line (sig ++ [false])) (length sig) = 82%nat /\
  changes stuck (length sig) = 81%nat /\ option_map (fun p => (fst (fst p), lastError (snd (fst p)))) (readData s false 5000 stuck) = Some (false, DATA_TIMEOUT).
Proof. cbv zeta. split; [reflexivity|]. vm_compute. auto. Qed.
(** The sensor gets its start signal: the line is pulled low, 1.1 ms for a DHT22 and 20 ms for a DHT11, and released before anything is read; a call that comes too early does not touch the pin *)
Theorem C96_start_signal s force now line r s' tr : readData s force now line = Some (r, s', tr) ->
  (tr = [] /\ force = false /\ s32 now - lastReadTime s < 2000 /\ lastError s' = TIMER_NOT_REACHED /\ lastReadTime s' = lastReadTime s) \/
  (lastReadTime s' = s32 now /\ exists before after, tr = before ++ [Output; Drive false; Pause (if type22 s then 1100 else 20000); IntOff; Drive true; Pause 55; Input; Pause 10] ++ after /\
    ~ In Output before /\ ~ In (Drive false) before /\ (after = [] \/ after = [IntOn])).
Proof.
  unfold readData. cbv zeta. destruct force; cbn [negb andb].
  - intros E. right.
    assert (G : lastReadTime s' = s32 now /\ exists after, tr = [Drive true; Pause 1000; Output; Drive false; Pause (if type22 s then 1100 else 20000); IntOff; Drive true; Pause 55; Input; Pause 10] ++ after /\ (after = [] \/ after = [IntOn])).
    { destruct (expectPulse _ _ false _ _) as [c0 p0]. destruct (Nat.eqb c0 0); [injection E as _ <- <-; split; [reflexivity|]; exists []; auto|]. destruct (expectPulse _ _ true _ _) as [c1 p1]. destruct (Nat.eqb c1 0); [injection E as _ <- <-; split; [reflexivity|]; exists []; auto|].
      destruct (bits _ _ _) as [e d]. destruct e; [destruct (_ =? _); [destruct (convert _ _) as [h t]|]|..]; injection E as _ <- <-; (split; [reflexivity|]; exists [IntOn]; auto). }
    destruct G as (G1 & after & -> & G2). split; [exact G1|]. exists [Drive true; Pause 1000], after. split; [reflexivity|]. repeat split; auto; cbn; intuition discriminate.
  - destruct (_ || _); [discriminate|]. destruct (Z.ltb_spec (s32 now - lastReadTime s) 2000) as [LT|GE]; [intros [= _ <- <-]; left; auto|]. intros E. right.
    assert (G : lastReadTime s' = s32 now /\ exists after, tr = [Drive true; Pause 1000; Output; Drive false; Pause (if type22 s then 1100 else 20000); IntOff; Drive true; Pause 55; Input; Pause 10] ++ after /\ (after = [] \/ after = [IntOn])).
    { destruct (expectPulse _ _ false _ _) as [c0 p0]. destruct (Nat.eqb c0 0); [injection E as _ <- <-; split; [reflexivity|]; exists []; auto|]. destruct (expectPulse _ _ true _ _) as [c1 p1]. destruct (Nat.eqb c1 0); [injection E as _ <- <-; split; [reflexivity|]; exists []; auto|].
      destruct (bits _ _ _) as [e d]. destruct e; [destruct (_ =? _); [destruct (convert _ _) as [h t]|]|..]; injection E as _ <- <-; (split; [reflexivity|]; exists [IntOn]; auto). }
    destruct G as (G1 & after & -> & G2). split; [exact G1|]. exists [Drive true; Pause 1000], after. split; [reflexivity|]. repeat split; auto; cbn; intuition discriminate.
Qed.
Print Assumptions C96_start_signal.
Example C96_start_signal_example : option_map snd (readData ex_dht false 5000 (fun _ => true)) = Some [Drive true; Pause 1000; Output; Drive false; Pause 1100; IntOff; Drive true; Pause 55; Input; Pause 10] /\
  match readData ex_dht false 5000 (fun _ => true) with Some (_, s, _) => option_map snd (readData s false 6999 (fun _ => true)) | None => None end = Some [].
Proof. vm_compute. auto. Qed.
(** Calls with their times, none before the last one; [ts]: the times at which the pin was used *)
Inductive history (s0 : dht) : dht -> list Z -> Prop :=
| no_call : history s0 s0 []
| call s ts force now line r s' tr : history s0 s ts -> 0 <= now < 2147483648 -> Forall (fun t => t <= now) ts -> readData s force now line = Some (r, s', tr) ->
    history s0 s' (match tr with [] => ts | _ => now :: ts end).
(** Without force the sensor is used at most every two seconds *)
Theorem C96_pace s0 s ts now line r s' tr : history s0 s ts -> 0 <= now < 2147483648 -> readData s false now line = Some (r, s', tr) -> tr <> [] -> Forall (fun t => 2000 <= now - t) ts.
Proof.
  intros H N E T. assert (S32 : forall n, 0 <= n < 2147483648 -> s32 n = n). { intros n Hn. unfold s32, u32. rewrite Z.mod_small by lia. cbv zeta. destruct (Z.ltb_spec n 2147483648); lia. }
  assert (I : Forall (fun t => t <= lastReadTime s) ts).
  { clear - H S32. induction H as [|s ts force now line r s' tr H IH N A E]; [constructor|]. destruct (C96_start_signal _ _ _ _ _ _ _ E) as [(-> & _ & _ & _ & ->)|(Q & b & a & -> & _)]; [exact IH|]. rewrite Q, S32 by exact N.
    destruct (b ++ _) eqn:X; [destruct b; discriminate|]. constructor; [lia|exact A]. }
  destruct (C96_start_signal _ _ _ _ _ _ _ E) as [(-> & _)|(Q & _)]; [destruct (T eq_refl)|].
  assert (G : 2000 <= now - lastReadTime s). { unfold readData in E. cbv zeta in E. rewrite S32 in E by exact N. cbn [negb andb] in E. destruct (_ || _); [discriminate|]. destruct (Z.ltb_spec (now - lastReadTime s) 2000); [|lia]. injection E as _ _ <-. destruct (T eq_refl). }
  eapply Forall_impl; [|exact I]. cbn. intros t Ht. lia.
Qed.
Print Assumptions C96_pace.
Definition high : nat -> bool := fun _ => true.
Lemma ex_first : exists s, readData ex_dht false 5000 high = Some (false, s, [Drive true; Pause 1000; Output; Drive false; Pause 1100; IntOff; Drive true; Pause 55; Input; Pause 10]).
Proof.
  assert (A : option_map (fun p => fst (fst p)) (readData ex_dht false 5000 high) = Some false) by (vm_compute; reflexivity).
  assert (B : option_map snd (readData ex_dht false 5000 high) = Some [Drive true; Pause 1000; Output; Drive false; Pause 1100; IntOff; Drive true; Pause 55; Input; Pause 10]) by (vm_compute; reflexivity).
  destruct (readData ex_dht false 5000 high) as [[[r s] tr]|]; [|discriminate]. cbn in A, B. injection A as ->. injection B as ->. exists s. reflexivity.
Qed.
Example C96_pace_example : exists s, history ex_dht s [5000] /\ option_map snd (readData s false 6999 high) = Some [] /\ match readData s false 7000 high with Some (_, _, tr) => tr <> [] | None => False end.
Proof.
  destruct ex_first as (s & E). exists s. split; [exact (call ex_dht ex_dht [] false 5000 high false s _ (no_call ex_dht) ltac:(lia) (Forall_nil _) E)|].
  assert (S : s = match readData ex_dht false 5000 high with Some (_, s, _) => s | None => ex_dht end) by (rewrite E; reflexivity). rewrite S. vm_compute. split; [reflexivity|discriminate].
Qed.
(** Missing for the full claim of C96: a pulse that is read more than 256 times loses its upper bits, so that a 1 is taken for a 0, and the reading fails or succeeds with a wrong frame *)
Theorem C96_long_pulse_refuted : exists s now line a b ps s' tr, length (data s) = 6%nat /\ length ps = 40%nat /\ receives line a b ps /\ intact (number (bits_of ps)) /\
  Forall (fun p => (1 < fst p < 360 /\ 1 < snd p < 360)%nat) ps /\ (360 < maxcycles s)%nat /\ readData s true now line = Some (true, s', tr) /\ humidity s' <> humidity_of (type22 s) (number (bits_of ps)).
Proof.
  set (bs := map (fun k => Z.testbit 0x0100000001 (39 - Z.of_nat k)) (seq 0 40)). set (ps := map (fun b : bool => (100%nat, if b then 290%nat else 50%nat)) bs).
  set (line := ex_line (signal ((80%nat, 80%nat) :: ps) ++ [false])). set (s := ex_dht).
  assert (E : match readData s true 5000 line with Some (true, s', tr) => humidity s' =? 0 | _ => false end = true) by (vm_compute; reflexivity).
  destruct (readData s true 5000 line) as [[[r s'] tr]|] eqn:Q; [|discriminate]. destruct r; [|discriminate]. apply Z.eqb_eq in E.
  exists s, 5000, line, 80%nat, 80%nat, ps, s', tr. split; [reflexivity|]. split; [reflexivity|]. split; [apply ex_receives; reflexivity|]. split; [vm_compute; reflexivity|]. split.
  { apply Forall_forall. intros p Hp. apply in_map_iff in Hp. destruct Hp as (b & <- & _). cbn [fst snd]. destruct b; lia. }
  split; [assert (M : maxcycles s = Z.to_nat 48000) by reflexivity; rewrite M; lia|]. split; [exact Q|]. rewrite E. vm_compute. discriminate.
Qed.
Print Assumptions C96_long_pulse_refuted.
(** If the sensor does not answer, the interrupt of the pin stays disabled; and 2^31 ms after a reading the time difference is no longer defined *)
Theorem C96_interrupt_refuted : exists s now line s' tr, readData s false now line = Some (false, s', tr) /\ In IntOff tr /\ ~ In IntOn tr.
Proof. destruct ex_first as (s' & E). exists ex_dht, 5000, high, s'. eexists. split; [exact E|]. cbn. split; [auto 10|intuition discriminate]. Qed.
Print Assumptions C96_interrupt_refuted.
Theorem C96_time_refuted : exists s0 s now line, history s0 s [5000] /\ 5000 + 2000 <= now < 4294967296 /\ readData s false now line = None.
Proof.
  destruct ex_first as (s & E). exists ex_dht, s, 2147483648, high. split; [exact (call ex_dht ex_dht [] false 5000 high false s _ (no_call ex_dht) ltac:(lia) (Forall_nil _) E)|].
  split; [lia|]. destruct (C96_start_signal _ _ _ _ _ _ _ E) as [(Q & _)|(L & _)]; [discriminate|]. unfold readData. cbv zeta. rewrite L. reflexivity.
Qed.
Print Assumptions C96_time_refuted.
