(** Proofs for SHT2x and SHT4x *)
From Verif Require Import Base Bits I2c_Model I2c_Spec I2c_Proofs I2c_Props I2c_Det Sht_Model Sht_Spec Sht_Proofs.
From Verif Require CRC_Model CRC_Spec.

Lemma transfer_ack a tx n tr k l : transfer a tx n tr Ack k l -> k = length tx.
Proof. intros T. inversion T as [tr0 o0 l0 TX N RC|tr0 o0 k0 TX N SD|tr1 tr2 o0 k0 l0 TX N SD RC]; subst; [reflexivity|eapply sending_ack; exact SD|eapply sending_ack; exact SD]. Qed.
Lemma transfer_reads a n tr o k l : transfer a [] n tr o k l -> k = 0%nat.
Proof. intros T. inversion T; subst; [reflexivity|congruence|congruence]. Qed.
Lemma transfer_writes a b r tr o k l : transfer a (b :: r) 0 tr o k l -> l = [].
Proof. intros T. inversion T; subst; [congruence|reflexivity|lia]. Qed.
Lemma plays_join {S} (w : bus S) t1 : forall t2 s s1 s2, plays w s t1 s1 -> plays w s1 t2 s2 -> plays w s (t1 ++ t2) s2.
Proof. intros. eapply plays_app; eassumption. Qed.

(** ** SHT2x *)
Lemma sht2x_loop {S} (w : bus S) n ms timeout cmd fuel : only_at_start w [cmd] -> forall k h, idle h -> sht2xLoop w n ms timeout fuel k h cmd = Hang \/
  exists before tr v h', sht2xLoop w n ms timeout fuel k h cmd = Done (h', v) /\ log h' = log h ++ before ++ tr /\ plays w (world h) (before ++ tr) (world h') /\ idle h' /\ Forall (polite 0x40 (fun b => b = cmd)) (before ++ tr) /\
    (v = 0 \/ exists b0 b1 c, transfer 0x40 [cmd] 3 tr Ack 1 [b0; b1; c] /\ Forall is_byte [b0; b1; c] /\ fits 0 b0 b1 c /\ v = 256 * b0 + b1).
Proof.
  intros ST. induction fuel as [|f IH]; intros k h I; [left; reflexivity|]. cbn [sht2xLoop]. unfold MasterCmdRead, eSHT2xAddress.
  destruct (call_read w n h 0x40 [cmd] 3 3 ST I ltac:(lia) ltac:(lia)) as [E|(pre & tr & o & kk & l & h1 & E & LE & AK & L & P & T & I1 & PO & BY)]; cbn [length] in E; change (Z.of_nat 1) with 1 in E; change (Z.of_nat 3) with 3 in E; rewrite E; [left; reflexivity|].
  assert (PC : Forall (polite 0x40 (fun b => b = cmd)) (pre ++ tr)) by (eapply polite_mono; [|exact PO]; intros b [H|[]]; auto).
  destruct (Z.ltb_spec (Z.of_nat (length l)) 3) as [C|C].
  - destruct (0 <? u32 (ms k - timeout)).
    + right. exists (pre ++ tr), [], 0, h1. rewrite app_nil_r. auto 10.
    + destruct (IH (Datatypes.S k) h1 I1) as [H|(be & t2 & v & h' & E2 & L2 & P2 & I2 & PO2 & V)]; [left; exact H|right]. exists ((pre ++ tr) ++ be), t2, v, h'. split; [exact E2|]. rewrite <- (app_assoc (pre ++ tr)). split; [rewrite L2, L, <- !app_assoc; reflexivity|]. split; [eapply plays_join; eassumption|]. split; [exact I2|]. split; [apply Forall_app; auto|exact V].
  - assert (LL : length l = 3%nat) by lia. apply AK in LL. subst o. assert (length l = 3%nat) as LL by (apply AK; reflexivity). destruct l as [|b0 [|b1 [|c [|]]]]; try (cbn in LL; lia). rewrite (transfer_ack _ _ _ _ _ _ T) in T. inversion_clear BY as [|? ? B0 BY']. inversion_clear BY' as [|? ? B1 BY'']. inversion_clear BY'' as [|? ? BC _].
    right. exists pre, tr, (checked [b0; b1; c]), h1. split; [reflexivity|]. split; [exact L|]. split; [exact P|]. split; [exact I1|]. split; [exact PC|]. destruct (checked_ok b0 b1 c B0 B1 BC) as [(F & ->)|(_ & ->)]; [right|left; reflexivity]. exists b0, b1, c. auto 10.
Qed.
(** the bytes written when the sensor is set up *)
Definition setup (b : Z) : Prop := b = 0xE7 \/ b = 0xE6 \/ (0 <= b < 128 /\ b mod 2 = 0).
Lemma masked u : is_byte u -> 0 <= Z.land u 0x7E < 128 /\ Z.land u 0x7E mod 2 = 0 /\ forall i, 0 <= i < 8 -> Z.testbit (Z.land u 0x7E) i = Z.testbit u i && negb (i =? 0) && negb (i =? 7).
Proof.
  intros U. assert (H : forallb (fun u => let v := Z.land u 0x7E in (0 <=? v) && (v <? 128) && (v mod 2 =? 0) && forallb (fun i => Bool.eqb (Z.testbit v i) (Z.testbit u i && negb (i =? 0) && negb (i =? 7))) [0; 1; 2; 3; 4; 5; 6; 7]) bytes256 = true) by (vm_compute; reflexivity).
  pose proof (byte_forall _ H u U) as H1. cbv beta zeta in H1. apply andb_prop in H1. destruct H1 as (H1 & H4). apply andb_prop in H1. destruct H1 as (H1 & H3). apply andb_prop in H1. destruct H1 as (H1 & H2). split; [lia|]. split; [lia|]. intros i I. rewrite forallb_forall in H4. apply eqb_prop, H4. assert (i = 0 \/ i = 1 \/ i = 2 \/ i = 3 \/ i = 4 \/ i = 5 \/ i = 6 \/ i = 7) by lia. cbn. intuition.
Qed.
Lemma init_ok {S} (w : bus S) n h i0 : only_at_start w [0] -> idle h -> Init w n h i0 = Hang \/
  exists tr i h', Init w n h i0 = Done (h', i) /\ log h' = log h ++ tr /\ plays w (world h) tr (world h') /\ idle h' /\ Forall (polite 0x40 setup) tr.
Proof.
  intros ST I. unfold Init, MasterCmdRead, eSHT2xAddress.
  destruct (call_read w n h 0x40 [eReadUserReg] 1 1 (oas w _ _ _ ST) I ltac:(lia) ltac:(lia)) as [E|(pre & tr & o & kk & l & h1 & E & LE & AK & L & P & T & I1 & PO & BY)]; cbn [length] in E; change (Z.of_nat 1) with 1 in E; rewrite E; [left; reflexivity|].
  assert (PC : Forall (polite 0x40 setup) (pre ++ tr)) by (eapply polite_mono; [|exact PO]; intros b [H|[]]; subst b; left; reflexivity).
  destruct (Z.eqb_spec (Z.of_nat (length l)) 1) as [C|C]; [|right; exists (pre ++ tr), i0, h1; auto 10].
  destruct l as [|u [|]]; cbn [length] in C; try lia. inversion_clear BY as [|? ? BU _]. change (rd [u] 0) with u. destruct (masked u BU) as (M1 & M2 & _).
  destruct (call_send w n h1 0x40 [eWriteUserReg; Z.land u 0x7E] (oas w _ _ _ ST) I1 ltac:(lia) ltac:(discriminate) ltac:(cbn; lia)) as [E2|(pre2 & tr2 & o2 & k2 & h2 & NL2 & E2 & L2 & P2 & T2 & I2 & PO2)]; cbn [length] in E2; change (Z.of_nat 2) with 2 in E2; rewrite E2; [left; reflexivity|].
  right. exists ((pre ++ tr) ++ pre2 ++ tr2), true, h2. split; [reflexivity|]. split; [rewrite L2, L, <- !app_assoc; reflexivity|]. split; [eapply plays_join; eassumption|]. split; [exact I2|]. apply Forall_app. split; [exact PC|]. eapply polite_mono; [|exact PO2]. intros b [H|[H|[]]]; subst b; [right; left; reflexivity|right; right; auto].
Qed.
Lemma read2_ok {S} (w : bus S) n fuel ms h ini cmd : only_at_start w [cmd] -> idle h -> readSHT2x w n fuel ms h ini cmd = Hang \/
  exists before tr i v h', readSHT2x w n fuel ms h ini cmd = Done (h', i, v) /\ log h' = log h ++ before ++ tr /\ plays w (world h) (before ++ tr) (world h') /\ idle h' /\ Forall (polite 0x40 (fun b => b = cmd \/ (ini = false /\ setup b))) (before ++ tr) /\
    (v = 0 \/ exists b0 b1 c, transfer 0x40 [cmd] 3 tr Ack 1 [b0; b1; c] /\ Forall is_byte [b0; b1; c] /\ fits 0 b0 b1 c /\ v = 256 * b0 + b1).
Proof.
  intros ST I. unfold readSHT2x. set (timeout := u32 (ms 0%nat + 300)).
  assert (H : (if ini then Done (h, true) else Init w n h ini) = Hang \/ exists tr i h1, (if ini then Done (h, true) else Init w n h ini) = Done (h1, i) /\ log h1 = log h ++ tr /\ plays w (world h) tr (world h1) /\ idle h1 /\ Forall (polite 0x40 (fun b => b = cmd \/ (ini = false /\ setup b))) tr).
  { destruct ini; [right; exists [], true, h; rewrite app_nil_r; split; [reflexivity|]; split; [reflexivity|]; split; [reflexivity|]; split; [exact I|constructor]|].
    destruct (init_ok w n h false (oas w _ _ _ ST) I) as [E|(tr & i & h1 & E & L & P & I1 & PO)]; [left; exact E|right]. exists tr, i, h1. split; [exact E|]. split; [exact L|]. split; [exact P|]. split; [exact I1|]. eapply polite_mono; [|exact PO]. auto. }
  destruct H as [-> |(tr0 & i & h1 & -> & L & P & I1 & PO)]; [left; reflexivity|]. destruct i.
  - destruct (sht2x_loop w n ms timeout cmd fuel ST 1 h1 I1) as [-> |(be & t2 & v & h' & -> & L2 & P2 & I2 & PO2 & V)]; [left; reflexivity|right]. exists (tr0 ++ be), t2, true, v, h'. split; [reflexivity|]. rewrite <- (app_assoc tr0). split; [rewrite L2, L, <- !app_assoc; reflexivity|]. split; [eapply plays_join; eassumption|]. split; [exact I2|]. split; [apply Forall_app; split; [exact PO|]; eapply polite_mono; [|exact PO2]; auto|exact V].
  - right. exists tr0, [], false, 0, h1. rewrite !app_nil_r. auto 10.
Qed.
Lemma read2_known {S} (w : bus S) n f ms h cmd tr b0 b1 c s' : idle h -> transfer 0x40 [cmd] 3 tr Ack 1 [b0; b1; c] -> plays w (world h) tr s' -> fits 0 b0 b1 c ->
  exists h', readSHT2x w (Datatypes.S n) (Datatypes.S f) ms h true cmd = Done (h', true, 256 * b0 + b1) /\ log h' = log h ++ tr /\ idle h' /\ Forall is_byte [b0; b1; c].
Proof.
  intros I T P F. pose proof (transfer_bytes w _ _ _ _ _ _ _ _ _ T P) as BY. rewrite <- (app_nil_r tr) in P. destruct (read_known w n h 0x40 [cmd] 3 3 tr Ack 1 [b0; b1; c] [] s' I ltac:(lia) ltac:(lia) T ltac:(discriminate) P) as (h' & E & L & _ & _ & I').
  exists h'. split; [|auto]. unfold readSHT2x. cbn [sht2xLoop]. unfold MasterCmdRead, eSHT2xAddress. cbn [length] in E. change (Z.of_nat 1) with 1 in E. change (Z.of_nat 3) with 3 in E. rewrite E. change (3 <? 3) with false. cbv iota.
  inversion_clear BY as [|? ? B0 BY']. inversion_clear BY' as [|? ? B1 BY'']. inversion_clear BY'' as [|? ? BC _]. destruct (checked_ok b0 b1 c B0 B1 BC) as [(_ & ->)|(NF & _)]; [reflexivity|destruct (NF F)].
Qed.
(** the first transfer fails *)
Lemma read2_failed {S} (w : bus S) n f ms h cmd tr o k l s' : idle h -> transfer 0x40 [cmd] 3 tr o k l -> o <> Ack -> o <> Lost -> plays w (world h) tr s' -> (ms 1%nat - (ms 0%nat + 300)) mod 4294967296 <> 0 ->
  exists h', readSHT2x w (Datatypes.S n) (Datatypes.S f) ms h true cmd = Done (h', true, 0) /\ log h' = log h ++ tr.
Proof.
  intros I T NA NL P M. assert (LN : (length l < 3)%nat).
  { assert (R : forall tr2, receiving 64 3 tr2 o l -> (length l < 3)%nat) by (intros tr2 RC; inversion RC; subst; [cbn; lia|assumption|congruence]). inversion T; subst; solve [congruence|eapply R; eassumption|cbn; lia]. }
  rewrite <- (app_nil_r tr) in P. destruct (read_known w n h 0x40 [cmd] 3 3 tr o k l [] s' I ltac:(lia) ltac:(lia) T NL P) as (h' & E & L & _ & _ & I'). exists h'. split; [|exact L]. unfold readSHT2x. cbn [sht2xLoop]. unfold MasterCmdRead, eSHT2xAddress. cbn [length] in E. change (Z.of_nat 1) with 1 in E. change (Z.of_nat 3) with 3 in E. rewrite E.
  destruct (Z.ltb_spec (Z.of_nat (length l)) 3); [|lia]. assert (Q : 0 <? u32 (ms 1%nat - u32 (ms 0%nat + 300)) = true).
  { apply Z.ltb_lt. unfold u32. rewrite Zminus_mod_idemp_r. pose proof (Z.mod_pos_bound (ms 1%nat - (ms 0%nat + 300)) 4294967296 ltac:(lia)). lia. }
  rewrite Q. reflexivity.
Qed.

(** ** SHT4x *)
Lemma sht4x_loop {S} (w : bus S) n ms timeout fuel : only_at_start w [] -> forall k h, idle h -> sht4xLoop w n ms timeout fuel k h = Hang \/
  exists mid tr r h', sht4xLoop w n ms timeout fuel k h = Done (h', r) /\ log h' = log h ++ mid ++ tr /\ plays w (world h) (mid ++ tr) (world h') /\ idle h' /\ Forall (polite 0x44 (fun _ => False)) (mid ++ tr) /\
    match r with None => True | Some l => exists o, transfer 0x44 [] 6 tr o 0 l /\ Forall is_byte l /\ (o = Ack <-> length l = 6%nat) end.
Proof.
  intros ST. induction fuel as [|f IH]; intros k h I; [left; reflexivity|]. cbn [sht4xLoop]. destruct (timeout <? ms k); [right; exists [], [], None, h; rewrite !app_nil_r; split; [reflexivity|]; split; [reflexivity|]; split; [reflexivity|]; split; [exact I|]; split; [constructor|exact Logic.I]|]. unfold MasterRead, eSHT4xAddress.
  destruct (call_read w n h 0x44 [] 6 6 ST I ltac:(lia) ltac:(lia)) as [E|(pre & tr & o & kk & l & h1 & E & LE & AK & L & P & T & I1 & PO & BY)]; cbn [length] in E; change (Z.of_nat 0) with 0 in E; change (Z.of_nat 6) with 6 in E; rewrite E; [left; reflexivity|].
  assert (PC : Forall (polite 0x44 (fun _ => False)) (pre ++ tr)) by exact PO.
  assert (U : u8 (Z.of_nat (length l)) = Z.of_nat (length l)) by (unfold u8; apply Z.mod_small; lia). rewrite U. destruct (Z.eqb_spec (Z.of_nat (length l)) 0) as [C|C].
  - destruct (IH (Datatypes.S k) h1 I1) as [H|(be & t2 & r & h' & E2 & L2 & P2 & I2 & PO2 & V)]; [left; exact H|right]. exists ((pre ++ tr) ++ be), t2, r, h'. split; [exact E2|]. rewrite <- (app_assoc (pre ++ tr)). split; [rewrite L2, L, <- !app_assoc; reflexivity|]. split; [eapply plays_join; eassumption|]. split; [exact I2|]. split; [apply Forall_app; auto|exact V].
  - right. exists pre, tr, (Some l), h1. split; [reflexivity|]. split; [exact L|]. split; [exact P|]. split; [exact I1|]. split; [exact PC|]. exists o. pose proof (transfer_reads _ _ _ _ _ _ T) as ->. auto.
Qed.
Lemma six (b : list Z) : Forall is_byte b -> (length b =? 6)%nat && (rd b 2 =? CRC_Model.sensirion_crc8 0xFF (firstn 2 b)) && (rd b 5 =? CRC_Model.sensirion_crc8 0xFF (firstn 2 (skipn 3 b))) = true ->
  length b = 6%nat /\ two_words b (word (rd b 0) (rd b 1)) (word (rd b 3) (rd b 4)).
Proof.
  intros BY H. apply andb_prop in H. destruct H as (H & H3). apply andb_prop in H. destruct H as (H1 & H2). apply Nat.eqb_eq in H1. split; [exact H1|]. destruct b as [|b0 [|b1 [|c [|d0 [|d1 [|e [|]]]]]]]; try (cbn in H1; lia). rewrite !Forall_cons_iff in BY. destruct BY as (B0 & B1 & B2 & B3 & B4 & B5 & _).
  unfold rd in *. cbn [nth firstn skipn] in *. apply Z.eqb_eq in H2, H3. exists b0, b1, c, d0, d1, e. split; [reflexivity|]. split; [apply fits_iff; auto; unfold is_byte; lia|]. split; [apply fits_iff; auto; unfold is_byte; lia|]. split; apply word_val; auto.
Qed.
Lemma read4_ok {S} (w : bus S) n fuel ms h cmd : only_at_start w [cmd] -> idle h -> readSHT4x w n fuel ms h cmd = Hang \/
  exists all r h', readSHT4x w n fuel ms h cmd = Done (h', r) /\ log h' = log h ++ all /\ plays w (world h) all (world h') /\ idle h' /\ Forall (polite 0x44 (fun b => b = cmd)) all /\
    match r with None => True | Some b => Forall is_byte b /\ two_words b (word (rd b 0) (rd b 1)) (word (rd b 3) (rd b 4)) /\ exists pre tr0 o mid tr, all = pre ++ tr0 ++ mid ++ tr /\ transfer 0x44 [cmd] 0 tr0 o 1 [] /\ Forall (polite 0x44 (fun _ => False)) mid /\ transfer 0x44 [] 6 tr Ack 0 b end.
Proof.
  intros ST I. unfold readSHT4x, writeCommand, eSHT4xAddress.
  destruct (call_send w n h 0x44 [cmd] ST I ltac:(lia) ltac:(discriminate) ltac:(cbn; lia)) as [E|(pre & tr & o & kk & h1 & NL & E & L & P & T & I1 & PO)]; cbn [length] in E; change (Z.of_nat 1) with 1 in E; rewrite E; [left; reflexivity|].
  assert (PC : Forall (polite 0x44 (fun b => b = cmd)) (pre ++ tr)) by (eapply polite_mono; [|exact PO]; intros b [H|[]]; auto).
  destruct (Z.eqb_spec (Z.of_nat kk) 1) as [C|C]; [|right; exists (pre ++ tr), None, h1; auto 10]. assert (kk = 1%nat) as -> by lia.
  destruct (sht4x_loop w n ms (u32 (ms 0%nat + 300)) fuel (oas w _ _ _ ST) 1 h1 I1) as [-> |(mid & t2 & r & h' & -> & L2 & P2 & I2 & PO2 & V)]; [left; reflexivity|right].
  assert (PA : Forall (polite 0x44 (fun b => b = cmd)) ((pre ++ tr) ++ mid ++ t2)) by (apply Forall_app; split; [exact PC|]; eapply polite_mono; [|exact PO2]; intros b []).
  assert (LA : log h' = log h ++ (pre ++ tr) ++ mid ++ t2) by (rewrite L2, L, <- !app_assoc; reflexivity). assert (PL : plays w (world h) ((pre ++ tr) ++ mid ++ t2) (world h')) by (eapply plays_join; eassumption).
  destruct r as [b|]; [|exists ((pre ++ tr) ++ mid ++ t2), None, h'; auto 10]. destruct V as (o2 & T2 & BY & AK).
  destruct ((length b =? 6)%nat && (rd b 2 =? CRC_Model.sensirion_crc8 0xFF (firstn 2 b)) && (rd b 5 =? CRC_Model.sensirion_crc8 0xFF (firstn 2 (skipn 3 b)))) eqn:CK; [|exists ((pre ++ tr) ++ mid ++ t2), None, h'; auto 10].
  destruct (six b BY CK) as (L6 & TW). exists ((pre ++ tr) ++ mid ++ t2), (Some b), h'. split; [reflexivity|]. split; [exact LA|]. split; [exact PL|]. split; [exact I2|]. split; [exact PA|]. split; [exact BY|]. split; [exact TW|]. exists pre, tr, o, mid, t2. split; [rewrite <- app_assoc; reflexivity|]. split; [exact T|]. split; [apply Forall_app in PO2; apply PO2|]. rewrite (proj2 AK L6) in T2. exact T2.
Qed.
Lemma two_words_ok (b : list Z) x y : Forall is_byte b -> two_words b x y -> (length b =? 6)%nat && (rd b 2 =? CRC_Model.sensirion_crc8 0xFF (firstn 2 b)) && (rd b 5 =? CRC_Model.sensirion_crc8 0xFF (firstn 2 (skipn 3 b))) = true /\ x = word (rd b 0) (rd b 1) /\ y = word (rd b 3) (rd b 4).
Proof.
  intros BY (b0 & b1 & c & d0 & d1 & e & -> & F1 & F2 & -> & ->). rewrite !Forall_cons_iff in BY. destruct BY as (B0 & B1 & B2 & B3 & B4 & B5 & _). unfold rd. cbn [nth firstn skipn length].
  apply fits_iff in F1, F2; auto; try (unfold is_byte; lia). rewrite <- F1, <- F2, !Z.eqb_refl. split; [reflexivity|]. split; symmetry; apply word_val; auto.
Qed.
Lemma waits {S} (w : bus S) n ms timeout f j : forall k h tr b s', idle h -> (forall i, (k <= i <= k + j)%nat -> ms i <= timeout) -> transfer 0x44 [] 6 tr Ack 0 b -> length b = 6%nat -> plays w (world h) (concat (repeat (not_yet 0x44) j) ++ tr) s' ->
  exists h', sht4xLoop w (Datatypes.S n) ms timeout (Datatypes.S (j + f)) k h = Done (h', Some b) /\ log h' = log h ++ concat (repeat (not_yet 0x44) j) ++ tr /\ idle h'.
Proof.
  induction j as [|j IH]; intros k h tr b s' I M T LB P; cbn [plus]; cbn [sht4xLoop]; destruct (Z.ltb_spec timeout (ms k)) as [X|_]; try (specialize (M k ltac:(lia)); lia); unfold MasterRead, eSHT4xAddress.
  - cbn [repeat concat app] in *. rewrite <- (app_nil_r tr) in P. destruct (read_known w n h 0x44 [] 6 6 tr Ack 0 b [] s' I ltac:(lia) ltac:(lia) T ltac:(discriminate) P) as (h' & E & L & _ & _ & I'). cbn [length] in E. change (Z.of_nat 0) with 0 in E. change (Z.of_nat 6) with 6 in E. rewrite E, LB. exists h'. auto.
  - cbn [repeat concat] in P. rewrite <- app_assoc in P.
    assert (TN : transfer 0x44 [] 6 (not_yet 0x44) Nak 0 []) by (apply (reads 0x44 [] 6 [Start; Addr 0x44 true Nak] Nak []); [reflexivity|lia|apply no_answer; discriminate]).
    destruct (read_known w n h 0x44 [] 6 6 (not_yet 0x44) Nak 0 [] _ s' I ltac:(lia) ltac:(lia) TN ltac:(discriminate) P) as (h' & E & L & _ & P' & I'). cbn [length] in E. change (Z.of_nat 0) with 0 in E. change (Z.of_nat 6) with 6 in E. rewrite E. change (u8 0 =? 0) with true. cbv iota.
    destruct (IH (Datatypes.S k) h' tr b s' I' ltac:(intros i Hi; apply M; lia) T LB P') as (h2 & E2 & L2 & I2). exists h2. split; [exact E2|]. split; [rewrite L2, L; cbn [repeat concat]; rewrite <- !app_assoc; reflexivity|exact I2].
Qed.
Lemma read4_known {S} (w : bus S) n f ms h cmd tr0 o tr b x y j s' : idle h -> transfer 0x44 [cmd] 0 tr0 o 1 [] -> o <> Lost -> transfer 0x44 [] 6 tr Ack 0 b -> two_words b x y -> plays w (world h) (tr0 ++ concat (repeat (not_yet 0x44) j) ++ tr) s' ->
  ms 0%nat + 300 < 4294967296 -> (forall i, (i <= j + 1)%nat -> 0 <= ms i <= ms 0%nat + 300) ->
  exists h', readSHT4x w (Datatypes.S n) (Datatypes.S (j + f)) ms h cmd = Done (h', Some b) /\ log h' = log h ++ tr0 ++ concat (repeat (not_yet 0x44) j) ++ tr /\ x = word (rd b 0) (rd b 1) /\ y = word (rd b 3) (rd b 4) /\ Forall is_byte b /\ idle h'.
Proof.
  intros I T0 NL T TW P W M. destruct (send_known w n h 0x44 [cmd] tr0 o 1 [] _ s' I ltac:(lia) ltac:(discriminate) T0 NL P) as (h1 & E & L & _ & P1 & I1). cbn [length] in E. change (Z.of_nat 1) with 1 in E.
  assert (L6 : length b = 6%nat) by (destruct TW as (b0 & b1 & c & d0 & d1 & e & -> & _); reflexivity).
  assert (U : u32 (ms 0%nat + 300) = ms 0%nat + 300) by (unfold u32; specialize (M 0%nat ltac:(lia)); apply Z.mod_small; lia).
  destruct (waits w n ms (ms 0%nat + 300) f j 1 h1 tr b s' I1 ltac:(intros i Hi; apply M; lia) T L6 P1) as (h2 & E2 & L2 & I2). destruct (lost_inv w _ _ _ _ P1) as (s1 & _ & P2). pose proof (transfer_bytes w _ _ _ _ _ _ _ _ _ T P2) as BY. destruct (two_words_ok b x y BY TW) as (CK & X & Y).
  exists h2. unfold readSHT4x, writeCommand, eSHT4xAddress. rewrite E. change (1 =? 1) with true. cbv iota zeta beta. rewrite U, E2, CK. split; [reflexivity|]. split; [rewrite L2, L, <- !app_assoc; reflexivity|]. auto.
Qed.
