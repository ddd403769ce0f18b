(** Lemmas for C111 *)
From Verif Require Export Ds18Wire_Spec.
From Verif Require Export Wire_Bytes.

Notation D := search_devices.
Definition run (bits : list bool) (s : slave) : slave := fold_left (fun s v => gets v s) bits s.
Fixpoint silent_along (bits : list bool) (s : slave) : Prop := match bits with [] => True | v :: r => toSend s = None /\ silent_along r (gets v s) end.
Lemma silent_talk l : Forall (fun s => toSend s = None) l -> talk l = [].
Proof. induction 1 as [|s l H Hf IH]; [reflexivity|]. cbn [talk flat_map]. rewrite H. exact IH. Qed.
Lemma slots_run bits : forall L, Forall (silent_along bits) L -> fold_left (fun b x => writeSlot D x b) bits L = map (run bits) L.
Proof.
  induction bits as [|v bits IH]; intros L H; cbn [fold_left]; [rewrite <- (map_id L) at 1; reflexivity|].
  assert (E : writeSlot D v L = map (gets v) L). { unfold writeSlot. rewrite sends_talk, silent_talk; [reflexivity|]. eapply Forall_impl; [|exact H]. intros s Hs. apply Hs. }
  rewrite E, IH; [rewrite map_map; reflexivity|]. rewrite Forall_forall in *. intros s Hs. apply in_map_iff in Hs. destruct Hs as (x & <- & Hx). apply (H x Hx).
Qed.
Lemma bytes_slots B (d : devices B) vs : forall b, fold_left (fun b v => writeByte d v b) vs b = fold_left (fun b x => writeSlot d x b) (flat_map byte_bits vs) b.
Proof. induction vs as [|v vs IH]; intros b; cbn [fold_left flat_map]; [reflexivity|]. rewrite fold_left_app, IH. reflexivity. Qed.
Lemma run_app a b s : run (a ++ b) s = run b (run a s). Proof. apply fold_left_app. Qed.
Lemma silent_app a b : forall s, silent_along a s -> silent_along b (run a s) -> silent_along (a ++ b) s.
Proof. induction a as [|v a IH]; intros s H1 H2; [exact H2|]. destruct H1 as [H1 H3]. split; [exact H1|]. apply IH; assumption. Qed.
Lemma silent_run bits : forall s, ph s = Silent -> run bits s = s /\ silent_along bits s.
Proof.
  induction bits as [|v bits IH]; intros s H; [split; [reflexivity|exact Logic.I]|]. assert (E : gets v s = s) by (unfold gets; rewrite H; reflexivity). destruct (IH s H) as [H1 H2]. unfold run. cbn [fold_left silent_along].
  rewrite E. split; [exact H1|]. split; [unfold toSend; rewrite H; reflexivity|exact H2].
Qed.
Lemma command_match s : ph s = Command [] -> run (byte_bits 0x55) s = go (matching (code s)) s /\ silent_along (byte_bits 0x55) s.
Proof. destruct s as [c m k p]. cbn [ph]. intros ->. split; [reflexivity|]. cbn. repeat split; reflexivity. Qed.
Lemma function_convert s : ph s = Function [] -> run (byte_bits 0x44) s = mkSlave (code s) (memory s) (S (started s)) Silent /\ silent_along (byte_bits 0x44) s.
Proof. destruct s as [c m k p]. cbn [ph]. intros ->. split; [reflexivity|]. cbn. repeat split; reflexivity. Qed.
Lemma function_read s : ph s = Function [] -> run (byte_bits 0xBE) s = go (Sending (memory s)) s /\ silent_along (byte_bits 0xBE) s.
Proof. destruct s as [c m k p]. cbn [ph]. intros ->. split; [reflexivity|]. cbn. repeat split; reflexivity. Qed.
Lemma match_run rest : forall bits s, ph s = Matching rest -> length bits = length rest -> rest <> [] ->
  run bits s = go (if list_eq_dec Bool.bool_dec bits rest then Function [] else Silent) s /\ silent_along bits s.
Proof.
  induction rest as [|b rest IH]; intros bits s H L N; [congruence|]. destruct bits as [|v bits]; [discriminate|]. cbn in L. injection L as L.
  assert (E : gets v s = go (if Bool.eqb b v then matching rest else Silent) s) by (unfold gets; rewrite H; reflexivity).
  assert (T : toSend s = None) by (unfold toSend; rewrite H; reflexivity). unfold run. cbn [fold_left silent_along]. rewrite E. clear E. destruct (Bool.eqb_spec b v) as [->|Nv].
  - destruct rest as [|b' rest].
    + destruct bits; [|discriminate]. cbn [matching fold_left silent_along]. split; [|auto]. destruct (list_eq_dec _ [v] [v]); [reflexivity|congruence].
    + cbn [matching]. destruct (IH bits (go (Matching (b' :: rest)) s)) as [H1 H2]; [reflexivity|exact L|discriminate|]. unfold run in H1. rewrite H1. split; [|auto].
      destruct (list_eq_dec Bool.bool_dec bits (b' :: rest)), (list_eq_dec Bool.bool_dec (v :: bits) (v :: b' :: rest)); try congruence; reflexivity.
  - destruct (silent_run bits (go Silent s) eq_refl) as [H1 H2]. unfold run in H1. rewrite H1. split; [|auto]. destruct (list_eq_dec Bool.bool_dec (v :: bits) (b :: rest)); [congruence|reflexivity].
Qed.

(** after a reset: select, command *)
Definition chosen (a : list Z) (s : slave) : bool := if list_eq_dec Bool.bool_dec (rom_bits a) (code s) then true else false.
Definition after (c : Z) (a : list Z) (s : slave) : slave :=
  if chosen a s then if c =? 0x44 then mkSlave (code s) (memory s) (S (started s)) Silent else go (Sending (memory s)) s else go Silent s.
Lemma select_one c a s : c = 0x44 \/ c = 0xBE -> length a = 8%nat -> length (code s) = 64%nat -> ph s = Command [] ->
  run (flat_map byte_bits (0x55 :: a ++ [c])) s = after c a s /\ silent_along (flat_map byte_bits (0x55 :: a ++ [c])) s.
Proof.
  intros Hc La Lc Hp. cbn [flat_map]. rewrite flat_map_app. change (flat_map byte_bits a) with (rom_bits a). cbn [flat_map]. rewrite app_nil_r, !run_app. destruct (command_match s Hp) as [E1 Q1].
  assert (M : matching (code s) = Matching (code s)) by (destruct (code s); [discriminate|reflexivity]). rewrite M in E1.
  destruct (match_run (code s) (rom_bits a) (go (Matching (code s)) s)) as [E2 Q2]; [reflexivity|rewrite rom_bits_length, La, Lc; reflexivity|destruct (code s); [discriminate|congruence]|].
  unfold after, chosen. rewrite E1, E2. destruct (list_eq_dec Bool.bool_dec (rom_bits a) (code s)) as [Ea|Na].
  - destruct Hc as [-> | ->].
    + destruct (function_convert (go (Function []) (go (Matching (code s)) s)) eq_refl) as [E3 Q3]. rewrite E3. split; [reflexivity|]. apply silent_app; [exact Q1|]. rewrite E1. apply silent_app; [exact Q2|]. rewrite E2. exact Q3.
    + destruct (function_read (go (Function []) (go (Matching (code s)) s)) eq_refl) as [E3 Q3]. rewrite E3. split; [reflexivity|]. apply silent_app; [exact Q1|]. rewrite E1. apply silent_app; [exact Q2|]. rewrite E2. exact Q3.
  - destruct (silent_run (byte_bits c) (go Silent (go (Matching (code s)) s)) eq_refl) as [E3 Q3]. rewrite E3. split; [reflexivity|]. apply silent_app; [exact Q1|]. rewrite E1. apply silent_app; [exact Q2|]. rewrite E2. exact Q3.
Qed.
Lemma select_all c a L : c = 0x44 \/ c = 0xBE -> length a = 8%nat -> Forall (fun s => length (code s) = 64%nat) L ->
  writeByte D c (fold_left (fun b v => writeByte D v b) (0x55 :: a) (map (go (Command [])) L)) = map (after c a) L.
Proof.
  intros Hc La HL. change (writeByte D c ?x) with (fold_left (fun b v => writeByte D v b) [c] x). rewrite <- fold_left_app, bytes_slots. cbn [app].
  rewrite slots_run. { rewrite map_map. apply map_ext_in. intros s Hs. rewrite Forall_forall in HL. destruct (select_one c a (go (Command []) s) Hc La (HL s Hs) eq_refl) as [E _]. rewrite E. reflexivity. }
  rewrite Forall_forall in *. intros s Hs. apply in_map_iff in Hs. destruct Hs as (x & <- & Hx). apply (select_one c a (go (Command []) x) Hc La (HL x Hx) eq_refl).
Qed.

(** reading *)
Lemma value_byte b : is_byte b -> value (byte_bits b) = b.
Proof. intros H. pose proof (byte_forall (fun b => value (byte_bits b) =? b)) as F. apply Z.eqb_eq, F; [vm_compute; reflexivity|exact H]. Qed.
Lemma quiet_talk L : Forall (fun s => ph s = Silent) L -> talk L = [].
Proof. intros H. apply silent_talk. eapply Forall_impl; [|exact H]. intros s E. unfold toSend. rewrite E. reflexivity. Qed.
Lemma read_silent n : forall L, Forall (fun s => ph s = Silent) L -> readBits D n L = (L, repeat true n).
Proof.
  induction n as [|n IH]; intros L H; [reflexivity|]. cbn [readBits repeat]. unfold readSlot. rewrite sends_talk, (quiet_talk L H). cbn [onWrite search_devices].
  rewrite quiet_gets by (eapply Forall_impl; [|exact H]; intros s E; unfold gets; rewrite E; reflexivity). rewrite (IH L H). reflexivity.
Qed.
Lemma quiet_clocked L : Forall (fun s => ph s = Silent) L -> map clocked L = L.
Proof. induction 1 as [|s l H Hf IH]; [reflexivity|]. cbn [map]. rewrite IH. unfold clocked. rewrite H. reflexivity. Qed.
Lemma read_one A C rest bits : Forall (fun s => ph s = Silent) A -> Forall (fun s => ph s = Silent) C -> forall s, ph s = Sending (bits ++ rest) ->
  readBits D (length bits) (A ++ s :: C) = (A ++ go (Sending rest) s :: C, bits).
Proof.
  intros HA HC. induction bits as [|b bits IH]; intros s H; cbn [length readBits].
  - destruct s as [c m k p]. cbn [ph app] in H. subst. reflexivity.
  - cbn [app] in H. assert (T : talk (A ++ s :: C) = [b]). { unfold talk. rewrite flat_map_app. cbn [flat_map]. fold (talk A). fold (talk C). rewrite (quiet_talk A HA), (quiet_talk C HC). unfold toSend. rewrite H. reflexivity. }
    unfold readSlot. rewrite sends_talk, T. cbn [forallb]. rewrite andb_true_r. cbn [sent search_devices]. rewrite map_app. cbn [map]. rewrite (quiet_clocked A HA), (quiet_clocked C HC).
    assert (Ec : clocked s = go (Sending (bits ++ rest)) s) by (unfold clocked; rewrite H; reflexivity). rewrite Ec, IH by reflexivity. reflexivity.
Qed.
Lemma bytes_silent n : forall L, Forall (fun s => ph s = Silent) L -> readByteN D n L = (L, repeat 255 n).
Proof. induction n as [|n IH]; intros L H; [reflexivity|]. cbn [readByteN repeat]. rewrite (read_silent 8 L H), (IH L H). reflexivity. Qed.
Lemma bytes_one A C pad : Forall (fun s => ph s = Silent) A -> Forall (fun s => ph s = Silent) C -> Forall is_byte pad -> forall s, ph s = Sending (flat_map byte_bits pad) ->
  readByteN D (length pad) (A ++ s :: C) = (A ++ go (Sending []) s :: C, pad).
Proof.
  intros HA HC. induction 1 as [|b pad Hb Hf IH]; intros s H; cbn [length readByteN].
  - destruct s as [c m k p]. cbn [ph] in H. subst. reflexivity.
  - cbn [flat_map] in H. change 8%nat with (length (byte_bits b)). rewrite (read_one A C (flat_map byte_bits pad) (byte_bits b) HA HC s H). rewrite IH by reflexivity. rewrite value_byte by exact Hb. reflexivity.
Qed.

(** what the line knows of the sensors *)
Definition known (L : list slave) : list (list bool * list bool) := map (fun s => (code s, memory s)) L.
Lemma known_map f L : (forall s, code (f s) = code s /\ memory (f s) = memory s) -> known (map f L) = known L.
Proof. intros H. unfold known. rewrite map_map. apply map_ext. intros s. destruct (H s) as [-> ->]. reflexivity. Qed.
Lemma known_after c a L : known (map (after c a) L) = known L.
Proof. apply known_map. intros s. unfold after. destruct (chosen a s); [destruct (c =? 0x44)|]; split; reflexivity. Qed.
Lemma known_codes L L' : known L = known L' -> codes L = codes L'.
Proof. intros H. unfold known, codes in *. apply (f_equal (map fst)) in H. rewrite !map_map in H. exact H. Qed.
Lemma read_after xs a L : rom_ok a -> distinct xs -> known L = map (fun x => (rom_bits (fst x), flat_map byte_bits (snd x))) xs ->
  exists L', readByteN D 9 (map (after 0xBE a) L) = (L', answer xs a) /\ known L' = known L /\ map started L' = map started L.
Proof.
  intros Ha [ND HF] HK.
  assert (Hn : forall ys K, known K = map (fun x => (rom_bits (fst x), flat_map byte_bits (snd x))) ys -> Forall (fun x => rom_ok (fst x) /\ length (snd x) = 9%nat /\ Forall is_byte (snd x)) ys ->
    ~ In a (map fst ys) -> Forall (fun s => ph s = Silent) (map (after 0xBE a) K)).
  { induction ys as [|y ys IHy]; intros [|s K] E F N; try discriminate E; [constructor|]. cbn [known map] in E. injection E as E1 E2 E3. inversion F as [|? ? F1 F2]; subst. cbn [map]. cbn [map In] in N.
    constructor; [|apply IHy; auto]. unfold after, chosen. destruct (list_eq_dec _ _ _) as [Q|Q]; [|reflexivity]. exfalso. apply N. left. apply rom_bits_inj; [apply F1|exact Ha|congruence]. }
  assert (G : forall xs L, NoDup (map fst xs) -> Forall (fun x => rom_ok (fst x) /\ length (snd x) = 9%nat /\ Forall is_byte (snd x)) xs -> known L = map (fun x => (rom_bits (fst x), flat_map byte_bits (snd x))) xs ->
    forall A, Forall (fun s => ph s = Silent) A -> exists L', readByteN D 9 (A ++ map (after 0xBE a) L) = (A ++ L', answer xs a) /\ known L' = known L /\ map started L' = map started L).
  { clear xs L ND HF HK. induction xs as [|[r b] xs IH]; intros [|s L] ND HF HK A HA; try discriminate HK.
    - exists []. cbn [map answer]. rewrite app_nil_r. rewrite (bytes_silent 9 A HA). auto.
    - cbn [known map fst snd] in HK, ND, HF. injection HK as K1 K2 K3. inversion ND as [|? ? N1 N2]; subst. inversion HF as [|? ? (F1 & F2 & F3) F4]; subst. cbn [fst snd] in *. cbn [answer map].
      destruct (list_eq_dec Z.eq_dec r a) as [->|Nr].
      + assert (Ec : chosen a s = true) by (unfold chosen; destruct (list_eq_dec _ _ _); congruence).
        assert (Es : after 0xBE a s = go (Sending (flat_map byte_bits b)) s) by (unfold after; rewrite Ec, <- K2; reflexivity). rewrite Es.
        pose proof (Hn xs L K3 F4 N1) as Q. rewrite <- F2. rewrite (bytes_one A (map (after 190 a) L) b HA Q F3 (go (Sending (flat_map byte_bits b)) s) eq_refl). eexists. split; [reflexivity|]. split.
        * change (known (?x :: ?y)) with ((code x, memory x) :: known y). rewrite known_after. reflexivity.
        * cbn [map]. rewrite map_map. f_equal. apply map_ext_in. intros z Hz. rewrite Forall_forall in Q. specialize (Q _ (in_map _ _ _ Hz)). unfold after in *. destruct (chosen a z); [|reflexivity]. discriminate Q.
      + assert (Ec : chosen a s = false). { unfold chosen. destruct (list_eq_dec _ _ _) as [Q|Q]; [|reflexivity]. exfalso. apply Nr. apply rom_bits_inj; [exact F1|exact Ha|congruence]. }
        assert (Es : after 0xBE a s = go Silent s) by (unfold after; rewrite Ec; reflexivity). rewrite Es.
        destruct (IH L N2 F4 K3 (A ++ [go Silent s])) as (L' & R1 & R2 & R3). { apply Forall_app. split; [exact HA|]. constructor; [reflexivity|constructor]. }
        rewrite <- !app_assoc in R1. cbn [app] in R1. exists (go Silent s :: L'). split; [exact R1|]. split; [|cbn [map]; rewrite R3; reflexivity].
        change (known (?x :: ?y)) with ((code x, memory x) :: known y). rewrite R2. reflexivity. }
  destruct (G xs L ND HF HK [] (Forall_nil _)) as (L' & R). exists L'. exact R.
Qed.

Section Line.
  Context (wd : world) (par : bool) (xs : sensors).
  Hypothesis HL : legal wd.
  Hypothesis HQ : quick wd.
  Hypothesis HS : shorted wd = false.
  Hypothesis HR : resistor wd = true.
  Hypothesis HD : distinct xs.
  Notation P := (gpio search_devices wd).
  Lemma on_known l : on_line xs l <-> known (bus l) = map (fun x => (rom_bits (fst x), flat_map byte_bits (snd x))) xs.
  Proof. reflexivity. Qed.
  Lemma on_codes l : on_line xs l -> codes (bus l) = map rom_bits (map fst xs).
  Proof. intros H. unfold on_line in H. apply (f_equal (map fst)) in H. rewrite !map_map in H. unfold codes. rewrite map_map. exact H. Qed.
  Lemma on_length l : on_line xs l -> Forall (fun s => length (code s) = 64%nat) (bus l).
  Proof.
    intros H. apply on_codes in H. apply Forall_forall. intros s Hs. assert (I1 : In (code s) (codes (bus l))) by (apply in_map; exact Hs). rewrite H in I1. apply in_map_iff in I1. destruct I1 as (r & <- & Hr).
    apply in_map_iff in Hr. destruct Hr as (x & <- & Hx). destruct HD as [_ F]. rewrite Forall_forall in F. destruct (F x Hx) as ((E & _) & _). rewrite rom_bits_length, E. reflexivity.
  Qed.
  Lemma reset_line l : atRest l -> on_line xs l -> atRest (fst (OneWireReset P l)) /\ bus (fst (OneWireReset P l)) = map (go (Command [])) (bus l) /\ snd (OneWireReset P l) = answers xs.
  Proof.
    intros H1 H2. destruct (reset_any search_devices wd HL HQ l HS) as (b & T & R1 & S1 & _); [apply H1|destruct H1 as (_ & _ & A); lia|]. destruct H1 as (_ & A & _). destruct T as [_ T]. rewrite (T A) in S1.
    split; [exact R1|]. cbn [onReset search_devices] in S1. injection S1 as S1 S2. split; [exact S1|]. rewrite S2. unfold on_line in H2. destruct (bus l), xs; try discriminate; reflexivity.
  Qed.
  Lemma ready_now : par || resistor wd = true. Proof. rewrite HR. apply orb_true_r. Qed.
  Lemma command_line c a l L : c = 0x44 \/ c = 0xBE -> rom_ok a -> Forall (fun s => length (code s) = 64%nat) L -> atRest l -> bus l = map (go (Command [])) L ->
    atRest (OneWireWrite P par c (OneWireSelect P par a l)) /\ bus (OneWireWrite P par c (OneWireSelect P par a l)) = map (after c a) L.
  Proof.
    intros Hc [Ha _] HLn R1 S1. destruct (writes_rest search_devices wd HL HQ par (0x55 :: a) ready_now l R1) as (R2 & S2 & _). cbv zeta in R2, S2.
    assert (E : OneWireSelect P par a l = fold_left (fun s b => OneWireWrite P par b s) (0x55 :: a) l).
    { do 8 (destruct a as [|? a]; [discriminate|]). destruct a; [|discriminate]. reflexivity. }
    rewrite <- E in R2, S2. destruct (write_rest search_devices wd HL HQ par c (OneWireSelect P par a l) R2 ready_now) as (R3 & S3 & _). split; [exact R3|]. rewrite S3, S2, S1. apply select_all; assumption.
  Qed.

  Lemma chosen_rom a s r : rom_ok a -> rom_ok r -> code s = rom_bits r -> chosen a s = if list_eq_dec Z.eq_dec a r then true else false.
  Proof.
    intros H1 H2 E. unfold chosen. destruct (list_eq_dec _ _ _) as [Q|Q], (list_eq_dec Z.eq_dec a r) as [->|N]; try reflexivity; [|congruence]. exfalso. apply N. apply rom_bits_inj; congruence.
  Qed.
  Lemma started_after a l : rom_ok a -> on_line xs l -> map started (map (after 0x44 a) (bus l)) = map (fun p => (fst p + snd p)%nat) (combine (conversions l) (selected xs [a])).
  Proof.
    intros Ha H. unfold conversions, selected. unfold on_line in H. destruct HD as [_ F]. clear HD. revert H. generalize (bus l). intros L. clear l. revert L.
    induction xs as [|[r b] ys IH]; intros [|s L] H; try discriminate; [reflexivity|]. cbn [map fst snd] in *. injection H as K1 K2 K3. inversion F as [|? ? (F1 & _) F2]; subst. cbn [fst] in *.
    cbn [combine map fst snd]. rewrite (IH F2 L K3). f_equal. unfold after. rewrite (chosen_rom a s r Ha F1 K1). cbn [count_occ]. destruct (list_eq_dec Z.eq_dec a r); cbn; lia.
  Qed.
  Lemma started_none l sel : sel = [] -> on_line xs l -> conversions l = map (fun p => (fst p + snd p)%nat) (combine (conversions l) (selected xs sel)).
  Proof.
    intros -> H. unfold conversions, selected. unfold on_line in H. revert H. generalize (bus l). intros L. revert L. clear HD. induction xs as [|x ys IH]; intros [|s L] H; try discriminate; [reflexivity|].
    cbn [map] in *. injection H as K1 K2 K3. cbn [combine map fst snd]. rewrite <- (IH L K3). f_equal. cbn [count_occ]. lia.
  Qed.

  Lemma start_line st i now l : rom_ok (addr (Ds18_Model.device st (Z.to_nat i))) \/ (rd (addr (Ds18_Model.device st (Z.to_nat i))) 0 = 0 /\ type (Ds18_Model.device st (Z.to_nat i)) = DS_UNKNOWN) -> atRest l -> on_line xs l ->
    match startConversion st i now (answers xs) with
    | None => startConversionW P par st i now l = None
    | Some (b, st', ev) => exists l', startConversionW P par st i now l = Some (l', (b, st')) /\ atRest l' /\ on_line xs l' /\
        conversions l' = map (fun p => (fst p + snd p)%nat) (combine (conversions l) (selected xs (commanded 0x44 ev)))
    end.
  Proof.
    intros Ha H1 H2. unfold startConversion, startConversionW. destruct (foundDevices st <=? i); [exists l; split; [reflexivity|]; split; [exact H1|]; split; [exact H2|apply started_none; [reflexivity|exact H2]]|].
    destruct ((i <? 0) || _); [reflexivity|]. cbv zeta. set (d := Ds18_Model.device st (Z.to_nat i)) in *.
    destruct (negb (type d =? DS_UNKNOWN) || negb (rd (addr d) 0 =? 0)) eqn:Et; [|exists l; split; [reflexivity|]; split; [exact H1|]; split; [exact H2|apply started_none; [reflexivity|exact H2]]].
    destruct Ha as [Ha|[Ha1 Ha2]]; [|rewrite Ha1, Ha2 in Et; discriminate].
    destruct (reset_line l H1 H2) as (R1 & S1 & V1). destruct (OneWireReset P l) as [l1 there]. cbn [fst snd] in R1, S1, V1. subst there. destruct (answers xs).
    - destruct (command_line 0x44 (addr d) l1 (bus l) ltac:(auto) Ha (on_length l H2) R1 S1) as (R2 & S2). eexists. split; [reflexivity|]. split; [exact R2|]. split.
      + apply on_known. rewrite S2, known_after. exact H2.
      + unfold conversions at 1. rewrite S2. apply (started_after (addr d) l Ha H2).
    - exists l1. split; [reflexivity|]. split; [exact R1|]. split; [apply on_known; rewrite S1, known_map by (intros; split; reflexivity); exact H2|].
      unfold conversions at 1. rewrite S1, map_map. apply (started_none l [] eq_refl H2).
  Qed.
  Lemma read_line st i now l : rom_ok (addr (Ds18_Model.device st (Z.to_nat i))) \/ conversionStarted (Ds18_Model.device st (Z.to_nat i)) = false -> atRest l -> on_line xs l ->
    match readResult st i now (answers xs) (answer xs) with
    | None => readResultW P par st i now l = None
    | Some (b, st', ev) => exists l', readResultW P par st i now l = Some (l', (b, st')) /\ atRest l' /\ on_line xs l' /\ conversions l' = conversions l
    end.
  Proof.
    intros Ha H1 H2. unfold readResult, readResultW. destruct (foundDevices st <=? i); [exists l; auto|]. destruct ((i <? 0) || _); [reflexivity|]. cbv zeta. set (d := Ds18_Model.device st (Z.to_nat i)) in *.
    destruct (negb (conversionStarted d) || (now <? readyAt d)) eqn:Et; [exists l; auto|]. destruct Ha as [Ha|Ha]; [|rewrite Ha in Et; discriminate].
    destruct (reset_line l H1 H2) as (R1 & S1 & V1). destruct (OneWireReset P l) as [l1 there]. cbn [fst snd] in R1, S1, V1. subst there. destruct (answers xs); cbn [negb].
    - destruct (command_line 0xBE (addr d) l1 (bus l) ltac:(auto) Ha (on_length l H2) R1 S1) as (R2 & S2). set (l2 := OneWireWrite P par 0xBE _) in *. clearbody l2.
      assert (R3 : atRest (if par then OneWireDePower P l2 else l2) /\ bus (if par then OneWireDePower P l2 else l2) = bus l2).
      { destruct par; [|auto]. destruct (depower_rest search_devices wd HL l2 R2 HR) as (A1 & A2 & _). auto. }
      set (l3 := if par then OneWireDePower P l2 else l2) in *. clearbody l3. destruct R3 as (R3 & S3). destruct (read_bytes_rest search_devices wd HL HQ HS 9 l3 R3) as (R4 & S4 & V4).
      destruct (read_after xs (addr d) (bus l) Ha HD H2) as (L' & Q1 & Q2 & Q3). rewrite S3, S2, Q1 in S4, V4. destruct (OneWireReadBytes P 9 l3) as [l4 nine]. cbn [fst snd] in R4, S4, V4. subst nine.
      exists l4. split; [reflexivity|]. split; [exact R4|]. split; [apply on_known; rewrite S4, Q2; exact H2|]. unfold conversions. rewrite S4. exact Q3.
    - exists l1. split; [reflexivity|]. split; [exact R1|]. split; [apply on_known; rewrite S1, known_map by (intros; split; reflexivity); exact H2|]. unfold conversions. rewrite S1, map_map. reflexivity.
  Qed.
End Line.
