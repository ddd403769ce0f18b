(** C103: the gas sensor SGP4x *)
From Verif Require Import Base Bits I2c_Model I2c_Spec I2c_Proofs I2c_Props I2c_Det Sht_Model Sht_Spec Sht_Proofs Sht_Proofs2 Sht_Proofs3.
From Verif Require CRC_Model.

(** ** Words with checksums *)
Lemma words_iff f : forall b k, length b = (3 * k)%nat -> (k <= f)%nat -> Forall is_byte b -> wordsChecked f b = true <-> exists data, protected data b.
Proof.
  induction f as [|f IH]; intros b k L K BY.
  - assert (k = 0%nat) as -> by lia. destruct b; [|cbn in L; lia]. split; [exists []; constructor|reflexivity].
  - destruct k as [|k]; [destruct b; [|cbn in L; lia]; split; [exists []; constructor|reflexivity]|]. destruct b as [|b0 [|b1 [|c r]]]; try (cbn in L; lia). cbn [wordsChecked]. rewrite !Forall_cons_iff in BY. destruct BY as (B0 & B1 & BC & BR). specialize (IH r k ltac:(cbn in L; lia) ltac:(lia) BR).
    pose proof (fits_iff 0xFF b0 b1 c ltac:(unfold is_byte; lia) B0 B1 BC) as FI. destruct (Z.eqb_spec (CRC_Model.sensirion_crc8 255 [b0; b1]) c) as [E|E]; cbn [negb].
    + rewrite IH. split; intros (data & P); [exists (b0 :: b1 :: data); constructor; [apply FI; auto|exact P]|inversion P; subst; eauto].
    + split; [discriminate|]. intros (data & P). inversion P as [|? ? ? ? ? F]; subst. apply FI in F. congruence.
Qed.
Lemma protected_det b : forall d d', protected d b -> protected d' b -> d = d'.
Proof. intros d d' P. revert d'. induction P as [|b0 b1 c data r F P IH]; intros d' Q; inversion Q; subst; [reflexivity|]. f_equal. f_equal. apply IH. assumption. Qed.
Lemma protected_length d b : protected d b -> (3 * length d = 2 * length b)%nat.
Proof. intros P. induction P; cbn [length]; lia. Qed.

(** ** readSensor *)
Lemma sgp_ok {S} (w : bus S) n h command params size k : only_at_start w [0] -> idle h -> size = (3 * k)%nat -> (length params <= 253)%nat ->
  let buffer := Z.land (Z.shiftr command 8) 255 :: Z.land command 255 :: params in
  readSGP4x w n h command params size = Hang \/
  exists all r b h', readSGP4x w n h command params size = Done (h', r, b) /\ log h' = log h ++ all /\ plays w (world h) all (world h') /\ idle h' /\ Forall (polite 0x59 (fun b => In b buffer)) all /\
    In r [success; sendError; readError; crc8Mismatch] /\
    (r = success -> (size = 0%nat /\ exists pre tr0 o, all = pre ++ tr0 /\ transfer 0x59 buffer 0 tr0 o (length buffer) []) \/
       ((0 < size)%nat /\ Forall is_byte b /\ exists data, protected data b /\ asked 0x59 buffer size all data)).
Proof.
  intros ST I SZ LP buffer. unfold readSGP4x, eSGP4xAddress. fold buffer.
  destruct (call_send w n h 0x59 buffer (oas w _ _ _ ST) I ltac:(lia) ltac:(discriminate) ltac:(cbn; lia)) as [-> |(pre & tr & o & kk & h1 & NL & -> & L & P & T & I1 & PO)]; [left; reflexivity|].
  destruct (Z.eqb_spec (Z.of_nat kk) (Z.of_nat (length buffer))) as [C|C]; cbn [negb]; [|right; exists (pre ++ tr), sendError, [], h1; split; [reflexivity|]; split; [exact L|]; split; [exact P|]; split; [exact I1|]; split; [exact PO|]; split; [cbn; auto|discriminate]].
  assert (kk = length buffer) as -> by lia. destruct (Nat.eqb_spec size 0) as [Z0|Z0].
  - right. exists (pre ++ tr), success, [], h1. split; [reflexivity|]. split; [exact L|]. split; [exact P|]. split; [exact I1|]. split; [exact PO|]. split; [cbn; auto|]. intros _. left. split; [exact Z0|]. exists pre, tr, o. auto.
  - unfold MasterRead. destruct (call_read w n h1 0x59 [] size size (oas w _ _ _ ST) I1 ltac:(lia) ltac:(lia)) as [E|(pre2 & tr2 & o2 & k2 & l & h2 & E & LE & AK & L2 & P2 & T2 & I2 & PO2 & BY)]; cbn [length] in E; change (Z.of_nat 0) with 0 in E; rewrite E; [left; reflexivity|right].
    assert (LA : log h2 = log h ++ (pre ++ tr) ++ pre2 ++ tr2) by (rewrite L2, L, <- !app_assoc; reflexivity). assert (PL : plays w (world h) ((pre ++ tr) ++ pre2 ++ tr2) (world h2)) by (eapply plays_join; eassumption).
    assert (PA : Forall (polite 0x59 (fun b => In b buffer)) ((pre ++ tr) ++ pre2 ++ tr2)) by (apply Forall_app; split; [exact PO|]; eapply polite_mono; [|exact PO2]; intros b []).
    destruct (Z.eqb_spec (Z.of_nat (length l)) (Z.of_nat size)) as [D|D]; cbn [negb]; [|exists ((pre ++ tr) ++ pre2 ++ tr2), readError, [], h2; split; [reflexivity|]; do 4 (split; [assumption|]); split; [cbn; auto|discriminate]].
    assert (M : (Z.of_nat (length l) =? 0) || negb (Z.of_nat (length l) mod 3 =? 0) = false). { rewrite D. replace (Z.of_nat size) with (Z.of_nat k * 3) by lia. rewrite Z.mod_mul by lia. destruct (Z.eqb_spec (Z.of_nat k * 3) 0); [lia|reflexivity]. }
    rewrite M. assert (D' : length l = size) by lia. pose proof (words_iff size l k ltac:(lia) ltac:(lia) BY) as WI. destruct (wordsChecked size l); [|exists ((pre ++ tr) ++ pre2 ++ tr2), crc8Mismatch, [], h2; split; [reflexivity|]; do 4 (split; [assumption|]); split; [cbn; auto|discriminate]].
    destruct (proj1 WI eq_refl) as (data & PR). exists ((pre ++ tr) ++ pre2 ++ tr2), success, l, h2. split; [reflexivity|]. do 4 (split; [assumption|]). split; [cbn; auto|]. intros _. right. split; [lia|]. split; [exact BY|]. exists data. split; [exact PR|].
    exists pre, tr, o, pre2, tr2, l. split; [rewrite <- app_assoc; reflexivity|]. split; [exact T|]. split; [apply Forall_app in PO2; apply PO2|]. pose proof (transfer_reads _ _ _ _ _ _ T2) as ->. rewrite (proj2 AK D') in T2. auto.
Qed.
(** the answer is known *)
Lemma sgp_known {S} (w : bus S) n h command params size k tr0 o kk tr o2 b s : idle h -> size = (3 * k)%nat -> (0 < k)%nat ->
  let buffer := Z.land (Z.shiftr command 8) 255 :: Z.land command 255 :: params in
  transfer 0x59 buffer 0 tr0 o kk [] -> o <> Lost ->
  if (kk =? length buffer)%nat then
    transfer 0x59 [] size tr o2 0 b -> o2 <> Lost -> plays w (world h) (tr0 ++ tr) s ->
    exists h', readSGP4x w (Datatypes.S n) h command params size = Done (h', if (length b =? size)%nat then if wordsChecked size b then success else crc8Mismatch else readError, if (length b =? size)%nat && wordsChecked size b then b else []) /\ log h' = log h ++ tr0 ++ tr /\ Forall is_byte b /\ idle h'
  else plays w (world h) tr0 s -> exists h', readSGP4x w (Datatypes.S n) h command params size = Done (h', sendError, []) /\ log h' = log h ++ tr0 /\ idle h'.
Proof.
  intros I SZ K buffer T0 NL. unfold readSGP4x, eSGP4xAddress. fold buffer. destruct (Nat.eqb_spec kk (length buffer)) as [C|C].
  - intros T NL2 P. destruct (send_known w n h 0x59 buffer tr0 o kk [] tr s I ltac:(lia) ltac:(discriminate) T0 NL P) as (h1 & E & L & _ & P1 & I1). rewrite E, C, Z.eqb_refl. cbn [negb]. destruct (Nat.eqb_spec size 0); [lia|].
    pose proof (transfer_bytes w _ _ _ _ _ _ _ _ _ T P1) as BY. rewrite <- (app_nil_r tr) in P1. destruct (read_known w n h1 0x59 [] size size tr o2 0 b [] s I1 ltac:(lia) ltac:(lia) T NL2 P1) as (h2 & E2 & L2 & _ & _ & I2). cbn [length] in E2. change (Z.of_nat 0) with 0 in E2. unfold MasterRead. rewrite E2.
    exists h2. split; [|split; [rewrite L2, L, <- app_assoc; reflexivity|auto]]. destruct (Z.eqb_spec (Z.of_nat (length b)) (Z.of_nat size)) as [D|D]; destruct (Nat.eqb_spec (length b) size) as [D'|D']; try lia; cbn [negb andb]; [|reflexivity].
    assert (M : (Z.of_nat (length b) =? 0) || negb (Z.of_nat (length b) mod 3 =? 0) = false). { rewrite D. replace (Z.of_nat size) with (Z.of_nat k * 3) by lia. rewrite Z.mod_mul by lia. destruct (Z.eqb_spec (Z.of_nat k * 3) 0); [lia|reflexivity]. }
    rewrite M. destruct (wordsChecked size b); reflexivity.
  - intros P. rewrite <- (app_nil_r tr0) in P. destruct (send_known w n h 0x59 buffer tr0 o kk [] [] s I ltac:(lia) ltac:(discriminate) T0 NL P) as (h1 & E & L & _ & _ & I1). rewrite E. destruct (Z.eqb_spec (Z.of_nat kk) (Z.of_nat (length buffer))); [lia|]. exists h1. auto.
Qed.

(** ** Measuring *)
(** the parameters: humidity and temperature ticks, each with its checksum; without compensation those of 50 % and 25 degrees *)
Definition ticks (comp : option (Z * Z)) : Z * Z := match comp with Some p => p | None => (0x8000, 0x6666) end.
Definition raw_params (comp : option (Z * Z)) : list Z := match comp with Some (rh, t) => param rh ++ param t | None => [0x80; 0x00; 0xA2; 0x66; 0x66; 0x93] end.
Lemma param_ok t : 0 <= t < 65536 -> exists c, param t = [t / 256; t mod 256; c] /\ fits 0xFF (t / 256) (t mod 256) c.
Proof.
  intros R. assert (H : is_byte (t / 256)) by (unfold is_byte; pose proof (Z.div_pos t 256); pose proof (Z.div_lt_upper_bound t 256 256); lia). assert (L : is_byte (t mod 256)) by (unfold is_byte; pose proof (Z.mod_pos_bound t 256); lia).
  unfold param. cbv zeta. rewrite !land_255. rewrite Z.shiftr_div_pow2 by lia. change (2 ^ 8) with 256. unfold u8. rewrite (Z.mod_small (t / 256)) by exact H. eexists. split; [reflexivity|]. apply fits_iff; auto; [unfold is_byte; lia|apply crc_byte; auto; unfold is_byte; lia].
Qed.
Lemma raw_params_ok comp : 0 <= fst (ticks comp) < 65536 -> 0 <= snd (ticks comp) < 65536 -> protected [fst (ticks comp) / 256; fst (ticks comp) mod 256; snd (ticks comp) / 256; snd (ticks comp) mod 256] (raw_params comp) /\ length (raw_params comp) = 6%nat.
Proof.
  destruct comp as [[rh t]|]; cbn [ticks fst snd raw_params]; intros A B.
  - destruct (param_ok rh A) as (c & -> & F), (param_ok t B) as (c' & -> & F'). split; [|reflexivity]. cbn [app]. repeat (constructor; [assumption|]). constructor.
  - split; [|reflexivity]. repeat (constructor; [reflexivity|]). constructor.
Qed.
Lemma words6 b : Forall is_byte b -> forall data, protected data b -> length b = 6%nat -> exists b0 b1 d0 d1, data = [b0; b1; d0; d1] /\ word (rd b 0) (rd b 1) = 256 * b0 + b1 /\ word (rd b 3) (rd b 4) = 256 * d0 + d1.
Proof.
  intros BY data P L. inversion P as [|b0 b1 c data1 r1 F1 P1]; subst; [discriminate|]. inversion P1 as [|d0 d1 e data2 r2 F2 P2]; subst; [discriminate|]. inversion P2; subst; [|cbn in L; lia]. rewrite !Forall_cons_iff in BY. destruct BY as (B0 & B1 & _ & D0 & D1 & _). exists b0, b1, d0, d1. split; [reflexivity|]. unfold rd. cbn [nth]. split; apply word_val; auto.
Qed.
(** measureRawSignal on any bus: with success the values are the two words of the answer to the command with the given parameters; otherwise the values stay as they were *)
Theorem C103_raw {S} (w : bus S) n h g comp : only_at_start w [0] -> idle h -> 0 <= fst (ticks comp) < 65536 -> 0 <= snd (ticks comp) < 65536 ->
  measureRawSignal w n h g comp = Hang \/
  exists all params g' r h', measureRawSignal w n h g comp = Done (h', g', r) /\ protected [fst (ticks comp) / 256; fst (ticks comp) mod 256; snd (ticks comp) / 256; snd (ticks comp) mod 256] params /\
    log h' = log h ++ all /\ plays w (world h) all (world h') /\ idle h' /\ Forall (polite 0x59 (fun b => In b ([0x26; 0x19] ++ params))) all /\
    (r <> success -> g' = g /\ In r [sendError; readError; crc8Mismatch]) /\
    (r = success -> exists b0 b1 d0 d1, asked 0x59 ([0x26; 0x19] ++ params) 6 all [b0; b1; d0; d1] /\ g' = mkGas (256 * b0 + b1) (256 * d0 + d1) (featureSet g)).
Proof.
  intros ST I RA RB. unfold measureRawSignal. fold (raw_params comp). destruct (raw_params_ok comp RA RB) as (PR & L6). destruct (sgp_ok w n h measureRaw (raw_params comp) 6 2 ST I eq_refl ltac:(lia)) as [-> |(all & r & b & h' & -> & L & P & I' & PO & IR & SU)]; [left; reflexivity|right].
  assert (BAD : r <> success -> exists all params g' r' h'', Done (h', g, r) = Done (h'', g', r') /\ protected [fst (ticks comp) / 256; fst (ticks comp) mod 256; snd (ticks comp) / 256; snd (ticks comp) mod 256] params /\
    log h'' = log h ++ all /\ plays w (world h) all (world h'') /\ idle h'' /\ Forall (polite 0x59 (fun b => In b ([0x26; 0x19] ++ params))) all /\ (r' <> success -> g' = g /\ In r' [sendError; readError; crc8Mismatch]) /\ (r' = success -> exists b0 b1 d0 d1, asked 0x59 ([0x26; 0x19] ++ params) 6 all [b0; b1; d0; d1] /\ g' = mkGas (256 * b0 + b1) (256 * d0 + d1) (featureSet g))).
  { intros NS. exists all, (raw_params comp), g, r, h'. split; [reflexivity|]. split; [exact PR|]. do 4 (split; [assumption|]). split; [|intros E; destruct (NS E)]. intros _. split; [reflexivity|]. destruct IR as [IR|IR]; [congruence|exact IR]. }
  assert (D : r = success \/ r <> success) by (destruct r; (left; reflexivity) || (right; discriminate)). destruct D as [-> |D]; [|destruct r; [destruct (D eq_refl)|exact (BAD D)..]]. clear BAD.
  destruct (SU eq_refl) as [(Z0 & _)|(_ & BY & data & PB & AS)]; [discriminate|]. assert (LB : length b = 6%nat). { destruct AS as (? & ? & ? & ? & tr & b2 & _ & _ & _ & T & PB2). assert (LD : length b2 = 6%nat) by (inversion T as [? ? ? ? ? RC| |]; subst; [inversion RC; subst; [congruence|destruct lost; discriminate|rewrite app_length; cbn; lia]|congruence|congruence]). pose proof (protected_length _ _ PB). pose proof (protected_length _ _ PB2). lia. }
  destruct (words6 b BY data PB LB) as (b0 & b1 & d0 & d1 & -> & W1 & W2). rewrite W1, W2. eexists all, (raw_params comp), _, success, h'. split; [reflexivity|]. split; [exact PR|]. do 4 (split; [assumption|]). split; [intros NS; destruct (NS eq_refl)|]. intros _. exists b0, b1, d0, d1. split; [exact AS|reflexivity].
Qed.
Print Assumptions C103_raw.
Definition raw_talk : list ev := sentence 0x59 [0x26; 0x19; 0x80; 0x00; 0xA2; 0x66; 0x66; 0x93] ++ reading 0x59 [] [0x6C; 0xB8; 102; 0xD4; 0x00] 198.
Example C103_raw_example : only_at_start script [0] /\ idle (off raw_talk) /\ 0 <= fst (ticks None) < 65536 /\ 0 <= snd (ticks None) < 65536 /\
  match measureRawSignal script 1 (off raw_talk) (mkGas 1 2 3) None with Done (h, g, r) => r = success /\ g = mkGas 0x6CB8 0xD400 3 /\ log h = raw_talk | _ => False end /\
  match measureRawSignal script 1 (off raw_talk) (mkGas 1 2 3) (Some (0x8000, 0x6666)) with Done (h, g, r) => r = success /\ g = mkGas 0x6CB8 0xD400 3 /\ log h = raw_talk | _ => False end.
Proof. split; [apply alone_oas, script_alone|]. split; [left; reflexivity|]. split; [cbn; lia|]. split; [cbn; lia|]. vm_compute. auto 10. Qed.
(** The result by what happens on the bus: a byte of the command (not the last one) refused, an incomplete answer, a wrong checksum, or success *)
Theorem C103_raw_outcome {S} (w : bus S) n h g comp params tr0 o k tr o2 b s : idle h -> 0 <= fst (ticks comp) < 65536 -> 0 <= snd (ticks comp) < 65536 ->
  protected [fst (ticks comp) / 256; fst (ticks comp) mod 256; snd (ticks comp) / 256; snd (ticks comp) mod 256] params -> Forall is_byte params ->
  transfer 0x59 ([0x26; 0x19] ++ params) 0 tr0 o k [] -> o <> Lost ->
  ((k < 8)%nat -> plays w (world h) tr0 s -> exists h', measureRawSignal w (Datatypes.S n) h g comp = Done (h', g, sendError) /\ log h' = log h ++ tr0) /\
  (k = 8%nat -> transfer 0x59 [] 6 tr o2 0 b -> o2 <> Lost -> plays w (world h) (tr0 ++ tr) s -> exists h' g' r, measureRawSignal w (Datatypes.S n) h g comp = Done (h', g', r) /\ log h' = log h ++ tr0 ++ tr /\
     (r = readError <-> (length b < 6)%nat) /\ (r = crc8Mismatch <-> length b = 6%nat /\ forall data, ~ protected data b) /\ (r = success <-> exists b0 b1 d0 d1, protected [b0; b1; d0; d1] b /\ g' = mkGas (256 * b0 + b1) (256 * d0 + d1) (featureSet g))).
Proof.
  intros I RA RB PR BP T0 NL. destruct (raw_params_ok comp RA RB) as (PR2 & L6). assert (params = raw_params comp) as ->.
  { assert (U : forall d p q, protected d p -> Forall is_byte p -> protected d q -> Forall is_byte q -> p = q). { clear. intros d p q P. revert q. induction P as [|b0 b1 c data r F P IH]; intros q BP Q BQ; inversion Q as [|x0 x1 c' dd r' F' Q']; subst; [reflexivity|]. rewrite !Forall_cons_iff in BP, BQ. destruct BP as (B0 & B1 & B2 & BR), BQ as (_ & _ & C2 & CR). apply fits_iff in F, F'; auto; try (unfold is_byte; lia). subst. do 3 f_equal. apply IH; auto. }
    apply (U _ _ _ PR BP PR2). clear - RA RB. unfold raw_params. destruct comp as [[rh t]|]; [|repeat constructor; unfold is_byte; lia]. cbn [ticks fst snd] in *. assert (PB : forall t, Forall is_byte (param t)) by (intros x; unfold param; cbv zeta; rewrite !land_255; unfold u8; assert (forall y, is_byte (y mod 256)) by (intros y; unfold is_byte; apply Z.mod_pos_bound; lia); constructor; [auto|constructor; [auto|constructor; [apply crc_byte; auto; unfold is_byte; lia|constructor]]]). apply Forall_app. auto. }
  pose proof (sgp_known w n h measureRaw (raw_params comp) 6 2 tr0 o k tr o2 b s I eq_refl ltac:(lia) T0 NL) as H. cbn [length] in H. rewrite L6 in H. unfold measureRawSignal. fold (raw_params comp). split.
  - intros K P. destruct (Nat.eqb_spec k 8); [lia|]. destruct (H P) as (h' & E & L & _). exists h'. rewrite E. auto.
  - intros -> T NL2 P. cbn [Nat.eqb] in H. destruct (H T NL2 P) as (h' & E & L & BY & I').
    assert (LB : (length b <= 6)%nat) by (inversion T as [? ? ? ? ? RC| |]; subst; [inversion RC; subst; [cbn; lia|lia|rewrite app_length; cbn; lia]|congruence|congruence]).
    assert (NP : (length b < 6)%nat -> forall b0 b1 d0 d1, ~ protected [b0; b1; d0; d1] b) by (intros LT b0 b1 d0 d1 PP; apply protected_length in PP; cbn [length] in PP; lia).
    destruct (Nat.eqb_spec (length b) 6) as [D|D]; cbn [andb] in E.
    + pose proof (words_iff 6 b 2 ltac:(lia) ltac:(lia) BY) as WI. destruct (wordsChecked 6 b).
      * destruct (proj1 WI eq_refl) as (data & PB). destruct (words6 b BY data PB D) as (b0 & b1 & d0 & d1 & -> & W1 & W2). rewrite E. eexists h', _, success. split; [reflexivity|]. split; [exact L|]. split; [split; [discriminate|lia]|]. split; [split; [discriminate|intros (_ & NP'); destruct (NP' _ PB)]|]. split; [|reflexivity]. intros _. exists b0, b1, d0, d1. rewrite W1, W2. auto.
      * rewrite E. exists h', g, crc8Mismatch. split; [reflexivity|]. split; [exact L|]. split; [split; [discriminate|lia]|]. split; [split; [|reflexivity]; intros _; split; [exact D|]; intros data PB; assert (false = true) by (apply WI; eauto); discriminate|]. split; [discriminate|]. intros (b0 & b1 & d0 & d1 & PB & _). assert (false = true) by (apply WI; eauto). discriminate.
    + rewrite E. exists h', g, readError. split; [reflexivity|]. split; [exact L|]. split; [split; [lia|reflexivity]|]. split; [split; [discriminate|intros (D' & _); lia]|]. split; [discriminate|]. intros (b0 & b1 & d0 & d1 & PB & _). destruct (NP ltac:(lia) _ _ _ _ PB).
Qed.
Print Assumptions C103_raw_outcome.
Example C103_raw_outcome_example : idle (off raw_talk) /\ protected [0x8000 / 256; 0x8000 mod 256; 0x6666 / 256; 0x6666 mod 256] [0x80; 0x00; 0xA2; 0x66; 0x66; 0x93] /\ Forall is_byte [0x80; 0x00; 0xA2; 0x66; 0x66; 0x93] /\ transfer 0x59 ([0x26; 0x19] ++ [0x80; 0x00; 0xA2; 0x66; 0x66; 0x93]) 0 (sentence 0x59 [0x26; 0x19; 0x80; 0x00; 0xA2; 0x66; 0x66; 0x93]) Ack 8 [] /\
  transfer 0x59 [] 6 (reading 0x59 [] [0x6C; 0xB8; 102; 0xD4; 0x00] 198) Ack 0 [0x6C; 0xB8; 102; 0xD4; 0x00; 198] /\ protected [0x6C; 0xB8; 0xD4; 0x00] [0x6C; 0xB8; 102; 0xD4; 0x00; 198].
Proof. split; [left; reflexivity|]. split; [repeat (constructor; [reflexivity|]); constructor|]. split; [repeat constructor; unfold is_byte; lia|]. split; [apply sentence_transfer; discriminate|]. split; [apply (reading_transfer 0x59 [] [0x6C; 0xB8; 102; 0xD4; 0x00] 198 6 eq_refl)|]. repeat (constructor; [reflexivity|]). constructor. Qed.

(** ** The other commands *)
Lemma words3 b : Forall is_byte b -> forall data, protected data b -> length b = 3%nat -> exists b0 b1 c, data = [b0; b1] /\ b = [b0; b1; c] /\ is_byte b0 /\ is_byte b1.
Proof. intros BY data P L. inversion P as [|b0 b1 c data1 r1 F1 P1]; subst; [discriminate|]. inversion P1; subst; [|cbn in L; lia]. rewrite !Forall_cons_iff in BY. destruct BY as (B0 & B1 & _). exists b0, b1, c. auto. Qed.
Lemma asked_length a cmd n all data : asked a cmd n all data -> (3 * length data = 2 * n)%nat.
Proof.
  intros (? & ? & ? & ? & tr & b2 & _ & _ & _ & T & PB2). assert (LD : length b2 = n) by (inversion T as [? ? ? ? ? RC| |]; subst; [inversion RC; subst; [congruence|destruct lost; discriminate|rewrite app_length; cbn; lia]|congruence|congruence]). pose proof (protected_length _ _ PB2). lia.
Qed.
Lemma plain {S} (w : bus S) n h command k : only_at_start w [0] -> idle h -> (0 < k)%nat ->
  let buffer := [Z.land (Z.shiftr command 8) 255; Z.land command 255] in
  readSGP4x w n h command [] (3 * k) = Hang \/
  exists all r b h', readSGP4x w n h command [] (3 * k) = Done (h', r, b) /\ log h' = log h ++ all /\ plays w (world h) all (world h') /\ idle h' /\ Forall (polite 0x59 (fun b => In b buffer)) all /\ In r [success; sendError; readError; crc8Mismatch] /\
    (r = success -> Forall is_byte b /\ exists data, protected data b /\ asked 0x59 buffer (3 * k) all data /\ length b = (3 * k)%nat).
Proof.
  intros ST I K buffer. destruct (sgp_ok w n h command [] (3 * k) k ST I eq_refl ltac:(cbn; lia)) as [-> |(all & r & b & h' & -> & L & P & I' & PO & IR & SU)]; [left; reflexivity|right]. exists all, r, b, h'. split; [reflexivity|]. do 5 (split; [assumption|]). intros E. destruct (SU E) as [(Z0 & _)|(_ & BY & data & PB & AS)]; [lia|]. split; [exact BY|]. exists data. split; [exact PB|]. split; [exact AS|]. apply asked_length in AS. apply protected_length in PB. lia.
Qed.
(** executeSelfTest: the lowest two bits of the second byte of the answer (VOC first); the first byte does not matter *)
Theorem C103_selftest {S} (w : bus S) n h : only_at_start w [0] -> idle h ->
  executeSelfTest w n h = Hang \/
  exists all r h', executeSelfTest w n h = Done (h', r) /\ log h' = log h ++ all /\ plays w (world h) all (world h') /\ idle h' /\ Forall (polite 0x59 (fun b => In b [0x28; 0x0E])) all /\
    (In r [sendError; readError; crc8Mismatch] \/ exists b0 b1, asked 0x59 [0x28; 0x0E] 3 all [b0; b1] /\ r = (if b1 mod 2 =? 1 then vocPixelError else if b1 / 2 mod 2 =? 1 then noxPixelError else success)).
Proof.
  intros ST I. unfold executeSelfTest. destruct (plain w n h selfTest 1 ST I ltac:(lia)) as [E|(all & r & b & h' & E & L & P & I' & PO & IR & SU)]; change (3 * 1)%nat with 3%nat in *; rewrite E; [left; reflexivity|right].
  assert (D : r = success \/ r <> success) by (destruct r; (left; reflexivity) || (right; discriminate)). destruct D as [-> |D].
  - destruct (SU eq_refl) as (BY & data & PB & AS & LB). destruct (words3 b BY data PB LB) as (b0 & b1 & c & -> & -> & B0 & B1). eexists all, _, h'. split; [reflexivity|]. do 4 (split; [assumption|]). right. exists b0, b1. split; [exact AS|]. unfold rd. cbn [nth].
    assert (X : forallb (fun b1 => (Bool.eqb (negb (Z.land b1 1 =? 0)) (b1 mod 2 =? 1)) && (Bool.eqb (negb (Z.land b1 2 =? 0)) (b1 / 2 mod 2 =? 1))) bytes256 = true) by (vm_compute; reflexivity). pose proof (byte_forall _ X b1 B1) as H. cbv beta in H. apply andb_prop in H. destruct H as (H1 & H2). apply eqb_prop in H1, H2. rewrite H1, H2. reflexivity.
  - assert (IR' : In r [sendError; readError; crc8Mismatch]) by (destruct IR as [IR|IR]; [congruence|exact IR]). exists all, r, h'. split; [destruct r; [destruct (D eq_refl)|reflexivity..]|]. do 4 (split; [assumption|]). left. exact IR'.
Qed.
Print Assumptions C103_selftest.
Definition test_talk (b1 c : Z) : list ev := sentence 0x59 [0x28; 0x0E] ++ reading 0x59 [] [0xD4; b1] c.
Example C103_selftest_example : only_at_start script [0] /\ idle (off (test_talk 0 198)) /\ match executeSelfTest script 1 (off (test_talk 0 198)) with Done (h, r) => r = success /\ log h = test_talk 0 198 | _ => False end /\
  match executeSelfTest script 1 (off (test_talk 2 164)) with Done (h, r) => r = noxPixelError | _ => False end /\ match executeSelfTest script 1 (off (test_talk 2 163)) with Done (h, r) => r = crc8Mismatch | _ => False end.
Proof. split; [apply alone_oas, script_alone|]. split; [left; reflexivity|]. vm_compute. auto. Qed.
(** getSerialnumber: with success the first [len] of the six bytes are stored *)
Theorem C103_serial {S} (w : bus S) n h len : only_at_start w [0] -> idle h ->
  getSerialnumber w n h len = Hang \/
  exists all r l h', getSerialnumber w n h len = Done (h', r, l) /\ log h' = log h ++ all /\ plays w (world h) all (world h') /\ idle h' /\ Forall (polite 0x59 (fun b => In b [0x36; 0x82])) all /\
    (In r [sendError; readError; crc8Mismatch] /\ l = [] \/ r = success /\ exists data, length data = 6%nat /\ asked 0x59 [0x36; 0x82] 9 all data /\ l = firstn len data).
Proof.
  intros ST I. unfold getSerialnumber. destruct (plain w n h getSerial 3 ST I ltac:(lia)) as [E|(all & r & b & h' & E & L & P & I' & PO & IR & SU)]; change (3 * 3)%nat with 9%nat in *; rewrite E; [left; reflexivity|right].
  assert (D : r = success \/ r <> success) by (destruct r; (left; reflexivity) || (right; discriminate)). destruct D as [-> |D].
  - destruct (SU eq_refl) as (BY & data & PB & AS & LB). eexists all, success, _, h'. split; [reflexivity|]. do 4 (split; [assumption|]). right. split; [reflexivity|]. exists data. split; [apply protected_length in PB; lia|]. split; [exact AS|].
    inversion PB as [|b0 b1 c data1 r1 F1 P1]; subst; [discriminate|]. inversion P1 as [|d0 d1 e data2 r2 F2 P2]; subst; [discriminate|]. inversion P2 as [|e0 e1 f data3 r3 F3 P3]; subst; [discriminate|]. inversion P3; subst; [|cbn in LB; lia]. clear. do 6 (destruct len as [|len]; [reflexivity|]). destruct len as [|len]; reflexivity.
  - assert (IR' : In r [sendError; readError; crc8Mismatch]) by (destruct IR as [IR|IR]; [congruence|exact IR]). exists all, r, [], h'. split; [destruct r; [destruct (D eq_refl)|reflexivity..]|]. do 4 (split; [assumption|]). left. auto.
Qed.
Print Assumptions C103_serial.
Definition serial_talk : list ev := sentence 0x59 [0x36; 0x82] ++ reading 0x59 [] [0x66; 0x66; 147; 0x80; 0x00; 162; 0xBE; 0xEF] 0x92.
Example C103_serial_example : only_at_start script [0] /\ idle (off serial_talk) /\ match getSerialnumber script 1 (off serial_talk) 5 with Done (h, r, l) => r = success /\ l = [0x66; 0x66; 0x80; 0x00; 0xBE] | _ => False end.
Proof. split; [apply alone_oas, script_alone|]. split; [left; reflexivity|]. vm_compute. auto. Qed.
(** readFeatureSet *)
Theorem C103_features {S} (w : bus S) n h g : only_at_start w [0] -> idle h ->
  readFeatureSet w n h g = Hang \/
  exists all r g' h', readFeatureSet w n h g = Done (h', g', r) /\ log h' = log h ++ all /\ plays w (world h) all (world h') /\ idle h' /\ Forall (polite 0x59 (fun b => In b [0x20; 0x2F])) all /\
    (In r [sendError; readError; crc8Mismatch] /\ g' = g \/ r = success /\ exists b0 b1, asked 0x59 [0x20; 0x2F] 3 all [b0; b1] /\ g' = mkGas (rawVocTics g) (rawNoxTics g) (256 * b0 + b1)).
Proof.
  intros ST I. unfold readFeatureSet. destruct (plain w n h featureSetCmd 1 ST I ltac:(lia)) as [E|(all & r & b & h' & E & L & P & I' & PO & IR & SU)]; change (3 * 1)%nat with 3%nat in *; rewrite E; [left; reflexivity|right].
  assert (D : r = success \/ r <> success) by (destruct r; (left; reflexivity) || (right; discriminate)). destruct D as [-> |D].
  - destruct (SU eq_refl) as (BY & data & PB & AS & LB). destruct (words3 b BY data PB LB) as (b0 & b1 & c & -> & -> & B0 & B1). eexists all, success, _, h'. split; [reflexivity|]. do 4 (split; [assumption|]). right. split; [reflexivity|]. exists b0, b1. split; [exact AS|]. unfold rd. cbn [nth]. rewrite word_val by auto. reflexivity.
  - assert (IR' : In r [sendError; readError; crc8Mismatch]) by (destruct IR as [IR|IR]; [congruence|exact IR]). exists all, r, g, h'. split; [destruct r; [destruct (D eq_refl)|reflexivity..]|]. do 4 (split; [assumption|]). left. auto.
Qed.
Print Assumptions C103_features.
Example C103_features_example : only_at_start script [0] /\ idle (off (sentence 0x59 [0x20; 0x2F] ++ reading 0x59 [] [0xBE; 0xEF] 0x92)) /\ match readFeatureSet script 1 (off (sentence 0x59 [0x20; 0x2F] ++ reading 0x59 [] [0xBE; 0xEF] 0x92)) (mkGas 1 2 3) with Done (h, g, r) => r = success /\ g = mkGas 1 2 0xBEEF | _ => False end.
Proof. split; [apply alone_oas, script_alone|]. split; [left; reflexivity|]. vm_compute. auto. Qed.
(** turnHeaterOffAndReturnToIdle: success as soon as both bytes were put on the bus. Initialising sends the conditioning command with the default parameters and forgets the values *)
Theorem C103_heater {S} (w : bus S) n h : only_at_start w [0] -> idle h ->
  turnHeaterOff w n h = Hang \/
  exists all r h', turnHeaterOff w n h = Done (h', r) /\ log h' = log h ++ all /\ plays w (world h) all (world h') /\ idle h' /\ Forall (polite 0x59 (fun b => In b [0x36; 0x15])) all /\
    (r = success \/ r = sendError) /\ (r = success -> exists pre tr o, all = pre ++ tr /\ transfer 0x59 [0x36; 0x15] 0 tr o 2 []).
Proof.
  intros ST I. unfold turnHeaterOff. pose proof (sgp_ok w n h heaterOff [] 0 0 ST I eq_refl ltac:(cbn; lia)) as H. cbv zeta in H.
  assert (R : forall h' r b, readSGP4x w n h heaterOff [] 0 = Done (h', r, b) -> r = success \/ r = sendError). { intros h' r b. unfold readSGP4x. destruct (MasterSend _ _ _ _ _ _) as [[h1 c]| |]; [|discriminate|discriminate]. destruct (negb _); intros E; injection E as _ <- _; auto. }
  destruct H as [E|(all & r & b & h' & E & L & P & I' & PO & IR & SU)]; [rewrite E; left; reflexivity|right]. specialize (R _ _ _ E). rewrite E. exists all, r, h'. split; [reflexivity|]. do 5 (split; [assumption|]). intros S1. destruct (SU S1) as [(_ & H)|(H & _)]; [exact H|lia].
Qed.
Print Assumptions C103_heater.
Theorem C103_init {S} (w : bus S) n h g : only_at_start w [0] -> idle h ->
  initSGP4x w n h g = Hang \/
  exists all r h', initSGP4x w n h g = Done (h', mkGas 0 0 (featureSet g), r) /\ log h' = log h ++ all /\ plays w (world h) all (world h') /\ idle h' /\ Forall (polite 0x59 (fun b => In b [0x26; 0x12; 0x80; 0x00; 0xA2; 0x66; 0x66; 0x93])) all /\
    (In r [sendError; readError; crc8Mismatch] \/ r = success /\ exists b0 b1, asked 0x59 [0x26; 0x12; 0x80; 0x00; 0xA2; 0x66; 0x66; 0x93] 3 all [b0; b1]).
Proof.
  intros ST I. unfold initSGP4x, executeConditioning. pose proof (sgp_ok w n h selfConditioning [0x80; 0x00; 0xA2; 0x66; 0x66; 0x93] 3 1 ST I eq_refl ltac:(cbn; lia)) as H. cbv zeta in H. destruct H as [E|(all & r & b & h' & E & L & P & I' & PO & IR & SU)]; rewrite E; [left; reflexivity|right].
  exists all, r, h'. split; [reflexivity|]. do 4 (split; [assumption|]). destruct IR as [IR|IR]; [right|left; exact IR]. symmetry in IR. split; [exact IR|]. destruct (SU IR) as [(Z0 & _)|(_ & BY & data & PB & AS)]; [discriminate|]. pose proof (asked_length _ _ _ _ _ AS) as LD. destruct data as [|b0 [|b1 [|]]]; cbn [length] in LD; try lia. exists b0, b1. exact AS.
Qed.
Print Assumptions C103_init.
Example C103_heater_example : only_at_start script [0] /\ idle (off (sentence 0x59 [0x36; 0x15])) /\ match turnHeaterOff script 1 (off (sentence 0x59 [0x36; 0x15])) with Done (h, r) => r = success /\ log h = sentence 0x59 [0x36; 0x15] | _ => False end.
Proof. split; [apply alone_oas, script_alone|]. split; [left; reflexivity|]. vm_compute. auto. Qed.
Definition cond_talk : list ev := sentence 0x59 [0x26; 0x12; 0x80; 0x00; 0xA2; 0x66; 0x66; 0x93] ++ reading 0x59 [] [0xBE; 0xEF] 0x92.
Example C103_init_example : only_at_start script [0] /\ idle (off cond_talk) /\ match initSGP4x script 1 (off cond_talk) (mkGas 1 2 3) with Done (h, g, r) => r = success /\ g = mkGas 0 0 3 | _ => False end.
Proof. split; [apply alone_oas, script_alone|]. split; [left; reflexivity|]. vm_compute. auto. Qed.
