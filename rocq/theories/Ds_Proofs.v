(** Proofs for C104, C105: the driver and the bridge *)
From Verif Require Import Base Bits I2c_Spec I2c_Proofs I2c_Det Ds_Model Ds_Spec.

Lemma nb_bits z : 0 <= z -> z mod 256 = Z.land z 255.
Proof. intros. change 255 with (Z.ones 8). rewrite Z.land_ones by lia. reflexivity. Qed.

Lemma busy_byte v : (Z.lor (Z.land v 254) 1 mod 256 = Z.lor (Z.land v 254) 1) /\ (Z.land (Z.lor (Z.land v 254) 1) 1 =? 0) = false.
Proof.
  split.
  - apply Z.mod_small. assert (B : 0 <= Z.land v 254 < 256).
    { apply (land_byte_r v 254). red; lia. }
    pose proof (byte_forall (fun z => (0 <=? Z.lor z 1) && (Z.lor z 1 <? 256)) ltac:(vm_compute; reflexivity) (Z.land v 254) B) as F. cbv beta in F. apply andb_true_iff in F. lia.
  - apply Z.eqb_neq. intros E. assert (T : Z.testbit (Z.land (Z.lor (Z.land v 254) 1) 1) 0 = true) by (rewrite Z.land_spec, Z.lor_spec; apply andb_true_iff; split; [apply orb_true_r|reflexivity]). rewrite E in T. discriminate.
Qed.
Lemma land_bit z k : 0 <= k -> negb (Z.land z (2 ^ k) =? 0) = Z.testbit z k.
Proof.
  intros K. destruct (Z.testbit z k) eqn:T.
  - apply negb_true_iff. apply Z.eqb_neq. intros E. assert (X : Z.testbit (Z.land z (2 ^ k)) k = true) by (rewrite Z.land_spec, T, Z.pow2_bits_true by lia; reflexivity). rewrite E, Z.bits_0 in X. discriminate.
  - apply negb_false_iff. apply Z.eqb_eq. apply Z.bits_inj'. intros i Hi. rewrite Z.land_spec, Z.bits_0, Z.pow2_bits_eqb by lia. destruct (Z.eqb_spec k i) as [<-|]; [rewrite T; reflexivity|apply andb_false_r].
Qed.
Lemma complement cfg : 0 <= cfg < 16 -> u8 (Z.lor cfg (Z.shiftl (Z.lnot cfg) 4)) = cfg + 16 * (15 - cfg).
Proof. intros C. assert (cfg = 0 \/ cfg = 1 \/ cfg = 2 \/ cfg = 3 \/ cfg = 4 \/ cfg = 5 \/ cfg = 6 \/ cfg = 7 \/ cfg = 8 \/ cfg = 9 \/ cfg = 10 \/ cfg = 11 \/ cfg = 12 \/ cfg = 13 \/ cfg = 14 \/ cfg = 15) as D by lia. repeat (destruct D as [-> | D]; [reflexivity|]). rewrite D. reflexivity. Qed.
Lemma spu_off cfg : 0 <= cfg < 16 -> u8 (Z.land cfg (Z.lnot 4)) = Z.land cfg 11 /\ 0 <= Z.land cfg 11 < 16 /\ Z.testbit (Z.land cfg 11) 2 = false.
Proof. intros C. assert (cfg = 0 \/ cfg = 1 \/ cfg = 2 \/ cfg = 3 \/ cfg = 4 \/ cfg = 5 \/ cfg = 6 \/ cfg = 7 \/ cfg = 8 \/ cfg = 9 \/ cfg = 10 \/ cfg = 11 \/ cfg = 12 \/ cfg = 13 \/ cfg = 14 \/ cfg = 15) as D by lia. repeat (destruct D as [-> | D]; [repeat split; discriminate|]). rewrite D. repeat split; discriminate. Qed.
Lemma spu_on cfg : 0 <= cfg < 16 -> u8 (Z.lor cfg 4) = Z.lor cfg 4 /\ 0 <= Z.lor cfg 4 < 16 /\ Z.testbit (Z.lor cfg 4) 2 = true.
Proof. intros C. assert (cfg = 0 \/ cfg = 1 \/ cfg = 2 \/ cfg = 3 \/ cfg = 4 \/ cfg = 5 \/ cfg = 6 \/ cfg = 7 \/ cfg = 8 \/ cfg = 9 \/ cfg = 10 \/ cfg = 11 \/ cfg = 12 \/ cfg = 13 \/ cfg = 14 \/ cfg = 15) as D by lia. repeat (destruct D as [-> | D]; [repeat split; discriminate|]). rewrite D. repeat split; discriminate. Qed.
Lemma apu_off cfg : 0 <= cfg < 16 -> u8 (Z.land cfg (Z.lnot 1)) = Z.land cfg 14 /\ 0 <= Z.land cfg 14 < 16.
Proof. intros C. assert (cfg = 0 \/ cfg = 1 \/ cfg = 2 \/ cfg = 3 \/ cfg = 4 \/ cfg = 5 \/ cfg = 6 \/ cfg = 7 \/ cfg = 8 \/ cfg = 9 \/ cfg = 10 \/ cfg = 11 \/ cfg = 12 \/ cfg = 13 \/ cfg = 14 \/ cfg = 15) as D by lia. repeat (destruct D as [-> | D]; [repeat split; discriminate|]). rewrite D. repeat split; discriminate. Qed.
Lemma apu_on cfg : 0 <= cfg < 16 -> u8 (Z.lor cfg 1) = Z.lor cfg 1 /\ 0 <= Z.lor cfg 1 < 16.
Proof. intros C. assert (cfg = 0 \/ cfg = 1 \/ cfg = 2 \/ cfg = 3 \/ cfg = 4 \/ cfg = 5 \/ cfg = 6 \/ cfg = 7 \/ cfg = 8 \/ cfg = 9 \/ cfg = 10 \/ cfg = 11 \/ cfg = 12 \/ cfg = 13 \/ cfg = 14 \/ cfg = 15) as D by lia. repeat (destruct D as [-> | D]; [repeat split; discriminate|]). rewrite D. repeat split; discriminate. Qed.
Lemma b2z_shown v : 0 <= Z.b2z v * 32 < 256 /\ Z.testbit (Z.b2z v * 32) 0 = false /\ Z.testbit (Z.b2z v * 32) 3 = false /\ Z.testbit (Z.b2z v * 32) 5 = v.
Proof. destruct v; repeat split; discriminate. Qed.
Lemma byte_of_range v : 0 <= byte_of v < 2 ^ Z.of_nat (length v).
Proof. induction v as [|b v IH]; cbn [byte_of length]; [cbn; lia|]. rewrite Nat2Z.inj_succ, Z.pow_succ_r by lia. destruct b; cbn [Z.b2z]; lia. Qed.
Lemma reset_shown here short : let r := Z.lor (Z.b2z here * 2) (Z.b2z short * 4) in 0 <= r < 256 /\ Z.testbit r 0 = false /\ Z.testbit r 3 = false /\ Z.testbit r 1 = here /\ Z.testbit r 2 = short.
Proof. destruct here, short; repeat split; discriminate. Qed.
Lemma triplet_shown (a b c : bool) : let r := Z.b2z a * 32 + Z.b2z b * 64 + Z.b2z c * 128 in 0 <= r < 256 /\ Z.testbit r 0 = false /\ Z.testbit r 3 = false /\ Z.testbit r 5 = a /\ Z.testbit r 6 = b /\ Z.testbit r 7 = c.
Proof. destruct a, b, c; repeat split; discriminate. Qed.
Lemma kept_range pull cfg : 0 <= cfg < 16 -> 0 <= kept pull cfg < 16.
Proof. intros C. destruct pull; [apply (spu_off cfg C)|exact C]. Qed.

Section Proofs.
  Context {W : Type} (x : wire W) (addr : Z) (m : nat).
  Hypothesis HA : 0 <= addr < 128.
  Let w := bridge x addr.
  Let n := Datatypes.S m.

  (** the chip after bytes written *)
  Lemma send2 h a b c1 c2 o : idle h -> take x (set_phase (world h) Opcode) a = (c1, Ack) -> take x c1 b = (c2, o) -> o = Ack \/ o = Nak ->
    exists h' k, MasterSend w n h addr [a; b] 2 = Done (h', k) /\ idle h' /\ world h' = c2.
  Proof.
    intros I E1 E2 O.
    assert (P : plays w (world h) ([Start; Addr addr false Ack; Wr a Ack; Wr b o; Stop] ++ []) c2).
    { cbn [app plays]. exists (set_phase (world h) Opcode). split; [cbn [w bridge select start]; rewrite Z.eqb_refl; reflexivity|]. exists c1. split; [exact E1|]. exists c2. split; [exact E2|]. reflexivity. }
    assert (T : exists k, transfer addr [a; b] 0 [Start; Addr addr false Ack; Wr a Ack; Wr b o; Stop] o k []).
    { destruct O as [-> | ->].
      - eexists. apply (writes addr [a; b] 0 [Start; Addr addr false Ack; Wr a Ack; Wr b Ack] Ack); [discriminate|right; reflexivity|apply (all_sent addr [a; b])].
      - eexists. apply (writes addr [a; b] 0 [Start; Addr addr false Ack; Wr a Ack; Wr b Nak] Nak); [discriminate|left; discriminate|apply (broken_off addr [a; b] [a] b [] Nak); [reflexivity|discriminate]]. }
    destruct T as [k T]. destruct (send_known w m h addr [a; b] _ o k [] [] c2 I HA ltac:(discriminate) T ltac:(destruct O as [-> | ->]; discriminate) P) as (h' & E & _ & _ & Q & I').
    exists h', (Z.of_nat k). split; [exact E|]. split; [exact I'|]. symmetry. exact Q.
  Qed.
  Lemma send1 h a c1 o : idle h -> take x (set_phase (world h) Opcode) a = (c1, o) -> o = Ack \/ o = Nak ->
    exists h' k, MasterSend w n h addr [a] 1 = Done (h', k) /\ idle h' /\ world h' = c1.
  Proof.
    intros I E1 O.
    assert (P : plays w (world h) ([Start; Addr addr false Ack; Wr a o; Stop] ++ []) c1).
    { cbn [app plays]. exists (set_phase (world h) Opcode). split; [cbn [w bridge select start]; rewrite Z.eqb_refl; reflexivity|]. exists c1. split; [exact E1|]. reflexivity. }
    assert (T : exists k, transfer addr [a] 0 [Start; Addr addr false Ack; Wr a o; Stop] o k []).
    { destruct O as [-> | ->].
      - eexists. apply (writes addr [a] 0 [Start; Addr addr false Ack; Wr a Ack] Ack); [discriminate|right; reflexivity|apply (all_sent addr [a])].
      - eexists. apply (writes addr [a] 0 [Start; Addr addr false Ack; Wr a Nak] Nak); [discriminate|left; discriminate|apply (broken_off addr [a] [] a [] Nak); [reflexivity|discriminate]]. }
    destruct T as [k T]. destruct (send_known w m h addr [a] _ o k [] [] c1 I HA ltac:(discriminate) T ltac:(destruct O as [-> | ->]; discriminate) P) as (h' & E & _ & _ & Q & I').
    exists h', (Z.of_nat k). split; [exact E|]. split; [exact I'|]. symmetry. exact Q.
  Qed.
  Definition at_pointer (c : chip W) (p : Z) : chip W := mkChip (line c) (pulling c) (config c) p (shown c) (data c) (busy c) Opcode.
  Lemma ask h d p c b : idle h -> mAddress d = addr -> (p =? 0xF0) || (p =? 0xE1) || (p =? 0xC3) = true -> give x (at_pointer (world h) p) = (c, b) ->
    exists h', setReadPointerAndRead w n h d p = Done (h', b mod 256) /\ idle h' /\ world h' = c.
  Proof.
    intros I A V G.
    assert (P : plays w (world h) ([Start; Addr addr false Ack; Wr 0xE1 Ack; Wr p Ack; Start; Addr addr true Ack; Rd (b mod 256) false; Stop] ++ []) c).
    { cbn [app plays]. exists (set_phase (world h) Opcode). split; [cbn [w bridge select start]; rewrite Z.eqb_refl; reflexivity|].
      exists (set_phase (world h) (Operand 0xE1)). split; [reflexivity|].
      exists (mkChip (line (world h)) (pulling (world h)) (config (world h)) p (shown (world h)) (data (world h)) (busy (world h)) Over). split.
      { cbn [w bridge accept take set_phase phase_of line pulling config shown data busy]. rewrite V. reflexivity. }
      exists (at_pointer (world h) p). split; [cbn [w bridge select start]; rewrite Z.eqb_refl; reflexivity|]. exists c, b. split; [|split; reflexivity]. cbn [w bridge supply]. rewrite G. reflexivity. }
    pose proof (both addr [0xE1; p] 1 _ _ Ack _ _ ltac:(discriminate) ltac:(lia) (all_sent addr [0xE1; p]) (all_received addr 1 [] (b mod 256) eq_refl)) as T. cbn [map app ending length] in T.
    destruct (read_known w m h addr [0xE1; p] 1 1 _ Ack _ _ [] c I HA ltac:(lia) T ltac:(discriminate) P) as (h' & E & _ & _ & Q & I'). cbn [length] in E.
    exists h'. split; [|split; [exact I'|symmetry; exact Q]]. unfold setReadPointerAndRead. rewrite A. change (Z.of_nat 2) with 2 in E. change (Z.of_nat 1) with 1 in E. unfold COMMAND_SRP. fold w n. unfold n. rewrite E. reflexivity.
  Qed.
  (** the status register *)
  Definition good (c : chip W) : Prop := 0 <= config c < 16 /\ 0 <= shown c < 256 /\ Z.testbit (shown c) 0 = false /\ Z.testbit (shown c) 3 = false.
  Definition status_of (c : chip W) : Z := Z.lor (shown c) (Z.b2z (level x (line c)) * 8).
  Lemma status_byte c : good c -> status_of c mod 256 = status_of c /\ Z.land (status_of c) 1 = 0 /\ (forall k, k <> 3 -> Z.testbit (status_of c) k = Z.testbit (shown c) k).
  Proof.
    intros (_ & B & T0 & T3). unfold status_of. set (s := shown c) in *.
    assert (L : Z.lor s (Z.b2z (level x (line c)) * 8) mod 256 = Z.lor s (Z.b2z (level x (line c)) * 8) /\ Z.land (Z.lor s (Z.b2z (level x (line c)) * 8)) 1 = 0).
    { assert (F : forall v : bool, (implb (negb (Z.testbit s 0)) ((Z.lor s (Z.b2z v * 8) mod 256 =? Z.lor s (Z.b2z v * 8)) && (Z.land (Z.lor s (Z.b2z v * 8)) 1 =? 0))) = true).
      { intros v. revert B. generalize s. intros z B. refine (byte_forall (fun s => implb (negb (Z.testbit s 0)) ((Z.lor s (Z.b2z v * 8) mod 256 =? Z.lor s (Z.b2z v * 8)) && (Z.land (Z.lor s (Z.b2z v * 8)) 1 =? 0))) _ z B). destruct v; vm_compute; reflexivity. }
      specialize (F (level x (line c))). rewrite T0 in F. cbn [negb implb] in F. apply andb_true_iff in F. destruct F as [F1 F2]. split; apply Z.eqb_eq; assumption. }
    destruct L as [L1 L2]. split; [exact L1|split; [exact L2|]]. intros k K. rewrite Z.lor_spec. replace (Z.testbit (Z.b2z (level x (line c)) * 8) k) with false; [apply orb_false_r|].
    symmetry. destruct (level x (line c)); cbn [Z.b2z]; [|apply Z.bits_0]. change (1 * 8) with (2 ^ 3). apply Z.pow2_bits_false. lia.
  Qed.
  (** the bridge has come to rest *)
  Definition rested (c : chip W) (p : Z) : chip W := mkChip (line c) (pulling c) (config c) p (shown c) (data c) 0 Opcode.
  Lemma poll : forall i h d s, idle h -> mAddress d = addr -> good (world h) -> (busy (world h) < i)%nat ->
    exists h', pollStatus w n i h d s = Done (h', status_of (world h)) /\ idle h' /\ world h' = rested (world h) 0xF0.
  Proof.
    induction i as [|i IH]; intros h d s I A G B; [lia|]. cbn [pollStatus].
    destruct (busy (world h)) as [|k] eqn:EB.
    - destruct (ask h d 0xF0 (at_pointer (world h) 0xF0) (status_of (world h)) I A eq_refl) as (h' & E & I' & Wd).
      { unfold give, at_pointer. cbn [pointer busy line shown]. rewrite EB. reflexivity. }
      destruct (status_byte _ G) as (S1 & S2 & _). exists h'. unfold readStatus, POINTER_STATUS. rewrite E. cbn [bind snd fst]. rewrite S1. unfold STATUS_BUSY. rewrite S2. split; [reflexivity|]. split; [exact I'|]. rewrite Wd. unfold at_pointer, rested. rewrite EB. reflexivity.
    - destruct (busy_byte (noise x (line (world h)))) as [N1 N2].
      destruct (ask h d 0xF0 (mkChip (line (world h)) (pulling (world h)) (config (world h)) 0xF0 (shown (world h)) (data (world h)) k Opcode) (Z.lor (Z.land (noise x (line (world h))) 254) 1) I A eq_refl) as (h' & E & I' & Wd).
      { unfold give, at_pointer. cbn [pointer busy line shown pulling config data phase_of]. rewrite EB. reflexivity. }
      unfold readStatus, POINTER_STATUS. rewrite E. cbn [bind snd fst]. rewrite N1. unfold STATUS_BUSY at 1. rewrite N2.
      destruct (IH h' d (Z.lor (Z.land (noise x (line (world h))) 254) 1) I' A) as (h2 & E2 & I2 & W2).
      { rewrite Wd. exact G. } { rewrite Wd. cbn [busy]. lia. }
      exists h2. rewrite E2. split; [rewrite Wd; reflexivity|]. split; [exact I2|]. rewrite W2, Wd. reflexivity.
  Qed.
  Definition able (h : hw (chip W)) (d : drv) : Prop := idle h /\ mAddress d = addr /\ good (world h) /\ (busy (world h) < Z.to_nat 1000)%nat.
  Lemma wait_ok h d : able h d -> exists h', waitOnBusy w n h d = Done (h', d, status_of (world h)) /\ able h' d /\ world h' = rested (world h) 0xF0.
  Proof.
    intros (I & A & G & B). destruct (poll _ h d 0 I A G B) as (h' & E & I' & Wd). exists h'. unfold waitOnBusy. rewrite E. cbn [bind fst snd]. destruct (status_byte _ G) as (_ & S2 & _). unfold STATUS_BUSY. rewrite S2. split; [reflexivity|].
    split; [|exact Wd]. split; [exact I'|]. split; [exact A|]. rewrite Wd. split; [exact G|]. cbn [rested busy]. lia.
  Qed.
  Lemma conf_ok h d : able h d -> exists h', readConfig w n h d = Done (h', config (world h)) /\ able h' d /\ world h' = at_pointer (world h) 0xC3.
  Proof.
    intros (I & A & G & B). destruct (ask h d 0xC3 (at_pointer (world h) 0xC3) (config (world h)) I A eq_refl eq_refl) as (h' & E & I' & Wd). exists h'. unfold readConfig, POINTER_CONFIG. rewrite E. rewrite Z.mod_small by (destruct G; lia). split; [reflexivity|].
    split; [|exact Wd]. split; [exact I'|]. split; [exact A|]. rewrite Wd. split; [exact G|exact B].
  Qed.
  Lemma data_ok h d : able h d -> busy (world h) = 0%nat -> 0 <= data (world h) < 256 -> exists h', readData w n h d = Done (h', data (world h)) /\ able h' d /\ world h' = at_pointer (world h) 0xE1.
  Proof.
    intros (I & A & G & B) B0 D. destruct (ask h d 0xE1 (at_pointer (world h) 0xE1) (data (world h)) I A eq_refl) as (h' & E & I' & Wd). { unfold give, at_pointer. cbn [pointer busy data]. rewrite B0. reflexivity. }
    exists h'. unfold readData, POINTER_DATA. rewrite E. rewrite Z.mod_small by lia. split; [reflexivity|].
    split; [|exact Wd]. split; [exact I'|]. split; [exact A|]. rewrite Wd. split; [exact G|exact B].
  Qed.
  (** two bytes for a bridge at rest *)
  Lemma write2 h d a b c : able h d -> busy (world h) = 0%nat -> (a =? 0xD2) || (a =? 0xA5) || (a =? 0x87) || (a =? 0x78) = true -> take x (set_phase (world h) (Operand a)) b = (c, Ack) ->
    exists h', writeBytes w n h d [a; b] = Done h' /\ idle h' /\ world h' = c.
  Proof.
    intros (I & A & G & B) B0 V T. destruct (send2 h a b (set_phase (world h) (Operand a)) c Ack I) as (h' & k & E & I' & Wd); [|exact T|left; reflexivity|].
    { unfold take. cbn [set_phase phase_of busy]. rewrite B0. cbn [Nat.ltb Nat.leb]. change (0 <? 0)%nat with false.
      destruct (Z.eqb_spec a 0xF0) as [->|_]; [discriminate V|]. destruct (Z.eqb_spec a 0xE1) as [->|_]; [discriminate V|]. destruct (Z.eqb_spec a 0xB4) as [->|_]; [discriminate V|]. destruct (Z.eqb_spec a 0x96) as [->|_]; [discriminate V|]. rewrite V. reflexivity. }
    exists h'. unfold writeBytes. rewrite A. cbn [length]. change (Z.of_nat 2) with 2. rewrite E. cbn [bind fst]. split; [reflexivity|]. split; assumption.
  Qed.
  Lemma write_config_ok h d cfg : able h d -> 0 <= cfg < 16 ->
    exists h', writeConfig w n h d cfg = Done (h', d) /\ able h' d /\ world h' = mkChip (fst (released x (world h))) false cfg 0xC3 (shown (world h)) (data (world h)) 0 Opcode.
  Proof.
    intros H C. destruct (wait_ok h d H) as (h1 & E1 & H1 & W1). unfold writeConfig. rewrite E1. cbn [bind]. unfold COMMAND_WRITECONFIG. rewrite (complement cfg C).
    destruct (write2 h1 d 0xD2 (cfg + 16 * (15 - cfg)) (mkChip (fst (released x (world h))) false cfg 0xC3 (shown (world h)) (data (world h)) 0 Over) H1) as (h2 & E2 & I2 & W2).
    { rewrite W1. reflexivity. } { reflexivity. }
    { rewrite W1. cbn [take set_phase phase_of rested line pulling config pointer shown data busy]. change (210 =? 225) with false. change (210 =? 210) with true. cbv iota. f_equal. unfold write_config, released, set_phase, rested. cbn [line pulling config pointer shown data busy].
      replace ((cfg + 16 * (15 - cfg)) / 16) with (15 - cfg) by (rewrite Z.mul_comm, Z.div_add, Z.div_small by lia; lia). replace ((cfg + 16 * (15 - cfg)) mod 16) with cfg by (rewrite Z.mul_comm, Z.mod_add, Z.mod_small by lia; lia). rewrite Z.eqb_refl. destruct (pulling (world h)); reflexivity. }
    rewrite E2. cbn [bind]. destruct H as (I & A & G & B).
    assert (H2 : able h2 d). { split; [exact I2|]. split; [exact A|]. rewrite W2. split; [|cbn [busy]; lia]. destruct G as (G1 & G2). split; [exact C|exact G2]. }
    destruct (conf_ok h2 d H2) as (h3 & E3 & H3 & W3). exists h3. rewrite E3. cbn [bind fst snd]. rewrite W2. cbn [config]. rewrite Z.eqb_refl. split; [reflexivity|]. split; [exact H3|]. rewrite W3, W2. reflexivity.
  Qed.
  (** ** The operations *)
  Lemma linked_able h d l pull cfg : linked addr h d l pull cfg -> able h d.
  Proof. intros [A I L P C R B S]. split; [exact I|]. split; [exact A|]. split; [|exact B]. split; [rewrite C; exact R|exact S]. Qed.
  Lemma able_linked h d : able h d -> linked addr h d (line (world h)) (pulling (world h)) (config (world h)).
  Proof. intros (I & A & (G1 & G2) & B). constructor; auto. Qed.
  Lemma released_freed c : fst (released x c) = freed x (line c) (pulling c).
  Proof. unfold released, freed. destruct (pulling c); reflexivity. Qed.
  Lemma released_kept c : snd (released x c) = kept (pulling c) (config c).
  Proof. unfold released, kept. destruct (pulling c); reflexivity. Qed.
  (** a configuration written *)
  Lemma config_linked h d l pull cfg new : linked addr h d l pull cfg -> 0 <= new < 16 ->
    exists h', writeConfig w n h d new = Done (h', d) /\ linked addr h' d (freed x l pull) false new.
  Proof.
    intros K C. destruct (write_config_ok h d new (linked_able _ _ _ _ _ K) C) as (h' & E & H & Wd). exists h'. split; [exact E|]. pose proof (able_linked h' d H) as L. rewrite Wd in L. cbn [line pulling config] in L. rewrite released_freed, (l_line _ _ _ _ _ _ K), (l_pull _ _ _ _ _ _ K) in L. exact L.
  Qed.
  Lemma readc_linked h d l pull cfg : linked addr h d l pull cfg -> exists h', readConfig w n h d = Done (h', cfg) /\ linked addr h' d l pull cfg.
  Proof.
    intros K. destruct (conf_ok h d (linked_able _ _ _ _ _ K)) as (h' & E & H & Wd). exists h'. destruct K as [_ _ L P C _ _ _]. rewrite C in E. split; [exact E|]. pose proof (able_linked h' d H) as Q. rewrite Wd in Q. cbn [at_pointer line pulling config] in Q. rewrite L, P, C in Q. exact Q.
  Qed.
  Lemma strong_on h d l pull cfg : linked addr h d l pull cfg -> exists h', setStrongPullup w n h d = Done (h', d) /\ linked addr h' d (freed x l pull) false (Z.lor cfg 4).
  Proof.
    intros K. destruct (readc_linked h d _ _ _ K) as (h1 & E1 & K1). unfold setStrongPullup, CONFIG_SPU. rewrite E1. cbn [bind fst snd]. destruct (spu_on cfg (l_range _ _ _ _ _ _ K)) as (-> & R & _). exact (config_linked h1 d l pull cfg _ K1 R).
  Qed.
  Lemma strong_off h d l pull cfg : linked addr h d l pull cfg -> exists h', clearStrongPullup w n h d = Done (h', d) /\ linked addr h' d (freed x l pull) false (Z.land cfg 11).
  Proof.
    intros K. destruct (readc_linked h d _ _ _ K) as (h1 & E1 & K1). unfold clearStrongPullup, CONFIG_SPU. rewrite E1. cbn [bind fst snd]. destruct (spu_off cfg (l_range _ _ _ _ _ _ K)) as (-> & R & _). exact (config_linked h1 d l pull cfg _ K1 R).
  Qed.
  Hypothesis Hprompt : prompt x.
  (** the wait *)
  Lemma wait_linked h d l pull cfg : linked addr h d l pull cfg -> exists h' s, waitOnBusy w n h d = Done (h', d, s) /\ linked addr h' d l pull cfg /\ busy (world h') = 0%nat /\ shown (world h') = shown (world h) /\ data (world h') = data (world h) /\ (forall k, k <> 3 -> Z.testbit s k = Z.testbit (shown (world h)) k).
  Proof.
    intros K. pose proof (linked_able _ _ _ _ _ K) as H. destruct (wait_ok h d H) as (h' & E & H' & Wd). exists h', (status_of (world h)). split; [exact E|]. destruct K as [_ _ L P C _ _ _]. pose proof (able_linked h' d H') as Q. rewrite Wd in Q. cbn [rested line pulling config] in Q. rewrite L, P, C in Q. split; [exact Q|]. rewrite Wd. split; [reflexivity|]. split; [reflexivity|]. split; [reflexivity|]. intros k N. apply (status_byte (world h)); [apply H|exact N].
  Qed.
  (** a command with an operand, the pull-up asked for or not *)
  Lemma prepared h d l pull cfg (pw : bool) : linked addr h d l pull cfg ->
    exists h1 s h2 p2 c2, waitOnBusy w n h d = Done (h1, d, s) /\ (if pw then setStrongPullup w n h1 d else Done (h1, d)) = Done (h2, d) /\ able h2 d /\ busy (world h2) = 0%nat /\ (exists l2, linked addr h2 d l2 p2 c2 /\ freed x l2 p2 = freed x l pull /\ kept p2 c2 = asked pw pull cfg).
  Proof.
    intros K. destruct (wait_linked h d l pull cfg K) as (h1 & s & E1 & K1 & B1 & _). exists h1, s. destruct pw.
    - unfold setStrongPullup, CONFIG_SPU. destruct (conf_ok h1 d (linked_able _ _ _ _ _ K1)) as (h2 & E2 & A2 & W2). destruct (spu_on cfg (l_range _ _ _ _ _ _ K)) as (U & R & _).
      destruct (write_config_ok h2 d (Z.lor cfg 4) A2 R) as (h3 & E3 & A3 & W3). exists h3, false, (Z.lor cfg 4). split; [exact E1|]. rewrite E2. cbn [bind fst snd]. rewrite (l_config _ _ _ _ _ _ K1). rewrite U, E3. split; [reflexivity|]. split; [exact A3|]. split; [rewrite W3; reflexivity|].
      pose proof (able_linked h3 d A3) as Q. rewrite W3 in Q. cbn [line pulling config] in Q. rewrite released_freed, W2 in Q. cbn [at_pointer line pulling] in Q. rewrite (l_line _ _ _ _ _ _ K1), (l_pull _ _ _ _ _ _ K1) in Q. exists (freed x l pull). split; [exact Q|]. split; reflexivity.
    - exists h1, pull, cfg. split; [exact E1|]. split; [reflexivity|]. split; [exact (linked_able _ _ _ _ _ K1)|]. split; [exact B1|]. exists l. split; [exact K1|]. split; reflexivity.
  Qed.
  Lemma asked_range (pw pull : bool) cfg : 0 <= cfg < 16 -> 0 <= asked pw pull cfg < 16.
  Proof. intros C. unfold asked. destruct pw; [apply (spu_on cfg C)|apply kept_range; exact C]. Qed.
  (** the chip after a command *)
  Lemma executed_linked h d c cmd l pull cfg result dt : idle h -> mAddress d = addr -> world h = executed x c cmd l pull cfg result dt -> 0 <= cfg < 16 -> 0 <= result < 256 /\ Z.testbit result 0 = false /\ Z.testbit result 3 = false -> linked addr h d l pull cfg.
  Proof. intros I A E C S. constructor; rewrite ?E; auto. cbn [executed busy]. apply Hprompt. Qed.
  Lemma write_byte_ok h d l pull cfg (pw : bool) v : linked addr h d l pull cfg ->
    exists h', wireWriteByte w n h d v pw = Done (h', d) /\ linked addr h' d (boosted x (fst (slots x (freed x l pull) (bits_of v))) (asked pw pull cfg)) (Z.testbit (asked pw pull cfg) 2) (asked pw pull cfg).
  Proof.
    intros K. destruct (prepared h d l pull cfg pw K) as (h1 & s & h2 & p2 & c2 & E1 & E2 & A2 & B2 & l2 & K2 & F2 & C2).
    destruct (write2 h2 d 0xA5 v (wire_write x (set_phase (world h2) (Operand 0xA5)) v) A2 B2 eq_refl eq_refl) as (h3 & E3 & I3 & W3).
    exists h3. unfold wireWriteByte. rewrite E1. cbn [bind]. rewrite E2. cbn [bind]. unfold COMMAND_WRITEBYTE. rewrite E3. cbn [bind]. split; [reflexivity|].
    unfold wire_write in W3. destruct (released x (set_phase (world h2) (Operand 165))) as [l3 cf3] eqn:R. pose proof (f_equal fst R) as R1. pose proof (f_equal snd R) as R2. rewrite released_freed in R1. rewrite released_kept in R2. cbn [set_phase line pulling config fst snd] in R1, R2.
    rewrite (l_line _ _ _ _ _ _ K2), (l_pull _ _ _ _ _ _ K2), F2 in R1. rewrite (l_config _ _ _ _ _ _ K2), (l_pull _ _ _ _ _ _ K2), C2 in R2. subst l3 cf3. unfold pulled in W3. unfold boosted.
    pose proof (asked_range pw pull cfg (l_range _ _ _ _ _ _ K)) as AR. pose proof (l_shown _ _ _ _ _ _ K2) as SH.
    destruct (Z.testbit (asked pw pull cfg) 2); cbn [fst] in W3; (eapply executed_linked; [exact I3|exact (l_addr _ _ _ _ _ _ K)|exact W3|exact AR|exact SH]).
  Qed.
  Lemma write_bit_ok h d l pull cfg (pw : bool) v : linked addr h d l pull cfg ->
    exists h', wireWriteBit w n h d v pw = Done (h', d) /\ linked addr h' d (boosted x (fst (slot x (freed x l pull) (negb (v =? 0)))) (asked pw pull cfg)) (Z.testbit (asked pw pull cfg) 2) (asked pw pull cfg) /\
      shown (world h') = Z.b2z (snd (slot x (freed x l pull) (negb (v =? 0)))) * 32.
  Proof.
    intros K. destruct (prepared h d l pull cfg pw K) as (h1 & s & h2 & p2 & c2 & E1 & E2 & A2 & B2 & l2 & K2 & F2 & C2).
    set (b := if v =? 0 then 0x00 else 0x80). assert (BV : Z.testbit b 7 = negb (v =? 0)) by (unfold b; destruct (v =? 0); reflexivity).
    destruct (write2 h2 d 0x87 b (wire_bit x (set_phase (world h2) (Operand 0x87)) b) A2 B2 eq_refl eq_refl) as (h3 & E3 & I3 & W3).
    exists h3. unfold wireWriteBit, wireWriteCmdAndData. rewrite E1. cbn [bind]. rewrite E2. cbn [bind]. unfold COMMAND_SINGLEBIT. fold b. rewrite E3. cbn [bind]. split; [reflexivity|].
    unfold wire_bit in W3. destruct (released x (set_phase (world h2) (Operand 135))) as [l3 cf3] eqn:R. pose proof (f_equal fst R) as R1. pose proof (f_equal snd R) as R2. rewrite released_freed in R1. rewrite released_kept in R2. cbn [set_phase line pulling config fst snd] in R1, R2.
    rewrite (l_line _ _ _ _ _ _ K2), (l_pull _ _ _ _ _ _ K2), F2 in R1. rewrite (l_config _ _ _ _ _ _ K2), (l_pull _ _ _ _ _ _ K2), C2 in R2. subst l3 cf3. unfold pulled in W3. unfold boosted. rewrite BV in W3.
    destruct (slot x (freed x l pull) (negb (v =? 0))) as [l4 sm]. cbn [fst snd].
    pose proof (asked_range pw pull cfg (l_range _ _ _ _ _ _ K)) as AR. pose proof (b2z_shown sm) as (S1 & S2 & S3 & _).
    destruct (Z.testbit (asked pw pull cfg) 2); cbn [fst] in W3; (split; [eapply executed_linked; [exact I3|exact (l_addr _ _ _ _ _ _ K)|exact W3|exact AR|auto]|rewrite W3; reflexivity]).
  Qed.
  Lemma kept_asked pull cfg : asked false pull cfg = kept pull cfg.
  Proof. reflexivity. Qed.
  Lemma read_bit_ok h d l pull cfg : linked addr h d l pull cfg ->
    exists h', wireReadBit w n h d = Done (h', d, Z.b2z (snd (slot x (freed x l pull) true))) /\ linked addr h' d (boosted x (fst (slot x (freed x l pull) true)) (kept pull cfg)) (Z.testbit (kept pull cfg) 2) (kept pull cfg).
  Proof.
    intros K. destruct (write_bit_ok h d l pull cfg false 1 K) as (h1 & E1 & K1 & S1). change (negb (1 =? 0)) with true in *. rewrite kept_asked in K1. destruct (wait_linked h1 d _ _ _ K1) as (h2 & s & E2 & K2 & _ & _ & _ & T). exists h2. unfold wireReadBit. rewrite E1. cbn [bind]. rewrite E2. cbn [bind].
    split; [|exact K2]. do 2 f_equal. pose proof (land_bit s 5 ltac:(discriminate)) as LB. change (2 ^ 5) with 32 in LB. rewrite (T 5 ltac:(discriminate)), S1 in LB. destruct (b2z_shown (snd (slot x (freed x l pull) true))) as (_ & _ & _ & B5). rewrite B5 in LB. unfold STATUS_SBR. destruct (Z.land s 32 =? 0), (snd (slot x (freed x l pull) true)); try discriminate; reflexivity.
  Qed.
  (** one byte *)
  Lemma write1 h d a c : able h d -> busy (world h) = 0%nat -> take x (set_phase (world h) Opcode) a = (c, Ack) -> exists h', writeByte w n h d a = Done h' /\ idle h' /\ world h' = c.
  Proof.
    intros (I & A & G & B) B0 T. destruct (send1 h a c Ack I T) as (h' & k & E & I' & Wd); [left; reflexivity|]. exists h'. unfold writeByte. rewrite A, E. cbn [bind fst]. split; [reflexivity|]. split; assumption.
  Qed.
  Lemma slots_length : forall v l, length (snd (slots x l v)) = length v.
  Proof. induction v as [|b v IH]; intros l; [reflexivity|]. cbn [slots]. destruct (slot x l b) as [l1 s1]. specialize (IH l1). destruct (slots x l1 v) as [l2 t]. cbn [snd length] in *. lia. Qed.
  Lemma read_byte_ok h d l pull cfg : linked addr h d l pull cfg ->
    exists h', wireReadByte w n h d = Done (h', d, byte_of (snd (slots x (freed x l pull) (repeat true 8)))) /\ linked addr h' d (fst (slots x (freed x l pull) (repeat true 8))) false (kept pull cfg).
  Proof.
    intros K. destruct (wait_linked h d l pull cfg K) as (h1 & s1 & E1 & K1 & B1 & _).
    destruct (write1 h1 d 0x96 (wire_read x (set_phase (world h1) Opcode)) (linked_able _ _ _ _ _ K1) B1) as (h2 & E2 & I2 & W2). { unfold take. cbn [set_phase phase_of busy]. rewrite B1. reflexivity. }
    unfold wireReadByte. rewrite E1. cbn [bind]. unfold COMMAND_READBYTE. rewrite E2. cbn [bind].
    unfold wire_read in W2. destruct (released x (set_phase (world h1) Opcode)) as [l3 cf3] eqn:R. pose proof (f_equal fst R) as R1. pose proof (f_equal snd R) as R2. rewrite released_freed in R1. rewrite released_kept in R2. cbn [set_phase line pulling config fst snd] in R1, R2.
    rewrite (l_line _ _ _ _ _ _ K1), (l_pull _ _ _ _ _ _ K1) in R1. rewrite (l_config _ _ _ _ _ _ K1), (l_pull _ _ _ _ _ _ K1) in R2. subst l3 cf3.
    pose proof (slots_length (repeat true 8) (freed x l pull)) as SL. rewrite repeat_length in SL. destruct (slots x (freed x l pull) (repeat true 8)) as [l4 v]. cbn [fst snd] in *.
    assert (K2 : linked addr h2 d l4 false (kept pull cfg)) by (eapply executed_linked; [exact I2|exact (l_addr _ _ _ _ _ _ K)|exact W2|apply kept_range; exact (l_range _ _ _ _ _ _ K)|exact (l_shown _ _ _ _ _ _ K1)]).
    destruct (wait_linked h2 d _ _ _ K2) as (h3 & s3 & E3 & K3 & B3 & _ & D3 & _). rewrite E3. cbn [bind].
    assert (DV : data (world h3) = byte_of v) by (rewrite D3, W2; reflexivity). pose proof (byte_of_range v) as BR. rewrite SL in BR. change (2 ^ Z.of_nat 8) with 256 in BR.
    destruct (data_ok h3 d (linked_able _ _ _ _ _ K3) B3 ltac:(rewrite DV; exact BR)) as (h4 & E4 & A4 & W4). rewrite E4. cbn [bind fst snd]. exists h4. rewrite DV. split; [reflexivity|].
    pose proof (able_linked h4 d A4) as Q. rewrite W4 in Q. cbn [at_pointer line pulling config] in Q. rewrite (l_line _ _ _ _ _ _ K3), (l_pull _ _ _ _ _ _ K3), (l_config _ _ _ _ _ _ K3) in Q. exact Q.
  Qed.
  Lemma reset_ok h d l pull cfg : linked addr h d l pull cfg ->
    let '(l', (here, short)) := reset x (freed x l pull) in
    exists h' d', wireReset w n h d = Done (h', d', here) /\ d' = (if short then setError d ERROR_SHORT else d) /\ linked addr h' d' l' false (Z.land cfg 11).
  Proof.
    intros K. destruct (wait_linked h d l pull cfg K) as (h1 & s1 & E1 & K1 & _). destruct (strong_off h1 d _ _ _ K1) as (h2 & E2 & K2). destruct (wait_linked h2 d _ _ _ K2) as (h3 & s3 & E3 & K3 & B3 & _).
    destruct (write1 h3 d 0xB4 (wire_reset x (set_phase (world h3) Opcode)) (linked_able _ _ _ _ _ K3) B3) as (h4 & E4 & I4 & W4). { unfold take. cbn [set_phase phase_of busy]. rewrite B3. reflexivity. }
    destruct (reset x (freed x l pull)) as [l' [here short]] eqn:ER.
    unfold wire_reset in W4. destruct (released x (set_phase (world h3) Opcode)) as [l5 cf5] eqn:R. pose proof (f_equal fst R) as R1. pose proof (f_equal snd R) as R2. rewrite released_freed in R1. rewrite released_kept in R2. cbn [set_phase line pulling config fst snd] in R1, R2.
    rewrite (l_line _ _ _ _ _ _ K3), (l_pull _ _ _ _ _ _ K3) in R1. rewrite (l_config _ _ _ _ _ _ K3), (l_pull _ _ _ _ _ _ K3) in R2. cbn [freed kept] in R1, R2. subst l5 cf5. rewrite ER in W4.
    pose proof (reset_shown here short) as RS. cbv zeta in RS. destruct RS as (RS0 & RS1 & RS2 & RS3 & RS4).
    assert (K4 : linked addr h4 d l' false (Z.land cfg 11)) by (eapply executed_linked; [exact I4|exact (l_addr _ _ _ _ _ _ K)|exact W4|apply (spu_off cfg (l_range _ _ _ _ _ _ K))|auto]).
    destruct (wait_linked h4 d _ _ _ K4) as (h5 & s5 & E5 & K5 & _ & _ & _ & T). assert (SW : shown (world h4) = Z.lor (Z.b2z here * 2) (Z.b2z short * 4)) by (rewrite W4; reflexivity). rewrite SW in T.
    exists h5. eexists. split; [|split; [reflexivity|]].
    - unfold wireReset. rewrite E1. cbn [bind]. rewrite E2. cbn [bind]. rewrite E3. cbn [bind]. unfold COMMAND_RESETWIRE. rewrite E4. cbn [bind]. rewrite E5. cbn [bind]. unfold STATUS_SD, STATUS_PPD.
      pose proof (land_bit s5 1 ltac:(discriminate)) as L1. pose proof (land_bit s5 2 ltac:(discriminate)) as L2. change (2 ^ 1) with 2 in L1. change (2 ^ 2) with 4 in L2. rewrite (T 1 ltac:(discriminate)), RS3 in L1. rewrite (T 2 ltac:(discriminate)), RS4 in L2. rewrite L1. destruct (Z.land s5 4 =? 0), short; try discriminate; reflexivity.
    - destruct short; [|exact K5]. destruct K5 as [Q1 Q2 Q3 Q4 Q5 Q6 Q7 Q8]. constructor; auto.
  Qed.
  Lemma triplet_ok h d l pull cfg (v : bool) : linked addr h d l pull cfg ->
    let '(l', (id, comp, dir)) := triplet x (freed x l pull) v in
    exists h', wireWriteCmdAndData w n h d COMMAND_TRIPLET (if v then 0x80 else 0x00) false = Done (h', d) /\ linked addr h' d l' false (kept pull cfg) /\ shown (world h') = Z.b2z id * 32 + Z.b2z comp * 64 + Z.b2z dir * 128.
  Proof.
    intros K. destruct (wait_linked h d l pull cfg K) as (h1 & s1 & E1 & K1 & B1 & _). set (b := if v then 0x80 else 0x00). assert (BV : Z.testbit b 7 = v) by (unfold b; destruct v; reflexivity).
    destruct (write2 h1 d 0x78 b (wire_triplet x (set_phase (world h1) (Operand 0x78)) b) (linked_able _ _ _ _ _ K1) B1 eq_refl eq_refl) as (h2 & E2 & I2 & W2).
    destruct (triplet x (freed x l pull) v) as [l' [[id comp] dir]] eqn:ET.
    unfold wire_triplet in W2. destruct (released x (set_phase (world h1) (Operand 120))) as [l5 cf5] eqn:R. pose proof (f_equal fst R) as R1. pose proof (f_equal snd R) as R2. rewrite released_freed in R1. rewrite released_kept in R2. cbn [set_phase line pulling config fst snd] in R1, R2.
    rewrite (l_line _ _ _ _ _ _ K1), (l_pull _ _ _ _ _ _ K1) in R1. rewrite (l_config _ _ _ _ _ _ K1), (l_pull _ _ _ _ _ _ K1) in R2. subst l5 cf5. rewrite BV, ET in W2.
    pose proof (triplet_shown id comp dir) as TS. cbv zeta in TS. destruct TS as (T0 & T1 & T2 & _).
    exists h2. unfold wireWriteCmdAndData. rewrite E1. cbn [bind]. unfold COMMAND_TRIPLET. fold b. rewrite E2. cbn [bind]. split; [reflexivity|]. split.
    - eapply executed_linked; [exact I2|exact (l_addr _ _ _ _ _ _ K)|exact W2|apply kept_range; exact (l_range _ _ _ _ _ _ K)|auto].
    - rewrite W2. reflexivity.
  Qed.
  (** several bytes, no strong pull-up *)
  Lemma slots_app : forall u l v, fst (slots x l (u ++ v)) = fst (slots x (fst (slots x l u)) v).
  Proof. induction u as [|b u IH]; intros l v; [reflexivity|]. cbn [app slots]. destruct (slot x l b) as [l1 s1]. specialize (IH l1 v). destruct (slots x l1 u) as [l2 t2], (slots x l1 (u ++ v)) as [l3 t3]. exact IH. Qed.
  Lemma write_all_ok : forall bytes h d l cfg, linked addr h d l false cfg -> Z.testbit cfg 2 = false ->
    exists h', wireWriteAll w n h d bytes = Done (h', d) /\ linked addr h' d (fst (slots x l (flat_map bits_of bytes))) false cfg.
  Proof.
    induction bytes as [|b bytes IH]; intros h d l cfg K T; [exists h; split; [reflexivity|exact K]|]. cbn [wireWriteAll]. destruct (write_byte_ok h d l false cfg false b K) as (h1 & E1 & K1). rewrite E1. cbn [bind]. cbn [asked kept freed] in K1. unfold boosted in K1. rewrite T in K1.
    destruct (IH h1 d _ cfg K1 T) as (h2 & E2 & K2). exists h2. split; [exact E2|]. cbn [flat_map]. rewrite slots_app. exact K2.
  Qed.
  (** the bridge does not become ready in time *)
  Lemma poll_busy : forall i h d s, idle h -> mAddress d = addr -> (i <= busy (world h))%nat ->
    exists h' s', pollStatus w n i h d s = Done (h', s') /\ idle h' /\ world h' = (match i with O => world h | _ => mkChip (line (world h)) (pulling (world h)) (config (world h)) 0xF0 (shown (world h)) (data (world h)) (busy (world h) - i) Opcode end) /\ (i = 0%nat \/ (Z.land s' 1 =? 0) = false).
  Proof.
    induction i as [|i IH]; intros h d s I A B; [exists h, s; auto|]. cbn [pollStatus]. destruct (busy (world h)) as [|k] eqn:EB; [lia|]. destruct (busy_byte (noise x (line (world h)))) as [N1 N2].
    destruct (ask h d 0xF0 (mkChip (line (world h)) (pulling (world h)) (config (world h)) 0xF0 (shown (world h)) (data (world h)) k Opcode) (Z.lor (Z.land (noise x (line (world h))) 254) 1) I A eq_refl) as (h' & E & I' & Wd).
    { unfold give, at_pointer. cbn [pointer busy line shown pulling config data phase_of]. rewrite EB. reflexivity. }
    unfold readStatus, POINTER_STATUS. rewrite E. cbn [bind snd fst]. rewrite N1. unfold STATUS_BUSY at 1. rewrite N2.
    destruct (IH h' d (Z.lor (Z.land (noise x (line (world h))) 254) 1) I' A) as (h2 & s2 & E2 & I2 & W2 & S2); [rewrite Wd; cbn [busy]; lia|].
    exists h2, s2. split; [exact E2|]. split; [exact I2|]. split.
    - rewrite W2, Wd. destruct i; cbn [line pulling config shown data busy]; [replace (Datatypes.S k - 1)%nat with k by lia; reflexivity|reflexivity].
    - right. destruct S2 as [-> |S2]; [|exact S2]. cbn [pollStatus] in E2. injection E2 as _ <-. exact N2.
  Qed.
End Proofs.
